(** C79: what the assembler of the TMS32010 family accepts is an instruction. *)
From Coq Require Import String ZArith List Bool Lia.
From Verif Require Import M_Char M_Error M_Value M_Text M_StrBuffer M_Format M_Number M_Insn M_Config M_Operators
  M_Parsers M_Expr M_Directive M_Table M_Asm M_Dis M_Tms32010Defs T_Tms32010 M_Tms32010
  S_Value S_Insn S_Number S_Expr S_ExprTree S_Table S_Cpu S_Tms32010 P_Room P_CpuFine P_Tms32010 P_Tms32010Emit Prop_Tms32010.
Import ListNotations.
Open Scope string_scope.
Open Scope list_scope.
Local Open Scope Z_scope.

(* Whatever the processor of the family, the line (any text), the symbols and functions, the default
   radix and the address: when the line is an instruction and there is no error, its one or two words,
   whatever follows them in memory, are accepted by the disassembler of the same processor at the
   same address, with every option, and it takes exactly these words. *)
Theorem C79_tms32010_emits : forall ct symbol function radix line addr i rest uh uc oc rel cs ih cur m size,
  let d := tms32010_dis uh uc oc rel cs ih cur None in
  In ct tms_types -> 0 <= addr < 2^32 ->
  tms32010_encode (tms32010_asm symbol function radix) ct line addr = Val (L_insn i rest) -> i_err i = OK ->
  bytes_only m -> 128 <= size ->
  i_addr i = addr /\ bytes_only (i_code i) /\ (length (i_code i) = 2 \/ length (i_code i) = 4)%nat /\
  exists r, tms32010_decode d ct (i_code i ++ m) addr size = Val r /\ i_err (r_insn r) = OK /\ i_code (r_insn r) = i_code i.
Proof.
  intros ct symbol function radix line addr i rest uh uc oc rel cs ih cur m size d T A H E BM SZ.
  destruct (tms32010_decodes d ct (tms32010_asm symbol function radix) line addr i rest m size T eq_refl eq_refl brief_tms32010 eq_refl A H E BM SZ) as (A1 & B & L & r & D & R).
  split; [exact A1|]. split; [exact B|]. split; [exact L|]. exists r. rewrite R. auto.
Qed.
Print Assumptions C79_tms32010_emits.
(* And the line that the disassembler shows for it is assembled to the same words.
   Missing: what the round trip does not have, octal numbers in the family's own notation. *)
Theorem C79_tms32010_normal_partial : forall ct symbol function radix line addr i rest uh uc oc rel cs ih m size symbol' function' indent gap b rest',
  let d := tms32010_dis uh uc oc rel cs ih 36 None in
  In ct tms_types -> 0 <= addr < 4096 -> (oc = true -> cs = true \/ ih = true) ->
  tms32010_encode (tms32010_asm symbol function radix) ct line addr = Val (L_insn i rest) -> i_err i = OK ->
  bytes_only m -> 128 <= size -> blanks indent -> blanks gap -> gap <> [] -> blanks b -> line_end rest' ->
  exists r i', tms32010_decode d ct (i_code i ++ m) addr size = Val r /\
    tms32010_encode (tms32010_asm symbol' function' 10) ct (indent ++ r_name r ++ gap ++ r_operands r ++ b ++ rest') addr = Val (L_insn i' rest') /\
    i_err i' = OK /\ i_code i' = i_code i.
Proof.
  intros ct symbol function radix line addr i rest uh uc oc rel cs ih m size symbol' function' indent gap b rest' d T A OC H E BM SZ BI BG NG BB LE.
  destruct (C79_tms32010_emits ct symbol function radix line addr i rest uh uc oc rel cs ih 36 m size T ltac:(lia) H E BM SZ) as (A1 & B & L & r & D & R & C).
  destruct (C67_round_trip_partial ct uh uc oc rel cs ih (i_code i ++ m) addr size r symbol' function' indent gap b rest') as (i' & X & Y & Z1 & _); auto.
  - apply Forall_app. split; assumption.
  - rewrite app_length. lia.
  - exists r, i'. split; [exact D|]. split; [exact X|]. split; [exact Y|]. now rewrite Z1.
Qed.
Print Assumptions C79_tms32010_normal_partial.
(* the register number that is to follow changes the address of a direct operand: an instruction all
   the same; and a branch with an expression *)
Example C79_tms32010_case : exists i r j q,
  tms32010_encode (tms32010_asm (fun _ => None) (fun _ => None) 10) TMS32010 (s2l "  sach 9, 2*2, ar1 ; x") 0x10 = Val (L_insn i (s2l "; x")) /\
  i_err i = OK /\ i_code i = [1; 0x5C] /\
  tms32010_decode (tms32010_dis true true false false false false 36 None) TMS32010 [1; 0x5C; 7] 0x10 128 = Val r /\ i_err (r_insn r) = OK /\ r_name r = s2l "SACH" /\ r_operands r = s2l "01H, 4" /\
  tms32010_encode (tms32010_asm (fun s => if Nat.eqb (length s) 4 then Some (setUnsigned 0x123) else None) (fun _ => None) 10) TMS32015 (s2l " BANZ loop+3") 0x10 = Val (L_insn j []) /\
  i_err j = OK /\ i_code j = [0; 0xF4; 0x26; 1] /\
  tms32010_decode (tms32010_dis true true false false false false 36 None) TMS32015 [0; 0xF4; 0x26; 1] 0x10 128 = Val q /\ i_err (r_insn q) = OK /\ r_name q = s2l "BANZ" /\ r_operands q = s2l "126H".
Proof. do 4 eexists. repeat (split; [vm_compute; reflexivity|]). vm_compute; reflexivity. Qed.
