(** C79: what the assembler of the F8 accepts is an instruction. *)
From Coq Require Import String ZArith List Bool Lia.
From Verif Require Import M_Char M_Error M_Value M_Text M_StrBuffer M_Format M_Number M_Insn M_Config M_Operators
  M_Parsers M_Expr M_Directive M_Table M_Asm M_Dis M_F3850Defs T_F3850 M_F3850
  S_Value S_Insn S_Number S_Expr S_ExprTree S_Table S_Cpu P_Room P_CpuFine P_F3850 P_F3850Emit Prop_F3850.
Import ListNotations.
Open Scope string_scope.
Open Scope list_scope.
Local Open Scope Z_scope.

(* Whatever the line (any text), the symbols and functions, the default radix and the address: when
   the line is an instruction and there is no error, its 1 to 3 bytes, whatever follows them in
   memory, are accepted by the disassembler at the same address, with every option, and it takes
   exactly these bytes.  The letter that stands for the location is a printable one. *)
Theorem C79_f3850_emits : forall symbol function radix line addr i rest uh uc oc rel cs ih cur m size,
  let d := f3850_dis uh uc oc rel cs ih cur None in
  0 <= addr < 2^32 -> 32 <= cur <= 126 ->
  f3850_encode (f3850_asm symbol function radix) line addr = Val (L_insn i rest) -> i_err i = OK -> bytes_only m -> 128 <= size ->
  i_addr i = addr /\ bytes_only (i_code i) /\ (1 <= length (i_code i) <= 3)%nat /\
  exists r, f3850_decode d (i_code i ++ m) addr size = Val r /\ i_err (r_insn r) = OK /\ i_code (r_insn r) = i_code i.
Proof.
  intros symbol function radix line addr i rest uh uc oc rel cs ih cur m size d A CU H E BM SZ.
  destruct (f3850_decodes d (f3850_asm symbol function radix) line addr i rest m size eq_refl eq_refl CU brief_fairchild eq_refl A H E BM ltac:(lia)) as (A1 & B & L & r & D & R).
  split; [exact A1|]. split; [exact B|]. split; [exact L|]. exists r. rewrite R. auto.
Qed.
Print Assumptions C79_f3850_emits.
(* And the line that the disassembler shows for it is assembled to the same bytes. *)
Theorem C79_f3850_normal : forall symbol function radix line addr i rest uh uc oc rel cs ih cur m size symbol' function' indent gap b rest',
  let d := f3850_dis uh uc oc rel cs ih cur None in
  0 <= addr < 2^32 -> In cur (s2l "*$.") ->
  f3850_encode (f3850_asm symbol function radix) line addr = Val (L_insn i rest) -> i_err i = OK -> bytes_only m -> 128 <= size ->
  blanks indent -> blanks gap -> gap <> [] -> blanks b -> line_end rest' ->
  exists r i', f3850_decode d (i_code i ++ m) addr size = Val r /\
    f3850_encode (f3850_asm symbol' function' 10) (indent ++ r_name r ++ gap ++ r_operands r ++ b ++ rest') addr = Val (L_insn i' rest') /\
    i_err i' = OK /\ i_code i' = i_code i.
Proof.
  intros symbol function radix line addr i rest uh uc oc rel cs ih cur m size symbol' function' indent gap b rest' d A CU H E BM SZ BI BG NG BB LE.
  assert (CR : 32 <= cur <= 126) by (cbn in CU; lia).
  destruct (C79_f3850_emits symbol function radix line addr i rest uh uc oc rel cs ih cur m size A CR H E BM SZ) as (A1 & B & L & r & D & R & C).
  assert (NE : i_code i ++ m <> []) by (destruct (i_code i); [cbn in L; lia|discriminate]).
  destruct (C54_round_trip uh uc oc rel cs ih cur (i_code i ++ m) addr size r symbol' function' indent gap b rest') as (i' & X & Y & Z1 & _); auto.
  - apply Forall_app. split; assumption.
  - exists r, i'. split; [exact D|]. split; [exact X|]. split; [exact Y|]. now rewrite Z1.
Qed.
Print Assumptions C79_f3850_normal.
(* a branch, its target an expression with a symbol; the disassembler has another name for it *)
Example C79_f3850_case : exists i r, f3850_encode (f3850_asm (fun s => if Nat.eqb (length s) 4 then Some (setUnsigned 0x1012) else None) (fun _ => None) 10) (s2l "  bt 2-1, loop+3 ; x") 0x1000 = Val (L_insn i (s2l "; x")) /\
  i_err i = OK /\ i_code i = [0x81; 0x14] /\ f3850_decode (f3850_dis true true false true false false 36 None) [0x81; 0x14; 7] 0x1000 128 = Val r /\ i_err (r_insn r) = OK /\ r_name r = s2l "BP" /\ r_operands r = s2l "$+21".
Proof. do 2 eexists. split; [vm_compute; reflexivity|]. split; [reflexivity|]. split; [reflexivity|]. split; [vm_compute; reflexivity|]. repeat split; reflexivity. Qed.
