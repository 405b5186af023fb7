(** C79: what the assembler of the 8048 family accepts is an instruction. *)
From Coq Require Import String ZArith List Bool Lia.
From Verif Require Import M_Char M_Error M_Value M_Text M_StrBuffer M_Format M_Number M_Insn M_Config M_Operators
  M_Parsers M_Expr M_Directive M_Table M_Asm M_Dis M_I8048Defs T_I8048 M_I8048
  S_Value S_Insn S_Number S_Expr S_ExprTree S_Table S_Cpu S_I8048 P_CpuFine P_I8048 P_I8048Emit Prop_I8048.
Import ListNotations.
Open Scope string_scope.
Open Scope list_scope.
Local Open Scope Z_scope.

(* Whatever the line (any text), the symbols and functions, the default radix and the address: when
   the line is an instruction and there is no error, its 1 or 2 bytes, whatever follows them in
   memory, are accepted by the disassembler for the same processor at the same address, with every
   option, and it takes exactly these bytes. *)
Theorem C79_i8048_emits : forall ty symbol function radix line addr i rest uh uc oc rel cs ih cur m size,
  let d := i8048_dis uh uc oc rel cs ih cur None in
  In ty i8048_types ->
  i8048_encode ty (i8048_asm symbol function radix) line addr = Val (L_insn i rest) -> i_err i = OK -> bytes_only m -> 128 <= size ->
  i_addr i = addr /\ bytes_only (i_code i) /\ (1 <= length (i_code i) <= 2)%nat /\
  exists r, i8048_decode d ty (i_code i ++ m) addr size = Val r /\ i_err (r_insn r) = OK /\ i_code (r_insn r) = i_code i.
Proof.
  intros ty symbol function radix line addr i rest uh uc oc rel cs ih cur m size d TY H E BM SZ.
  destruct (i8048_decodes d ty (i8048_asm symbol function radix) line addr i rest m size (i8048_reads uh uc oc rel cs ih cur) brief_intel TY eq_refl H E BM ltac:(lia)) as (A & B & L & r & D & R).
  split; [exact A|]. split; [exact B|]. split; [exact L|]. exists r. rewrite R. auto.
Qed.
Print Assumptions C79_i8048_emits.
(* And the line that the disassembler shows for it is assembled to the same bytes. *)
Theorem C79_i8048_normal : forall ty symbol function radix line addr i rest uh uc oc rel cs ih cur m size symbol' function' indent gap b rest',
  let d := i8048_dis uh uc oc rel cs ih cur None in
  In ty i8048_types ->
  i8048_encode ty (i8048_asm symbol function radix) line addr = Val (L_insn i rest) -> i_err i = OK -> bytes_only m -> 128 <= size ->
  0 <= addr -> addr + Z.of_nat (length (i_code i)) <= 4096 -> blanks indent -> blanks gap -> gap <> [] -> blanks b -> line_end rest' ->
  exists r i', i8048_decode d ty (i_code i ++ m) addr size = Val r /\
    i8048_encode ty (i8048_asm symbol' function' 10) (indent ++ r_name r ++ gap ++ r_operands r ++ b ++ rest') addr = Val (L_insn i' rest') /\
    i_err i' = OK /\ i_code i' = i_code i.
Proof.
  intros ty symbol function radix line addr i rest uh uc oc rel cs ih cur m size symbol' function' indent gap b rest' d TY H E BM SZ A0 A1 BI BG NG BB LE.
  destruct (C79_i8048_emits ty symbol function radix line addr i rest uh uc oc rel cs ih cur m size TY H E BM SZ) as (A & B & L & r & D & R & C).
  assert (NE : i_code i ++ m <> []) by (destruct (i_code i); [cbn in L; lia|discriminate]).
  destruct (C75_round_trip_partial ty uh uc oc rel cs ih cur (i_code i ++ m) addr size r symbol' function' indent gap b rest' TY) as (i' & X & Y & Z1 & _); auto.
  - apply Forall_app. split; assumption.
  - rewrite C. exact A1.
  - exists r, i'. split; [exact D|]. split; [exact X|]. split; [exact Y|]. now rewrite Z1.
Qed.
Print Assumptions C79_i8048_normal.
(* a line with expressions and a symbol *)
Example C79_i8048_case : exists i r, i8048_encode I8048 (i8048_asm (fun s => if Nat.eqb (length s) 4 then Some (setUnsigned 0x312) else None) (fun _ => None) 10) (s2l "  jb 2+1, loop+3 ; x") 0x300 = Val (L_insn i (s2l "; x")) /\
  i_err i = OK /\ i_code i = [0x72; 0x15] /\ i8048_decode (i8048_dis true true false false false false 36 None) I8048 [0x72; 0x15; 7] 0x300 128 = Val r /\ i_err (r_insn r) = OK /\ r_operands r = s2l "3, 315H".
Proof. do 2 eexists. split; [vm_compute; reflexivity|]. split; [reflexivity|]. split; [reflexivity|]. split; [vm_compute; reflexivity|]. split; reflexivity. Qed.
