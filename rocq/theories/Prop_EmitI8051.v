(** C79: what the assembler of the 8051 accepts is an instruction. *)
From Coq Require Import String ZArith List Bool Lia.
From Verif Require Import M_Char M_Error M_Value M_Text M_StrBuffer M_Format M_Number M_Insn M_Config M_Operators
  M_Parsers M_Expr M_Directive M_Table M_Asm M_Dis M_I8051Defs T_I8051 M_I8051
  S_Value S_Insn S_Number S_Expr S_ExprTree S_Table S_Cpu P_Room P_CpuFine P_I8051 P_I8051Emit Prop_I8051.
Import ListNotations.
Open Scope string_scope.
Open Scope list_scope.
Local Open Scope Z_scope.

(* Whatever the line (any text), the symbols and functions, the default radix, the option for smart
   branches and the address: when the line is an instruction, there is no error and the instruction
   ends within the 64K of memory, its 1 to 3 bytes, whatever follows them in memory, are accepted by
   the disassembler at the same address, with every option, and it takes exactly these bytes.  The
   letter that stands for the location is a printable one. *)
Theorem C79_i8051_emits : forall smart symbol function radix line addr i rest uh uc oc rel cs ih cur m size,
  let d := i8051_dis uh uc oc rel cs ih cur None in
  0 <= addr < 2^32 -> 32 <= cur <= 126 ->
  i8051_encode smart (i8051_asm symbol function radix) line addr = Val (L_insn i rest) -> i_err i = OK ->
  addr + Z.of_nat (length (i_code i)) <= 0x10000 -> bytes_only m -> 128 <= size ->
  i_addr i = addr /\ bytes_only (i_code i) /\ (1 <= length (i_code i) <= 3)%nat /\
  exists r, i8051_decode d (i_code i ++ m) addr size = Val r /\ i_err (r_insn r) = OK /\ i_code (r_insn r) = i_code i.
Proof.
  intros smart symbol function radix line addr i rest uh uc oc rel cs ih cur m size d A CU H E FIT BM SZ.
  destruct (i8051_decodes d smart (i8051_asm symbol function radix) line addr i rest m size eq_refl eq_refl CU brief_intel eq_refl A H E FIT BM SZ) as (A1 & B & L & r & D & R).
  split; [exact A1|]. split; [exact B|]. split; [exact L|]. exists r. rewrite R. auto.
Qed.
Print Assumptions C79_i8051_emits.
(* And the line that the disassembler shows for it is assembled, without smart branches, to the same
   bytes. *)
Theorem C79_i8051_normal : forall smart symbol function radix line addr i rest uh uc oc rel cs ih cur m size symbol' function' indent gap b rest',
  let d := i8051_dis uh uc oc rel cs ih cur None in
  0 <= addr < 2^32 -> 32 <= cur <= 126 -> (rel = true -> cur = 36) ->
  i8051_encode smart (i8051_asm symbol function radix) line addr = Val (L_insn i rest) -> i_err i = OK ->
  addr + Z.of_nat (length (i_code i)) <= 0x10000 -> bytes_only m -> 128 <= size ->
  blanks indent -> blanks gap -> gap <> [] -> blanks b -> line_end rest' ->
  exists r i', i8051_decode d (i_code i ++ m) addr size = Val r /\
    i8051_encode false (i8051_asm symbol' function' 10) (indent ++ r_name r ++ gap ++ r_operands r ++ b ++ rest') addr = Val (L_insn i' rest') /\
    i_err i' = OK /\ i_code i' = i_code i.
Proof.
  intros smart symbol function radix line addr i rest uh uc oc rel cs ih cur m size symbol' function' indent gap b rest' d A CR CU H E FIT BM SZ BI BG NG BB LE.
  destruct (C79_i8051_emits smart symbol function radix line addr i rest uh uc oc rel cs ih cur m size A CR H E FIT BM SZ) as (A1 & B & L & r & D & R & C).
  assert (NE : i_code i ++ m <> []) by (destruct (i_code i); [cbn in L; lia|discriminate]).
  destruct (C71_round_trip uh uc oc rel cs ih cur (i_code i ++ m) addr size r symbol' function' indent gap b rest') as (i' & X & Y & Z1 & _); auto.
  - apply Forall_app. split; assumption.
  - exists r, i'. split; [exact D|]. split; [exact X|]. split; [exact Y|]. now rewrite Z1.
Qed.
Print Assumptions C79_i8051_normal.
(* a branch to an expression with a symbol *)
Example C79_i8051_case : exists i r, i8051_encode true (i8051_asm (fun s => if Nat.eqb (length s) 4 then Some (setUnsigned 0x1012) else None) (fun _ => None) 10) (s2l "  cjne @r1, #1-3, loop+3 ; x") 0x1000 = Val (L_insn i (s2l "; x")) /\
  i_err i = OK /\ i_code i = [0xB7; 0xFE; 0x12] /\ i8051_decode (i8051_dis true true false true false false 36 None) [0xB7; 0xFE; 0x12; 7] 0x1000 128 = Val r /\ i_err (r_insn r) = OK /\ r_name r = s2l "CJNE" /\ r_operands r = s2l "@R1, #0FEH, $+21".
Proof. do 2 eexists. split; [vm_compute; reflexivity|]. split; [reflexivity|]. split; [reflexivity|]. split; [vm_compute; reflexivity|]. repeat split; reflexivity. Qed.
(* Without the room it fails: a branch in the last byte of memory to the address 0 is assembled as
   one back by one byte, to the address 10000H, which the disassembler refuses. *)
Theorem C79_i8051_end_refuted : exists i r, i8051_encode false (i8051_asm (fun _ => None) (fun _ => None) 10) (s2l " SJMP 0") 0xFFFF = Val (L_insn i []) /\
  i_err i = OK /\ i_code i = [0x80; 0xFF] /\ i8051_decode (i8051_dis true true false true false false 36 None) [0x80; 0xFF] 0xFFFF 128 = Val r /\ i_err (r_insn r) = OVERFLOW_RANGE.
Proof. do 2 eexists. split; [vm_compute; reflexivity|]. split; [reflexivity|]. split; [reflexivity|]. split; [vm_compute; reflexivity|]. reflexivity. Qed.
Print Assumptions C79_i8051_end_refuted.
