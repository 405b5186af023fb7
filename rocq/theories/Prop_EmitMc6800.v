(** C79: what the assembler of the 6800 family accepts is an instruction. *)
From Coq Require Import String ZArith List Bool Lia.
From Verif Require Import M_Char M_Error M_Value M_Text M_StrBuffer M_Format M_Number M_Insn M_Config M_Operators
  M_Parsers M_Expr M_Directive M_Table M_Asm M_Dis M_Mc6800Defs T_Mc6800 M_Mc6800
  S_Value S_Insn S_Number S_Expr S_ExprTree S_Table S_Cpu P_Room P_CpuFine P_Mc6800 P_Mc6800Emit Prop_Mc6800.
Import ListNotations.
Open Scope string_scope.
Open Scope list_scope.
Local Open Scope Z_scope.

(* Whatever the processor of the family, the line (any text), the symbols and functions, the default
   radix and the address: when the line is an instruction, there is no error and the instruction ends
   within the 64K of memory, its 1 to 5 bytes, whatever follows them in memory, are accepted by the
   disassembler of the same processor at the same address, with every option, and it takes exactly
   these bytes.  The letter that stands for the location is a printable one. *)
Theorem C79_mc6800_emits : forall ty symbol function radix line addr i rest uh uc oc rel cs ih cur m size,
  let d := mc6800_dis uh uc oc rel cs ih cur None in
  In ty [MC6800; MB8861; MC6801; HD6301; MC68HC11] -> 0 <= addr < 2^32 -> 32 <= cur <= 126 ->
  mc6800_encode ty (mc6800_asm symbol function radix) line addr = Val (L_insn i rest) -> i_err i = OK ->
  addr + Z.of_nat (length (i_code i)) <= 0x10000 -> bytes_only m -> 128 <= size ->
  i_addr i = addr /\ bytes_only (i_code i) /\ (1 <= length (i_code i) <= 5)%nat /\
  exists r, mc6800_decode d ty (i_code i ++ m) addr size = Val r /\ i_err (r_insn r) = OK /\ i_code (r_insn r) = i_code i.
Proof.
  intros ty symbol function radix line addr i rest uh uc oc rel cs ih cur m size d T A CU H E FIT BM SZ.
  destruct (mc6800_decodes d ty (mc6800_asm symbol function radix) line addr i rest m size T eq_refl eq_refl CU brief_motorola eq_refl A H E FIT BM SZ) as (A1 & B & L & r & D & R).
  split; [exact A1|]. split; [exact B|]. split; [exact L|]. exists r. rewrite R. auto.
Qed.
Print Assumptions C79_mc6800_emits.
(* And the line that the disassembler shows for it is assembled to the same bytes. *)
Theorem C79_mc6800_normal : forall ty symbol function radix line addr i rest uh uc oc rel cs ih cur m size symbol' function' indent gap b rest',
  let d := mc6800_dis uh uc oc rel cs ih cur None in
  In ty [MC6800; MB8861; MC6801; HD6301; MC68HC11] -> 0 <= addr < 2^32 -> 32 <= cur <= 126 -> (rel = true -> cur = 42) ->
  mc6800_encode ty (mc6800_asm symbol function radix) line addr = Val (L_insn i rest) -> i_err i = OK ->
  addr + Z.of_nat (length (i_code i)) <= 0x10000 -> bytes_only m -> 128 <= size ->
  blanks indent -> blanks gap -> gap <> [] -> blanks b -> line_end rest' ->
  exists r i', mc6800_decode d ty (i_code i ++ m) addr size = Val r /\
    mc6800_encode ty (mc6800_asm symbol' function' 10) (indent ++ r_name r ++ gap ++ r_operands r ++ b ++ rest') addr = Val (L_insn i' rest') /\
    i_err i' = OK /\ i_code i' = i_code i.
Proof.
  intros ty symbol function radix line addr i rest uh uc oc rel cs ih cur m size symbol' function' indent gap b rest' d T A CR CU H E FIT BM SZ BI BG NG BB LE.
  destruct (C79_mc6800_emits ty symbol function radix line addr i rest uh uc oc rel cs ih cur m size T A CR H E FIT BM SZ) as (A1 & B & L & r & D & R & C).
  destruct (C50_round_trip uh uc oc rel cs ih cur ty (i_code i ++ m) addr size r symbol' function' indent gap b rest') as (i' & X & Y & Z1 & _); auto.
  - apply Forall_app. split; assumption.
  - exists r, i'. split; [exact D|]. split; [exact X|]. split; [exact Y|]. now rewrite Z1.
Qed.
Print Assumptions C79_mc6800_normal.
(* a bit branch of the 68HC11 with a prefix, to an expression with a symbol *)
Example C79_mc6800_case : exists i r, mc6800_encode MC68HC11 (mc6800_asm (fun s => if Nat.eqb (length s) 4 then Some (setUnsigned 0x1012) else None) (fun _ => None) 10) (s2l "  brset 1+2, y, #16/4, loop-2 ; x") 0x1000 = Val (L_insn i (s2l "; x")) /\
  i_err i = OK /\ i_code i = [0x18; 0x1E; 0x03; 0x04; 0x0B] /\ mc6800_decode (mc6800_dis true true false true false false 42 None) MC68HC11 [0x18; 0x1E; 0x03; 0x04; 0x0B; 7] 0x1000 128 = Val r /\
  i_err (r_insn r) = OK /\ r_name r = s2l "BRSET" /\ r_operands r = s2l "3,Y, #4, *+16".
Proof. do 2 eexists. split; [vm_compute; reflexivity|]. split; [reflexivity|]. split; [reflexivity|]. split; [vm_compute; reflexivity|]. repeat split; reflexivity. Qed.
(* an immediate operand of a store is refused *)
Example C79_mc6800_store : exists i, mc6800_encode MC6800 (mc6800_asm (fun _ => None) (fun _ => None) 10) (s2l " STAA #1") 0x1000 = Val (L_insn i []) /\ i_err i = OPERAND_NOT_ALLOWED.
Proof. eexists. split; [vm_compute; reflexivity|]. reflexivity. Qed.
(* Without the room it fails: a branch in the last byte of memory to the address 0 is assembled as
   one back by one byte, to the address $10000, which the disassembler refuses. *)
Theorem C79_mc6800_end_refuted : exists i r, mc6800_encode MC6800 (mc6800_asm (fun _ => None) (fun _ => None) 10) (s2l " BRA 0") 0xFFFF = Val (L_insn i []) /\
  i_err i = OK /\ i_code i = [0x20; 0xFF] /\ mc6800_decode (mc6800_dis true true false true false false 42 None) MC6800 [0x20; 0xFF] 0xFFFF 128 = Val r /\ i_err (r_insn r) = OVERFLOW_RANGE.
Proof. do 2 eexists. split; [vm_compute; reflexivity|]. split; [reflexivity|]. split; [reflexivity|]. split; [vm_compute; reflexivity|]. reflexivity. Qed.
Print Assumptions C79_mc6800_end_refuted.
