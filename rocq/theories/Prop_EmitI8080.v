(** C79: what the assembler of the 8080 family accepts is an instruction. *)
From Coq Require Import String ZArith List Bool Lia.
From Verif Require Import M_Char M_Error M_Value M_Text M_StrBuffer M_Format M_Number M_Insn M_Config M_Operators
  M_Parsers M_Expr M_Directive M_Table M_Asm M_Dis M_I8080Defs T_I8080 M_I8080
  S_Value S_Insn S_Number S_Expr S_ExprTree S_Table S_Cpu S_I8080 P_CpuFine P_I8080 P_I8080Emit Prop_I8080.
Import ListNotations.
Open Scope string_scope.
Open Scope list_scope.
Local Open Scope Z_scope.

(* Whatever the line (any text), the symbols and functions, the default radix, the address and the
   syntax: when the line is an instruction and there is no error, its 1 to 3 bytes, whatever follows
   them in memory, are accepted by the disassembler for the same processor and syntax at the same
   address, with every option, and it takes exactly these bytes. *)
Theorem C79_i8080_emits : forall ty zilog symbol function radix line addr i rest uh uc oc rel cs ih cur m size,
  let d := i8080_dis uh uc oc rel cs ih cur None in
  In ty [I8080; I8085; V30EMU] ->
  i8080_encode ty zilog (i8080_asm symbol function radix) line addr = Val (L_insn i rest) -> i_err i = OK -> bytes_only m -> 128 <= size ->
  i_addr i = addr /\ bytes_only (i_code i) /\ (1 <= length (i_code i) <= 3)%nat /\
  exists r, i8080_decode d ty zilog (i_code i ++ m) addr size = Val r /\ i_err (r_insn r) = OK /\ i_code (r_insn r) = i_code i.
Proof.
  intros ty zilog symbol function radix line addr i rest uh uc oc rel cs ih cur m size d TY H E BM SZ.
  destruct (i8080_decodes d ty zilog (i8080_asm symbol function radix) line addr i rest m size (i8080_reads uh uc oc rel cs ih cur) brief_intel TY eq_refl H E BM ltac:(lia)) as (A & B & L & r & D & R).
  split; [exact A|]. split; [exact B|]. split; [exact L|]. exists r. rewrite R. auto.
Qed.
Print Assumptions C79_i8080_emits.
(* And the line that the disassembler shows for it is assembled to the same bytes. *)
Theorem C79_i8080_normal : forall ty zilog symbol function radix line addr i rest uh uc oc rel cs ih cur m size symbol' function' indent gap b rest',
  let d := i8080_dis uh uc oc rel cs ih cur None in
  In ty [I8080; I8085; V30EMU] ->
  i8080_encode ty zilog (i8080_asm symbol function radix) line addr = Val (L_insn i rest) -> i_err i = OK -> bytes_only m -> 128 <= size ->
  ending_functions function' -> blanks indent -> blanks gap -> gap <> [] -> blanks b -> line_end rest' ->
  exists r i', i8080_decode d ty zilog (i_code i ++ m) addr size = Val r /\
    i8080_encode ty zilog (i8080_asm symbol' function' 10) (indent ++ r_name r ++ gap ++ r_operands r ++ b ++ rest') addr = Val (L_insn i' rest') /\
    i_err i' = OK /\ i_code i' = i_code i.
Proof.
  intros ty zilog symbol function radix line addr i rest uh uc oc rel cs ih cur m size symbol' function' indent gap b rest' d TY H E BM SZ EF BI BG NG BB LE.
  destruct (C79_i8080_emits ty zilog symbol function radix line addr i rest uh uc oc rel cs ih cur m size TY H E BM SZ) as (A & B & L & r & D & R & C).
  assert (NE : i_code i ++ m <> []) by (destruct (i_code i); [cbn in L; lia|discriminate]).
  destruct (C40_round_trip uh uc oc rel cs ih cur ty zilog (i_code i ++ m) addr size r symbol' function' indent gap b rest' TY) as (i' & X & Y & Z1 & _); auto.
  - apply Forall_app. split; assumption.
  - exists r, i'. split; [exact D|]. split; [exact X|]. split; [exact Y|]. now rewrite Z1.
Qed.
Print Assumptions C79_i8080_normal.
(* It need not be the instruction that was written: there is no MOV M,M, but it is accepted and
   gives the code of HLT. *)
Theorem C79_i8080_same_name_refuted : exists i r, i8080_encode I8080 false (i8080_asm (fun _ => None) (fun _ => None) 10) (s2l "  mov M, m ; x") 0x300 = Val (L_insn i (s2l "; x")) /\
  i_err i = OK /\ i_code i = [0x76] /\ i8080_decode (i8080_dis true true false false false false 36 None) I8080 false [0x76; 7] 0x300 128 = Val r /\ i_err (r_insn r) = OK /\ r_name r = s2l "HLT".
Proof. do 2 eexists. split; [vm_compute; reflexivity|]. split; [reflexivity|]. split; [reflexivity|]. split; [vm_compute; reflexivity|]. split; reflexivity. Qed.
Print Assumptions C79_i8080_same_name_refuted.
Example C79_i8080_zilog_case : exists i r, i8080_encode I8085 true (i8080_asm (fun s => if Nat.eqb (length s) 4 then Some (setUnsigned 0x312) else None) (fun _ => None) 10) (s2l "  ld (loop+2*4), hl") 0 = Val (L_insn i []) /\
  i_err i = OK /\ i_code i = [0x22; 0x1A; 0x03] /\ i8080_decode (i8080_dis true true false false false false 36 None) I8085 true [0x22; 0x1A; 0x03; 7] 0 128 = Val r /\ i_err (r_insn r) = OK /\ r_operands r = s2l "(031AH), HL".
Proof. do 2 eexists. split; [vm_compute; reflexivity|]. split; [reflexivity|]. split; [reflexivity|]. split; [vm_compute; reflexivity|]. split; reflexivity. Qed.
