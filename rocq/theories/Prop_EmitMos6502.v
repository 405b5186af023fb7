(** C79: what the assembler of the 6502 and its successors with 64K of memory accepts is an instruction. *)
From Coq Require Import String ZArith List Bool Lia.
From Verif Require Import M_Char M_Error M_Value M_Text M_StrBuffer M_Format M_Number M_Insn M_Config M_Operators
  M_Parsers M_Expr M_Directive M_Table M_Asm M_Dis M_Mos6502Defs T_Mos6502 M_Mos6502
  S_Value S_Insn S_Number S_Expr S_ExprTree S_Table S_Cpu P_Room P_CpuFine P_Mos6502Emit Prop_Mos6502.
Import ListNotations.
Open Scope string_scope.
Open Scope list_scope.
Local Open Scope Z_scope.

(* Whatever the processor (6502, 65SC02, 65C02 or W65C02S), the line (any text), the symbols and
   functions, the default radix, the address and the setting of the smart branches: when the line is
   an instruction, there is no error and the instruction ends within the 64K of memory, its 1 to 4
   bytes, whatever follows them in memory, are accepted by the disassembler of the same processor at
   the same address, with every option, and it takes exactly these bytes.  The widths that LONGA and
   LONGI set are those the assembler starts with.  The letter that stands for the location is a
   printable one.
   Missing: the 65816. *)
Theorem C79_mos6502_emits_partial : forall ty smart opt symbol function radix line addr i rest uh uc oc rel cs ih cur m size,
  let d := mos6502_dis ty uh uc oc rel cs ih cur None in
  In ty [MOS6502; G65SC02; R65C02; W65C02S] -> 0 <= addr < 2^32 -> 32 <= cur <= 126 ->
  mos6502_encode (mkState ty false false) smart (mos6502_asm ty symbol function radix) line addr = Val (L_insn i rest) -> i_err i = OK ->
  addr + Z.of_nat (length (i_code i)) <= 0x10000 -> bytes_only m -> 128 <= size ->
  i_addr i = addr /\ bytes_only (i_code i) /\ (1 <= length (i_code i) <= 4)%nat /\
  exists r, mos6502_decode d ty opt (i_code i ++ m) addr size = Val r /\ i_err (r_insn r) = OK /\ i_code (r_insn r) = i_code i.
Proof.
  intros ty smart opt symbol function radix line addr i rest uh uc oc rel cs ih cur m size d T A CU H E FIT BM SZ.
  destruct (mos6502_decodes d ty smart opt (mos6502_asm ty symbol function radix) line addr i rest m size T eq_refl (small_width ty T) CU brief_mos6502 (small_width ty T) A H E FIT BM SZ) as (A1 & B & L & r & D & R).
  split; [exact A1|]. split; [exact B|]. split; [exact L|]. exists r. rewrite R. auto.
Qed.
Print Assumptions C79_mos6502_emits_partial.
(* And the line that the disassembler shows for it is assembled to the same bytes.
   Missing: the 65816, and octal numbers in the family's own notation (C60). *)
Theorem C79_mos6502_normal_partial : forall ty smart opt symbol function radix line addr i rest uh uc oc rel cs ih m size symbol' function' indent gap b rest',
  let d := mos6502_dis ty uh uc oc rel cs ih 42 None in
  In ty [MOS6502; G65SC02; R65C02; W65C02S] -> 0 <= addr < 2^32 -> (oc = true -> cs = true \/ ih = true) ->
  mos6502_encode (mkState ty false false) smart (mos6502_asm ty symbol function radix) line addr = Val (L_insn i rest) -> i_err i = OK ->
  addr + Z.of_nat (length (i_code i)) <= 0x10000 -> bytes_only m -> 128 <= size ->
  blanks indent -> blanks gap -> gap <> [] -> blanks b -> line_end rest' ->
  exists r i', mos6502_decode d ty opt (i_code i ++ m) addr size = Val r /\
    mos6502_encode (mkState ty false false) false (mos6502_asm ty symbol' function' 10) (indent ++ r_name r ++ gap ++ r_operands r ++ b ++ rest') addr = Val (L_insn i' rest') /\
    i_err i' = OK /\ i_code i' = i_code i.
Proof.
  intros ty smart opt symbol function radix line addr i rest uh uc oc rel cs ih m size symbol' function' indent gap b rest' d T A OC H E FIT BM SZ BI BG NG BB LE.
  destruct (C79_mos6502_emits_partial ty smart opt symbol function radix line addr i rest uh uc oc rel cs ih 42 m size T A ltac:(lia) H E FIT BM SZ) as (A1 & B & L & r & D & R & C).
  assert (N8 : (ty =? W65C816) = false) by (destruct T as [<-|[<-|[<-|[<-|[]]]]]; reflexivity).
  destruct (C60_round_trip_partial ty opt uh uc oc rel cs ih (i_code i ++ m) addr size r (mkState ty false false) symbol' function' indent gap b rest') as (i' & X & Y & Z1 & _); auto; try (cbn [st_longa st_longi]; now rewrite N8).
  - destruct T as [<-|[<-|[<-|[<-|[]]]]]; cbn; auto 6.
  - apply Forall_app. split; assumption.
  - destruct (i_code i); [cbn in L; lia|discriminate].
  - exists r, i'. split; [exact D|]. split; [exact X|]. split; [exact Y|]. now rewrite Z1.
Qed.
Print Assumptions C79_mos6502_normal_partial.
(* a branch on a bit of the 65C02, to an expression with a symbol *)
Example C79_mos6502_case : exists i r, mos6502_encode (mkState R65C02 false false) true (mos6502_asm R65C02 (fun s => if Nat.eqb (length s) 4 then Some (setUnsigned 0x1012) else None) (fun _ => None) 10) (s2l "  bbs3 1+2, loop-2 ; x") 0x1000 = Val (L_insn i (s2l "; x")) /\
  i_err i = OK /\ i_code i = [0xBF; 0x03; 0x0D] /\ mos6502_decode (mos6502_dis R65C02 true true false true false false 42 None) R65C02 (mkOpt true true true) [0xBF; 0x03; 0x0D; 7] 0x1000 128 = Val r /\
  i_err (r_insn r) = OK /\ r_name r = s2l "BBS3" /\ r_operands r = s2l "$03,*+16".
Proof. do 2 eexists. split; [vm_compute; reflexivity|]. split; [reflexivity|]. split; [reflexivity|]. split; [vm_compute; reflexivity|]. repeat split; reflexivity. Qed.
(* Without the room it fails: a branch in the last byte of memory to the address 0 is assembled as
   one back by one byte, to the address $10000, which the disassembler refuses. *)
Theorem C79_mos6502_end_refuted : exists i r, mos6502_encode (mkState MOS6502 false false) false (mos6502_asm MOS6502 (fun _ => None) (fun _ => None) 10) (s2l " BEQ 0") 0xFFFF = Val (L_insn i []) /\
  i_err i = OK /\ i_code i = [0xF0; 0xFF] /\ mos6502_decode (mos6502_dis MOS6502 true true false true false false 42 None) MOS6502 (mkOpt false false false) [0xF0; 0xFF] 0xFFFF 128 = Val r /\ i_err (r_insn r) = OVERFLOW_RANGE.
Proof. do 2 eexists. split; [vm_compute; reflexivity|]. split; [reflexivity|]. split; [reflexivity|]. split; [vm_compute; reflexivity|]. reflexivity. Qed.
Print Assumptions C79_mos6502_end_refuted.
(* The widths matter: LONGA ON on the 65816 outlives a change of the processor, and then the immediate
   operand of the 6502 takes two bytes, of which its disassembler takes one. *)
Theorem C79_mos6502_width_refuted : exists st i r, setCpuType MOS6502 (snd (setLongAccumulator true (setCpuType W65C816 initial_state))) = st /\
  mos6502_encode st false (mos6502_asm MOS6502 (fun _ => None) (fun _ => None) 10) (s2l " LDA #1") 0x1000 = Val (L_insn i []) /\
  i_err i = OK /\ i_code i = [0xA9; 1; 0] /\ mos6502_decode (mos6502_dis MOS6502 true true false true false false 42 None) MOS6502 (mkOpt true true false) [0xA9; 1; 0] 0x1000 128 = Val r /\ i_err (r_insn r) = OK /\ i_code (r_insn r) = [0xA9; 1].
Proof. do 3 eexists. split; [reflexivity|]. split; [vm_compute; reflexivity|]. split; [reflexivity|]. split; [reflexivity|]. split; [vm_compute; reflexivity|]. split; reflexivity. Qed.
Print Assumptions C79_mos6502_width_refuted.
