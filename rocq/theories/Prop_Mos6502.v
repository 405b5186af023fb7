(** C60, C61, C62: the 6502 family. *)
From Coq Require Import String ZArith List Bool Lia.
From Verif Require Import M_Char M_Error M_Value M_Text M_StrBuffer M_Format M_Number M_Insn M_Config M_Operators
  M_Parsers M_Expr M_Directive M_Table M_Asm M_Dis M_Mos6502Defs T_Mos6502 M_Mos6502
  S_Value S_Insn S_Expr S_ExprTree S_Table S_Cpu S_Mos6502 P_Insn P_Config P_ExprCase P_AsmText P_CpuShape P_CpuGood P_CpuText
  P_Mos6502 P_Mos6502Round P_Mos6502Range.
Import ListNotations.
Open Scope string_scope.
Open Scope list_scope.
Local Open Scope Z_scope.

(* ------------------------------------------------------------ C60 *)
(* Whatever the disassembler accepts for one of the five processors, in any letter case and output
   buffer size, with or without the bracket notation of the 65816, with absolute or relative branch
   targets, is a line that the assembler set to the same processor and the same widths of the
   registers turns back into the same bytes, wherever the blanks are and whatever the symbols, the
   functions and the comment.
   Missing: octal numbers in the family's own notation, which are not read back (below). *)
Theorem C60_round_trip_partial : forall ty opt uh uc oc rel cs ih mem addr size r st symbol function indent gap b rest,
  let d := mos6502_dis ty uh uc oc rel cs ih 42 None in
  In ty [MOS6502; G65SC02; R65C02; W65C02S; W65C816] ->
  st_cpu st = ty -> st_longa st = (ty =? W65C816) && op_longa opt -> st_longi st = (ty =? W65C816) && op_longi opt ->
  bytes_only mem -> mem <> [] -> 0 <= addr < 2^32 ->
  (oc = true -> cs = true \/ ih = true) ->
  mos6502_decode d ty opt mem addr size = Val r -> i_err (r_insn r) = OK ->
  blanks indent -> blanks gap -> gap <> [] \/ r_operands r = [] -> blanks b -> line_end rest ->
  exists i, mos6502_encode st false (mos6502_asm ty symbol function 10)
      (indent ++ r_name r ++ gap ++ r_operands r ++ b ++ rest) addr = Val (L_insn i rest) /\
    i_err i = OK /\ i_code i = i_code (r_insn r) /\ i_addr i = addr.
Proof.
  intros ty opt uh uc oc rel cs ih mem addr size r st symbol function indent gap b rest d TY ST SA SX BM NE AR OC D E BI BG NG BB LE.
  pose proof (mos6502_reads ty uh uc oc rel cs ih 42 (fun _ => eq_refl) OC) as RD. exists (r_insn r). split.
  { refine (mos6502_round d ty opt mem addr size r st (mos6502_asm ty symbol function 10) indent gap b rest RD TY BM NE D E ST _ _ eq_refl eq_refl eq_refl AR BI BG NG BB LE).
    - rewrite SA. unfold longImmediate. destruct (ty =? W65C816); reflexivity.
    - rewrite SX. unfold longImmediate. destruct (ty =? W65C816); reflexivity. }
  destruct (mos6502_accepts np_motorola d ty opt RD TY mem addr size r BM NE D E) as (_ & o & nb & m & _ & _ & _ & RI & _). rewrite RI. auto.
Qed.
Print Assumptions C60_round_trip_partial.
(* the branch on a bit of the R65C02, its target relative to the location *)
Example C60_case :
  exists r, mos6502_decode (mos6502_dis R65C02 true true false true false false 42 None) R65C02 (mkOpt false false false) [0x8F; 0x10; 0xFD; 7] 0x1000 128 = Val r /\
    i_err (r_insn r) = OK /\ r_name r = s2l "BBS0" /\ r_operands r = s2l "$10,*" /\ i_code (r_insn r) = [0x8F; 0x10; 0xFD] /\
    exists i, mos6502_encode (setCpuType R65C02 initial_state) false (mos6502_asm R65C02 (fun _ => None) (fun _ => None) 10) (s2l " BBS0 $10,* ; x") 0x1000
        = Val (L_insn i (s2l "; x")) /\ i_err i = OK /\ i_code i = [0x8F; 0x10; 0xFD].
Proof.
  eexists. split; [vm_compute; reflexivity|]. do 4 (split; [reflexivity|]). eexists. split; [vm_compute; reflexivity|]. split; reflexivity.
Qed.
(* the 65816 with a long accumulator; the state is the one after CPU 65816 and LONGA ON *)
Example C60_case_long :
  let st := snd (setLongAccumulator true (setCpuType W65C816 initial_state)) in
  st_cpu st = W65C816 /\ st_longa st = true /\ st_longi st = false /\
  exists r, mos6502_decode (mos6502_dis W65C816 false false false false true false 42 None) W65C816 (mkOpt true false false) [0xA9; 0xCD; 0xAB] 0 128 = Val r /\
    i_err (r_insn r) = OK /\ r_name r = s2l "lda" /\ r_operands r = s2l "#0xabcd" /\
  exists q, mos6502_decode (mos6502_dis W65C816 true true false false false false 42 None) W65C816 (mkOpt true false false) [0xAF; 1; 0; 0] 0 128 = Val q /\
    i_err (r_insn q) = OK /\ r_name q = s2l "LDA" /\ r_operands q = s2l ">>$000001".
Proof.
  cbv zeta. do 3 (split; [reflexivity|]). eexists. split; [vm_compute; reflexivity|]. do 3 (split; [reflexivity|]).
  eexists. split; [vm_compute; reflexivity|]. repeat split; reflexivity.
Qed.
(* in octal, the number 100 is printed for the address 64, and read as 100 *)
Theorem C60_octal_refuted : exists r i,
  mos6502_decode (mos6502_dis MOS6502 true true true false false false 42 None) MOS6502 (mkOpt false false false) [0xA5; 64] 0 128 = Val r /\
    i_err (r_insn r) = OK /\ i_code (r_insn r) = [0xA5; 64] /\
  mos6502_encode initial_state false (mos6502_asm MOS6502 (fun _ => None) (fun _ => None) 10) ([32] ++ r_name r ++ [32] ++ r_operands r) 0 = Val (L_insn i []) /\
    i_err i = OK /\ i_code i = [0xA5; 100].
Proof. do 2 eexists. split; [vm_compute; reflexivity|]. do 2 (split; [reflexivity|]). split; [vm_compute; reflexivity|]. split; reflexivity. Qed.
Print Assumptions C60_octal_refuted.
(* the instruction WDM of the 65816, which the assembler knows, is not one for the disassembler *)
Theorem C60_wdm_refuted : exists i r,
  mos6502_encode (setCpuType W65C816 initial_state) false (mos6502_asm W65C816 (fun _ => None) (fun _ => None) 10) (s2l " WDM #1") 0 = Val (L_insn i []) /\
    i_err i = OK /\ i_code i = [0x42; 1] /\
  mos6502_decode (mos6502_dis W65C816 true true false false false false 42 None) W65C816 (mkOpt false false false) [0x42; 1] 0 128 = Val r /\
    i_err (r_insn r) = UNKNOWN_INSTRUCTION.
Proof. do 2 eexists. split; [vm_compute; reflexivity|]. do 2 (split; [reflexivity|]). split; [vm_compute; reflexivity|]. reflexivity. Qed.
Print Assumptions C60_wdm_refuted.

(* ------------------------------------------------------------ C61 *)
(* Decoding always ends with an instruction or an error, and the bytes it takes are the first of
   the memory, at most 4. *)
Theorem C61_total : forall ty opt uh uc oc rel cs ih mem addr size,
  let d := mos6502_dis ty uh uc oc rel cs ih 42 None in
  In ty [MOS6502; G65SC02; R65C02; W65C02S; W65C816] -> bytes_only mem ->
  exists r, mos6502_decode d ty opt mem addr size = Val r /\
    exists m, mem = i_code (r_insn r) ++ m /\ (length (i_code (r_insn r)) <= 4)%nat.
Proof.
  intros ty opt uh uc oc rel cs ih mem addr size d TY BM. destruct (mos6502_printed ty uh uc oc rel cs ih 42 (fun _ => eq_refl)) as (np & RD).
  destruct (mos6502_total np d ty opt RD TY mem addr size BM) as (r & H). exists r. split; [exact H|].
  exact (mos6502_within np d ty opt RD TY mem addr size r BM H).
Qed.
Print Assumptions C61_total.
(* An accepted instruction has 1 to 4 bytes, and what follows them in memory does not matter.
   Missing: empty memory, for which the claim is false (below). *)
Theorem C61_accepts_partial : forall ty opt uh uc oc rel cs ih mem addr size r,
  let d := mos6502_dis ty uh uc oc rel cs ih 42 None in
  In ty [MOS6502; G65SC02; R65C02; W65C02S; W65C816] -> bytes_only mem -> mem <> [] ->
  mos6502_decode d ty opt mem addr size = Val r -> i_err (r_insn r) = OK ->
  (1 <= length (i_code (r_insn r)) <= 4)%nat /\ (exists m, mem = i_code (r_insn r) ++ m) /\
  forall m, bytes_only m -> mos6502_decode d ty opt (i_code (r_insn r) ++ m) addr size = Val r.
Proof.
  intros ty opt uh uc oc rel cs ih mem addr size r d TY BM NE D E. destruct (mos6502_printed ty uh uc oc rel cs ih 42 (fun _ => eq_refl)) as (np & RD).
  destruct (mos6502_accepts np d ty opt RD TY mem addr size r BM NE D E) as (_ & o & nb & m & _ & M & L & RI & _ & X).
  rewrite RI, canon_code. split; [|split; [exists m; exact M|exact X]].
  split; [cbn; lia|exact L].
Qed.
Print Assumptions C61_accepts_partial.
Example C61_case : exists r, mos6502_decode (mos6502_dis W65C816 false false false false false false 42 None) W65C816 (mkOpt false false false) [0x22; 1; 2] 0 128 = Val r /\
  i_err (r_insn r) = NO_MEMORY /\ i_code (r_insn r) = [0x22; 1; 2].
Proof. eexists. split; [vm_compute; reflexivity|]. split; reflexivity. Qed.
(* from no memory, an instruction of no bytes: the error is forgotten when the opcode is searched *)
Theorem C61_empty_memory_refuted : exists r,
  mos6502_decode (mos6502_dis MOS6502 true true false false false false 42 None) MOS6502 (mkOpt false false false) [] 0 128 = Val r /\
  i_err (r_insn r) = OK /\ i_code (r_insn r) = [] /\ r_name r = s2l "BRK".
Proof. eexists. split; [vm_compute; reflexivity|]. repeat split; reflexivity. Qed.
Print Assumptions C61_empty_memory_refuted.
(* with a symbol table, an address that has no symbol makes the disassembler shift by -1 *)
Theorem C61_symbol_table_refuted : exists table : value -> option text,
  mos6502_decode (mos6502_dis MOS6502 false false false false false false 42 (Some table)) MOS6502 (mkOpt false false false) [0x4C; 0x34; 0x12] 0 128 = UB.
Proof. exists (fun _ => None). vm_compute. reflexivity. Qed.
Print Assumptions C61_symbol_table_refuted.

(* ------------------------------------------------------------ C62 *)
(* An address, plain or indexed or indirect: the shortest instruction that can hold it, and an
   error exactly when there is none.
   Missing: for the 65816, numbers outside -2^31..2^32-1, of which the low 32 bits are taken (below). *)
Theorem C62_address_partial : forall f st smart symbol function indent gap b0 t rest v addr,
  In f address_forms -> In (st_cpu st) [MOS6502; G65SC02; R65C02; W65C02S; W65C816] ->
  blanks indent -> blanks gap -> gap <> [] -> blanks b0 -> 0 <= addr < 2 ^ (if st_cpu st =? W65C816 then 24 else 16) -> line_end rest ->
  written (fm_way f) addr symbol function t rest v ->
  (st_cpu st = W65C816 -> -2^31 <= int_of v < 2^32) ->
  exists i, mos6502_encode st smart (mos6502_asm (st_cpu st) symbol function 10) (indent ++ s2l (fm_name f) ++ gap ++ b0 ++ t) addr = Val (L_insn i rest) /\
    match code_for (st_cpu st =? W65C816) f (int_of v) with
    | Some code => i_err i = OK /\ i_code i = code
    | None => i_err i <> OK
    end.
Proof.
  intros f st smart symbol function indent gap b0 t rest v addr F TY BI BG NG B0 A LE W R.
  exact (range_address st smart symbol function indent gap b0 t rest v addr TY BI BG NG B0 A LE f F W R).
Qed.
Print Assumptions C62_address_partial.
(* the hypotheses are met: LDA (LO),Y with a symbol of the zero page *)
Example C62_address_case : let symbol n := if list_eq_dec Z.eq_dec n (s2l "LO") then Some (setUnsigned 0x10) else None in
  In (mkForm "LDA" InY (Some 0xB1) None None) address_forms /\
  written InY 0x1000 symbol (fun _ => None) (s2l "(LO),Y") [] (setUnsigned 0x10) /\
  code_for false (mkForm "LDA" InY (Some 0xB1) None None) 0x10 = Some [0xB1; 0x10] /\
  exists i, mos6502_encode initial_state false (mos6502_asm MOS6502 symbol (fun _ => None) 10) (s2l " LDA (LO),Y") 0x1000 = Val (L_insn i []) /\
    i_err i = OK /\ i_code i = [0xB1; 0x10].
Proof.
  cbv zeta. split; [vm_compute; repeat (first [left; reflexivity|right])|]. split.
  { exists [], (s2l "LO),Y"), [], [], 89, []. split; [reflexivity|]. split; [apply Forall_nil|]. split.
    { split; [cbn; repeat split; try discriminate; intuition discriminate|]. intros n I H. cbn in I. unfold leading_word, same_name in H.
      repeat (destruct I as [<-|I]; [cbn in H; repeat (inversion H; subst; clear H; match goal with X : Forall2 _ _ _ |- _ => rename X into H end); inversion H|]). destruct I. }
    do 2 (split; [apply Forall_nil|]). split; [cbn; auto|]. split; [apply Forall_nil|].
    exists (Sym (s2l "LO") (setUnsigned 0x10)). split.
    { apply (D_sym fam_6502 _ (s2l "LO") _ [] (s2l "),Y")); [cbn; auto| |reflexivity|reflexivity|reflexivity|reflexivity|apply Forall_nil|cbn; right; auto 30].
      intros [(d & D & E & _)|K]; [|cbn in K; intuition discriminate].
      cbn in D. repeat (destruct D as [<-|D]; [discriminate E|]). destruct D. }
    split; [exact Logic.I|]. split; [cbn; lia|]. split; [cbn; lia|]. split; [reflexivity|]. vm_compute; intuition discriminate. }
  split; [reflexivity|]. eexists. split; [vm_compute; reflexivity|]. split; reflexivity.
Qed.
(* addresses of one, two and three bytes; on a 6502 the last does not exist *)
Example C62_case : exists i j k l,
  let f := mkForm "LDA" WithX (Some 0xB5) (Some 0xBD) (Some 0xBF) in
  In f address_forms /\
  mos6502_encode initial_state false (mos6502_asm MOS6502 (fun _ => None) (fun _ => None) 10) (s2l " LDA 255,X") 0 = Val (L_insn i []) /\ i_err i = OK /\ i_code i = [0xB5; 255] /\
  mos6502_encode initial_state false (mos6502_asm MOS6502 (fun _ => None) (fun _ => None) 10) (s2l " LDA 256,X") 0 = Val (L_insn j []) /\ i_err j = OK /\ i_code j = [0xBD; 0; 1] /\
  mos6502_encode initial_state false (mos6502_asm MOS6502 (fun _ => None) (fun _ => None) 10) (s2l " LDA $12345,X") 0 = Val (L_insn k []) /\ i_err k = REGISTER_NOT_ALLOWED /\
  mos6502_encode (setCpuType W65C816 initial_state) false (mos6502_asm W65C816 (fun _ => None) (fun _ => None) 10) (s2l " LDA $12345,X") 0 = Val (L_insn l []) /\ i_err l = OK /\ i_code l = [0xBF; 0x45; 0x23; 1].
Proof. do 4 eexists. cbv zeta. split; [vm_compute; repeat (first [left; reflexivity|right])|].
  repeat (split; [vm_compute; reflexivity|]).
  vm_compute; reflexivity. Qed.
(* numbers that do not fit in 32 bits are cut; so are the bank numbers of the block moves *)
Theorem C62_address_refuted : exists i j,
  mos6502_encode (setCpuType W65C816 initial_state) false (mos6502_asm W65C816 (fun _ => None) (fun _ => None) 10) (s2l " LDA $100000012") 0 = Val (L_insn i []) /\ i_err i = OK /\ i_code i = [0xAF; 0x12; 0; 0] /\
  mos6502_encode (setCpuType W65C816 initial_state) false (mos6502_asm W65C816 (fun _ => None) (fun _ => None) 10) (s2l " MVN $121000,$1130000") 0 = Val (L_insn j []) /\ i_err j = OK /\ i_code j = [0x54; 0x13; 0x12].
Proof. do 2 eexists. repeat (split; [vm_compute; reflexivity|]). vm_compute; reflexivity. Qed.
Print Assumptions C62_address_refuted.
(* An immediate number: one byte, or two when the register it goes to is long. *)
Theorem C62_immediate : forall f wide st smart symbol function indent gap b0 t rest v addr,
  (In f accumulator_forms /\ wide = st_longa st \/ In f index_forms /\ wide = st_longi st) ->
  In (st_cpu st) [MOS6502; G65SC02; R65C02; W65C02S; W65C816] ->
  blanks indent -> blanks gap -> gap <> [] -> blanks b0 -> 0 <= addr < 2 ^ (if st_cpu st =? W65C816 then 24 else 16) -> line_end rest ->
  immediate addr symbol function t rest v ->
  exists i, mos6502_encode st smart (mos6502_asm (st_cpu st) symbol function 10) (indent ++ s2l (fst f) ++ gap ++ b0 ++ t) addr = Val (L_insn i rest) /\
    i_code i = (if wide : bool then [snd f; int_of v mod 256; int_of v / 256 mod 256] else [snd f; int_of v mod 256]) /\
    i_err i = if (if wide then (-32768 <=? int_of v) && (int_of v <=? 65535) else (-128 <=? int_of v) && (int_of v <=? 255)) then OK else OVERFLOW_RANGE.
Proof.
  intros f wide st smart symbol function indent gap b0 t rest v addr F TY BI BG NG B0 A LE W.
  exact (range_imm_form st smart symbol function indent gap b0 t rest v addr TY BI BG NG B0 A LE f wide F W).
Qed.
Print Assumptions C62_immediate.
Example C62_immediate_case :
  immediate 0 (fun n => if list_eq_dec Z.eq_dec n (s2l "LO") then Some (setUnsigned 18) else None) (fun _ => None) (s2l "#LO") [] (setUnsigned 18) /\
  exists i j, let st := snd (setLongAccumulator true (setCpuType W65C816 initial_state)) in
  mos6502_encode st false (mos6502_asm W65C816 (fun _ => None) (fun _ => None) 10) (s2l " LDA #18") 0 = Val (L_insn i []) /\ i_err i = OK /\ i_code i = [0xA9; 18; 0] /\
  mos6502_encode st false (mos6502_asm W65C816 (fun _ => None) (fun _ => None) 10) (s2l " LDX #256") 0 = Val (L_insn j []) /\ i_err j = OVERFLOW_RANGE.
Proof.
  split.
  - exists (s2l "LO"). split; [reflexivity|]. split; [cbn; intuition discriminate|].
    exists (Sym (s2l "LO") (setUnsigned 18)). split.
    { apply (D_sym fam_6502 _ (s2l "LO") _ [] []); [cbn; auto| |reflexivity|reflexivity|reflexivity|reflexivity|apply Forall_nil|exact Logic.I].
      intros [(d & D & E & _)|K]; [|cbn in K; intuition discriminate].
      cbn in D. repeat (destruct D as [<-|D]; [discriminate E|]). destruct D. }
    split; [exact Logic.I|]. split; [cbn; lia|]. split; [cbn; lia|]. split; [reflexivity|]. vm_compute; intuition discriminate.
  - do 2 eexists. cbv zeta. repeat (split; [vm_compute; reflexivity|]). vm_compute; reflexivity.
Qed.
(* the width set for a 65816 stays when the processor becomes a 6502, which has no such register:
   CPU 65816, LONGA ON, CPU 6502, LDA #$12 *)
Theorem C62_stale_width_refuted : exists i,
  let st := setCpuType MOS6502 (snd (setLongAccumulator true (setCpuType W65C816 initial_state))) in
  mos6502_encode st false (mos6502_asm MOS6502 (fun _ => None) (fun _ => None) 10) (s2l " LDA #$12") 0 = Val (L_insn i []) /\
  i_err i = OK /\ i_code i = [0xA9; 0x12; 0].
Proof. eexists. cbv zeta. split; [vm_compute; reflexivity|]. split; reflexivity. Qed.
Print Assumptions C62_stale_width_refuted.
(* A branch: the byte is the distance from its end, and an error is reported exactly when the
   target is not an address within -128..127 of there, in the same bank. *)
Theorem C62_branch : forall f st symbol function indent gap b0 t rest v addr,
  In f branch_forms -> In (st_cpu st) [MOS6502; G65SC02; R65C02; W65C02S; W65C816] ->
  blanks indent -> blanks gap -> gap <> [] -> blanks b0 -> 0 <= addr -> addr + 2 < 2 ^ (if st_cpu st =? W65C816 then 24 else 16) -> line_end rest ->
  written Plain addr symbol function t rest v ->
  0 <= int_of v < 2^32 ->
  exists i, mos6502_encode st false (mos6502_asm (st_cpu st) symbol function 10) (indent ++ s2l (fst f) ++ gap ++ b0 ++ t) addr = Val (L_insn i rest) /\
    i_code i = [snd f; (int_of v - (addr + 2)) mod 256] /\
    (i_err i = OK <-> int_of v < 2 ^ (if st_cpu st =? W65C816 then 24 else 16) /\ -128 <= int_of v - (addr + 2) <= 127 /\
       (st_cpu st = W65C816 -> int_of v / 65536 = addr / 65536)).
Proof.
  intros f st symbol function indent gap b0 t rest v addr F TY BI BG NG B0 A A2 LE W R.
  assert (AR : 0 <= addr < 2 ^ (if st_cpu st =? W65C816 then 24 else 16)) by lia.
  exact (range_branch_form st false symbol function indent gap b0 t rest v addr TY BI BG NG B0 AR LE f eq_refl F W R A2).
Qed.
Print Assumptions C62_branch.
Example C62_branch_case : exists i j k,
  mos6502_encode initial_state false (mos6502_asm MOS6502 (fun _ => None) (fun _ => None) 10) (s2l " BNE $1081 ; x") 0x1000 = Val (L_insn i (s2l "; x")) /\ i_err i = OK /\ i_code i = [0xD0; 127] /\
  mos6502_encode initial_state false (mos6502_asm MOS6502 (fun _ => None) (fun _ => None) 10) (s2l " BNE $1082") 0x1000 = Val (L_insn j []) /\ i_err j = OPERAND_TOO_FAR /\
  mos6502_encode (setCpuType W65C816 initial_state) false (mos6502_asm W65C816 (fun _ => None) (fun _ => None) 10) (s2l " BNE $20000") 0x1FFF0 = Val (L_insn k []) /\ i_err k = OVERWRAP_SEGMENT.
Proof. do 3 eexists. repeat (split; [vm_compute; reflexivity|]). vm_compute; reflexivity. Qed.
(* A bracket that is not closed before the end of the line is reported, and nothing is assembled. *)
Theorem C62_unclosed : forall (square : bool) f st smart symbol function indent gap b0 b1 s rest v addr,
  In f address_forms -> In (st_cpu st) [MOS6502; G65SC02; R65C02; W65C02S; W65C816] ->
  blanks indent -> blanks gap -> gap <> [] -> blanks b0 -> blanks b1 -> 0 <= addr < 2 ^ (if st_cpu st =? W65C816 then 24 else 16) -> line_end rest ->
  starts_number s -> expression_until (if square then 93 else 41) fam_6502 addr symbol function s rest v ->
  exists i, mos6502_encode st smart (mos6502_asm (st_cpu st) symbol function 10)
      (indent ++ s2l (fm_name f) ++ gap ++ b0 ++ (if square then s2l "[" else s2l "(") ++ b1 ++ s) addr = Val (L_insn i rest) /\
    In (i_err i) [MISSING_CLOSING_PAREN; MISSING_CLOSING_BRACKET] /\ i_code i = [].
Proof.
  intros square f st smart symbol function indent gap b0 b1 s rest v addr F TY BI BG NG B0 B1 A LE SN E.
  destruct (range_unclosed st smart symbol function indent gap b0 rest v addr TY BI BG NG B0 A LE square f b1 s F B1 SN E) as (i & H).
  exists i. destruct square; exact H.
Qed.
Print Assumptions C62_unclosed.
(* the hypotheses are met; the round bracket that is missing is reported as a square one *)
Example C62_unclosed_case : let symbol n := if list_eq_dec Z.eq_dec n (s2l "LO") then Some (setUnsigned 18) else None in
  starts_number (s2l "LO") /\ expression_until 41 fam_6502 0 symbol (fun _ => None) (s2l "LO") [] (setUnsigned 18) /\
  exists i, mos6502_encode initial_state false (mos6502_asm MOS6502 symbol (fun _ => None) 10) (s2l " LDA (LO") 0 = Val (L_insn i []) /\ i_err i = MISSING_CLOSING_BRACKET.
Proof.
  cbv zeta. split.
  { split; [cbn; repeat split; try discriminate; intuition discriminate|]. intros n I H. cbn in I. unfold leading_word, same_name in H.
    repeat (destruct I as [<-|I]; [cbn in H; repeat (inversion H; subst; clear H; match goal with X : Forall2 _ _ _ |- _ => rename X into H end); inversion H|]). destruct I. }
  split; [|eexists; split; [vm_compute; reflexivity|reflexivity]].
  exists (Sym (s2l "LO") (setUnsigned 18)). split.
  { apply (D_sym fam_6502 _ (s2l "LO") _ [] []); [cbn; auto| |reflexivity|reflexivity|reflexivity|reflexivity|apply Forall_nil|exact Logic.I].
    intros [(d & D & E & _)|K]; [|cbn in K; intuition discriminate].
    cbn in D. repeat (destruct D as [<-|D]; [discriminate E|]). destruct D. }
  split; [exact Logic.I|]. split; [cbn; lia|]. split; [cbn; lia|]. split; [reflexivity|]. vm_compute; intuition discriminate.
Qed.
(* On a 65816 each register has the width last ordered for it, whatever was ordered for the other
   one; on the other processors they stay short. *)
Theorem C62_widths : forall ty h,
  let st := fold_left (fun st o => snd (match o with LongA on => setLongAccumulator on st | LongI on => setLongIndex on st end)) h (setCpuType ty initial_state) in
  st_cpu st = ty /\ st_longa st = (ty =? W65C816) && last_longa h /\ st_longi st = (ty =? W65C816) && last_longi h.
Proof. exact orders. Qed.
Print Assumptions C62_widths.
Example C62_widths_case : last_longa [LongI true; LongA true; LongI false] = true /\ last_longi [LongI true; LongA true; LongI false] = false.
Proof. split; reflexivity. Qed.
