(** C63, C64, C65, C66: the CDP1802 family. *)
From Coq Require Import String ZArith List Bool Lia.
From Verif Require Import M_Char M_Error M_Value M_Text M_StrBuffer M_Format M_Number M_Insn M_Config M_Operators
  M_Parsers M_Expr M_Directive M_Table M_Asm M_Dis M_Cdp1802Defs T_Cdp1802 M_Cdp1802
  S_Value S_Insn S_Expr S_ExprTree S_Table S_Cpu S_Cdp1802 P_Insn P_Config P_ExprCase P_AsmText P_CpuShape P_CpuGood P_CpuText
  P_Cdp1802 P_Cdp1802Range.
Import ListNotations.
Open Scope string_scope.
Open Scope list_scope.
Local Open Scope Z_scope.

(* ------------------------------------------------------------ C63 *)
(* Whatever the disassembler accepts for one of the three processors, in any letter case and output
   buffer size, with or without names of registers, is a line that the assembler set to the same
   processor turns back into the same bytes, wherever the blanks are and whatever the symbols, the
   functions and the comment; the assembler knows the names of registers when the disassembler
   prints them.
   Missing: octal numbers in the family's own notation, the last two addresses of the memory, and the
   long branches into their own page when the assembler is told to choose the branches itself; all
   three are not read back (below). *)
Theorem C63_round_trip_partial : forall ct ur uA smart uh uc oc rel cs ih mem addr size r symbol function indent gap b rest,
  let d := cdp1802_dis uh uc oc rel cs ih 42 None in
  In ct cdp_types -> (ur = true -> uA = true) ->
  bytes_only mem -> mem <> [] -> 0 <= addr < 65534 ->
  (oc = true -> cs = true \/ ih = true) ->
  cdp1802_decode d ct ur mem addr size = Val r -> i_err (r_insn r) = OK ->
  (smart = true -> forall c hi lo, i_code (r_insn r) = [c; hi; lo] -> 0xC0 <= c < 0xD0 -> hi <> (addr + 2) / 256) ->
  blanks indent -> blanks gap -> gap <> [] \/ r_operands r = [] -> blanks b -> line_end rest ->
  exists i, cdp1802_encode (cdp1802_asm symbol function 10) ct uA smart
      (indent ++ r_name r ++ gap ++ r_operands r ++ b ++ rest) addr = Val (L_insn i rest) /\
    i_err i = OK /\ i_code i = i_code (r_insn r) /\ i_addr i = addr.
Proof.
  intros ct ur uA smart uh uc oc rel cs ih mem addr size r symbol function indent gap b rest d CT UA BM NE AR OC D E SM BI BG NG BB LE.
  pose proof (cdp1802_reads uh uc oc rel cs ih 42 (fun X => proj2 (orb_true_iff _ _) (OC X))) as RD. exists (r_insn r). split.
  { exact (cdp1802_round d ct ur RD CT mem addr size r (cdp1802_asm symbol function 10) smart uA indent gap b rest BM NE D E eq_refl eq_refl eq_refl UA AR BI BG NG BB LE SM). }
  destruct (cdp1802_accepts np_rca d ct ur RD CT mem addr size r BM NE D E) as (_ & p & o & nb & m & _ & _ & _ & _ & _ & RI & _). rewrite RI. auto.
Qed.
Print Assumptions C63_round_trip_partial.
(* an instruction of the CDP1804A with a prefix, a register and an address; a branch to the end of its page *)
Example C63_case : exists r q i,
  cdp1802_decode (cdp1802_dis true true false false false false 42 None) CDP1804A true [0x68; 0x2C; 0x12; 0x34; 9] 0x1000 128 = Val r /\
    i_err (r_insn r) = OK /\ r_name r = s2l "DBNZ" /\ r_operands r = s2l "R12, X'1234'" /\ i_code (r_insn r) = [0x68; 0x2C; 0x12; 0x34] /\
  cdp1802_decode (cdp1802_dis true true false false true false 42 None) CDP1802 false [0x3A; 0xFF] 0x10FE 128 = Val q /\
    i_err (r_insn q) = OK /\ r_name q = s2l "BNZ" /\ r_operands q = s2l "0x11FF" /\
  cdp1802_encode (cdp1802_asm (fun _ => None) (fun _ => None) 10) CDP1802 true true (s2l " BNZ 0x11FF ; x") 0x10FE = Val (L_insn i (s2l "; x")) /\
    i_err i = OK /\ i_code i = [0x3A; 0xFF].
Proof. do 3 eexists. repeat (split; [vm_compute; reflexivity|]). vm_compute. reflexivity. Qed.
(* in octal, the number 100 is printed for 64, and read as 100 *)
Theorem C63_octal_refuted : exists r i,
  cdp1802_decode (cdp1802_dis true true true false false false 42 None) CDP1802 true [0xF8; 64] 0 128 = Val r /\
    i_err (r_insn r) = OK /\ i_code (r_insn r) = [0xF8; 64] /\
  cdp1802_encode (cdp1802_asm (fun _ => None) (fun _ => None) 10) CDP1802 true false ([32] ++ r_name r ++ [32] ++ r_operands r) 0 = Val (L_insn i []) /\
    i_err i = OK /\ i_code i = [0xF8; 100].
Proof. do 2 eexists. split; [vm_compute; reflexivity|]. repeat (split; [vm_compute; reflexivity|]). vm_compute; reflexivity. Qed.
Print Assumptions C63_octal_refuted.
(* a branch in the last two bytes of the memory is accepted, and no line gives it back: neither the
   printed target nor any other is in the page that the assembler wants *)
Theorem C63_last_branch_refuted : exists r i,
  cdp1802_decode (cdp1802_dis true true false false false false 42 None) CDP1802 true [0x30; 0x12] 0xFFFE 128 = Val r /\
    i_err (r_insn r) = OK /\ r_operands r = s2l "X'0012'" /\
  cdp1802_encode (cdp1802_asm (fun _ => None) (fun _ => None) 10) CDP1802 true false ([32] ++ r_name r ++ [32] ++ r_operands r) 0xFFFE = Val (L_insn i []) /\
    i_err i = OVERWRAP_SEGMENT.
Proof. do 2 eexists. split; [vm_compute; reflexivity|]. repeat (split; [vm_compute; reflexivity|]). vm_compute; reflexivity. Qed.
Print Assumptions C63_last_branch_refuted.
(* told to choose the branches itself, the assembler shortens a long branch *)
Theorem C63_smart_refuted : exists r i,
  cdp1802_decode (cdp1802_dis true true false false false false 42 None) CDP1802 true [0xC0; 0x10; 0x20] 0x1000 128 = Val r /\
    i_err (r_insn r) = OK /\ i_code (r_insn r) = [0xC0; 0x10; 0x20] /\
  cdp1802_encode (cdp1802_asm (fun _ => None) (fun _ => None) 10) CDP1802 true true ([32] ++ r_name r ++ [32] ++ r_operands r) 0x1000 = Val (L_insn i []) /\
    i_err i = OK /\ i_code i = [0x30; 0x20].
Proof. do 2 eexists. split; [vm_compute; reflexivity|]. repeat (split; [vm_compute; reflexivity|]). vm_compute; reflexivity. Qed.
Print Assumptions C63_smart_refuted.
(* the other way round, what the assembler makes of NBR and NLBR is not the instruction for the
   disassembler: it takes the first byte alone *)
Theorem C63_nbr_refuted : exists i j r q,
  cdp1802_encode (cdp1802_asm (fun _ => None) (fun _ => None) 10) CDP1802 true false (s2l " NBR X'1020'") 0x1000 = Val (L_insn i []) /\ i_err i = OK /\ i_code i = [0x38; 0x20] /\
  cdp1802_encode (cdp1802_asm (fun _ => None) (fun _ => None) 10) CDP1802 true false (s2l " NLBR X'1020'") 0x1000 = Val (L_insn j []) /\ i_err j = OK /\ i_code j = [0xC8; 0x10; 0x20] /\
  cdp1802_decode (cdp1802_dis true true false false false false 42 None) CDP1802 true [0x38; 0x20] 0x1000 128 = Val r /\ i_err (r_insn r) = OK /\ i_code (r_insn r) = [0x38] /\
  cdp1802_decode (cdp1802_dis true true false false false false 42 None) CDP1802 true [0xC8; 0x10; 0x20] 0x1000 128 = Val q /\ i_err (r_insn q) = OK /\ i_code (r_insn q) = [0xC8].
Proof. do 4 eexists. repeat (split; [vm_compute; reflexivity|]). vm_compute; reflexivity. Qed.
Print Assumptions C63_nbr_refuted.

(* ------------------------------------------------------------ C64 *)
(* Decoding always ends with an instruction or an error, and the bytes it takes are the first of
   the memory, at most 4. *)
Theorem C64_total : forall ct ur uh uc oc rel cs ih mem addr size,
  let d := cdp1802_dis uh uc oc rel cs ih 42 None in
  In ct cdp_types -> bytes_only mem ->
  exists r, cdp1802_decode d ct ur mem addr size = Val r /\
    exists m, mem = i_code (r_insn r) ++ m /\ (length (i_code (r_insn r)) <= 4)%nat.
Proof.
  intros ct ur uh uc oc rel cs ih mem addr size d CT BM. destruct (cdp1802_printed uh uc oc rel cs ih 42) as (np & RD).
  destruct (cdp1802_total np d ct ur RD CT mem addr size BM) as (r & H). exists r. split; [exact H|].
  exact (cdp1802_within np d ct ur RD CT mem addr size r BM H).
Qed.
Print Assumptions C64_total.
(* An accepted instruction has 1 to 4 bytes, and what follows them in memory does not matter.
   Missing: empty memory, for which the claim is false (below). *)
Theorem C64_accepts_partial : forall ct ur uh uc oc rel cs ih mem addr size r,
  let d := cdp1802_dis uh uc oc rel cs ih 42 None in
  In ct cdp_types -> bytes_only mem -> mem <> [] ->
  cdp1802_decode d ct ur mem addr size = Val r -> i_err (r_insn r) = OK ->
  (1 <= length (i_code (r_insn r)) <= 4)%nat /\ (exists m, mem = i_code (r_insn r) ++ m) /\
  forall m, bytes_only m -> cdp1802_decode d ct ur (i_code (r_insn r) ++ m) addr size = Val r.
Proof.
  intros ct ur uh uc oc rel cs ih mem addr size r d CT BM NE D E. destruct (cdp1802_printed uh uc oc rel cs ih 42) as (np & RD).
  destruct (cdp1802_accepts np d ct ur RD CT mem addr size r BM NE D E) as (_ & p & o & nb & m & _ & _ & _ & M & L & RI & _ & X).
  rewrite RI, canon_code. rewrite app_assoc in M. split; [|split; [exists m; exact M|]].
  - split; [|exact L]. rewrite app_length. unfold opcode_bytes. destruct (negb _); cbn; lia.
  - intros m' BM'. rewrite <- app_assoc. exact (X m' BM').
Qed.
Print Assumptions C64_accepts_partial.
Example C64_case : exists r, cdp1802_decode (cdp1802_dis false false false false false false 42 None) CDP1802 true [0xC0; 1] 0 128 = Val r /\
  i_err (r_insn r) = NO_MEMORY /\ i_code (r_insn r) = [0xC0; 1].
Proof. eexists. split; [vm_compute; reflexivity|]. split; reflexivity. Qed.
(* from no memory, an instruction of no bytes: the error is forgotten when the opcode is searched *)
Theorem C64_empty_memory_refuted : exists r,
  cdp1802_decode (cdp1802_dis true true false false false false 42 None) CDP1802 true [] 0 128 = Val r /\
  i_err (r_insn r) = OK /\ i_code (r_insn r) = [] /\ r_name r = s2l "IDL".
Proof. eexists. split; [vm_compute; reflexivity|]. repeat split; reflexivity. Qed.
Print Assumptions C64_empty_memory_refuted.
(* with a symbol table, an address that has no symbol makes the disassembler shift by -1 *)
Theorem C64_symbol_table_refuted : exists table : value -> option text,
  cdp1802_decode (cdp1802_dis false false false false false false 42 (Some table)) CDP1802 true [0xC0; 0x34; 0x12] 0 128 = UB.
Proof. exists (fun _ => None). vm_compute. reflexivity. Qed.
Print Assumptions C64_symbol_table_refuted.

(* ------------------------------------------------------------ C65 *)
(* An immediate byte: the byte is the value modulo 256, and an error is reported exactly when the
   value is not one of a signed or unsigned byte. *)
Theorem C65_byte : forall f ct ur smart symbol function indent gap b0 s rest v addr,
  In ct cdp_types -> In f (byte_forms ct) ->
  blanks indent -> blanks gap -> gap <> [] -> blanks b0 -> 0 <= addr < 2^16 -> starts_number s -> line_end rest ->
  expression fam_1802 addr symbol function s rest v ->
  exists i, cdp1802_encode (cdp1802_asm symbol function 10) ct ur smart (indent ++ mnemonic f ++ gap ++ b0 ++ s) addr = Val (L_insn i rest) /\
    i_code i = prefix f ++ [opcode f; int_of v mod 256] /\ i_err i = if (-128 <=? int_of v) && (int_of v <=? 255) then OK else OVERFLOW_RANGE.
Proof.
  intros f ct ur sm symbol function indent gap b0 s rest v addr CT F BI BG NG B0 A SN LE (e & D & W & VS & OS & V & IV).
  exact (range_line symbol function indent gap b0 e s rest v addr ct ur sm CT BI BG NG B0 A D W VS OS V SN M_IMM8 (byte_forms ct) f _ _
    ltac:(cbn; auto 20) F LE (fun G => fin_imm8 sm addr f v G IV)).
Qed.
Print Assumptions C65_byte.
(* A register: one of 0 to 15. *)
Theorem C65_register : forall f ct ur smart symbol function indent gap b0 s rest v addr,
  In ct cdp_types -> In f (register_forms ct) ->
  blanks indent -> blanks gap -> gap <> [] -> blanks b0 -> 0 <= addr < 2^16 -> starts_number s -> line_end rest ->
  expression fam_1802 addr symbol function s rest v ->
  exists i, cdp1802_encode (cdp1802_asm symbol function 10) ct ur smart (indent ++ mnemonic f ++ gap ++ b0 ++ s) addr = Val (L_insn i rest) /\
    if (0 <=? int_of v) && (int_of v <=? 15) then i_err i = OK /\ i_code i = prefix f ++ [opcode f + int_of v] else i_err i = ILLEGAL_REGISTER.
Proof.
  intros f ct ur sm symbol function indent gap b0 s rest v addr CT F BI BG NG B0 A SN LE (e & D & W & VS & OS & V & IV).
  destruct (range_line symbol function indent gap b0 e s rest v addr ct ur sm CT BI BG NG B0 A D W VS OS V SN M_REGN (register_forms ct) f _ _
    ltac:(cbn; auto 20) F LE (fun G => fin_reg sm addr f v G IV (form_low ct CT M_REGN _ f ltac:(cbn; auto 20) F ltac:(cbn; auto)))) as (i & H & C & R).
  exists i. split; [exact H|]. unfold the_reg in C. destruct (_ && _); auto.
Qed.
Print Assumptions C65_register.
(* LDN: one of the registers 1 to 15. *)
Theorem C65_load : forall f ct ur smart symbol function indent gap b0 s rest v addr,
  In ct cdp_types -> In f load_forms ->
  blanks indent -> blanks gap -> gap <> [] -> blanks b0 -> 0 <= addr < 2^16 -> starts_number s -> line_end rest ->
  expression fam_1802 addr symbol function s rest v -> v_type v <> V_UNDEF ->
  exists i, cdp1802_encode (cdp1802_asm symbol function 10) ct ur smart (indent ++ mnemonic f ++ gap ++ b0 ++ s) addr = Val (L_insn i rest) /\
    if (1 <=? int_of v) && (int_of v <=? 15) then i_err i = OK /\ i_code i = prefix f ++ [opcode f + int_of v]
    else i_err i = if int_of v =? 0 then REGISTER_NOT_ALLOWED else ILLEGAL_REGISTER.
Proof.
  intros f ct ur sm symbol function indent gap b0 s rest v addr CT F BI BG NG B0 A SN LE (e & D & W & VS & OS & V & IV) U.
  destruct (range_line symbol function indent gap b0 e s rest v addr ct ur sm CT BI BG NG B0 A D W VS OS V SN M_REG1 load_forms f _ _
    ltac:(cbn; auto 20) F LE (fun G => fin_load sm addr f v G IV U (form_low ct CT M_REG1 _ f ltac:(cbn; auto 20) F ltac:(cbn; auto)))) as (i & H & C & R).
  exists i. split; [exact H|]. destruct (Z.eqb_spec (int_of v) 0) as [Q|Q]; [rewrite Q in *; exact R|]. destruct (_ && _); auto.
Qed.
Print Assumptions C65_load.
(* OUT and INP: one of the devices 1 to 7. *)
Theorem C65_device : forall f ct ur smart symbol function indent gap b0 s rest v addr,
  In ct cdp_types -> In f device_forms ->
  blanks indent -> blanks gap -> gap <> [] -> blanks b0 -> 0 <= addr < 2^16 -> starts_number s -> line_end rest ->
  expression fam_1802 addr symbol function s rest v -> v_type v <> V_UNDEF ->
  exists i, cdp1802_encode (cdp1802_asm symbol function 10) ct ur smart (indent ++ mnemonic f ++ gap ++ b0 ++ s) addr = Val (L_insn i rest) /\
    if (1 <=? int_of v) && (int_of v <=? 7) then i_err i = OK /\ i_code i = prefix f ++ [opcode f + int_of v] else i_err i = OPERAND_NOT_ALLOWED.
Proof.
  intros f ct ur sm symbol function indent gap b0 s rest v addr CT F BI BG NG B0 A SN LE (e & D & W & VS & OS & V & IV) U.
  destruct (range_line symbol function indent gap b0 e s rest v addr ct ur sm CT BI BG NG B0 A D W VS OS V SN M_IOAD device_forms f _ _
    ltac:(cbn; auto 20) F LE (fun G => fin_device sm addr f v G IV U (form_low ct CT M_IOAD _ f ltac:(cbn; auto 20) F ltac:(cbn; auto)))) as (i & H & C & R).
  exists i. split; [exact H|]. destruct (_ && _); auto.
Qed.
Print Assumptions C65_device.
(* A branch within a page: the byte is the low one of the target, and an error is reported exactly
   when the target is not in the page of the next instruction. *)
Theorem C65_page : forall f ct ur smart symbol function indent gap b0 s rest v addr,
  In ct cdp_types -> In f (page_forms ct) \/ In f short_forms /\ smart = false ->
  blanks indent -> blanks gap -> gap <> [] -> blanks b0 -> 0 <= addr < 2^16 -> starts_number s -> line_end rest ->
  expression fam_1802 addr symbol function s rest v -> 0 <= int_of v < 2^32 ->
  exists i, cdp1802_encode (cdp1802_asm symbol function 10) ct ur smart (indent ++ mnemonic f ++ gap ++ b0 ++ s) addr = Val (L_insn i rest) /\
    i_code i = prefix f ++ [opcode f; int_of v mod 256] /\ (i_err i = OK <-> int_of v < 65536 /\ same_page (int_of v) (addr + 2)).
Proof.
  intros f ct ur sm symbol function indent gap b0 s rest v addr CT F BI BG NG B0 A SN LE (e & D & W & VS & OS & V & IV) R.
  assert (X : exists m l, In (m, l) (all_forms ct) /\ In f l /\ (m = M_PAGE \/ m = M_SHRT /\ sm = false)).
  { destruct F as [F|(F & SM)]; [exists M_PAGE, (page_forms ct)|exists M_SHRT, short_forms]; cbn; auto 30. }
  destruct X as (m & l & IL & IF & M).
  destruct (range_line symbol function indent gap b0 e s rest v addr ct ur sm CT BI BG NG B0 A D W VS OS V SN m l f _ _
    IL IF LE (fun G => fin_page addr f v G IV A sm m M)) as (i & H & C & Q).
  exists i. split; [exact H|]. split; [exact C|]. rewrite Q. now apply page_ok.
Qed.
Print Assumptions C65_page.
(* A long branch: the two bytes of the target, and an error exactly when it has more. *)
Theorem C65_long : forall f ct ur smart symbol function indent gap b0 s rest v addr,
  In ct cdp_types -> In f address_forms \/ In f long_forms /\ smart = false ->
  blanks indent -> blanks gap -> gap <> [] -> blanks b0 -> 0 <= addr < 2^16 -> starts_number s -> line_end rest ->
  expression fam_1802 addr symbol function s rest v -> 0 <= int_of v < 2^32 ->
  exists i, cdp1802_encode (cdp1802_asm symbol function 10) ct ur smart (indent ++ mnemonic f ++ gap ++ b0 ++ s) addr = Val (L_insn i rest) /\
    i_code i = prefix f ++ [opcode f; int_of v / 256 mod 256; int_of v mod 256] /\ (i_err i = OK <-> int_of v < 65536).
Proof.
  intros f ct ur sm symbol function indent gap b0 s rest v addr CT F BI BG NG B0 A SN LE (e & D & W & VS & OS & V & IV) R.
  assert (X : exists m l, In (m, l) (all_forms ct) /\ In f l /\ (m = M_ADDR \/ m = M_LONG /\ sm = false)).
  { destruct F as [F|(F & SM)]; [exists M_ADDR, address_forms|exists M_LONG, long_forms]; cbn; auto 30. }
  destruct X as (m & l & IL & IF & M).
  destruct (range_line symbol function indent gap b0 e s rest v addr ct ur sm CT BI BG NG B0 A D W VS OS V SN m l f _ _
    IL IF LE (fun G => fin_long addr f v G IV sm m M)) as (i & H & C & Q).
  exists i. split; [exact H|]. split; [exact C|]. rewrite Q. exact (addr_ok addr v IV A R).
Qed.
Print Assumptions C65_long.
(* A register and a word: the word is taken modulo 65536, and an error is reported when the register
   is not one.
   Missing: an error when the word does not fit, which is not reported (below). *)
Theorem C65_double_partial : forall f ct ur smart symbol function indent gap b0 s v b1 s2 rest w addr,
  In ct cdp_types -> In f (double_forms ct) ->
  blanks indent -> blanks gap -> gap <> [] -> blanks b0 -> blanks b1 -> 0 <= addr < 2^16 -> starts_number s -> starts_number s2 -> line_end rest ->
  expression fam_1802 addr symbol function s (44 :: b1 ++ s2) v -> expression fam_1802 addr symbol function s2 rest w ->
  exists i, cdp1802_encode (cdp1802_asm symbol function 10) ct ur smart (indent ++ mnemonic f ++ gap ++ b0 ++ s) addr = Val (L_insn i rest) /\
    if (0 <=? int_of v) && (int_of v <=? 15) then i_err i = OK /\ i_code i = prefix f ++ [opcode f + int_of v; int_of w / 256 mod 256; int_of w mod 256]
    else i_err i = ILLEGAL_REGISTER.
Proof.
  intros f ct ur sm symbol function indent gap b0 s v b1 s2 rest w addr CT F BI BG NG B0 B1 A SN SN2 LE (e & D & W & VS & OS & V & IV) (e2 & D2 & W2 & VS2 & OS2 & V2 & IW).
  destruct (double_line symbol function indent gap b0 e s (44 :: b1 ++ s2) v addr ct ur sm CT BI BG NG B0 A D W VS OS V SN f b1 e2 s2 rest w F IV IW eq_refl B1 D2 W2 VS2 OS2 V2 SN2 LE) as (i & H & C & R).
  exists i. split; [exact H|]. unfold the_reg in C. destruct (_ && _); auto.
Qed.
Print Assumptions C65_double_partial.
(* the hypotheses are met: SEX STACK and B1 LOOP *)
Example C65_hypotheses : let symbol n := if list_eq_dec Z.eq_dec n (s2l "STACK") then Some (setUnsigned 2) else None in
  In ("SEX", [], 0xE0) (register_forms CDP1802) /\ starts_number (s2l "STACK") /\
  expression fam_1802 0x1000 symbol (fun _ => None) (s2l "STACK") [] (setUnsigned 2) /\
  exists i, cdp1802_encode (cdp1802_asm symbol (fun _ => None) 10) CDP1802 true false (s2l " SEX STACK") 0x1000 = Val (L_insn i []) /\
    i_err i = OK /\ i_code i = [0xE2].
Proof.
  cbv zeta. split; [cbn; auto 30|]. split.
  { split; [cbn; repeat split; discriminate|]. intros (c & n & z & E & C & _). injection E as <- _. destruct C; discriminate. }
  split.
  { exists (Sym (s2l "STACK") (setUnsigned 2)). split.
    { apply (D_sym fam_1802 _ (s2l "STACK") _ [] []); [cbn; auto| |reflexivity|reflexivity|reflexivity|reflexivity|apply Forall_nil|exact Logic.I].
      intros [(d & D & E & _)|K]; [|cbn in K; intuition discriminate].
      cbn in D. repeat (destruct D as [<-|D]; [discriminate E|]). destruct D. }
    split; [exact Logic.I|]. split; [cbn; lia|]. split; [cbn; lia|]. split; [reflexivity|]. vm_compute; intuition discriminate. }
  eexists. split; [vm_compute; reflexivity|]. split; reflexivity.
Qed.
Example C65_case : exists i j k l m,
  cdp1802_encode (cdp1802_asm (fun _ => None) (fun _ => None) 10) CDP1802 true false (s2l " LDI -129") 0 = Val (L_insn i []) /\ i_err i = OVERFLOW_RANGE /\ i_code i = [0xF8; 0x7F] /\
  cdp1802_encode (cdp1802_asm (fun _ => None) (fun _ => None) 10) CDP1802 true false (s2l " LDN 0") 0 = Val (L_insn j []) /\ i_err j = REGISTER_NOT_ALLOWED /\
  cdp1802_encode (cdp1802_asm (fun _ => None) (fun _ => None) 10) CDP1802 true false (s2l " OUT 4+4 ; x") 0 = Val (L_insn k (s2l "; x")) /\ i_err k = OPERAND_NOT_ALLOWED /\
  cdp1802_encode (cdp1802_asm (fun _ => None) (fun _ => None) 10) CDP1802 true false (s2l " B1 X'1100'") 0x1000 = Val (L_insn l []) /\ i_err l = OVERWRAP_SEGMENT /\
  cdp1802_encode (cdp1802_asm (fun _ => None) (fun _ => None) 10) CDP1804 true false (s2l " RLDI 2*7, X'1234'") 0 = Val (L_insn m []) /\ i_err m = OK /\ i_code m = [0x68; 0xCE; 0x12; 0x34].
Proof. do 5 eexists. repeat (split; [vm_compute; reflexivity|]). vm_compute; reflexivity. Qed.
(* words that do not fit are cut *)
Theorem C65_double_refuted : exists i j,
  cdp1802_encode (cdp1802_asm (fun _ => None) (fun _ => None) 10) CDP1804 true false (s2l " RLDI 4, X'12345'") 0 = Val (L_insn i []) /\ i_err i = OK /\ i_code i = [0x68; 0xC4; 0x23; 0x45] /\
  cdp1802_encode (cdp1802_asm (fun _ => None) (fun _ => None) 10) CDP1804 true false (s2l " SCAL 4, X'12345'") 0 = Val (L_insn j []) /\ i_err j = OK /\ i_code j = [0x68; 0x84; 0x23; 0x45].
Proof. do 2 eexists. repeat (split; [vm_compute; reflexivity|]). vm_compute; reflexivity. Qed.
Print Assumptions C65_double_refuted.

(* ------------------------------------------------------------ C66 *)
(* Told to choose the branches itself, the assembler gives the short branch of the condition
   whenever the target is in the page of the next instruction after a short branch, and the long
   one otherwise, whichever of the two was written; an error is reported exactly when the target is
   not an address. *)
Theorem C66_smart_branch : forall f ct ur symbol function indent gap b0 s rest v addr,
  In ct cdp_types -> In f short_forms \/ In f long_forms ->
  blanks indent -> blanks gap -> gap <> [] -> blanks b0 -> 0 <= addr < 2^16 -> starts_number s -> line_end rest ->
  expression fam_1802 addr symbol function s rest v -> 0 <= int_of v < 2^32 ->
  exists i, cdp1802_encode (cdp1802_asm symbol function 10) ct ur true (indent ++ mnemonic f ++ gap ++ b0 ++ s) addr = Val (L_insn i rest) /\
    (i_err i = OK <-> int_of v < 65536) /\
    (int_of v < 65536 -> same_page (int_of v) (addr + 2) -> i_code i = [0x30 + condition f; int_of v mod 256]) /\
    (int_of v < 65536 -> ~ same_page (int_of v) (addr + 2) -> i_code i = [0xC0 + condition f; int_of v / 256; int_of v mod 256]).
Proof.
  intros f ct ur symbol function indent gap b0 s rest v addr CT F BI BG NG B0 A SN LE (e & D & W & VS & OS & V & IV) R.
  assert (X : exists m l, In (m, l) (all_forms ct) /\ In f l /\ (m = M_SHRT \/ m = M_LONG)).
  { destruct F as [F|F]; [exists M_SHRT, short_forms|exists M_LONG, long_forms]; cbn; auto 30. }
  assert (PX : prefix f = []).
  { cbn in F. repeat match goal with H : _ \/ _ |- _ => destruct H end; subst; try reflexivity; contradiction. }
  destruct X as (m & l & IL & IF & M). pose proof (page_ok addr v IV A R) as P. pose proof (addr_ok addr v IV A R) as Q.
  destruct (isOK (checkAddr_in 16 (getUnsigned v) (addr + 2) 8 false)) eqn:K.
  - apply isOK_e in K. destruct (range_line symbol function indent gap b0 e s rest v addr ct ur true CT BI BG NG B0 A D W VS OS V SN m l f _ _
      IL IF LE (fun G => proj1 (fin_smart addr f v G IV A m M) K)) as (i & H & C & E).
    exists i. split; [exact H|]. rewrite E, C, PX. apply P in K. repeat split; tauto.
  - assert (K' : checkAddr_in 16 (getUnsigned v) (addr + 2) 8 false <> OK) by (intros Y; rewrite Y in K; discriminate).
    destruct (range_line symbol function indent gap b0 e s rest v addr ct ur true CT BI BG NG B0 A D W VS OS V SN m l f _ _
      IL IF LE (fun G => proj2 (fin_smart addr f v G IV A m M) K')) as (i & H & C & E).
    exists i. split; [exact H|]. rewrite E, C, PX. split; [exact Q|]. split; [tauto|]. intros Y _. cbn [app].
    rewrite (Z.mod_small (int_of v / 256)); [reflexivity|]. split; [apply Z.div_pos; lia|apply Z.div_lt_upper_bound; lia].
Qed.
Print Assumptions C66_smart_branch.
Example C66_case : exists i j k,
  cdp1802_encode (cdp1802_asm (fun _ => None) (fun _ => None) 10) CDP1802 true true (s2l " LBNZ X'10FF'") 0x1000 = Val (L_insn i []) /\ i_err i = OK /\ i_code i = [0x3A; 0xFF] /\
  cdp1802_encode (cdp1802_asm (fun _ => None) (fun _ => None) 10) CDP1802 true true (s2l " BNZ X'1100'") 0x1000 = Val (L_insn j []) /\ i_err j = OK /\ i_code j = [0xCA; 0x11; 0] /\
  cdp1802_encode (cdp1802_asm (fun _ => None) (fun _ => None) 10) CDP1802 true true (s2l " BNZ X'1100'") 0x10FE = Val (L_insn k []) /\ i_err k = OK /\ i_code k = [0x3A; 0].
Proof. do 3 eexists. repeat (split; [vm_compute; reflexivity|]). vm_compute; reflexivity. Qed.
