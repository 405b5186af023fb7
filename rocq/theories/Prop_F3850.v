(** C54, C55, C56: the F8. *)
From Coq Require Import String ZArith List Bool Lia.
From Verif Require Import M_Char M_Error M_Value M_Text M_StrBuffer M_Format M_Number M_Insn M_Config M_Operators
  M_Parsers M_Expr M_Directive M_Table M_Asm M_Dis M_F3850Defs T_F3850 M_F3850
  S_Value S_Insn S_Expr S_ExprTree S_Table S_Cpu S_F3850 P_Insn P_Config P_ExprCase P_AsmText P_CpuShape P_CpuGood P_F3850 P_F3850Range.
Import ListNotations.
Open Scope string_scope.
Open Scope list_scope.
Local Open Scope Z_scope.

(* ------------------------------------------------------------ C54 *)
(* Whatever the disassembler accepts, in any letter case, number notation and output buffer size,
   with absolute or relative branch targets, is a line that the assembler turns back into the same
   bytes, wherever the blanks are and whatever the symbols, the functions and the comment. *)
Theorem C54_round_trip : forall uh uc oc rel cs ih cur mem addr size r symbol function indent gap b rest,
  let d := f3850_dis uh uc oc rel cs ih cur None in
  bytes_only mem -> mem <> [] -> 0 <= addr < 2^32 ->
  (rel = true -> In cur (s2l "*$.")) ->
  f3850_decode d mem addr size = Val r -> i_err (r_insn r) = OK ->
  blanks indent -> blanks gap -> gap <> [] \/ r_operands r = [] -> blanks b -> line_end rest ->
  exists i, f3850_encode (f3850_asm symbol function 10)
      (indent ++ r_name r ++ gap ++ r_operands r ++ b ++ rest) addr = Val (L_insn i rest) /\
    i_err i = OK /\ i_code i = i_code (r_insn r) /\ i_addr i = addr.
Proof.
  intros uh uc oc rel cs ih cur mem addr size r symbol function indent gap b rest d BM NE AR CU D E BI BG NG BB LE.
  pose proof (f3850_reads uh uc oc rel cs ih cur CU) as RD. exists (r_insn r). split.
  { exact (f3850_round d RD mem addr size r (f3850_asm symbol function 10) indent gap b rest BM NE D E eq_refl eq_refl eq_refl AR BI BG NG BB LE). }
  destruct (f3850_accepts d RD mem addr size r BM NE D E) as (_ & o & nb & m & _ & _ & _ & RI & _). rewrite RI. auto.
Qed.
Print Assumptions C54_round_trip.
(* a branch on a condition mask, its target relative to the location *)
Example C54_case :
  exists r, f3850_decode (f3850_dis true true false true false false 36 None) [0x97; 0xFE; 7] 0x1000 128 = Val r /\
    i_err (r_insn r) = OK /\ r_name r = s2l "BF" /\ r_operands r = s2l "7, $-1" /\ i_code (r_insn r) = [0x97; 0xFE] /\
    exists i, f3850_encode (f3850_asm (fun _ => None) (fun _ => None) 10) (s2l " BF 7, $-1 ; x") 0x1000 = Val (L_insn i (s2l "; x")) /\
      i_err i = OK /\ i_code i = [0x97; 0xFE].
Proof.
  eexists. split; [vm_compute; reflexivity|]. do 4 (split; [reflexivity|]). eexists. split; [vm_compute; reflexivity|]. split; reflexivity.
Qed.
(* a lower case, C style one *)
Example C54_case_lower :
  exists r, f3850_decode (f3850_dis false false false false true false 42 None) [0x29; 0xAB; 0xCD] 0 128 = Val r /\
    i_err (r_insn r) = OK /\ r_name r = s2l "jmp" /\ r_operands r = s2l "0xabcd".
Proof. eexists. split; [vm_compute; reflexivity|]. repeat split; reflexivity. Qed.

(* ------------------------------------------------------------ C55 *)
(* Decoding always ends with an instruction or an error, and the bytes it takes are the first of
   the memory, at most 3. *)
Theorem C55_total : forall uh uc oc rel cs ih cur mem addr size,
  let d := f3850_dis uh uc oc rel cs ih cur None in
  (rel = true -> In cur (s2l "*$.")) -> bytes_only mem ->
  exists r, f3850_decode d mem addr size = Val r /\
    exists m, mem = i_code (r_insn r) ++ m /\ (length (i_code (r_insn r)) <= 3)%nat.
Proof.
  intros uh uc oc rel cs ih cur mem addr size d CU BM. pose proof (f3850_reads uh uc oc rel cs ih cur CU) as RD.
  destruct (f3850_total d RD mem addr size BM) as (r & H). exists r. split; [exact H|].
  exact (f3850_within d RD mem addr size r BM H).
Qed.
Print Assumptions C55_total.
(* An accepted instruction has 1 to 3 bytes, and what follows them in memory does not matter.
   Missing: empty memory, for which the claim is false (below). *)
Theorem C55_accepts_partial : forall uh uc oc rel cs ih cur mem addr size r,
  let d := f3850_dis uh uc oc rel cs ih cur None in
  (rel = true -> In cur (s2l "*$.")) -> bytes_only mem -> mem <> [] ->
  f3850_decode d mem addr size = Val r -> i_err (r_insn r) = OK ->
  (1 <= length (i_code (r_insn r)) <= 3)%nat /\ (exists m, mem = i_code (r_insn r) ++ m) /\
  forall m, bytes_only m -> f3850_decode d (i_code (r_insn r) ++ m) addr size = Val r.
Proof.
  intros uh uc oc rel cs ih cur mem addr size r d CU BM NE D E. pose proof (f3850_reads uh uc oc rel cs ih cur CU) as RD.
  destruct (f3850_accepts d RD mem addr size r BM NE D E) as (_ & o & nb & m & _ & M & L & RI & _ & X).
  rewrite RI, canon_code. split; [|split; [exists m; exact M|exact X]].
  split; [cbn; lia|exact L].
Qed.
Print Assumptions C55_accepts_partial.
Example C55_case : exists r, f3850_decode (f3850_dis false false false false false false 42 None) [0x28; 1] 0 128 = Val r /\
  i_err (r_insn r) = NO_MEMORY /\ i_code (r_insn r) = [0x28; 1].
Proof. eexists. split; [vm_compute; reflexivity|]. split; reflexivity. Qed.
(* from no memory, an instruction of no bytes: the error is forgotten when the opcode is searched *)
Theorem C55_empty_memory_refuted : exists r,
  f3850_decode (f3850_dis true true false false false false 42 None) [] 0 128 = Val r /\
  i_err (r_insn r) = OK /\ i_code (r_insn r) = [] /\ r_name r = s2l "LR" /\ r_operands r = s2l "A, KU".
Proof. eexists. split; [vm_compute; reflexivity|]. repeat split; reflexivity. Qed.
Print Assumptions C55_empty_memory_refuted.
(* with a symbol table, an address that has no symbol makes the disassembler shift by -1 *)
Theorem C55_symbol_table_refuted : exists table : value -> option text,
  f3850_decode (f3850_dis false false false false false false 42 (Some table)) [0x29; 0x34; 0x12] 0 128 = UB.
Proof. exists (fun _ => None). vm_compute. reflexivity. Qed.
Print Assumptions C55_symbol_table_refuted.

(* ------------------------------------------------------------ C56 *)
(* A branch: the byte is the distance from the byte itself, and an error is reported exactly when
   the target is not an address within -128..127 of there. *)
Theorem C56_branch : forall f symbol function indent gap b0 s rest v addr,
  In f branch_forms ->
  blanks indent -> blanks gap -> gap <> [] -> blanks b0 -> 0 <= addr < 2^16 -> starts_number s -> line_end rest ->
  expression fam_3850 addr symbol function s rest v ->
  0 <= int_of v < 2^32 ->
  exists i, f3850_encode (f3850_asm symbol function 10) (indent ++ s2l (fst f) ++ gap ++ b0 ++ s) addr = Val (L_insn i rest) /\
    i_code i = [snd f; (int_of v - (addr + 1)) mod 256] /\ (i_err i = OK <-> int_of v < 65536 /\ -128 <= int_of v - (addr + 1) <= 127).
Proof.
  intros f symbol function indent gap b0 s rest v addr F BI BG NG B0 A SN LE (e & D & W & VS & OS & V & IV) R.
  refine (range_line symbol function indent gap b0 e s rest v addr BI BG NG B0 A D W VS OS V IV LE SN M_REL branch_forms f
    (fun i => i_code i = [snd f; (int_of v - (addr + 1)) mod 256] /\ (i_err i = OK <-> int_of v < 65536 /\ -128 <= int_of v - (addr + 1) <= 127)) ltac:(cbn; auto 20) F _).
  intros om O. pose proof (fin_branch addr (snd f) v om O IV ltac:(lia)) as H. rewrite (Z.mod_small (int_of v) (2^32)) in H by exact R. exact H.
Qed.
Print Assumptions C56_branch.
(* the hypotheses are met: BNZ LOOP *)
Example C56_branch_case : let symbol n := if list_eq_dec Z.eq_dec n (s2l "LOOP") then Some (setUnsigned 0xF81) else None in
  In ("BNZ", 0x94) branch_forms /\ starts_number (s2l "LOOP") /\
  expression fam_3850 0x1000 symbol (fun _ => None) (s2l "LOOP") [] (setUnsigned 0xF81) /\
  exists i, f3850_encode (f3850_asm symbol (fun _ => None) 10) (s2l " BNZ LOOP") 0x1000 = Val (L_insn i []) /\
    i_err i = OK /\ i_code i = [0x94; 0x80].
Proof.
  cbv zeta. split; [cbn; auto 20|]. split.
  { split; [reflexivity|]. intros n I H. cbn in I. unfold leading_word, same_name in H.
    repeat (destruct I as [<-|I]; [cbn in H; repeat (inversion H; subst; clear H; match goal with X : Forall2 _ _ _ |- _ => rename X into H end); inversion H|]). destruct I. }
  split.
  { exists (Sym (s2l "LOOP") (setUnsigned 0xF81)). split.
    { apply (D_sym fam_3850 _ (s2l "LOOP") _ [] []); [cbn; auto| |reflexivity|reflexivity|reflexivity|reflexivity|apply Forall_nil|exact Logic.I].
      intros [(d & D & E & _)|K]; [|cbn in K; intuition discriminate].
      cbn in D. repeat (destruct D as [<-|D]; [discriminate E|]). destruct D. }
    split; [exact Logic.I|]. split; [cbn; lia|]. split; [cbn; lia|]. split; [reflexivity|]. vm_compute; intuition discriminate. }
  eexists. split; [vm_compute; reflexivity|]. split; reflexivity.
Qed.
(* An immediate byte: the byte is the value modulo 256, and an error is reported exactly when the
   value is not one of a signed or unsigned byte. *)
Theorem C56_byte : forall f symbol function indent gap b0 s rest v addr,
  In f byte_forms ->
  blanks indent -> blanks gap -> gap <> [] -> blanks b0 -> 0 <= addr < 2^16 -> starts_number s -> line_end rest ->
  expression fam_3850 addr symbol function s rest v ->
  exists i, f3850_encode (f3850_asm symbol function 10) (indent ++ s2l (fst f) ++ gap ++ b0 ++ s) addr = Val (L_insn i rest) /\
    i_code i = [snd f; int_of v mod 256] /\ i_err i = if (-128 <=? int_of v) && (int_of v <=? 255) then OK else OVERFLOW_RANGE.
Proof.
  intros f symbol function indent gap b0 s rest v addr F BI BG NG B0 A SN LE (e & D & W & VS & OS & V & IV).
  refine (range_line symbol function indent gap b0 e s rest v addr BI BG NG B0 A D W VS OS V IV LE SN M_IM8 byte_forms f
    (fun i => i_code i = [snd f; int_of v mod 256] /\ i_err i = if (-128 <=? int_of v) && (int_of v <=? 255) then OK else OVERFLOW_RANGE) ltac:(cbn; auto 20) F _).
  intros om O. exact (fin_imm8 addr (snd f) om v O IV).
Qed.
Print Assumptions C56_byte.
(* A port of the long form: those of the short form, 0 to 3, are errors.
   Missing: the negative numbers that fit in a byte are accepted (below). *)
Theorem C56_port_partial : forall f symbol function indent gap b0 s rest v addr,
  In f port_forms ->
  blanks indent -> blanks gap -> gap <> [] -> blanks b0 -> 0 <= addr < 2^16 -> starts_number s -> line_end rest ->
  expression fam_3850 addr symbol function s rest v ->
  exists i, f3850_encode (f3850_asm symbol function 10) (indent ++ s2l (fst f) ++ gap ++ b0 ++ s) addr = Val (L_insn i rest) /\
    i_code i = [snd f; int_of v mod 256] /\ (i_err i = OK <-> -128 <= int_of v <= 255 /\ ~ 0 <= int_of v <= 3).
Proof.
  intros f symbol function indent gap b0 s rest v addr F BI BG NG B0 A SN LE (e & D & W & VS & OS & V & IV).
  refine (range_line symbol function indent gap b0 e s rest v addr BI BG NG B0 A D W VS OS V IV LE SN M_IOA port_forms f
    (fun i => i_code i = [snd f; int_of v mod 256] /\ (i_err i = OK <-> -128 <= int_of v <= 255 /\ ~ 0 <= int_of v <= 3)) ltac:(cbn; auto 20) F _).
  intros om O. exact (fin_port addr (snd f) om v O IV).
Qed.
Print Assumptions C56_port_partial.
(* An address: its two bytes.  Missing: a value that is not an address is not reported (below). *)
Theorem C56_address_partial : forall f symbol function indent gap b0 s rest v addr,
  In f address_forms ->
  blanks indent -> blanks gap -> gap <> [] -> blanks b0 -> 0 <= addr < 2^16 -> starts_number s -> line_end rest ->
  expression fam_3850 addr symbol function s rest v ->
  0 <= int_of v < 65536 ->
  exists i, f3850_encode (f3850_asm symbol function 10) (indent ++ s2l (fst f) ++ gap ++ b0 ++ s) addr = Val (L_insn i rest) /\
    i_code i = [snd f; int_of v / 256; int_of v mod 256] /\ i_err i = OK.
Proof.
  intros f symbol function indent gap b0 s rest v addr F BI BG NG B0 A SN LE (e & D & W & VS & OS & V & IV) R.
  refine (range_line symbol function indent gap b0 e s rest v addr BI BG NG B0 A D W VS OS V IV LE SN M_ADDR address_forms f
    (fun i => i_code i = [snd f; int_of v / 256; int_of v mod 256] /\ i_err i = OK) ltac:(cbn; auto 20) F _).
  intros om O. pose proof (fin_addr addr (snd f) om v O IV) as H.
  rewrite (Z.mod_small (int_of v / 256)) in H; [exact H|]. split; [apply Z.div_pos; lia|apply Z.div_lt_upper_bound; lia].
Qed.
Print Assumptions C56_address_partial.
(* Within the opcode: a number of 3 bits. *)
Theorem C56_octal : forall f symbol function indent gap b0 s rest v addr,
  In f octal_forms ->
  blanks indent -> blanks gap -> gap <> [] -> blanks b0 -> 0 <= addr < 2^16 -> starts_number s -> line_end rest ->
  expression fam_3850 addr symbol function s rest v ->
  exists i, f3850_encode (f3850_asm symbol function 10) (indent ++ s2l (fst f) ++ gap ++ b0 ++ s) addr = Val (L_insn i rest) /\
    i_code i = [snd f + int_of v mod 8] /\ (i_err i = OK <-> 0 <= int_of v <= 7).
Proof.
  intros f symbol function indent gap b0 s rest v addr F BI BG NG B0 A SN LE (e & D & W & VS & OS & V & IV).
  exact (range_in symbol function indent gap b0 e s rest v addr BI BG NG B0 A D W VS OS V IV LE SN M_IM3 octal_forms f ltac:(cbn; auto 20) ltac:(cbn; auto) F).
Qed.
Print Assumptions C56_octal.
(* Within the opcode: a number of 4 bits. *)
Theorem C56_nibble : forall f symbol function indent gap b0 s rest v addr,
  In f nibble_forms ->
  blanks indent -> blanks gap -> gap <> [] -> blanks b0 -> 0 <= addr < 2^16 -> starts_number s -> line_end rest ->
  expression fam_3850 addr symbol function s rest v ->
  exists i, f3850_encode (f3850_asm symbol function 10) (indent ++ s2l (fst f) ++ gap ++ b0 ++ s) addr = Val (L_insn i rest) /\
    i_code i = [snd f + int_of v mod 16] /\ (i_err i = OK <-> 0 <= int_of v <= 15).
Proof.
  intros f symbol function indent gap b0 s rest v addr F BI BG NG B0 A SN LE (e & D & W & VS & OS & V & IV).
  exact (range_in symbol function indent gap b0 e s rest v addr BI BG NG B0 A D W VS OS V IV LE SN M_IM4 nibble_forms f ltac:(cbn; auto 20) ltac:(cbn; auto) F).
Qed.
Print Assumptions C56_nibble.
(* Within the opcode: a port of the short form, where 2 and 3 do not exist. *)
Theorem C56_short_port : forall f symbol function indent gap b0 s rest v addr,
  In f short_forms ->
  blanks indent -> blanks gap -> gap <> [] -> blanks b0 -> 0 <= addr < 2^16 -> starts_number s -> line_end rest ->
  expression fam_3850 addr symbol function s rest v ->
  exists i, f3850_encode (f3850_asm symbol function 10) (indent ++ s2l (fst f) ++ gap ++ b0 ++ s) addr = Val (L_insn i rest) /\
    i_code i = [snd f + int_of v mod 16] /\ (i_err i = OK <-> 0 <= int_of v <= 15 /\ int_of v <> 2 /\ int_of v <> 3).
Proof.
  intros f symbol function indent gap b0 s rest v addr F BI BG NG B0 A SN LE (e & D & W & VS & OS & V & IV).
  exact (range_in symbol function indent gap b0 e s rest v addr BI BG NG B0 A D W VS OS V IV LE SN M_IOS short_forms f ltac:(cbn; auto 20) ltac:(cbn; auto) F).
Qed.
Print Assumptions C56_short_port.
(* Within the opcode: the number of a scratchpad register, where 15 does not exist. *)
Theorem C56_register : forall f symbol function indent gap b0 s rest v addr,
  In f register_forms ->
  blanks indent -> blanks gap -> gap <> [] -> blanks b0 -> 0 <= addr < 2^16 -> starts_number s -> line_end rest ->
  expression fam_3850 addr symbol function s rest v ->
  exists i, f3850_encode (f3850_asm symbol function 10) (indent ++ s2l (fst f) ++ gap ++ b0 ++ s) addr = Val (L_insn i rest) /\
    i_code i = [snd f + int_of v mod 16] /\ (i_err i = OK <-> 0 <= int_of v <= 14).
Proof.
  intros f symbol function indent gap b0 s rest v addr F BI BG NG B0 A SN LE (e & D & W & VS & OS & V & IV).
  exact (range_in symbol function indent gap b0 e s rest v addr BI BG NG B0 A D W VS OS V IV LE SN M_REG register_forms f ltac:(cbn; auto 20) ltac:(cbn; auto) F).
Qed.
Print Assumptions C56_register.
(* A shift is by 1 or by 4. *)
Theorem C56_shift : forall f symbol function indent gap b0 s rest v addr,
  In f shift_forms ->
  blanks indent -> blanks gap -> gap <> [] -> blanks b0 -> 0 <= addr < 2^16 -> starts_number s -> line_end rest ->
  expression fam_3850 addr symbol function s rest v ->
  -2^31 <= int_of v < 2^32 ->
  exists i, f3850_encode (f3850_asm symbol function 10) (indent ++ s2l (fst f) ++ gap ++ b0 ++ s) addr = Val (L_insn i rest) /\
    i_code i = [if int_of v =? 4 then snd f + 2 else snd f] /\ (i_err i = OK <-> int_of v = 1 \/ int_of v = 4).
Proof.
  intros f symbol function indent gap b0 s rest v addr F BI BG NG B0 A SN LE (e & D & W & VS & OS & V & IV) R.
  refine (range_line symbol function indent gap b0 e s rest v addr BI BG NG B0 A D W VS OS V IV LE SN M_C1 shift_forms f
    (fun i => i_code i = [if int_of v =? 4 then snd f + 2 else snd f] /\ (i_err i = OK <-> int_of v = 1 \/ int_of v = 4)) ltac:(cbn; auto 20) F _).
  intros om O. apply fin_shift; auto. cbn in F. destruct F as [<-|[<-|[]]]; cbn; unfold byte; lia.
Qed.
Print Assumptions C56_shift.
Example C56_case : exists i j k l,
  f3850_encode (f3850_asm (fun _ => None) (fun _ => None) 10) (s2l " LI -128") 0 = Val (L_insn i []) /\ i_err i = OK /\ i_code i = [0x20; 0x80] /\
  f3850_encode (f3850_asm (fun _ => None) (fun _ => None) 10) (s2l " OUTS 3") 0 = Val (L_insn j []) /\ i_err j = OPERAND_NOT_ALLOWED /\
  f3850_encode (f3850_asm (fun _ => None) (fun _ => None) 10) (s2l " LISL 2*4 ; x") 0 = Val (L_insn k (s2l "; x")) /\ i_err k = OVERFLOW_RANGE /\
  f3850_encode (f3850_asm (fun _ => None) (fun _ => None) 10) (s2l " SL 2+2") 0 = Val (L_insn l []) /\ i_err l = OK /\ i_code l = [0x15].
Proof. do 4 eexists. repeat (split; [vm_compute; reflexivity|]). vm_compute; reflexivity. Qed.
(* addresses that do not fit are cut, and a negative number is taken as a port *)
Theorem C56_address_refuted : exists i j,
  f3850_encode (f3850_asm (fun _ => None) (fun _ => None) 10) (s2l " JMP $12345") 0 = Val (L_insn i []) /\ i_err i = OK /\ i_code i = [0x29; 0x23; 0x45] /\
  f3850_encode (f3850_asm (fun _ => None) (fun _ => None) 10) (s2l " OUT -1") 0 = Val (L_insn j []) /\ i_err j = OK /\ i_code j = [0x27; 0xFF].
Proof. do 2 eexists. repeat (split; [vm_compute; reflexivity|]). vm_compute; reflexivity. Qed.
Print Assumptions C56_address_refuted.
