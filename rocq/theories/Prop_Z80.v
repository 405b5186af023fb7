(** C57, C58, C59: the Z80. *)
From Coq Require Import String ZArith List Bool Lia ZifyBool.
From Verif Require Import M_Char M_Error M_Value M_Text M_StrBuffer M_Format M_Number M_Insn M_Config M_Operators
  M_Parsers M_Expr M_Directive M_Table M_Asm M_Dis M_Z80Defs T_Z80 M_Z80
  S_Value S_Insn S_Expr S_ExprTree S_Table S_Cpu S_Z80 P_Insn P_Config P_ExprCase P_AsmText P_CpuShape P_CpuGood P_Z80 P_Z80Range.
Import ListNotations.
Open Scope string_scope.
Open Scope list_scope.
Local Open Scope Z_scope.

(* ------------------------------------------------------------ C57 *)
(* Whatever the disassembler accepts, in any letter case, number notation and output buffer size,
   with absolute or relative branch targets, is a line that the assembler turns back into the same
   bytes, wherever the blanks are and whatever the symbols, the functions and the comment. *)
Theorem C57_round_trip : forall uh uc oc rel cs ih cur mem addr size r symbol function indent gap b rest,
  let d := z80_dis uh uc oc rel cs ih cur None in
  bytes_only mem -> mem <> [] -> 0 <= addr < 2^32 ->
  (rel = true -> [cur] = s2l "$") ->
  z80_decode d mem addr size = Val r -> i_err (r_insn r) = OK ->
  blanks indent -> blanks gap -> gap <> [] \/ r_operands r = [] -> blanks b -> line_end rest ->
  exists i, z80_encode (z80_asm symbol function 10)
      (indent ++ r_name r ++ gap ++ r_operands r ++ b ++ rest) addr = Val (L_insn i rest) /\
    i_err i = OK /\ i_code i = i_code (r_insn r) /\ i_addr i = addr.
Proof.
  intros uh uc oc rel cs ih cur mem addr size r symbol function indent gap b rest d BM NE AR CU D E BI BG NG BB LE.
  assert (RD : reads_as d). { apply z80_reads. intros H. specialize (CU H). now injection CU. }
  exists (r_insn r). split.
  { exact (z80_round d RD mem addr size r (z80_asm symbol function 10) indent gap b rest BM NE D E eq_refl eq_refl eq_refl AR BI BG NG BB LE). }
  destruct (z80_accepts d RD mem addr size r BM NE D E) as (_ & p & o & nb & m & _ & _ & _ & _ & RI & _). rewrite RI. auto.
Qed.
Print Assumptions C57_round_trip.
(* a bit of a byte at an index register *)
Example C57_case :
  exists r, z80_decode (z80_dis true true false true false false 36 None) [0xDD; 0xCB; 0x80; 0x7E; 7] 0x1000 128 = Val r /\
    i_err (r_insn r) = OK /\ r_name r = s2l "BIT" /\ r_operands r = s2l "7, (IX-128)" /\ i_code (r_insn r) = [0xDD; 0xCB; 0x80; 0x7E] /\
    exists i, z80_encode (z80_asm (fun _ => None) (fun _ => None) 10) (s2l " BIT 7, (IX-128) ; x") 0x1000 = Val (L_insn i (s2l "; x")) /\
      i_err i = OK /\ i_code i = [0xDD; 0xCB; 0x80; 0x7E].
Proof.
  eexists. split; [vm_compute; reflexivity|]. do 4 (split; [reflexivity|]). eexists. split; [vm_compute; reflexivity|]. split; reflexivity.
Qed.
(* a branch, its target relative to the location *)
Example C57_case_relative :
  exists r, z80_decode (z80_dis false false false true false false 36 None) [0x38; 0xFE] 0x8000 128 = Val r /\
    i_err (r_insn r) = OK /\ r_name r = s2l "jr" /\ r_operands r = s2l "c, $".
Proof. eexists. split; [vm_compute; reflexivity|]. repeat split; reflexivity. Qed.

(* ------------------------------------------------------------ C58 *)
(* Decoding always ends with an instruction or an error, and the bytes it takes are the first of
   the memory, at most 4. *)
Theorem C58_total : forall uh uc oc rel cs ih cur mem addr size,
  let d := z80_dis uh uc oc rel cs ih cur None in
  (rel = true -> [cur] = s2l "$") -> bytes_only mem ->
  exists r, z80_decode d mem addr size = Val r /\
    exists m, mem = i_code (r_insn r) ++ m /\ (length (i_code (r_insn r)) <= 4)%nat.
Proof.
  intros uh uc oc rel cs ih cur mem addr size d CU BM.
  assert (RD : reads_as d). { apply z80_reads. intros H. specialize (CU H). now injection CU. }
  destruct (z80_total d RD mem addr size BM) as (r & H). exists r. split; [exact H|].
  exact (z80_within d RD mem addr size r BM H).
Qed.
Print Assumptions C58_total.
(* An accepted instruction has 1 to 4 bytes, and what follows them in memory does not matter.
   Missing: empty memory, for which the claim is false (below). *)
Theorem C58_accepts_partial : forall uh uc oc rel cs ih cur mem addr size r,
  let d := z80_dis uh uc oc rel cs ih cur None in
  (rel = true -> [cur] = s2l "$") -> bytes_only mem -> mem <> [] ->
  z80_decode d mem addr size = Val r -> i_err (r_insn r) = OK ->
  (1 <= length (i_code (r_insn r)) <= 4)%nat /\ (exists m, mem = i_code (r_insn r) ++ m) /\
  forall m, bytes_only m -> z80_decode d (i_code (r_insn r) ++ m) addr size = Val r.
Proof.
  intros uh uc oc rel cs ih cur mem addr size r d CU BM NE D E.
  assert (RD : reads_as d). { apply z80_reads. intros H. specialize (CU H). now injection CU. }
  destruct (z80_accepts d RD mem addr size r BM NE D E) as (_ & p & o & nb & m & _ & _ & M & L & RI & _ & X).
  rewrite RI, canon_code. split; [|split; [exists m; exact M|exact X]].
  split; [unfold opcode_bytes; destruct (p =? 0); cbn; lia|exact L].
Qed.
Print Assumptions C58_accepts_partial.
(* a prefix of one page before that of another is no instruction *)
Example C58_case : exists r s, z80_decode (z80_dis false false false false false false 36 None) [0xDD; 0xCB; 1] 0 128 = Val r /\
  i_err (r_insn r) = NO_MEMORY /\ i_code (r_insn r) = [0xDD; 0xCB; 1] /\
  z80_decode (z80_dis false false false false false false 36 None) [0xDD; 0xDD; 0x21] 0 128 = Val s /\
  i_err (r_insn s) = UNKNOWN_INSTRUCTION.
Proof. do 2 eexists. split; [vm_compute; reflexivity|]. split; [reflexivity|]. split; [reflexivity|]. split; vm_compute; reflexivity. Qed.
(* from no memory, an instruction of no bytes: the error is forgotten when the opcode is searched *)
Theorem C58_empty_memory_refuted : exists r,
  z80_decode (z80_dis true true false false false false 36 None) [] 0 128 = Val r /\
  i_err (r_insn r) = OK /\ i_code (r_insn r) = [] /\ r_name r = s2l "NOP" /\ r_operands r = [].
Proof. eexists. split; [vm_compute; reflexivity|]. repeat split; reflexivity. Qed.
Print Assumptions C58_empty_memory_refuted.
(* with a symbol table, an address that has no symbol makes the disassembler shift by -1 *)
Theorem C58_symbol_table_refuted : exists table : value -> option text,
  z80_decode (z80_dis false false false false false false 36 (Some table)) [0x3A; 0x34; 0x12] 0 128 = UB.
Proof. exists (fun _ => None). vm_compute. reflexivity. Qed.
Print Assumptions C58_symbol_table_refuted.

(* ------------------------------------------------------------ C59 *)
(* An immediate byte: the byte is the value modulo 256, and an error is reported exactly when the
   value is not one of a signed or unsigned byte. *)
Theorem C59_byte : forall f symbol function indent gap b0 t rest v addr,
  In f byte_forms ->
  blanks indent -> blanks gap -> gap <> [] -> blanks b0 -> 0 <= addr < 2^16 -> line_end rest ->
  operands_text addr symbol function f t rest v v ->
  exists i, z80_encode (z80_asm symbol function 10) (indent ++ s2l (fm_name f) ++ gap ++ b0 ++ t) addr = Val (L_insn i rest) /\
    i_code i = fm_code f ++ [int_of v mod 256] /\ i_err i = if (-128 <=? int_of v) && (int_of v <=? 255) then OK else OVERFLOW_RANGE.
Proof.
  intros f symbol function indent gap b0 t rest v addr F BI BG NG B0 A LE OT. pose proof plain_forms as P. rewrite !andb_true_iff in P.
  exact (one_plain symbol function indent gap b0 t rest v addr f M_IM8 byte_forms BI BG NG B0 A LE OT ltac:(tauto) F).
Qed.
Print Assumptions C59_byte.
(* A port: from 0 to 255. *)
Theorem C59_port : forall f symbol function indent gap b0 t rest v addr,
  In f port_forms ->
  blanks indent -> blanks gap -> gap <> [] -> blanks b0 -> 0 <= addr < 2^16 -> line_end rest ->
  operands_text addr symbol function f t rest v v ->
  exists i, z80_encode (z80_asm symbol function 10) (indent ++ s2l (fm_name f) ++ gap ++ b0 ++ t) addr = Val (L_insn i rest) /\
    i_code i = fm_code f ++ [int_of v mod 256] /\ i_err i = if (0 <=? int_of v) && (int_of v <=? 255) then OK else OVERFLOW_RANGE.
Proof.
  intros f symbol function indent gap b0 t rest v addr F BI BG NG B0 A LE OT. pose proof plain_forms as P. rewrite !andb_true_iff in P.
  exact (one_plain symbol function indent gap b0 t rest v addr f M_IOA port_forms BI BG NG B0 A LE OT ltac:(tauto) F).
Qed.
Print Assumptions C59_port.
(* A displacement of an index register: from -128 to 127. *)
Theorem C59_index : forall f symbol function indent gap b0 t rest v addr,
  In f index_forms ->
  blanks indent -> blanks gap -> gap <> [] -> blanks b0 -> 0 <= addr < 2^16 -> line_end rest ->
  operands_text addr symbol function f t rest v v ->
  exists i, z80_encode (z80_asm symbol function 10) (indent ++ s2l (fm_name f) ++ gap ++ b0 ++ t) addr = Val (L_insn i rest) /\
    i_code i = fm_code f ++ [int_of v mod 256] /\ i_err i = if (-128 <=? int_of v) && (int_of v <=? 127) then OK else OVERFLOW_RANGE.
Proof.
  intros f symbol function indent gap b0 t rest v addr F BI BG NG B0 A LE OT. pose proof plain_forms as P. rewrite !andb_true_iff in P.
  exact (one_plain symbol function indent gap b0 t rest v addr f M_IDX index_forms BI BG NG B0 A LE OT ltac:(tauto) F).
Qed.
Print Assumptions C59_index.
(* the hypotheses are met: SUB (IY-SIZE) *)
Example C59_index_case : let symbol n := if list_eq_dec Z.eq_dec n (s2l "SIZE") then Some (setUnsigned 130) else None in
  let v := setInteger (-130) in
  In (one "SUB" (Index "IY") [0xFD; 0x96]) index_forms /\
  operands_text 0x1000 symbol (fun _ => None) (one "SUB" (Index "IY") [0xFD; 0x96]) (s2l "(IY-SIZE) ; x") (s2l "; x") v v /\ int_of v = -130 /\
  exists i, z80_encode (z80_asm symbol (fun _ => None) 10) (s2l " SUB (IY-SIZE) ; x") 0x1000 = Val (L_insn i (s2l "; x")) /\
    i_err i = OVERFLOW_RANGE /\ i_code i = [0xFD; 0x96; 126].
Proof.
  cbv zeta. split; [vm_compute; repeat (first [left; reflexivity|right])|]. split.
  { exists (s2l "-SIZE) ; x"), [32]. split; [reflexivity|]. split; [right; reflexivity|]. split; [|repeat constructor].
    exists (Un (ent "-" 3 RIGHT unary_minus) (Sym (s2l "SIZE") (setUnsigned 130))). split.
    { apply (D_un fam_z80 _ _ (s2l "-") [] _ (s2l "SIZE) ; x")); [cbn; auto|left; reflexivity|apply Forall_nil| |].
      { split; [|discriminate]. intros d D L. cbn in D. repeat (destruct D as [<-|D]; [cbn in L; try lia; intros (r & E); discriminate E|]). destruct D. }
      apply (D_sym fam_z80 _ (s2l "SIZE") _ [] (s2l ") ; x")); [cbn; auto| |reflexivity|reflexivity|reflexivity|reflexivity|apply Forall_nil|right; cbn; auto 20].
      intros [(d & D & E & _)|K]; [|cbn in K; intuition discriminate].
      cbn in D. repeat (destruct D as [<-|D]; [discriminate E|]). destruct D. }
    split; [split; [left; reflexivity|exact Logic.I]|].
    split; [cbn; lia|].
    split; [cbn; lia|]. split; [reflexivity|]. vm_compute; intuition discriminate. }
  split; [reflexivity|]. eexists. split; [vm_compute; reflexivity|]. split; reflexivity.
Qed.
(* A displacement and an immediate byte. *)
Theorem C59_index_byte : forall f symbol function indent gap b0 t rest v1 v2 addr,
  In f index_byte_forms ->
  blanks indent -> blanks gap -> gap <> [] -> blanks b0 -> 0 <= addr < 2^16 -> line_end rest ->
  operands_text addr symbol function f t rest v1 v2 ->
  exists i, z80_encode (z80_asm symbol function 10) (indent ++ s2l (fm_name f) ++ gap ++ b0 ++ t) addr = Val (L_insn i rest) /\
    i_code i = fm_code f ++ [int_of v1 mod 256; int_of v2 mod 256] /\
    i_err i = if (-128 <=? int_of v1) && (int_of v1 <=? 127) && ((-128 <=? int_of v2) && (int_of v2 <=? 255)) then OK else OVERFLOW_RANGE.
Proof.
  intros f symbol function indent gap b0 t rest v1 v2 addr F BI BG NG B0 A LE OT. pose proof plain_forms as P. rewrite !andb_true_iff in P. destruct P as (_ & P).
  rewrite forallb_forall in P. specialize (P f F). rewrite !andb_true_iff in P. destruct P as ((N1 & N2) & CP).
  destruct (plain_line symbol function indent gap b0 t rest v1 v2 addr f BI BG NG B0 A LE OT M_IDX M_IM8 CP) as (i & E & C & X). exists i. split; [exact E|]. rewrite C, X.
  unfold bytes1, bytes2, ok1, ok2. rewrite N1, N2. split; reflexivity.
Qed.
Print Assumptions C59_index_byte.
(* A displacement before the second opcode: RLC (IX+d) and its like. *)
Theorem C59_index_shift : forall f x symbol function indent gap b0 t rest v addr,
  In (f, x) index_shift_forms ->
  blanks indent -> blanks gap -> gap <> [] -> blanks b0 -> 0 <= addr < 2^16 -> line_end rest ->
  operands_text addr symbol function f t rest v v ->
  exists i, z80_encode (z80_asm symbol function 10) (indent ++ s2l (fm_name f) ++ gap ++ b0 ++ t) addr = Val (L_insn i rest) /\
    i_code i = fm_code f ++ [int_of v mod 256; x] /\ i_err i = if (-128 <=? int_of v) && (int_of v <=? 127) then OK else OVERFLOW_RANGE.
Proof.
  intros f x symbol function indent gap b0 t rest v addr F BI BG NG B0 A LE OT. pose proof other_forms as P. rewrite !andb_true_iff in P. destruct P as ((_ & P) & _).
  rewrite forallb_forall in P. specialize (P (f, x) F). exact (shift_line symbol function indent gap b0 t rest v v addr f BI BG NG B0 A LE OT x P).
Qed.
Print Assumptions C59_index_shift.
(* The number of a bit, from 0 to 7, in bits 5 to 3 of the second opcode. *)
Theorem C59_bit : forall f x symbol function indent gap b0 t rest v addr,
  In (f, x) bit_forms ->
  blanks indent -> blanks gap -> gap <> [] -> blanks b0 -> 0 <= addr < 2^16 -> line_end rest ->
  operands_text addr symbol function f t rest v v ->
  exists i, z80_encode (z80_asm symbol function 10) (indent ++ s2l (fm_name f) ++ gap ++ b0 ++ t) addr = Val (L_insn i rest) /\
    i_code i = fm_code f ++ [x + 8 * (int_of v mod 8)] /\ i_err i = if (0 <=? int_of v) && (int_of v <=? 7) then OK else ILLEGAL_BIT_NUMBER.
Proof.
  intros f x symbol function indent gap b0 t rest v addr F BI BG NG B0 A LE OT. pose proof other_forms as P. rewrite !andb_true_iff in P. destruct P as (((_ & P) & _) & _).
  rewrite forallb_forall in P. specialize (P (f, x) F). exact (bit_line symbol function indent gap b0 t rest v v addr f BI BG NG B0 A LE OT x P).
Qed.
Print Assumptions C59_bit.
(* The number of a bit and a displacement. *)
Theorem C59_index_bit : forall f x symbol function indent gap b0 t rest v1 v2 addr,
  In (f, x) index_bit_forms ->
  blanks indent -> blanks gap -> gap <> [] -> blanks b0 -> 0 <= addr < 2^16 -> line_end rest ->
  operands_text addr symbol function f t rest v1 v2 ->
  exists i, z80_encode (z80_asm symbol function 10) (indent ++ s2l (fm_name f) ++ gap ++ b0 ++ t) addr = Val (L_insn i rest) /\
    i_code i = fm_code f ++ [int_of v2 mod 256; x + 8 * (int_of v1 mod 8)] /\
    (i_err i = OK <-> 0 <= int_of v1 <= 7 /\ -128 <= int_of v2 <= 127).
Proof.
  intros f x symbol function indent gap b0 t rest v1 v2 addr F BI BG NG B0 A LE OT. pose proof other_forms as P. rewrite !andb_true_iff in P. destruct P as (_ & P).
  rewrite forallb_forall in P. specialize (P (f, x) F). exact (ixbit_line symbol function indent gap b0 t rest v1 v2 addr f BI BG NG B0 A LE OT x P).
Qed.
Print Assumptions C59_index_bit.
Example C59_index_bit_case : In (two_of "SET" Num (Index "IX") [0xDD; 0xCB], 0xC6) index_bit_forms /\
  exists i, z80_encode (z80_asm (fun _ => None) (fun _ => None) 10) (s2l " SET 9, (IX+1)") 0 = Val (L_insn i []) /\
    i_err i = ILLEGAL_BIT_NUMBER /\ i_code i = [0xDD; 0xCB; 1; 0xCE].
Proof. split; [vm_compute; repeat (first [left; reflexivity|right])|]. eexists. split; [vm_compute; reflexivity|]. split; reflexivity. Qed.
(* A branch: the byte is the distance from the next instruction, and an error is reported exactly
   when the target is not an address of 16 bits from 128 bytes before that to 127 bytes after it. *)
Theorem C59_branch : forall f symbol function indent gap b0 t rest v addr,
  In f branch_forms ->
  blanks indent -> blanks gap -> gap <> [] -> blanks b0 -> 0 <= addr <= 65534 -> line_end rest ->
  operands_text addr symbol function f t rest v v ->
  exists i, z80_encode (z80_asm symbol function 10) (indent ++ s2l (fm_name f) ++ gap ++ b0 ++ t) addr = Val (L_insn i rest) /\
    i_code i = fm_code f ++ [(int_of v - (addr + 2)) mod 256] /\
    (i_err i = OK <-> int_of v mod 2^32 < 65536 /\ -128 <= int_of v mod 2^32 - (addr + 2) <= 127).
Proof.
  intros f symbol function indent gap b0 t rest v addr F BI BG NG B0 A LE OT. pose proof other_forms as P. rewrite !andb_true_iff in P. destruct P as (((P & _) & _) & _).
  rewrite forallb_forall in P. specialize (P f F). exact (rel_line symbol function indent gap b0 t rest v v addr f BI BG NG B0 ltac:(lia) LE OT P eq_refl ltac:(lia)).
Qed.
Print Assumptions C59_branch.
(* the hypotheses are met: DJNZ LOOP *)
Example C59_branch_case : let symbol n := if list_eq_dec Z.eq_dec n (s2l "LOOP") then Some (setUnsigned 0xF82) else None in
  In (one "DJNZ" Num [0x10]) branch_forms /\
  operands_text 0x1000 symbol (fun _ => None) (one "DJNZ" Num [0x10]) (s2l "LOOP") [] (setUnsigned 0xF82) (setUnsigned 0xF82) /\
  exists i, z80_encode (z80_asm symbol (fun _ => None) 10) (s2l " DJNZ LOOP") 0x1000 = Val (L_insn i []) /\
    i_err i = OK /\ i_code i = [0x10; 0x80].
Proof.
  cbv zeta. split; [cbn; auto 20|]. split.
  { split; [|split; [discriminate|]].
    { split; [repeat split; discriminate|]. intros n I H. cbn in I. unfold leading_word, same_name in H.
      repeat (destruct I as [<-|I]; [cbn in H; repeat (inversion H; subst; clear H; match goal with X : Forall2 _ _ _ |- _ => rename X into H end); inversion H|]). destruct I. }
    exists (Sym (s2l "LOOP") (setUnsigned 0xF82)). split.
    { apply (D_sym fam_z80 _ (s2l "LOOP") _ [] []); [cbn; auto| |reflexivity|reflexivity|reflexivity|reflexivity|apply Forall_nil|exact Logic.I].
      intros [(d & D & E & _)|K]; [|cbn in K; intuition discriminate].
      cbn in D. repeat (destruct D as [<-|D]; [discriminate E|]). destruct D. }
    split; [exact Logic.I|]. split; [cbn; lia|]. split; [cbn; lia|]. split; [reflexivity|]. vm_compute; intuition discriminate. }
  eexists. split; [vm_compute; reflexivity|]. split; reflexivity.
Qed.
(* A restart address is one of the eight; any other is an error. *)
Theorem C59_restart : forall symbol function indent gap b0 t rest v addr,
  blanks indent -> blanks gap -> gap <> [] -> blanks b0 -> 0 <= addr < 2^16 -> line_end rest ->
  operands_text addr symbol function restart_form t rest v v -> -2^31 <= int_of v < 2^32 ->
  exists i, z80_encode (z80_asm symbol function 10) (indent ++ s2l "RST" ++ gap ++ b0 ++ t) addr = Val (L_insn i rest) /\
    (i_err i = OK <-> In (int_of v) [0; 8; 16; 24; 32; 40; 48; 56]) /\ (i_err i = OK -> i_code i = [0xC7 + int_of v]).
Proof.
  intros symbol function indent gap b0 t rest v addr BI BG NG B0 A LE OT R. exact (restart_line symbol function indent gap b0 t rest v addr BI BG NG B0 A LE OT R).
Qed.
Print Assumptions C59_restart.
(* An interrupt mode is 0, 1 or 2; any other is an error. *)
Theorem C59_mode : forall symbol function indent gap b0 t rest v addr,
  blanks indent -> blanks gap -> gap <> [] -> blanks b0 -> 0 <= addr < 2^16 -> line_end rest ->
  operands_text addr symbol function mode_form t rest v v -> -2^31 <= int_of v < 2^32 ->
  exists i, z80_encode (z80_asm symbol function 10) (indent ++ s2l "IM" ++ gap ++ b0 ++ t) addr = Val (L_insn i rest) /\
    (i_err i = OK <-> In (int_of v) [0; 1; 2]) /\
    (i_err i = OK -> i_code i = [0xED; if int_of v =? 0 then 0x46 else if int_of v =? 1 then 0x56 else 0x5E]).
Proof.
  intros symbol function indent gap b0 t rest v addr BI BG NG B0 A LE OT R. exact (mode_line symbol function indent gap b0 t rest v addr BI BG NG B0 A LE OT R).
Qed.
Print Assumptions C59_mode.
(* A word, low byte first. Missing: an error for a value that is not one of 16 bits (below). *)
Theorem C59_word_partial : forall f symbol function indent gap b0 t rest v addr,
  In f (word_forms ++ memory_forms) ->
  blanks indent -> blanks gap -> gap <> [] -> blanks b0 -> 0 <= addr < 2^16 -> line_end rest ->
  operands_text addr symbol function f t rest v v ->
  exists i, z80_encode (z80_asm symbol function 10) (indent ++ s2l (fm_name f) ++ gap ++ b0 ++ t) addr = Val (L_insn i rest) /\
    i_code i = fm_code f ++ [int_of v mod 256; int_of v / 256 mod 256] /\ i_err i = OK.
Proof.
  intros f symbol function indent gap b0 t rest v addr F BI BG NG B0 A LE OT. pose proof plain_forms as P. rewrite !andb_true_iff in P.
  apply in_app_or in F. destruct F as [F|F].
  - exact (one_plain symbol function indent gap b0 t rest v addr f M_IM16 word_forms BI BG NG B0 A LE OT ltac:(tauto) F).
  - exact (one_plain symbol function indent gap b0 t rest v addr f M_ABS memory_forms BI BG NG B0 A LE OT ltac:(tauto) F).
Qed.
Print Assumptions C59_word_partial.
(* a value of 17 bits is cut, and no error is reported *)
Theorem C59_word_refuted :
  (exists i, z80_encode (z80_asm (fun _ => None) (fun _ => None) 10) (s2l " LD HL, 12345H") 0 = Val (L_insn i []) /\
    i_err i = OK /\ i_code i = [0x21; 0x45; 0x23]) /\
  (exists i, z80_encode (z80_asm (fun _ => None) (fun _ => None) 10) (s2l " LD A, (12345H)") 0 = Val (L_insn i []) /\
    i_err i = OK /\ i_code i = [0x3A; 0x45; 0x23]).
Proof. split; eexists; (split; [vm_compute; reflexivity|]); split; reflexivity. Qed.
Print Assumptions C59_word_refuted.
(* two index registers in one instruction, which no Z80 has, are accepted; the bytes are no
   instruction the disassembler reads as the line *)
Theorem C59_two_indexes_refuted : exists i r,
  z80_encode (z80_asm (fun _ => None) (fun _ => None) 10) (s2l " ADD IX, IY") 0 = Val (L_insn i []) /\ i_err i = OK /\
  z80_decode (z80_dis true true false false false false 36 None) (i_code i) 0 128 = Val r /\
  (r_name r, r_operands r) <> (s2l "ADD", s2l "IX, IY").
Proof. do 2 eexists. split; [vm_compute; reflexivity|]. split; [reflexivity|]. split; [vm_compute; reflexivity|]. discriminate. Qed.
Print Assumptions C59_two_indexes_refuted.
