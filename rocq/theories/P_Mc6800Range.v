(** The 6800 family: what the instructions with a number give for every value. *)
From Coq Require Import String ZArith List Bool Lia ZifyBool.
From Verif Require Import M_Char M_Error M_Value M_Text M_StrBuffer M_Format M_Number M_Insn M_Config M_Operators
  M_Parsers M_Expr M_Directive M_Table T_Tables M_Asm M_Dis M_Mc6800Defs T_Mc6800 M_Mc6800
  S_Value S_Number S_Expr S_ExprTree S_Table S_Mc6800 P_StrBuffer P_Number P_NumberRead
  P_ExprRead P_ExprTree P_ExprCase P_Table P_Insn P_Config P_Value P_Directive P_AsmText P_CpuShape P_CpuGood P_Mc6800.
Import ListNotations.
Open Scope string_scope.
Open Scope list_scope.
Local Open Scope Z_scope.

Lemma parse_value a loc b0 e s rest v : a_pl a = pl_motorola -> a_radix a = 10 -> blanks b0 ->
  derives fam_6800 (mkC loc (a_symbol a) (a_function a) 0) e s rest -> well_nested e -> value_slots e <= 8 -> operator_slots e <= 8 ->
  tail rest -> value_of e = Val (OK, v) ->
  exists b, blanks b /\ parseInteger a loc (b0 ++ s) OK 0 = Val (v, OK, b ++ rest).
Proof.
  intros PL RX B0 D W VS OS T V.
  assert (EN : ends (mkC loc (a_symbol a) (a_function a) 0) rest).
  { destruct T as [->|(c & u & -> & C)]; cbn; tauto. }
  pose proof (C18_exact fam_6800 (mkC loc (a_symbol a) (a_function a) 0) e b0 s rest ltac:(cbn; auto 10) ltac:(cbn; auto) B0 D W EN VS OS) as X.
  rewrite V in X. destruct X as (b & B & X). exists b. split; [exact B|].
  unfold parseInteger. rewrite PL, RX. change (fam_pl fam_6800) with pl_motorola in X. rewrite X. reflexivity.
Qed.
Lemma parse_immediate a loc b0 e s rest v : a_pl a = pl_motorola -> a_radix a = 10 -> blanks b0 ->
  derives fam_6800 (mkC loc (a_symbol a) (a_function a) 0) e s rest -> well_nested e -> value_slots e <= 8 -> operator_slots e <= 8 ->
  tail rest -> value_of e = Val (OK, v) ->
  exists b, blanks b /\ parseOperand a loc (35 :: b0 ++ s) = Val (mkOp M_IM16 v OK, b ++ rest).
Proof.
  intros PL RX B0 D W VS OS T V. destruct (parse_value a loc b0 e s rest v) as (b & B & X); auto. exists b. split; [exact B|].
  unfold parseOperand. cbv zeta. rewrite (skip_none 35) by reflexivity. cbn [peek expect_char]. change (35 =? 44) with false. change (35 =? 35) with true. cbv iota.
  rewrite X. reflexivity.
Qed.
Definition place_mode (v : value) : Z := if overflowUint8 v then M_EXT else if overflow v 7 0 then M_DIR else M_BIT.
Lemma address_head a loc s z : starts_address s ->
  parseOperand a loc (s ++ z) =
  bind (parseInteger a loc (s ++ z) OK 0) (fun '(v, e, p) =>
    if hasError e then Val (mkOp M_NONE v e, s ++ z)
    else
      let '(reg, t) := match expect_char 44 (skipSpaces p) with Some q => parseRegName (skipSpaces q) | None => (REG_UNDEF, p) end in
      if negb (reg =? REG_UNDEF) then Val (mkOp (if reg =? REG_X then M_IDX else M_IDY) v e, t) else Val (mkOp (place_mode v) v e, p)).
Proof.
  intros SA. destruct s as [|c s]; [destruct SA|]. destruct SA as (S1 & S2 & S3 & S4 & S5). unfold parseOperand. cbv zeta.
  cbn [app]. rewrite (skip_none c) by exact S1. cbn [peek expect_char].
  destruct (Z.eqb_spec c 44); [congruence|]. destruct (Z.eqb_spec c 35); [congruence|]. destruct (Z.eqb_spec c 60); [congruence|]. destruct (Z.eqb_spec c 62); [congruence|].
  reflexivity.
Qed.
Lemma parse_address a loc b0 e s rest v : a_pl a = pl_motorola -> a_radix a = 10 -> blanks b0 -> starts_address s ->
  derives fam_6800 (mkC loc (a_symbol a) (a_function a) 0) e s rest -> well_nested e -> value_slots e <= 8 -> operator_slots e <= 8 ->
  last_rest rest -> value_of e = Val (OK, v) ->
  exists b, blanks b /\ parseOperand a loc (b0 ++ s) = Val (mkOp (place_mode v) v OK, b ++ rest).
Proof.
  intros PL RX B0 SA D W VS OS T V. destruct (parse_value a loc [] e s rest v) as (b & B & X); auto.
  { apply Forall_nil. } { now apply last_tail. }
  exists b. split; [exact B|]. cbn [app] in X.
  assert (PS : parseOperand a loc (b0 ++ s) = parseOperand a loc s) by (unfold parseOperand; now rewrite skip_blanks by exact B0).
  rewrite PS. pose proof (address_head a loc s [] SA) as A. rewrite app_nil_r in A. rewrite A, X. cbn [bind]. change (hasError OK) with false. cbv iota.
  rewrite last_skip by assumption. rewrite last_nocomma by assumption. reflexivity.
Qed.
Lemma parse_indexed a loc b0 e s b1 b2 r rest v : a_pl a = pl_motorola -> a_radix a = 10 -> blanks b0 -> starts_address s ->
  blanks b1 -> In r [88; 120] -> blanks b2 -> last_rest rest ->
  derives fam_6800 (mkC loc (a_symbol a) (a_function a) 0) e s (44 :: b1 ++ r :: b2 ++ rest) -> well_nested e -> value_slots e <= 8 -> operator_slots e <= 8 ->
  value_of e = Val (OK, v) ->
  parseOperand a loc (b0 ++ s) = Val (mkOp M_IDX v OK, b2 ++ rest).
Proof.
  intros PL RX B0 SA B1 R B2 LR D W VS OS V. destruct (parse_value a loc [] e s (44 :: b1 ++ r :: b2 ++ rest) v) as (b & B & X); auto.
  { apply Forall_nil. } { right. eauto. }
  cbn [app] in X.
  assert (PS : parseOperand a loc (b0 ++ s) = parseOperand a loc s) by (unfold parseOperand; now rewrite skip_blanks by exact B0).
  rewrite PS. pose proof (address_head a loc s [] SA) as A. rewrite app_nil_r in A. rewrite A, X. cbn [bind]. change (hasError OK) with false. cbv iota.
  rewrite skip_blanks by exact B. rewrite (skip_none 44) by reflexivity. cbn [expect_char]. change (44 =? 44) with true. cbv iota.
  rewrite skip_blanks by exact B1. rewrite (skip_none r) by (cbn in R; destruct R as [<-|[<-|[]]]; reflexivity).
  assert (PR : parseRegName (r :: b2 ++ rest) = (REG_X, b2 ++ rest)).
  { unfold parseRegName, iexpectWord. change (iexpectText (s2l "X") (r :: b2 ++ rest)) with (if to_lower 88 =? to_lower r then Some (b2 ++ rest) else None).
    replace (to_lower 88 =? to_lower r) with true by (cbn in R; destruct R as [<-|[<-|[]]]; reflexivity).
    assert (N : is_alnum (peek (b2 ++ rest)) || (peek (b2 ++ rest) =? 95) = false).
    { destruct b2 as [|c b2]; [destruct LR as [->|(u & ->)]; reflexivity|]. inversion B2 as [|? ? C _]; subst. cbn [app peek]. unfold is_space in C.
      assert (C' : c = 32 \/ c = 9 \/ c = 10 \/ c = 11 \/ c = 12 \/ c = 13) by lia. destruct C' as [->|[->|[->|[->|[->| ->]]]]]; reflexivity. }
    rewrite N. reflexivity. }
  rewrite PR. reflexivity.
Qed.

(* ------------------------------------------------------------ the line *)
Definition form_ok (oms modes : list Z) (opc : Z) (ty : Z) (nm : text) : bool :=
  plain_name sp_motorola [] mc6800_directives nm && is_alpha (peek nm) && (0 <=? opc) && (opc <? 256) &&
  match hasOperand ty nm with Val true => true | _ => false end &&
  forallb (fun om =>
    match mc6800_searchName ty nm om M_NONE M_NONE with
    | Val (OK, Some (p', e')) => (p' =? 0) && (e_opc e' =? opc) && existsb (Z.eqb (e_m1 e')) modes && (e_m2 e' =? M_NONE) && (e_m3 e' =? M_NONE)
    | _ => false
    end) oms.
Definition fin (addr opc m : Z) (op : operand) : res insn :=
  bind (emitOperand m op (mkAI (new_insn addr) OK 0 opc)) (fun ai => let ai := ai_emitInsn ai in Val (i_seterr (ai_err ai) (ai_insn ai))).
Lemma form_encode oms modes opc ty nm a indent gap ops scan rest addr om v :
  form_ok oms modes opc ty nm = true -> In om oms ->
  a_pl a = pl_motorola -> a_aw a = 16 ->
  blanks indent -> blanks gap -> gap <> [] -> checkAddr 16 addr false = OK ->
  parseOperand a addr (skipSpaces ops) = Val (mkOp om v OK, scan) -> skipSpaces scan = rest -> last_rest rest ->
  exists m, In m modes /\
  mc6800_encode ty a (indent ++ nm ++ gap ++ ops) addr = bind (fin addr opc m (mkOp om v OK)) (fun i => Val (L_insn i rest)).
Proof.
  intros FK IM PL AW BI BG NG CA PO SK LR. unfold form_ok in FK. rewrite !andb_true_iff in FK. destruct FK as (((((PN & AL) & O1) & O2) & HO) & FK).
  rewrite forallb_forall in FK. specialize (FK om IM).
  unfold mc6800_encode. rewrite line_insn; [| | |exact BI|exact BG| |].
  2:{ rewrite PL. exact PN. }
  2:{ intros z. rewrite PL. eapply plain_line; eassumption. }
  2:{ rewrite PL. destruct gap as [|c gap]; [congruence|]. apply space_letter. now inversion BG. }
  2:{ rewrite AW. exact CA. }
  unfold mc6800_encodeImpl. destruct (hasOperand ty nm) as [[]| | | |]; try discriminate. cbn [bind].
  assert (PS : parseOperands a addr (skipSpaces ops) = Val (Three (mkOp om v OK) no_operand no_operand rest)).
  { unfold parseOperands. rewrite PO. cbn [bind o_err]. change (hasError OK) with false. cbv zeta iota. rewrite SK.
    assert (SR : skipSpaces rest = rest) by (apply (last_skip [] rest (Forall_nil _) LR)).
    rewrite last_nocomma by exact LR. cbn [bind no_operand o_err]. change (hasError OK) with false. cbv iota. rewrite SR, last_nocomma by exact LR. reflexivity. }
  rewrite PS. cbn [bind]. cbv zeta. cbn [o_mode no_operand]. pose proof (last_skip [] rest (Forall_nil _) LR) as SR. cbn [app] in SR. rewrite SR.
  destruct (mc6800_searchName ty nm om M_NONE M_NONE) as [[er [[p' e']|]]| | | |]; try discriminate.
  2:{ destruct er; discriminate. }
  destruct er; try discriminate. rewrite !andb_true_iff in FK. destruct FK as ((((F1 & F2) & F3) & F4) & F5).
  apply Z.eqb_eq in F1, F2, F4, F5. subst p'. apply existsb_exists in F3. destruct F3 as (m & IMM & EM). apply Z.eqb_eq in EM. subst m.
  exists (e_m1 e'). split; [exact IMM|]. cbn [bind i_err new_insn]. change (setErrorIfAt OK OK) with OK. change (isOK OK) with true. cbn [negb].
  rewrite F2, F4, F5. unfold fin. destruct (emitOperand (e_m1 e') (mkOp om v OK) (mkAI (new_insn addr) OK 0 opc)) as [[i1 e1 p1 o1]| | | |]; try reflexivity.
  cbn [bind]. assert (EN : emitOperand M_NONE no_operand (mkAI i1 e1 p1 o1) = Val (mkAI i1 e1 p1 o1)) by (unfold emitOperand; cbn [o_err no_operand]; rewrite noerr; reflexivity).
  rewrite EN. cbn [bind]. rewrite EN. reflexivity.
Qed.

(* ------------------------------------------------------------ the bytes *)
Lemma fin_err addr opc nb e : byte opc -> (length nb <= 8)%nat ->
  let ai := ai_emitInsn (mkAI (part addr 1 nb) e 0 opc) in
  i_code (i_seterr (ai_err ai) (ai_insn ai)) = opc :: nb /\ i_err (i_seterr (ai_err ai) (ai_insn ai)) = e.
Proof.
  intros O L. cbv zeta. unfold ai_emitInsn, ai_set. cbn [ai_prefix ai_insn ai_err ai_opc]. change (0 =? 0) with true. cbn [negb]. cbv beta iota. cbn [ai_insn ai_err ai_opc].
  destruct (part_done 0 opc addr nb ltac:(unfold byte; lia) O ltac:(lia)) as (D & _). rewrite D. split; [|reflexivity].
  unfold i_code, i_seterr. cbn [i_len i_bytes]. fold (i_code (canon addr (opc :: nb))). apply canon_code.
Qed.
Lemma low8 v : int_value v -> u8 (getUnsigned v) = int_of v mod 256.
Proof.
  intros H. rewrite getUnsigned_mod by exact H. unfold u8. change (2^8) with 256. change (2^32) with 4294967296.
  now rewrite <- (Znumtheory.Zmod_div_mod 256 4294967296) by (lia || now exists 16777216).
Qed.
Lemma low16 v : int_value v -> u16 (getUnsigned v) = 256 * (int_of v / 256 mod 256) + int_of v mod 256.
Proof.
  intros H. rewrite getUnsigned_mod by exact H. unfold u16. change (2^16) with (256 * 256). change (2^32) with 4294967296.
  rewrite <- (Znumtheory.Zmod_div_mod (256 * 256) 4294967296) by (lia || now exists 65536).
  rewrite Z.rem_mul_r by lia. lia.
Qed.
Lemma mod_byte x : byte (x mod 256).
Proof. apply Z.mod_pos_bound. lia. Qed.
Lemma part1 addr : new_insn addr = part addr (base 0) [].
Proof. reflexivity. Qed.
Lemma over_if {A} v mx mn (x y : A) : int_value v -> 0 <= mx < 2^32 -> -2^31 <= mn < 2^31 ->
  (if overflow v mx mn then x else y) = if (mn <=? int_of v) && (int_of v <=? mx) then y else x.
Proof.
  intros IV M N. pose proof (overflow_ok v mx mn IV M N) as O. destruct (overflow v mx mn).
  - destruct ((mn <=? int_of v) && (int_of v <=? mx)) eqn:Q; [|reflexivity]. destruct O as [O _]. specialize (O eq_refl). lia.
  - destruct ((mn <=? int_of v) && (int_of v <=? mx)) eqn:Q; [reflexivity|]. destruct O as [_ O]. assert (false = true) by (apply O; lia). discriminate.
Qed.
Lemma fin_imm8 addr opc v : byte opc -> int_value v ->
  exists i, fin addr opc M_GN8 (mkOp M_IM16 v OK) = Val i /\ i_code i = [opc; int_of v mod 256] /\
    i_err i = if (-128 <=? int_of v) && (int_of v <=? 255) then OK else OVERFLOW_RANGE.
Proof.
  intros O IV. unfold fin, emitOperand. cbv zeta. cbn [o_err o_val o_mode]. rewrite noerr.
  change (M_GN8 =? M_GN8) with true. change (M_IM16 =? M_DIR) with false. change (M_IM16 =? M_BIT) with false. change (M_IM16 =? M_IDX) with false.
  change (M_IM16 =? M_IDY) with false. change (M_IM16 =? M_EXT) with false. cbn [orb]. unfold emitImmediate. change ((M_GN8 =? M_GN16) || (M_GN8 =? M_IM16)) with false. cbv iota.
  cbn [o_val]. unfold overflowUint8. rewrite (over_if v 255 (-128)) by (exact IV || lia). set (er := if _ && _ then OK else OVERFLOW_RANGE).
  replace (if (-128 <=? int_of v) && (int_of v <=? 255) then mkAI (new_insn addr) OK 0 opc else ai_setErrorIf OVERFLOW_RANGE (mkAI (new_insn addr) OK 0 opc))
    with (mkAI (new_insn addr) er 0 opc) by (unfold er; destruct (_ && _); reflexivity).
  rewrite part1, (emit8 (int_of v mod 256)); [|apply mod_byte|now apply low8|cbn; lia]. cbn [bind]. eexists. split; [reflexivity|].
  exact (fin_err addr opc [int_of v mod 256] er O ltac:(cbn; lia)).
Qed.
Lemma fin_imm16 addr opc v : byte opc -> int_value v ->
  exists i, fin addr opc M_GN16 (mkOp M_IM16 v OK) = Val i /\ i_code i = [opc; int_of v / 256 mod 256; int_of v mod 256] /\ i_err i = OK.
Proof.
  intros O IV. unfold fin, emitOperand. cbv zeta. cbn [o_err o_val o_mode]. rewrite noerr.
  change (M_GN16 =? M_GN8) with false. change (M_GN16 =? M_GN16) with true. change (M_IM16 =? M_DIR) with false. change (M_IM16 =? M_BIT) with false. change (M_IM16 =? M_IDX) with false.
  change (M_IM16 =? M_IDY) with false. change (M_IM16 =? M_EXT) with false. cbn [orb]. unfold emitImmediate. change ((M_GN16 =? M_GN16) || (M_GN16 =? M_IM16)) with true. cbv iota.
  cbn [o_val]. rewrite part1, (emit16 (int_of v / 256 mod 256) (int_of v mod 256)); [|apply mod_byte|apply mod_byte|now apply low16|cbn; lia]. cbn [bind]. eexists. split; [reflexivity|].
  exact (fin_err addr opc [int_of v / 256 mod 256; int_of v mod 256] OK O ltac:(cbn; lia)).
Qed.
Definition gn (m : Z) : Prop := m = M_GN8 \/ m = M_GN16.
Lemma embed_ok : forallb (fun f => (u8 (Z.lor (snd f) 0x10) =? direct (snd f)) && (u8 (Z.lor (snd f) 0x20) =? indexed (snd f)) && (u8 (Z.lor (snd f) 0x30) =? extended (snd f))
  && (0 <=? snd f) && (extended (snd f) <? 256)) (memory_forms MC6801) = true.
Proof. vm_compute. reflexivity. Qed.
Lemma memory_sub ty f : In f (memory_forms ty) -> In f (memory_forms MC6801).
Proof. unfold memory_forms, word_forms, store_forms, from_6801. destruct ((ty =? MC6800) || (ty =? MB8861)); [|auto]. cbn. tauto. Qed.
Lemma embed_at ty f : In f (memory_forms ty) -> u8 (Z.lor (snd f) 0x10) = direct (snd f) /\ u8 (Z.lor (snd f) 0x20) = indexed (snd f) /\ u8 (Z.lor (snd f) 0x30) = extended (snd f) /\
  byte (direct (snd f)) /\ byte (indexed (snd f)) /\ byte (extended (snd f)).
Proof.
  intros I. pose proof embed_ok as H. rewrite forallb_forall in H. specialize (H f (memory_sub ty f I)). rewrite !andb_true_iff in H. destruct H as ((((A & B) & C) & D) & E).
  unfold byte, direct, indexed, extended in *. lia.
Qed.
Lemma fin_memory addr ty f v m : In f (memory_forms ty) -> gn m -> int_value v ->
  exists i, fin addr (snd f) m (mkOp (place_mode v) v OK) = Val i /\ i_err i = OK /\
    i_code i = if (-128 <=? int_of v) && (int_of v <=? 255) then [direct (snd f); int_of v mod 256] else [extended (snd f); int_of v / 256 mod 256; int_of v mod 256].
Proof.
  intros F M IV. destruct (embed_at ty f F) as (E1 & _ & E3 & O1 & _ & O3). set (opc := snd f) in *.
  unfold fin, emitOperand. cbv zeta. cbn [o_err o_val o_mode]. rewrite noerr.
  replace ((m =? M_GN8) || (m =? M_GN16)) with true by (destruct M as [->| ->]; reflexivity). unfold place_mode, overflowUint8.
  rewrite (over_if v 255 (-128)) by (exact IV || lia). destruct ((-128 <=? int_of v) && (int_of v <=? 255)).
  - replace (((if overflow v 7 0 then M_DIR else M_BIT) =? M_DIR) || ((if overflow v 7 0 then M_DIR else M_BIT) =? M_BIT)) with true by (destruct (overflow v 7 0); reflexivity).
    unfold ai_embed. cbn [ai_insn ai_err ai_prefix ai_opc]. rewrite E1, part1, (emit8 (int_of v mod 256)); [|apply mod_byte|now apply low8|cbn; lia]. cbn [bind]. eexists. split; [reflexivity|].
    destruct (fin_err addr (direct opc) [int_of v mod 256] OK O1 ltac:(cbn; lia)). auto.
  - change (M_EXT =? M_DIR) with false. change (M_EXT =? M_BIT) with false. change (M_EXT =? M_IDX) with false. change (M_EXT =? M_IDY) with false. change (M_EXT =? M_EXT) with true. cbn [orb].
    unfold ai_embed. cbn [ai_insn ai_err ai_prefix ai_opc]. rewrite E3, part1, (emit16 (int_of v / 256 mod 256) (int_of v mod 256)); [|apply mod_byte|apply mod_byte|now apply low16|cbn; lia]. cbn [bind]. eexists. split; [reflexivity|].
    destruct (fin_err addr (extended opc) [int_of v / 256 mod 256; int_of v mod 256] OK O3 ltac:(cbn; lia)). auto.
Qed.
Lemma fin_indexed addr ty f v m : In f (memory_forms ty) -> gn m -> int_value v ->
  exists i, fin addr (snd f) m (mkOp M_IDX v OK) = Val i /\ i_code i = [indexed (snd f); int_of v mod 256] /\
    i_err i = if (0 <=? int_of v) && (int_of v <=? 255) then OK else OVERFLOW_RANGE.
Proof.
  intros F M IV. destruct (embed_at ty f F) as (_ & E2 & _ & _ & O2 & _). set (opc := snd f) in *.
  unfold fin, emitOperand. cbv zeta. cbn [o_err o_val o_mode]. rewrite noerr.
  replace ((m =? M_GN8) || (m =? M_GN16)) with true by (destruct M as [->| ->]; reflexivity).
  change (M_IDX =? M_DIR) with false. change (M_IDX =? M_BIT) with false. change (M_IDX =? M_IDX) with true. cbn [orb].
  rewrite (over_if v 255 0) by (exact IV || lia). set (er := if _ && _ then OK else OVERFLOW_RANGE).
  replace (if (0 <=? int_of v) && (int_of v <=? 255) then mkAI (new_insn addr) OK 0 opc else ai_setErrorIf OVERFLOW_RANGE (mkAI (new_insn addr) OK 0 opc))
    with (mkAI (new_insn addr) er 0 opc) by (unfold er; destruct (_ && _); reflexivity).
  unfold ai_embed. cbn [ai_insn ai_err ai_prefix ai_opc]. rewrite E2, part1, (emit8 (int_of v mod 256)); [|apply mod_byte|now apply low8|cbn; lia]. cbn [bind]. eexists. split; [reflexivity|].
  exact (fin_err addr (indexed opc) [int_of v mod 256] er O2 ltac:(cbn; lia)).
Qed.

(* a byte that is checked, and a word that is not *)
Lemma fin_place addr opc v m om : byte opc -> int_value v -> m = M_DIR \/ m = M_IDX \/ m = M_GMEM /\ om = M_IDX ->
  exists i, fin addr opc m (mkOp om v OK) = Val i /\ i_code i = [opc; int_of v mod 256] /\
    i_err i = if (0 <=? int_of v) && (int_of v <=? 255) then OK else OVERFLOW_RANGE.
Proof.
  intros O IV M. set (er := if (0 <=? int_of v) && (int_of v <=? 255) then OK else OVERFLOW_RANGE).
  assert (H : emitOperand m (mkOp om v OK) (mkAI (new_insn addr) OK 0 opc) = Val (ai_emitOperand8 (getUnsigned v) (mkAI (new_insn addr) er 0 opc))).
  { assert (CK : (if overflow v 255 0 then ai_setErrorIf OVERFLOW_RANGE (mkAI (new_insn addr) OK 0 opc) else mkAI (new_insn addr) OK 0 opc) = mkAI (new_insn addr) er 0 opc).
    { rewrite (over_if v 255 0) by (exact IV || lia). unfold er. destruct (_ && _); reflexivity. }
    unfold emitOperand. cbv zeta. cbn [o_err o_val o_mode]. rewrite noerr, CK. destruct M as [-> |[-> |(-> & ->)]]; reflexivity. }
  unfold fin. rewrite H, part1, (emit8 (int_of v mod 256)); [|apply mod_byte|now apply low8|cbn; lia]. cbn [bind]. eexists. split; [reflexivity|].
  exact (fin_err addr opc [int_of v mod 256] er O ltac:(cbn; lia)).
Qed.
Lemma fin_far addr opc o v m om : byte o -> int_value v -> m = M_EXT /\ opc = o \/ m = M_GMEM /\ om <> M_IDX /\ u8 (Z.lor opc 0x70) = o ->
  exists i, fin addr opc m (mkOp om v OK) = Val i /\ i_err i = OK /\ i_code i = [o; int_of v / 256 mod 256; int_of v mod 256].
Proof.
  intros O IV M.
  assert (H : emitOperand m (mkOp om v OK) (mkAI (new_insn addr) OK 0 opc) = Val (ai_emitOperand16 (getUnsigned v) (mkAI (new_insn addr) OK 0 o))).
  { unfold emitOperand. cbv zeta. cbn [o_err o_val o_mode]. rewrite noerr. destruct M as [(-> & ->)|(-> & NI & E)]; [reflexivity|].
    change ((M_GMEM =? M_GN8) || (M_GMEM =? M_GN16)) with false. change (M_GMEM =? M_GMEM) with true. cbv iota.
    destruct (Z.eqb_spec om M_IDX); [contradiction|]. unfold ai_embed. cbn [ai_insn ai_err ai_prefix ai_opc]. rewrite E. reflexivity. }
  unfold fin. rewrite H, part1, (emit16 (int_of v / 256 mod 256) (int_of v mod 256)); [|apply mod_byte|apply mod_byte|now apply low16|cbn; lia]. cbn [bind]. eexists. split; [reflexivity|].
  destruct (fin_err addr o [int_of v / 256 mod 256; int_of v mod 256] OK O ltac:(cbn; lia)). auto.
Qed.

(* ------------------------------------------------------------ branches *)
Lemma branch16 base target : 0 <= base <= 2^16 -> 0 <= target < 2^32 ->
  exists delta e, branchDelta 16 base target OK = Some (delta, e) /\ (delta - (target - base)) mod 65536 = 0 /\ -32768 <= delta < 32768 /\
    (e = OK \/ e = OVERFLOW_RANGE) /\ (e = OK <-> target < 2^16 /\ -32768 <= target - base < 32768) /\ (e = OK -> delta = target - base).
Proof.
  intros B T. destruct (Z.eq_dec base (2^16)) as [->|NE].
  - unfold branchDelta. destruct (C30_sign (M_Config.u32 (target - 2^16)) 16 ltac:(lia)) as (dl & E & R & M & UN).
    { apply Z.mod_pos_bound. lia. }
    assert (CG : forall x, (x - M_Config.u32 (target - 2^16)) mod 2^16 = (x - target) mod 65536).
    { intros x. unfold M_Config.u32. change (2^16) with 65536. change (2^32) with (65536 * 65536). rewrite Z.rem_mul_r by lia.
      replace (x - _) with (x - (target - 65536) mod 65536 + (- ((target - 65536) / 65536 mod 65536)) * 65536) by lia.
      rewrite Z_mod_plus_full, Zminus_mod_idemp_r. replace (x - (target - 65536)) with (x - target + 1 * 65536) by lia. apply Z_mod_plus_full. }
    rewrite CG in M. change (2^(16-1)) with 32768 in *. rewrite E. destruct (C31_addr 16 target false ltac:(lia) T) as (A1 & A2).
    exists dl. assert (MD : (dl - (target - 2^16)) mod 65536 = 0).
    { replace (dl - (target - 2^16)) with (dl - target + 1 * 65536) by lia. now rewrite Z_mod_plus_full. }
    destruct (Z.leb_spec (2^16) target) as [L|L].
    + assert (CK : checkAddr 16 target false = OVERFLOW_RANGE) by (now apply A2). rewrite CK. change (setErrorIfAt OK OVERFLOW_RANGE) with OVERFLOW_RANGE.
      change (setErrorIfAt OVERFLOW_RANGE OVERFLOW_RANGE) with OVERFLOW_RANGE. exists OVERFLOW_RANGE. split; [now destruct (_ || _)|].
      split; [exact MD|]. split; [lia|]. split; [now right|]. split; [split; [discriminate|lia]|discriminate].
    + assert (CK : checkAddr 16 target false = OK) by (apply A1; split; [exact L|discriminate]). rewrite CK. change (setErrorIfAt OK OK) with OK. change (setErrorIfAt OK OVERFLOW_RANGE) with OVERFLOW_RANGE.
      destruct (Z.leb_spec 32768 target) as [L2|L2].
      * assert (DL : target - 2^16 = dl). { apply UN; [lia|]. rewrite CG. replace (target - 2^16 - target) with ((-1) * 65536) by lia. apply Z_mod_mult. }
        exists OK. split; [now replace (_ || _) with false by lia|]. split; [exact MD|]. split; [lia|]. split; [now left|]. split; [split; [lia|reflexivity]|lia].
      * assert (DL : target = dl). { apply UN; [lia|]. rewrite CG. now rewrite Z.sub_diag. }
        exists OVERFLOW_RANGE. split; [now replace (_ || _) with true by lia|]. split; [exact MD|]. split; [lia|]. split; [now right|]. split; [split; [discriminate|lia]|discriminate].
  - destruct (C30_branch 16 base target ltac:(lia) ltac:(lia) T) as (dl & e & E & M & R & OR & OI & OK1). exists dl, e. split; [exact E|].
    split; [|auto]. change 65536 with (2^16). replace (dl - (target - base)) with (base + dl - target) by lia. exact M.
Qed.
Lemma fin_branch addr opc v m : byte opc -> int_value v -> 0 <= addr <= 65534 ->
  exists i, fin addr opc M_REL (mkOp m v OK) = Val i /\ i_code i = [opc; (int_of v - (addr + 2)) mod 256] /\
    (i_err i = OK <-> int_of v mod 2^32 < 65536 /\ -128 <= int_of v mod 2^32 - (addr + 2) <= 127).
Proof.
  intros O IV AR. unfold fin, emitOperand. cbv zeta. cbn [o_err o_val o_mode]. rewrite noerr.
  change (M_REL =? M_GN8) with false. change (M_REL =? M_GN16) with false. change (M_REL =? M_GMEM) with false. change (M_REL =? M_DIR) with false.
  change (M_REL =? M_IDX) with false. change (M_REL =? M_IDY) with false. change (M_REL =? M_EXT) with false. change (M_REL =? M_REL) with true. cbn [orb].
  unfold emitRelative. cbn [ai_insn i_len new_insn i_addr o_err o_val ai_err]. change (0 =? 0) with true. change (isOK OK) with true. cbn [negb].
  assert (BS : M_Config.u32 (addr + 2) = addr + 2) by (apply Z.mod_small; lia). rewrite BS, getUnsigned_mod by exact IV.
  set (t := int_of v mod 2^32). assert (TR : 0 <= t < 2^32) by (apply Z.mod_pos_bound; lia).
  destruct (branch16 (addr + 2) t ltac:(lia) TR) as (dl & e & E & M & R & OR & OI & OK1). rewrite E.
  unfold overflowDelta. change ((8 <? 1) || (32 <=? 8)) with false. change (Z.shiftl 1 (8 - 1)) with 128. cbv zeta iota.
  change (-(128)) with (-128). set (far := (dl <? -128) || (128 <=? dl)). unfold ai_seterr. cbn [ai_insn ai_prefix ai_opc].
  set (er := if far then setErrorIfAt e OPERAND_TOO_FAR else e).
  replace (if far then ai_setErrorIf OPERAND_TOO_FAR (mkAI (new_insn addr) e 0 opc) else mkAI (new_insn addr) e 0 opc) with (mkAI (new_insn addr) er 0 opc) by (unfold er; destruct far; reflexivity).
  set (x := (int_of v - (addr + 2)) mod 256).
  assert (XE : u8 dl = x).
  { unfold u8, x. change (2^8) with 256. apply Z.mod_divide in M; [|lia]. destruct M as (k & M). replace dl with (t - (addr + 2) + (k * 256) * 256) by lia. rewrite Z_mod_plus_full.
    unfold t. change (2^32) with (256 * 16777216). rewrite Z.rem_mul_r by lia.
    replace (_ - (addr + 2)) with (int_of v mod 256 - (addr + 2) + (int_of v / 256 mod 16777216) * 256) by lia. now rewrite Z_mod_plus_full, Zminus_mod_idemp_l. }
  rewrite part1, (emit8 x); [|apply mod_byte|exact XE|cbn; lia]. cbn [bind]. eexists. split; [reflexivity|].
  destruct (fin_err addr opc [x] er O ltac:(cbn; lia)) as (C & Q). split; [exact C|].
  cbn [app]. change (base 0) with 1%nat. rewrite Q. unfold er, far. destruct OR as [-> | ->].
  - destruct OI as (OI & _). specialize (OI eq_refl). specialize (OK1 eq_refl). subst dl. change (setErrorIfAt OK OPERAND_TOO_FAR) with OPERAND_TOO_FAR.
    destruct ((t - (addr + 2) <? -128) || (128 <=? t - (addr + 2))) eqn:F; (split; [intros X; try discriminate X; lia|intros; try reflexivity; lia]).
  - change (setErrorIfAt OVERFLOW_RANGE OPERAND_TOO_FAR) with OVERFLOW_RANGE. split.
    + destruct ((dl <? -128) || (128 <=? dl)); discriminate.
    + intros (Q1 & Q2). destruct OI as (_ & OI). specialize (OI ltac:(lia)). discriminate.
Qed.

(* ------------------------------------------------------------ all forms *)
Definition each (oms modes : list Z) (forms : Z -> list (string * Z)) : bool :=
  forallb (fun ty => forallb (fun f => form_ok oms modes (snd f) ty (s2l (fst f))) (forms ty)) types.
Definition anywhere : list Z := [M_EXT; M_DIR; M_BIT].
Lemma branch_ok : each anywhere [M_REL] (fun _ => branch_forms) = true.
Proof. vm_compute. reflexivity. Qed.
Lemma imm8_ok : each [M_IM16] [M_GN8] (fun _ => byte_forms) = true.
Proof. vm_compute. reflexivity. Qed.
Lemma imm16_ok : each [M_IM16] [M_GN16] word_forms = true.
Proof. vm_compute. reflexivity. Qed.
Lemma memory_ok : each (M_IDX :: anywhere) [M_GN8; M_GN16] memory_forms = true.
Proof. vm_compute. reflexivity. Qed.
Lemma change_ok : each (M_IDX :: anywhere) [M_GMEM] (fun _ => change_forms) = true /\ forallb (fun f => (u8 (Z.lor (snd f) 0x70) =? snd f + 0x10) && (snd f + 0x10 <? 256)) change_forms = true.
Proof. split; vm_compute; reflexivity. Qed.
(* JSR *)
Definition short_call (ty : Z) : bool := negb ((ty =? MC6800) || (ty =? MB8861)).
Lemma call_ok : each [M_IDX] [M_IDX] (fun _ => [("JSR", 0xAD)]) = true /\ each [M_EXT] [M_EXT] (fun _ => [("JSR", 0xBD)]) = true /\
  each [M_DIR; M_BIT] [M_EXT] (fun ty => if short_call ty then [] else [("JSR", 0xBD)]) = true /\
  each [M_DIR; M_BIT] [M_DIR] (fun ty => if short_call ty then [("JSR", 0x9D)] else []) = true.
Proof. repeat split; vm_compute; reflexivity. Qed.
Lemma each_at oms modes forms ty f : each oms modes forms = true -> In ty types -> In f (forms ty) ->
  form_ok oms modes (snd f) ty (s2l (fst f)) = true /\ byte (snd f).
Proof.
  intros H T F. unfold each in H. rewrite forallb_forall in H. specialize (H ty T). rewrite forallb_forall in H. specialize (H f F). split; [exact H|].
  unfold form_ok in H. rewrite !andb_true_iff in H. destruct H as ((((_ & A) & B) & _) & _). unfold byte. lia.
Qed.
Lemma place_in v : In (place_mode v) anywhere.
Proof. unfold place_mode, anywhere. destruct (overflowUint8 v); [cbn; auto|]. destruct (overflow v 7 0); cbn; auto. Qed.
Section Ranges.
Variables (ty : Z) (f : string * Z) (symbol : text -> option value) (function : text -> option functor) (indent gap b0 : text)
  (e : expr) (s rest : text) (v : value) (addr : Z).
Hypothesis T : In ty types.
Hypotheses (BI : blanks indent) (BG : blanks gap) (NG : gap <> []) (B0 : blanks b0) (AR : 0 <= addr < 2^16).
Let a := mc6800_asm symbol function 10.
Hypotheses (W : well_nested e) (VS : value_slots e <= 8) (OS : operator_slots e <= 8) (V : value_of e = Val (OK, v)) (IV : int_value v) (LR : last_rest rest).
Let CA : checkAddr 16 addr false = OK.
Proof. apply (proj1 (C31_addr 16 addr false ltac:(lia) ltac:(lia))). split; [exact (proj2 AR)|discriminate]. Qed.
Let skip_op : forall t, parseOperand a addr (skipSpaces t) = parseOperand a addr t.
Proof.
  intros t. unfold parseOperand. replace (skipSpaces (skipSpaces t)) with (skipSpaces t); [reflexivity|].
  unfold skipSpaces. induction t as [|c t IH]; [reflexivity|]. cbn [trimStart]. destruct (is_space c) eqn:C; [exact IH|]. cbn [trimStart]. now rewrite C.
Qed.
Section Plain.
Hypothesis D : derives fam_6800 (mkC addr symbol function 0) e s rest.
Lemma range_imm8 : In f byte_forms -> exists i, mc6800_encode ty a (indent ++ s2l (fst f) ++ gap ++ 35 :: b0 ++ s) addr = Val (L_insn i rest) /\
  i_code i = [snd f; int_of v mod 256] /\ i_err i = if (-128 <=? int_of v) && (int_of v <=? 255) then OK else OVERFLOW_RANGE.
Proof.
  intros F. destruct (each_at _ _ _ ty f imm8_ok T F) as (FK & O).
  destruct (parse_immediate a addr b0 e s rest v eq_refl eq_refl B0 D W VS OS (proj1 (last_tail _ LR)) V) as (b & BB & PO).
  destruct (form_encode _ _ _ _ _ a indent gap (35 :: b0 ++ s) (b ++ rest) rest addr M_IM16 v FK ltac:(cbn; auto) eq_refl eq_refl BI BG NG CA ltac:(rewrite skip_op; exact PO) (last_skip b rest BB LR) LR)
    as (m & IM & EN). destruct IM as [<-|[]]. destruct (fin_imm8 addr (snd f) v O IV) as (i & FI & C & R). exists i. rewrite EN, FI. auto.
Qed.
Lemma range_imm16 : In f (word_forms ty) -> exists i, mc6800_encode ty a (indent ++ s2l (fst f) ++ gap ++ 35 :: b0 ++ s) addr = Val (L_insn i rest) /\
  i_code i = [snd f; int_of v / 256 mod 256; int_of v mod 256] /\ i_err i = OK.
Proof.
  intros F. destruct (each_at _ _ _ ty f imm16_ok T F) as (FK & O).
  destruct (parse_immediate a addr b0 e s rest v eq_refl eq_refl B0 D W VS OS (proj1 (last_tail _ LR)) V) as (b & BB & PO).
  destruct (form_encode _ _ _ _ _ a indent gap (35 :: b0 ++ s) (b ++ rest) rest addr M_IM16 v FK ltac:(cbn; auto) eq_refl eq_refl BI BG NG CA ltac:(rewrite skip_op; exact PO) (last_skip b rest BB LR) LR)
    as (m & IM & EN). destruct IM as [<-|[]]. destruct (fin_imm16 addr (snd f) v O IV) as (i & FI & C & R). exists i. rewrite EN, FI. auto.
Qed.
Lemma range_memory : In f (memory_forms ty) -> starts_address s -> exists i, mc6800_encode ty a (indent ++ s2l (fst f) ++ gap ++ b0 ++ s) addr = Val (L_insn i rest) /\
  i_err i = OK /\ i_code i = if (-128 <=? int_of v) && (int_of v <=? 255) then [direct (snd f); int_of v mod 256] else [extended (snd f); int_of v / 256 mod 256; int_of v mod 256].
Proof.
  intros F SA. destruct (each_at _ _ _ ty f memory_ok T F) as (FK & O).
  destruct (parse_address a addr b0 e s rest v eq_refl eq_refl B0 SA D W VS OS LR V) as (b & BB & PO).
  destruct (form_encode _ _ _ _ _ a indent gap (b0 ++ s) (b ++ rest) rest addr (place_mode v) v FK ltac:(right; apply place_in) eq_refl eq_refl BI BG NG CA ltac:(rewrite skip_op; exact PO) (last_skip b rest BB LR) LR)
    as (m & IM & EN). destruct (fin_memory addr ty f v m F ltac:(unfold gn; cbn in IM; intuition auto) IV) as (i & FI & C & R). exists i. rewrite EN, FI. auto.
Qed.
Lemma range_branch : In f branch_forms -> starts_address s -> addr <= 65534 -> exists i, mc6800_encode ty a (indent ++ s2l (fst f) ++ gap ++ b0 ++ s) addr = Val (L_insn i rest) /\
  i_code i = [snd f; (int_of v - (addr + 2)) mod 256] /\
  (i_err i = OK <-> int_of v mod 2^32 < 65536 /\ -128 <= int_of v mod 2^32 - (addr + 2) <= 127).
Proof.
  intros F SA AL. destruct (each_at _ _ _ ty f branch_ok T F) as (FK & O).
  destruct (parse_address a addr b0 e s rest v eq_refl eq_refl B0 SA D W VS OS LR V) as (b & BB & PO).
  destruct (form_encode _ _ _ _ _ a indent gap (b0 ++ s) (b ++ rest) rest addr (place_mode v) v FK ltac:(apply place_in) eq_refl eq_refl BI BG NG CA ltac:(rewrite skip_op; exact PO) (last_skip b rest BB LR) LR)
    as (m & IM & EN). destruct IM as [<-|[]]. destruct (fin_branch addr (snd f) v (place_mode v) O IV ltac:(lia)) as (i & FI & C & R). exists i. rewrite EN, FI. auto.
Qed.
Lemma range_change : In f change_forms -> starts_address s -> exists i, mc6800_encode ty a (indent ++ s2l (fst f) ++ gap ++ b0 ++ s) addr = Val (L_insn i rest) /\
  i_err i = OK /\ i_code i = [snd f + 0x10; int_of v / 256 mod 256; int_of v mod 256].
Proof.
  intros F SA. destruct (each_at _ _ _ ty f (proj1 change_ok) T F) as (FK & O).
  destruct (parse_address a addr b0 e s rest v eq_refl eq_refl B0 SA D W VS OS LR V) as (b & BB & PO).
  destruct (form_encode _ _ _ _ _ a indent gap (b0 ++ s) (b ++ rest) rest addr (place_mode v) v FK ltac:(right; apply place_in) eq_refl eq_refl BI BG NG CA ltac:(rewrite skip_op; exact PO) (last_skip b rest BB LR) LR)
    as (m & IM & EN). destruct IM as [<-|[]]. pose proof (proj2 change_ok) as E. rewrite forallb_forall in E. specialize (E f F). apply andb_true_iff in E. destruct E as (E1 & E2). apply Z.eqb_eq in E1.
  destruct (fin_far addr (snd f) (snd f + 0x10) v M_GMEM (place_mode v)) as (i & FI & C & R); [unfold byte in *; lia|exact IV|right; repeat split; [|exact E1]|exists i; rewrite EN, FI; auto].
  unfold place_mode. destruct (overflowUint8 v); [discriminate|]. destruct (overflow v 7 0); discriminate.
Qed.
Lemma range_call : starts_address s -> 0 <= int_of v < 65536 -> exists i, mc6800_encode ty a (indent ++ s2l "JSR" ++ gap ++ b0 ++ s) addr = Val (L_insn i rest) /\
  i_err i = OK /\ i_code i = if short_call ty && (int_of v <? 256) then [0x9D; int_of v] else [0xBD; int_of v / 256; int_of v mod 256].
Proof.
  intros SA R. destruct (parse_address a addr b0 e s rest v eq_refl eq_refl B0 SA D W VS OS LR V) as (b & BB & PO).
  assert (H16 : int_of v / 256 mod 256 = int_of v / 256) by (apply Z.mod_small; split; [apply Z.div_pos; lia|apply Z.div_lt_upper_bound; lia]).
  destruct call_ok as (_ & K1 & K2 & K3).
  assert (FAR : forall oms, form_ok oms [M_EXT] 0xBD ty (s2l "JSR") = true -> In (place_mode v) oms ->
    exists i, mc6800_encode ty a (indent ++ s2l "JSR" ++ gap ++ b0 ++ s) addr = Val (L_insn i rest) /\ i_err i = OK /\ i_code i = [0xBD; int_of v / 256; int_of v mod 256]).
  { intros oms FK IO. destruct (form_encode _ _ _ _ _ a indent gap (b0 ++ s) (b ++ rest) rest addr (place_mode v) v FK IO eq_refl eq_refl BI BG NG CA ltac:(rewrite skip_op; exact PO) (last_skip b rest BB LR) LR)
      as (m & [<-|[]] & EN). destruct (fin_far addr 0xBD 0xBD v M_EXT (place_mode v) ltac:(unfold byte; lia) IV ltac:(auto)) as (i & FI & C & X). exists i. rewrite EN, FI. rewrite H16 in X. auto. }
  destruct (Z.ltb_spec (int_of v) 256) as [L|L].
  - assert (PM : In (place_mode v) [M_DIR; M_BIT]).
    { unfold place_mode, overflowUint8. rewrite (over_if v 255 (-128)) by (exact IV || lia). replace ((-128 <=? int_of v) && (int_of v <=? 255)) with true by lia. destruct (overflow v 7 0); cbn; auto. }
    destruct (short_call ty) eqn:SC; cbn [andb].
    + destruct (each_at _ _ _ ty ("JSR", 0x9D) K3 T ltac:(cbv beta; rewrite SC; left; reflexivity)) as (FK & O).
      destruct (form_encode _ _ _ _ _ a indent gap (b0 ++ s) (b ++ rest) rest addr (place_mode v) v FK PM eq_refl eq_refl BI BG NG CA ltac:(rewrite skip_op; exact PO) (last_skip b rest BB LR) LR)
        as (m & [<-|[]] & EN). destruct (fin_place addr 0x9D v M_DIR (place_mode v) ltac:(unfold byte; lia) IV ltac:(auto)) as (i & FI & C & X). exists i. cbn [fst snd] in EN. rewrite EN, FI. split; [reflexivity|].
      rewrite X, C, Z.mod_small by lia. split; [|reflexivity]. now replace ((0 <=? int_of v) && (int_of v <=? 255)) with true by lia.
    + destruct (each_at _ _ _ ty ("JSR", 0xBD) K2 T ltac:(cbv beta; rewrite SC; left; reflexivity)) as (FK & O). exact (FAR _ FK PM).
  - rewrite andb_false_r. destruct (each_at _ _ _ ty ("JSR", 0xBD) K1 T ltac:(left; reflexivity)) as (FK & O). apply (FAR _ FK). left.
    unfold place_mode, overflowUint8. rewrite (over_if v 255 (-128)) by (exact IV || lia). now replace ((-128 <=? int_of v) && (int_of v <=? 255)) with false by lia.
Qed.
End Plain.
Lemma range_indexed b1 r b2 : In f (memory_forms ty) -> starts_address s -> blanks b1 -> In r [88; 120] -> blanks b2 ->
  derives fam_6800 (mkC addr symbol function 0) e s (44 :: b1 ++ r :: b2 ++ rest) ->
  exists i, mc6800_encode ty a (indent ++ s2l (fst f) ++ gap ++ b0 ++ s) addr = Val (L_insn i rest) /\
  i_code i = [indexed (snd f); int_of v mod 256] /\ i_err i = if (0 <=? int_of v) && (int_of v <=? 255) then OK else OVERFLOW_RANGE.
Proof.
  intros F SA B1 R B2 D. destruct (each_at _ _ _ ty f memory_ok T F) as (FK & O).
  pose proof (parse_indexed a addr b0 e s b1 b2 r rest v eq_refl eq_refl B0 SA B1 R B2 LR D W VS OS V) as PO.
  destruct (form_encode _ _ _ _ _ a indent gap (b0 ++ s) (b2 ++ rest) rest addr M_IDX v FK ltac:(cbn; auto) eq_refl eq_refl BI BG NG CA ltac:(rewrite skip_op; exact PO) (last_skip b2 rest B2 LR) LR)
    as (m & IM & EN). destruct (fin_indexed addr ty f v m F ltac:(unfold gn; cbn in IM; intuition auto) IV) as (i & FI & C & RR). exists i. rewrite EN, FI. auto.
Qed.
Lemma range_place b1 r b2 m : (m = M_GMEM /\ In f change_forms) \/ (m = M_IDX /\ f = ("JSR", 0xAD)) -> starts_address s -> blanks b1 -> In r [88; 120] -> blanks b2 ->
  derives fam_6800 (mkC addr symbol function 0) e s (44 :: b1 ++ r :: b2 ++ rest) ->
  exists i, mc6800_encode ty a (indent ++ s2l (fst f) ++ gap ++ b0 ++ s) addr = Val (L_insn i rest) /\
  i_code i = [snd f; int_of v mod 256] /\ i_err i = if (0 <=? int_of v) && (int_of v <=? 255) then OK else OVERFLOW_RANGE.
Proof.
  intros F SA B1 R B2 D. assert (exists oms, In M_IDX oms /\ form_ok oms [m] (snd f) ty (s2l (fst f)) = true /\ byte (snd f)) as (oms & IO & FK & O).
  { destruct F as [(-> & F)|(-> & ->)].
    - exists (M_IDX :: anywhere). split; [now left|]. exact (each_at _ _ _ ty f (proj1 change_ok) T F).
    - exists [M_IDX]. split; [now left|]. exact (each_at _ _ _ ty ("JSR", 0xAD) (proj1 call_ok) T ltac:(now left)). }
  pose proof (parse_indexed a addr b0 e s b1 b2 r rest v eq_refl eq_refl B0 SA B1 R B2 LR D W VS OS V) as PO.
  destruct (form_encode _ _ _ _ _ a indent gap (b0 ++ s) (b2 ++ rest) rest addr M_IDX v FK IO eq_refl eq_refl BI BG NG CA ltac:(rewrite skip_op; exact PO) (last_skip b2 rest B2 LR) LR)
    as (m' & [<-|[]] & EN). destruct (fin_place addr (snd f) v m M_IDX O IV ltac:(tauto)) as (i & FI & C & RR). exists i. rewrite EN, FI. auto.
Qed.
End Ranges.
