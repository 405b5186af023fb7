(** The 8080 family: what the instructions with a number give for every value. *)
From Coq Require Import String ZArith List Bool Lia ZifyBool.
From Verif Require Import M_Char M_Error M_Value M_Text M_StrBuffer M_Format M_Number M_Insn M_Config M_Operators
  M_Parsers M_Expr M_Directive M_Table T_Tables M_Asm M_Dis M_I8080Defs T_I8080 M_I8080
  S_Value S_Number S_Expr S_ExprTree S_Table S_Cpu S_I8080 P_StrBuffer P_Number P_NumberRead
  P_ExprRead P_ExprTree P_ExprCase P_Table P_TableData P_Insn P_Value P_AsmText P_CpuShape P_I8080.
Import ListNotations.
Open Scope string_scope.
Open Scope list_scope.
Local Open Scope Z_scope.

Lemma take_split p s w z : takeWhile p s = (w, z) -> s = w ++ z /\ forallb p w = true.
Proof.
  revert w z. induction s as [|c s IH]; cbn [takeWhile]; intros w z; [injection 1 as <- <-; auto|].
  destruct (p c) eqn:P.
  - destruct (takeWhile p s) as [a b] eqn:T. injection 1 as <- <-. destruct (IH _ _ eq_refl) as (E & F). cbn. now rewrite P, <- E, F.
  - injection 1 as <- <-. auto.
Qed.
Lemma searchText_none {A} (nm : A -> text) s items : forallb (fun a => cstringb (nm a)) items = true ->
  (forall a, In a items -> ~ same_name (leading_word s) (nm a)) -> searchText nm s items = Val (None, s).
Proof.
  intros C N. change (leading_word s) with (fst (takeWhile isNameLetter s)) in N. unfold searchText, searchSymbol.
  destruct (takeWhile isNameLetter s) as [w z] eqn:T. cbn [fst] in N.
  destruct (Nat.eqb_spec (length w) 0); [reflexivity|].
  assert (SW : s = w ++ z /\ forallb isNameLetter w = true) by (apply (take_split _ _ _ _ T)). destruct SW as (-> & W).
  rewrite bsearch_never; [reflexivity|]. apply Forall_forall. intros x I.
  rewrite forallb_forall in C. specialize (C x I).
  assert (CW : cstring w).
  { apply Forall_forall. intros c IC. rewrite forallb_forall in W. specialize (W c IC).
    unfold isNameLetter, is_alnum, is_alpha, is_upper, is_lower, is_digit in W. lia. }
  destruct (textMatcher_spec w (length w) (nm x) (le_n _) CW (cstringb_spec _ C)) as (E & _).
  intros M. apply (N x I). rewrite firstn_all in E. apply E. rewrite <- M. unfold textMatcher. now rewrite strn_app.
Qed.
Lemma reg_none zilog s : (forall n, In n (operand_names zilog) -> ~ same_name (leading_word s) (s2l n)) -> parseRegName zilog s = Val (REG_UNDEF, s).
Proof.
  intros H. unfold parseRegName. cbv zeta. rewrite searchText_none; [reflexivity|destruct zilog; vm_compute; reflexivity|].
  intros a I. apply H. destruct zilog; cbn in I |- *; intuition (subst; cbn; auto 30).
Qed.
Lemma cc_none s : (forall n, In n (operand_names true) -> ~ same_name (leading_word s) (s2l n)) -> parseCcName s = Val (CC_UNDEF, s).
Proof.
  intros H. unfold parseCcName. rewrite searchText_none; [reflexivity|vm_compute; reflexivity|].
  intros a I. apply H. cbn in I |- *; intuition (subst; cbn; auto 30).
Qed.

Lemma parse_expr zilog a loc b0 e s rest v :
  a_pl a = pl_i8080 -> a_radix a = 10 -> total_functions a -> blanks b0 -> starts_number zilog s ->
  derives fam_8080 (mkC loc (a_symbol a) (a_function a) 0) e s rest -> well_nested e -> value_slots e <= 8 -> operator_slots e <= 8 ->
  last_rest rest -> value_of e = Val (OK, v) ->
  exists b, blanks b /\ parseOperand zilog a loc (b0 ++ s) = Val (mkOp M_IM16 REG_UNDEF v OK, b ++ rest).
Proof.
  intros PL RX TF B0 SN D W VS OS LR V.
  assert (EN : ends (mkC loc (a_symbol a) (a_function a) 0) rest).
  { destruct LR as [->|(u & ->)]; cbn; auto. }
  pose proof (C18_exact fam_8080 (mkC loc (a_symbol a) (a_function a) 0) e [] s rest ltac:(cbn; auto 10) ltac:(cbn; auto) (Forall_nil _) D W EN VS OS) as X.
  rewrite V in X. destruct X as (b & B & X). cbn [app] in X. exists b. split; [exact B|].
  destruct s as [|c s]; [destruct SN as ([] & _)|]. destruct SN as ((S2 & S3 & S4 & S5) & S1).
  assert (EOL : p_eol (a_pl a) = eol_semicolon) by (rewrite PL; reflexivity).
  destruct (eol_false (c :: s)) as (EF & SK); [exact S2|exact S3|exact S4|].
  assert (PI : parseInteger a loc (c :: s) OK 0 = Val (v, OK, b ++ rest)).
  { unfold parseInteger. rewrite PL, RX. change (fam_pl fam_8080) with pl_i8080 in X. rewrite X. reflexivity. }
  unfold parseOperand. destruct zilog.
  - unfold parseZilogOperand. rewrite skip_blanks by exact B0. rewrite EOL, SK, EF. cbv iota beta.
    rewrite !reg_none by exact S1. rewrite cc_none by exact S1. cbn [bind].
    change (REG_UNDEF =? REG_C) with false. change (CC_UNDEF =? CC_UNDEF) with true. change (REG_UNDEF =? REG_UNDEF) with true. cbn [negb expect_char].
    destruct (Z.eqb_spec c 40) as [->|_]; [now specialize (S5 eq_refl)|]. rewrite PI. reflexivity.
  - unfold parseIntelOperand. rewrite skip_blanks by exact B0. rewrite EOL, SK, EF. cbv iota beta.
    rewrite !reg_none by exact S1. cbn [bind]. change (REG_UNDEF =? REG_UNDEF) with true. cbn [negb]. rewrite PI. reflexivity.
Qed.

(* each form has an entry *)
Definition the_first (f : form) : option operand :=
  if String.eqb (fm_first f) "" then Some no_operand else op_text (fm_zilog f) (s2l (fm_first f)).
Definition num_op (v : value) : operand := mkOp M_IM16 REG_UNDEF v OK.
Definition form_ok (modes : list Z) (ty : Z) (f : form) : bool :=
  let nm := s2l (fm_name f) in
  let one := String.eqb (fm_first f) "" in
  plain_name sp_i8080 i8080_specials i8080_directives nm && (0 <=? fm_opc f) && (fm_opc f <? 256) &&
  match the_first f with
  | None => false
  | Some od =>
    match i8080_searchName ty (fm_zilog f) nm (if one then M_IM16 else o_mode od) (if one then M_NONE else M_IM16) with
    | Val (OK, Some (p', e')) =>
      let x := if one then mkAI (new_insn 0) OK p' (e_opc e') else encodeOperand (fm_zilog f) od (e_dst e') (mkAI (new_insn 0) OK p' (e_opc e')) in
      (p' =? 0) && (ai_opc x =? fm_opc f) && isOK (ai_err x) && isOK (o_err od) &&
      (if one then existsb (Z.eqb (e_dst e')) modes && (e_src e' =? M_NONE)
       else existsb (Z.eqb (e_src e')) modes && (width (e_dst e') =? 0))
    | _ => false
    end
  end.
Lemma byte_ok : forallb (fun ty => forallb (form_ok [M_IM8] ty) byte_forms) [I8080; I8085; V30EMU] = true.
Proof. vm_compute. reflexivity. Qed.
Lemma port_ok : forallb (fun ty => forallb (form_ok [M_IOA] ty) port_forms) [I8080; I8085; V30EMU] = true.
Proof. vm_compute. reflexivity. Qed.
Lemma word_ok : forallb (fun ty => forallb (form_ok [M_IM16; M_ABS] ty) word_forms) [I8080; I8085; V30EMU] = true.
Proof. vm_compute. reflexivity. Qed.

Definition fin (zilog : bool) (addr opc m : Z) (v : value) : insn :=
  let ai := ai_emitInsn (encodeOperand zilog (num_op v) m (mkAI (new_insn addr) OK 0 opc)) in i_seterr (ai_err ai) (ai_insn ai).
Lemma enc_none zilog i e p o : encodeOperand zilog no_operand M_NONE (mkAI i e p o) = mkAI i e p o.
Proof. unfold encodeOperand. cbn. unfold ai_setErrorIf, setErrorIfAt. cbn. now rewrite andb_false_r. Qed.
Lemma form_encode modes ty f a indent gap b0 e s rest v addr :
  form_ok modes ty f = true -> In ty [I8080; I8085; V30EMU] ->
  a_pl a = pl_i8080 -> a_radix a = 10 -> a_aw a = 16 -> total_functions a ->
  blanks indent -> blanks gap -> gap <> [] -> blanks b0 -> checkAddr 16 addr false = OK -> starts_number (fm_zilog f) s ->
  derives fam_8080 (mkC addr (a_symbol a) (a_function a) 0) e s rest -> well_nested e -> value_slots e <= 8 -> operator_slots e <= 8 ->
  last_rest rest -> value_of e = Val (OK, v) ->
  exists m, In m modes /\
  i8080_encode ty (fm_zilog f) a (indent ++ s2l (fm_name f) ++ gap ++ first_text f ++ b0 ++ s) addr =
  Val (L_insn (fin (fm_zilog f) addr (fm_opc f) m v) rest).
Proof.
  intros FK T PL RX AW TF BI BG NG B0 CA SN D W VS OS LR V.
  destruct (parse_expr (fm_zilog f) a addr b0 e s rest v PL RX TF B0 SN D W VS OS LR V) as (b & BB & PE).
  unfold form_ok in FK. cbv zeta in FK. rewrite !andb_true_iff in FK. destruct FK as (((PN & O1) & O2) & FK).
  set (nm := s2l (fm_name f)) in *.
  assert (LINE : forall impl ops, asm_encode a i8080_specials i8080_directives impl (indent ++ nm ++ gap ++ ops) (new_insn addr) =
    bind (impl nm (skipSpaces ops) (new_insn addr)) (fun '(i, scan) => Val (L_insn i scan))).
  { intros impl ops. apply line_insn; auto.
    - rewrite PL. exact PN.
    - intros z. rewrite PL. eapply plain_line, PN.
    - rewrite PL. destruct gap as [|c gap]; [congruence|]. apply space_letter. now inversion BG.
    - rewrite AW. exact CA. }
  unfold i8080_encode. rewrite LINE. unfold i8080_encodeImpl. rewrite parse_skip.
  destruct (the_first f) as [od|] eqn:TFI; [|discriminate]. unfold the_first, first_text in *.
  destruct (String.eqb (fm_first f) "") eqn:ONE.
  - destruct (i8080_searchName ty (fm_zilog f) nm M_IM16 M_NONE) as [[er [[p' e']|]]| | | |] eqn:SR; try discriminate.
    2:{ destruct er; discriminate. }
    destruct er; try discriminate. rewrite !andb_true_iff in FK. destruct FK as ((((F1 & F2) & F3) & F4) & (F5 & F6)).
    apply Z.eqb_eq in F1, F2, F6. subst p'. apply existsb_exists in F5. destruct F5 as (m & IM & EM). apply Z.eqb_eq in EM. subst m.
    exists (e_dst e'). split; [exact IM|]. cbn [app]. rewrite PE. cbn [bind o_err]. change (hasError OK) with false. cbv iota zeta.
    rewrite last_skip by assumption. rewrite last_nocomma by assumption. cbn [bind o_mode no_operand]. rewrite SR. cbn [bind i_err new_insn].
    change (setErrorIfAt OK OK) with OK. change (isOK OK) with true. cbn [negb]. cbn [ai_opc] in F2. rewrite F6, F2.
    unfold fin, num_op. cbv zeta. destruct (encodeOperand (fm_zilog f) (mkOp M_IM16 REG_UNDEF v OK) (e_dst e') (mkAI (new_insn addr) OK 0 (fm_opc f))) as [i1 e1 p1 o1].
    now rewrite enc_none.
  - destruct (i8080_searchName ty (fm_zilog f) nm (o_mode od) M_IM16) as [[er [[p' e']|]]| | | |] eqn:SR; try discriminate.
    2:{ destruct er; discriminate. }
    destruct er; try discriminate. rewrite !andb_true_iff in FK. destruct FK as ((((F1 & F2) & F3) & F4) & (F5 & F6)).
    apply Z.eqb_eq in F1, F2, F6. apply isOK_e in F3, F4. subst p'. apply existsb_exists in F5. destruct F5 as (m & IM & EM). apply Z.eqb_eq in EM. subst m.
    exists (e_src e'). split; [exact IM|].
    assert (NONE : map (conv None) (s2l (fm_first f)) = s2l (fm_first f)) by (rewrite map_ext with (g := fun x => x); [apply map_id|reflexivity]).
    assert (PR : printed np_intel None (Sh_text (s2l (fm_first f))) (s2l (fm_first f)) [] 0) by (cbn [printed]; rewrite NONE; auto).
    assert (OO : op_of (fm_zilog f) None (Sh_text (s2l (fm_first f))) 0 = Some od) by (cbn [op_of]; rewrite NONE; exact TFI).
    destruct (parse_op (fm_zilog f) a addr [] _ _ _ _ _ _ [] (44 :: b0 ++ s) PL RX TF (Forall_nil _) (Forall_nil _) ltac:(right; eauto) PR OO) as (b1 & B1 & PO).
    cbn [app] in PO. rewrite <- app_assoc. cbn [app]. rewrite PO. cbn [bind]. rewrite F4. change (hasError OK) with false. cbv iota zeta.
    rewrite skip_blanks by exact B1. rewrite (skip_none 44) by reflexivity. cbn [expect_char]. change (44 =? 44) with true. cbv iota.
    rewrite PE. cbn [bind]. rewrite last_skip by assumption. cbn [o_mode]. rewrite SR. cbn [bind i_err new_insn].
    change (setErrorIfAt OK OK) with OK. change (isOK OK) with true. cbn [negb].
    rewrite (enc_operand (fm_zilog f) od od (e_dst e') (new_insn addr) (new_insn 0) OK 0 (e_opc e') 0) by auto. cbv zeta.
    rewrite enc_prefix, F2, F3, F6, put_zero. reflexivity.
Qed.

(* the bytes and the error *)
Lemma emit_mod x pos i : emitByte_at x pos i = emitByte_at (x mod 256) pos i.
Proof. unfold emitByte_at. change (2^8) with 256. now rewrite Z.mod_mod by lia. Qed.
Lemma get_low v : int_value v -> u16 (getUnsigned v) = int_of v mod 65536.
Proof.
  intros H. unfold u16, getUnsigned. change (2^16) with 65536. change (2^32) with 4294967296.
  rewrite <- (Znumtheory.Zmod_div_mod 65536 4294967296) by (lia || now exists 65536).
  unfold int_of. destruct (v_type v); try reflexivity.
  replace (v_bits v - 2^64) with (v_bits v + (- 281474976710656) * 65536) by lia. now rewrite Z_mod_plus_full.
Qed.
Lemma fin_bytes zilog addr opc v m mx mn : byte opc -> int_value v ->
  (m = M_IM8 /\ mx = 255 /\ mn = -128) \/ (m = M_IOA /\ mx = 255 /\ mn = 0) ->
  i_code (fin zilog addr opc m v) = [opc; int_of v mod 256] /\
  i_err (fin zilog addr opc m v) = if (mn <=? int_of v) && (int_of v <=? mx) then OK else OVERFLOW_RANGE.
Proof.
  intros BO IV M.
  set (x := int_of v mod 256). assert (BX : byte x) by (apply Z.mod_pos_bound; lia).
  assert (E : fin zilog addr opc m v = i_seterr (if (mn <=? int_of v) && (int_of v <=? mx) then OK else OVERFLOW_RANGE) (canon addr [opc; x])).
  { set (e := if (mn <=? int_of v) && (int_of v <=? mx) then OK else OVERFLOW_RANGE).
    assert (ENC : encodeOperand zilog (num_op v) m (mkAI (new_insn addr) OK 0 opc) = mkAI (put 1 x 0 (new_insn addr)) e 0 opc).
    { assert (EM : forall er, ai_emitOperand8 (u16 (getUnsigned v)) (mkAI (new_insn addr) er 0 opc) = mkAI (put 1 x 0 (new_insn addr)) er 0 opc).
      { intros er. unfold ai_emitOperand8, ai_set, put, ai_operandPos. cbn [ai_insn ai_prefix ai_err ai_opc i_len new_insn].
        change (0 =? 0) with true. change (1 =? 1) with true. cbn [negb]. rewrite emit_mod, get_low by exact IV.
        rewrite <- (Znumtheory.Zmod_div_mod 256 65536) by (lia || now exists 256). reflexivity. }
      pose proof (overflow_ok v 255 (-128) IV ltac:(lia) ltac:(lia)) as OV1. pose proof (overflow_ok v 255 0 IV ltac:(lia) ltac:(lia)) as OV2.
      unfold encodeOperand, num_op. cbn [o_err o_val o_reg]. cbv zeta. unfold overflowUint8.
      destruct M as [(-> & -> & ->)|(-> & -> & ->)].
      - change (M_IM8 =? M_IOA) with false. change (M_IM8 =? M_IM8) with true. cbv iota.
        change (ai_setErrorIf OK (mkAI (new_insn addr) OK 0 opc)) with (mkAI (new_insn addr) OK 0 opc).
        subst e. destruct (overflow v 255 (-128)).
        + change (ai_setErrorIf OVERFLOW_RANGE (mkAI (new_insn addr) OK 0 opc)) with (mkAI (new_insn addr) OVERFLOW_RANGE 0 opc). rewrite EM.
          destruct ((-128 <=? int_of v) && (int_of v <=? 255)) eqn:Q; [|reflexivity]. exfalso. assert (int_of v < -128 \/ 255 < int_of v) by (now apply OV1). lia.
        + rewrite EM. destruct ((-128 <=? int_of v) && (int_of v <=? 255)) eqn:Q; [reflexivity|]. exfalso.
          assert (false = true) by (apply OV1; lia). discriminate.
      - change (M_IOA =? M_IOA) with true. cbv iota.
        change (ai_setErrorIf OK (mkAI (new_insn addr) OK 0 opc)) with (mkAI (new_insn addr) OK 0 opc).
        subst e. destruct (overflow v 255 0) eqn:Q2.
        + change (ai_setErrorIf OVERFLOW_RANGE (mkAI (new_insn addr) OK 0 opc)) with (mkAI (new_insn addr) OVERFLOW_RANGE 0 opc).
          destruct (overflow v 255 (-128)); [change (ai_setErrorIf OVERFLOW_RANGE (mkAI (new_insn addr) OVERFLOW_RANGE 0 opc)) with (mkAI (new_insn addr) OVERFLOW_RANGE 0 opc)|];
          rewrite EM; (destruct ((0 <=? int_of v) && (int_of v <=? 255)) eqn:Q; [|reflexivity]; exfalso; assert (int_of v < 0 \/ 255 < int_of v) by (now apply OV2); lia).
        + assert (~ (int_of v < 0 \/ 255 < int_of v)) by (intros C; apply OV2 in C; discriminate).
          destruct (overflow v 255 (-128)) eqn:Q1; [assert (int_of v < -128 \/ 255 < int_of v) by (now apply OV1); lia|].
          rewrite EM. destruct ((0 <=? int_of v) && (int_of v <=? 255)) eqn:Q; [reflexivity|lia]. }
    unfold fin. rewrite ENC. cbv zeta.
    destruct (emit_all 1 x [x] 0 opc addr e ltac:(right; left; auto) ltac:(unfold byte; lia) BO) as (EA & EE). rewrite EA, EE. reflexivity. }
  rewrite E. split; [|reflexivity]. unfold i_code, i_seterr. cbn [i_len i_bytes].
  fold (i_code (canon addr [opc; x])). now rewrite canon_code.
Qed.
Lemma fin_word zilog addr opc v m : byte opc -> int_value v -> m = M_IM16 \/ m = M_ABS ->
  i_code (fin zilog addr opc m v) = [opc; int_of v mod 256; int_of v / 256 mod 256] /\
  i_err (fin zilog addr opc m v) = OK.
Proof.
  intros BO IV M.
  set (lo := int_of v mod 256). set (hi := int_of v / 256 mod 256).
  assert (BL : byte lo) by (apply Z.mod_pos_bound; lia). assert (BH : byte hi) by (apply Z.mod_pos_bound; lia).
  assert (VV : int_of v mod 65536 = lo + 256 * hi).
  { unfold lo, hi. change 65536 with (256 * 256). rewrite Z.rem_mul_r by lia. reflexivity. }
  assert (E : fin zilog addr opc m v = canon addr [opc; lo; hi]).
  { assert (ENC : encodeOperand zilog (num_op v) m (mkAI (new_insn addr) OK 0 opc) = mkAI (put 2 (lo + 256 * hi) 0 (new_insn addr)) OK 0 opc).
    { unfold encodeOperand, num_op. cbn [o_err o_val o_reg]. cbv zeta. rewrite get_low, VV by exact IV.
      destruct M as [->| ->]; reflexivity. }
    unfold fin. rewrite ENC. cbv zeta.
    destruct (emit_all 2 (lo + 256 * hi) [lo; hi] 0 opc addr OK ltac:(right; right; split; [reflexivity|]; exists lo, hi; auto) ltac:(unfold byte; lia) BO) as (EA & EE).
    rewrite EA, EE. reflexivity. }
  rewrite E. split; [apply canon_code|reflexivity].
Qed.
Lemma form_opc modes ty f : form_ok modes ty f = true -> byte (fm_opc f).
Proof. unfold form_ok. cbv zeta. rewrite !andb_true_iff. intros (((_ & A) & B) & _). unfold byte. lia. Qed.
Lemma in_forms (ok : list Z) ty f (tys : list Z) (forms : list form) :
  forallb (fun ty => forallb (form_ok ok ty) forms) tys = true -> In ty tys -> In f forms -> form_ok ok ty f = true.
Proof. intros H T F. rewrite forallb_forall in H. specialize (H _ T). rewrite forallb_forall in H. now apply H. Qed.
Lemma range_byte ty f symbol function indent gap b0 e s rest v addr :
  In ty [I8080; I8085; V30EMU] -> In f (byte_forms ++ port_forms) ->
  (forall n g, function n = Some g -> forall s r, f_eval g s r <> FUEL) ->
  blanks indent -> blanks gap -> gap <> [] -> blanks b0 -> checkAddr 16 addr false = OK -> starts_number (fm_zilog f) s ->
  derives fam_8080 (mkC addr symbol function 0) e s rest -> well_nested e -> value_slots e <= 8 -> operator_slots e <= 8 ->
  last_rest rest -> value_of e = Val (OK, v) -> int_value v ->
  exists i, i8080_encode ty (fm_zilog f) (i8080_asm symbol function 10) (indent ++ s2l (fm_name f) ++ gap ++ first_text f ++ b0 ++ s) addr = Val (L_insn i rest) /\
  i_code i = [fm_opc f; int_of v mod 256] /\
  (In f byte_forms -> i_err i = if (-128 <=? int_of v) && (int_of v <=? 255) then OK else OVERFLOW_RANGE) /\
  (In f port_forms -> i_err i = if (0 <=? int_of v) && (int_of v <=? 255) then OK else OVERFLOW_RANGE).
Proof.
  intros T F TF BI BG NG B0 CA SN D W VS OS LR V IV.
  assert (DIS : In f byte_forms -> In f port_forms -> False).
  { intros A B. pose proof (in_forms [M_IM8] ty f _ _ byte_ok T A) as KA. pose proof (in_forms [M_IOA] ty f _ _ port_ok T B) as KB.
    unfold form_ok in KA, KB. destruct (the_first f); [|now rewrite !andb_false_r in KA].
    match goal with _ : context [match ?x with Val _ => _ | UB => _ | OOB => _ | FUEL => _ | FLOAT => _ end] |- _ => destruct x as [[[] [[p' e']|]]| | | |]; try (rewrite !andb_false_r in KA; discriminate) end.
    rewrite !andb_true_iff in KA, KB. destruct KA as (_ & _ & KA), KB as (_ & _ & KB).
    destruct (String.eqb (fm_first f) ""); rewrite andb_true_iff in KA, KB; cbn [existsb] in KA, KB; unfold M_IM8, M_IOA in *; lia. }
  apply in_app_or in F. destruct F as [F|F].
  - pose proof (in_forms [M_IM8] ty f _ _ byte_ok T F) as K.
    destruct (form_encode _ ty f (i8080_asm symbol function 10) indent gap b0 e s rest v addr K T eq_refl eq_refl eq_refl TF BI BG NG B0 CA SN D W VS OS LR V) as (m & M & E).
    destruct M as [<-|[]]. exists (fin (fm_zilog f) addr (fm_opc f) M_IM8 v). split; [exact E|].
    destruct (fin_bytes (fm_zilog f) addr (fm_opc f) v M_IM8 255 (-128) (form_opc _ _ _ K) IV ltac:(auto)) as (C & R).
    split; [exact C|]. split; [intros _; exact R|]. intros X. destruct (DIS F X).
  - pose proof (in_forms [M_IOA] ty f _ _ port_ok T F) as K.
    destruct (form_encode _ ty f (i8080_asm symbol function 10) indent gap b0 e s rest v addr K T eq_refl eq_refl eq_refl TF BI BG NG B0 CA SN D W VS OS LR V) as (m & M & E).
    destruct M as [<-|[]]. exists (fin (fm_zilog f) addr (fm_opc f) M_IOA v). split; [exact E|].
    destruct (fin_bytes (fm_zilog f) addr (fm_opc f) v M_IOA 255 0 (form_opc _ _ _ K) IV ltac:(auto)) as (C & R).
    split; [exact C|]. split; [intros X; destruct (DIS X F)|intros _; exact R].
Qed.
Lemma range_word ty f symbol function indent gap b0 e s rest v addr :
  In ty [I8080; I8085; V30EMU] -> In f word_forms ->
  (forall n g, function n = Some g -> forall s r, f_eval g s r <> FUEL) ->
  blanks indent -> blanks gap -> gap <> [] -> blanks b0 -> checkAddr 16 addr false = OK -> starts_number (fm_zilog f) s ->
  derives fam_8080 (mkC addr symbol function 0) e s rest -> well_nested e -> value_slots e <= 8 -> operator_slots e <= 8 ->
  last_rest rest -> value_of e = Val (OK, v) -> int_value v ->
  exists i, i8080_encode ty (fm_zilog f) (i8080_asm symbol function 10) (indent ++ s2l (fm_name f) ++ gap ++ first_text f ++ b0 ++ s) addr = Val (L_insn i rest) /\
  i_code i = [fm_opc f; int_of v mod 256; int_of v / 256 mod 256] /\ i_err i = OK.
Proof.
  intros T F TF BI BG NG B0 CA SN D W VS OS LR V IV.
  pose proof (in_forms _ ty f _ _ word_ok T F) as K.
  destruct (form_encode _ ty f (i8080_asm symbol function 10) indent gap b0 e s rest v addr K T eq_refl eq_refl eq_refl TF BI BG NG B0 CA SN D W VS OS LR V) as (m & M & E).
  exists (fin (fm_zilog f) addr (fm_opc f) m v). split; [exact E|].
  apply fin_word; [exact (form_opc _ _ _ K)|exact IV|]. destruct M as [<-|[<-|[]]]; auto.
Qed.
