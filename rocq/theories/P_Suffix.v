(** Every reader leaves a suffix of its input, and consumes at least one letter when it succeeds. *)
From Coq Require Import ZArith Lia String List Bool.
From Verif Require Import M_Char M_Error M_Value M_Text M_Number M_Operators M_Parsers M_Expr.
Import ListNotations.
Local Open Scope Z_scope.

Definition sfx (n : nat) (t s : text) : Prop := exists p, s = p ++ t /\ (n <= length p)%nat.

Lemma sfx_refl s : sfx 0 s s. Proof. exists []. split; [reflexivity|cbn; lia]. Qed.
Lemma sfx_cons n c t s : sfx n t s -> sfx (S n) t (c :: s).
Proof. intros (p & -> & L). exists (c :: p). split; [reflexivity|cbn; lia]. Qed.
Lemma sfx_cons0 c t s : sfx 0 t s -> sfx 0 t (c :: s).
Proof. intros (p & -> & L). exists (c :: p). split; [reflexivity|cbn; lia]. Qed.
Lemma sfx_le n m t s : (m <= n)%nat -> sfx n t s -> sfx m t s.
Proof. intros ? (p & -> & L). exists p. split; [reflexivity|lia]. Qed.
Lemma sfx_trans n m a b c : sfx n a b -> sfx m b c -> sfx (n + m) a c.
Proof. intros (p & -> & L) (q & -> & M). exists (q ++ p). rewrite app_length, app_assoc. split; [reflexivity|lia]. Qed.
Lemma sfx_tr m a b c : sfx 0 a b -> sfx m b c -> sfx m a c.
Proof. intros A B. exact (sfx_trans _ _ _ _ _ A B). Qed.
Lemma sfx_tr1 m a b c : sfx m a b -> sfx 0 b c -> sfx m a c.
Proof. intros A B. generalize (sfx_trans _ _ _ _ _ A B). apply sfx_le; lia. Qed.
Lemma sfx_len n t s : sfx n t s -> (length t + n <= length s)%nat.
Proof. intros (p & -> & L). rewrite app_length. lia. Qed.
Lemma sfx_0 n t s : sfx n t s -> sfx 0 t s. Proof. apply sfx_le; lia. Qed.
#[export] Hint Resolve sfx_refl sfx_cons sfx_cons0 : sfx.

Lemma trim_sfx p s : sfx 0 (trimStart p s) s.
Proof. induction s as [|c s IH]; cbn; [auto with sfx|]. destruct (p c); auto with sfx. Qed.
Lemma trim_sfx1 p s : p (peek s) = true -> s <> [] -> sfx 1 (trimStart p s) s.
Proof. destruct s as [|c s]; [congruence|]. cbn. intros -> _. apply sfx_cons, trim_sfx. Qed.
Lemma take_sfx p s a b : takeWhile p s = (a, b) -> s = a ++ b.
Proof.
  revert a b. induction s as [|c s IH]; intros a b; cbn; [intros [= <- <-]; reflexivity|].
  destruct (p c); [|intros [= <- <-]; reflexivity]. destruct (takeWhile p s) as [a' b']. intros [= <- <-].
  cbn. now rewrite (IH a' b').
Qed.
Lemma skip_sfx s : sfx 0 (skipSpaces s) s. Proof. apply trim_sfx. Qed.
Lemma expect_sfx c s t : expect_char c s = Some t -> sfx 1 t s.
Proof. destruct s; cbn; [congruence|]. destruct (z =? c); [|congruence]. intros [= ->]; auto with sfx. Qed.
Lemma iexpect_sfx c s t : iexpect c s = Some t -> sfx 1 t s.
Proof. destruct s; cbn; [congruence|]. destruct (to_upper z =? _); [|congruence]. intros [= ->]; auto with sfx. Qed.
Lemma itext_sfx w : forall s t, iexpectText w s = Some t -> sfx (length w) t s.
Proof.
  induction w as [|a w IH]; intros s t; cbn; [intros [= ->]; auto with sfx|].
  destruct s as [|b s]; [congruence|]. destruct (to_lower a =? to_lower b); [|congruence]. intros H. apply sfx_cons, IH, H.
Qed.
Lemma tl_sfx s : sfx 0 (tl_ s) s. Proof. destruct s; cbn; auto with sfx. Qed.
Lemma tl_sfx' (s : text) : sfx 0 (tl s) s. Proof. destruct s; cbn; auto with sfx. Qed.
Lemma optc_sfx c s : sfx 0 (opt_char c s) s.
Proof. unfold opt_char. destruct (expect_char c s) eqn:E; [|auto with sfx]. apply expect_sfx in E. now apply sfx_0 in E. Qed.
Lemma opti_sfx c s : sfx 0 (opt_ichar c s) s.
Proof. unfold opt_ichar. destruct (iexpect c s) eqn:E; [|auto with sfx]. apply iexpect_sfx in E. now apply sfx_0 in E. Qed.
#[export] Hint Resolve trim_sfx skip_sfx tl_sfx tl_sfx' optc_sfx opti_sfx sfx_0 : sfx.

(* ------------------------------------------------------------ numbers *)
Lemma dloop_sfx r s : forall v e, sfx 0 (snd (digits_loop r s v e)) s.
Proof. induction s as [|c s IH]; intros v e; cbn [digits_loop]; [cbn; auto with sfx|]. destruct (isValidDigit c r); cbn; auto with sfx. Qed.
Lemma dloop_err r s : forall v e, fst (fst (digits_loop r s v e)) = e \/ fst (fst (digits_loop r s v e)) = OVERFLOW_RANGE.
Proof.
  induction s as [|c s IH]; intros v e; cbn [digits_loop]; [now left|]. destruct (isValidDigit c r); [|now left].
  match goal with |- context [digits_loop r s ?a ?b] => destruct (IH a b) as [H|H]; rewrite H; auto end.
  destruct (_ || _); auto.
Qed.
Definition reads (np : err * value * text) (s : text) : Prop :=
  sfx (if err_eqb (fst (fst np)) NOT_AN_EXPECTED then 0 else if isOK (fst (fst np)) then 1 else 0) (snd np) s.
Lemma vread_sfx s r : reads (v_read s r) s.
Proof.
  unfold reads, v_read, read_digits. destruct (isValidDigit (peek s) r) eqn:V; [|cbn; auto with sfx].
  destruct s as [|c s]. { exfalso. revert V. unfold isValidDigit. cbn. destruct (r =? RADIX_16); cbn; congruence. }
  cbn [peek] in V. cbn [digits_loop]. rewrite V.
  match goal with |- context [digits_loop r s ?a ?b] => pose proof (dloop_sfx r s a b) as A; destruct (digits_loop r s a b) as [[e v] q] end.
  cbn [fst snd] in *. destruct (err_eqb e _); auto with sfx. destruct (isOK e); auto with sfx.
Qed.
Lemma reads_0 np s : reads np s -> sfx 0 (snd np) s. Proof. apply sfx_0. Qed.
Lemma reads_not s : reads (not_expected s) s. Proof. cbn. unfold reads; cbn. auto with sfx. Qed.
Lemma reads_trans n np t s : reads np t -> sfx n t s -> reads np s.
Proof. unfold reads. intros A B. apply sfx_0 in B. now apply (sfx_tr1 _ _ _ _ A). Qed.
Lemma from_sfx s p r : sfx 0 p s -> reads (read_from s p r) s.
Proof.
  intros P. unfold read_from. pose proof (vread_sfx p r) as A. destruct (v_read p r) as [[e v] q].
  destruct (err_eqb e NOT_AN_EXPECTED) eqn:N; [|eapply reads_trans; eauto].
  unfold reads. cbn [fst snd]. rewrite N. auto with sfx.
Qed.
Lemma cstyle_prefix_sfx s dr : sfx 0 (snd (cstyle_prefix s dr)) s.
Proof.
  unfold cstyle_prefix. destruct (iexpectText (s2l "0x") s) eqn:E; [apply itext_sfx in E; cbn; eauto with sfx|].
  destruct (iexpectText (s2l "0b") s) eqn:F; [apply itext_sfx in F; cbn; eauto with sfx|].
  destruct (_ && _); [cbn; auto with sfx|]. destruct (is_digit_r _ _); cbn; auto with sfx.
Qed.
Lemma cstyle_sfx s dr : reads (np_cstyle s dr) s.
Proof.
  unfold np_cstyle. pose proof (cstyle_prefix_sfx s dr) as A. destruct (cstyle_prefix s dr) as [r p].
  destruct (r =? _); [apply reads_not|now apply from_sfx].
Qed.
Lemma scanend_sfx s r suf t : scanNumberEnd s r suf = Some t -> sfx 1 t s.
Proof.
  unfold scanNumberEnd. match goal with |- context [if ?b then None else _] => destruct b end; [congruence|].
  destruct (is_digit_r r (peek s)) eqn:D; [|congruence].
  match goal with |- context [if ?b then None else _] => destruct b end; [congruence|].
  assert (s <> []) as N. { intros ->. revert D. unfold is_digit_r. cbn. destruct (r =? _); cbn; congruence. }
  pose proof (trim_sfx1 (is_digit_r r) s D N) as T.
  destruct (suf =? 0). { destruct (is_alnum _); [congruence|]. now intros [= <-]. }
  intros H. apply iexpect_sfx in H. apply (sfx_tr _ _ _ _ (sfx_0 _ _ _ H) T).
Qed.
Lemma intel_suffix_sfx s : fst (intel_suffix s) <> RADIX_NONE -> sfx 1 (snd (intel_suffix s)) s.
Proof.
  unfold intel_suffix.
  repeat match goal with |- context [match scanNumberEnd ?a ?b ?c with Some _ => _ | None => _ end] =>
    let E := fresh in destruct (scanNumberEnd a b c) eqn:E; [apply scanend_sfx in E; auto|] end.
  cbn. congruence.
Qed.
Lemma iread_sfx s r e : sfx 1 e s -> reads (intel_read s r e) s.
Proof.
  intros P. unfold intel_read. pose proof (vread_sfx s r) as A. destruct (v_read s r) as [[er v] q].
  destruct (err_eqb er NOT_AN_EXPECTED) eqn:N; [assumption|]. unfold reads. cbn [fst snd]. rewrite N.
  destruct (isOK er); eauto with sfx.
Qed.
Lemma intel_sfx s dr : reads (np_intel s dr) s.
Proof.
  unfold np_intel. pose proof (intel_suffix_sfx s) as A. destruct (intel_suffix s) as [r e]. cbn [fst snd] in A.
  destruct (r =? RADIX_NONE) eqn:R; [apply cstyle_sfx|]. apply iread_sfx, A. intros ->. discriminate.
Qed.
Lemma prefix_of_sfx a b c d s : sfx 0 (snd (prefix_of a b c d s)) s.
Proof.
  unfold prefix_of, has_prefix1.
  repeat match goal with |- context [if ?x =? 0 then None else match iexpect ?x ?y with _ => _ end] =>
    destruct (x =? 0); [|let E := fresh in destruct (iexpect x y) eqn:E; [apply iexpect_sfx in E; cbn; eauto with sfx|]] end;
  cbn; auto with sfx.
Qed.
Lemma prefix_sfx a b c d s dr : reads (np_prefix a b c d s dr) s.
Proof.
  unfold np_prefix. pose proof (prefix_of_sfx a b c d s) as A. destruct (prefix_of a b c d s) as [r p].
  destruct (r =? _); [apply intel_sfx|now apply from_sfx].
Qed.
Lemma zilog_sfx s dr : reads (np_zilog s dr) s.
Proof.
  unfold np_zilog. assert (sfx 0 (snd (zilog_prefix s)) s) as A.
  { unfold zilog_prefix. destruct (iexpectText (s2l "%(8)") s) eqn:E; [apply itext_sfx in E; cbn; eauto with sfx|].
    destruct (iexpectText (s2l "%(2)") s) eqn:F; [apply itext_sfx in F; cbn; eauto with sfx|].
    destruct (expect_char 37 s) eqn:G; [|cbn; auto with sfx]. apply expect_sfx in G.
    destruct (is_xdigit _); cbn; eauto with sfx. }
  destruct (zilog_prefix s) as [r p]. destruct (r =? _); [apply intel_sfx|now apply from_sfx].
Qed.
Lemma quoted_sfx e v t t' q p s : sfx 0 q p -> sfx 0 p s -> reads (e, v, t) q -> expect_char 39 t = Some t' -> reads (e, v, t') s.
Proof.
  intros Q P A E. apply expect_sfx in E. assert (sfx 1 t' s) as B.
  { apply (sfx_tr1 1 t' t s E), (sfx_tr 0 t q s (reads_0 _ _ A)), (sfx_tr 0 q p s Q), P. }
  unfold reads. cbn [fst snd]. destruct (err_eqb _ _); eauto with sfx. destruct (isOK e); eauto with sfx.
Qed.
Lemma ibm_sfx a b c d s dr : reads (np_ibm a b c d s dr) s.
Proof.
  unfold np_ibm. pose proof (prefix_of_sfx a b c d s) as A. destruct (prefix_of a b c d s) as [r p]. cbn [snd] in A.
  destruct (r =? _); [apply intel_sfx|]. destruct (expect_char 39 p) as [q|] eqn:E; [|apply reads_not].
  apply expect_sfx in E. destruct (is_digit_r _ _); [|apply reads_not].
  pose proof (vread_sfx q r) as V. destruct (v_read q r) as [[e v] t].
  destruct (expect_char 39 t) eqn:F; [|unfold reads; cbn; auto with sfx]. refine (quoted_sfx e v t _ q p s (sfx_0 _ _ _ E) A V F).
Qed.
Lemma rca_sfx s dr : reads (np_rca s dr) s.
Proof.
  unfold np_rca. destruct (_ && _); [|apply ibm_sfx]. pose proof (vread_sfx (tl s) RADIX_16) as V.
  destruct (v_read _ _) as [[e v] q]. destruct (isOK e) eqn:O; [eapply reads_trans; eauto with sfx|].
  unfold reads. cbn [fst snd]. rewrite O. destruct (err_eqb _ _); auto with sfx.
Qed.
Lemma national_sfx a b c d s dr : reads (np_national a b c d s dr) s.
Proof.
  unfold np_national. assert (sfx 0 (snd (national_prefix a b c d s)) s) as A.
  { unfold national_prefix. destruct (a =? 0).
    - destruct (iexpect 88 s) eqn:E; [apply iexpect_sfx in E; cbn; eauto with sfx|].
      destruct (iexpect 72 s) eqn:F; [apply iexpect_sfx in F; cbn; eauto with sfx|].
      destruct (c =? 81); [|apply prefix_of_sfx]. destruct (iexpect 79 s) eqn:G; [apply iexpect_sfx in G; cbn; eauto with sfx|apply prefix_of_sfx].
    - destruct (c =? 81); [|apply prefix_of_sfx]. destruct (iexpect 79 s) eqn:G; [apply iexpect_sfx in G; cbn; eauto with sfx|apply prefix_of_sfx]. }
  destruct (national_prefix a b c d s) as [r p]. cbn [snd] in A.
  destruct (r =? _); [apply intel_sfx|]. destruct (expect_char 39 p) as [q|] eqn:E; [|apply reads_not].
  apply expect_sfx in E. destruct (is_digit_r _ _); [|apply reads_not].
  pose proof (vread_sfx q r) as V. destruct (v_read q r) as [[e v] t].
  destruct (err_eqb e NOT_AN_EXPECTED) eqn:N; [unfold reads; cbn [fst snd]; rewrite N; auto with sfx|].
  destruct (expect_char 39 t) eqn:F. { refine (quoted_sfx e v t _ q p s (sfx_0 _ _ _ E) A V F). }
  apply (reads_trans 0 _ q s V), (sfx_tr 0 q p s (sfx_0 _ _ _ E) A).
Qed.
Lemma fairchild_sfx s dr : reads (np_fairchild s dr) s.
Proof. unfold np_fairchild. destruct (_ && _); [apply from_sfx; auto with sfx|apply ibm_sfx]. Qed.
Lemma pdp11_sfx s dr : reads (np_pdp11 s dr) s.
Proof.
  unfold np_pdp11. destruct ((peek s =? 34) && _ && _) eqn:B.
  - destruct s as [|c [|d [|e s]]]; [discriminate|cbn in B; rewrite !andb_false_r in B; discriminate| |].
    { cbn in B. rewrite !andb_false_r in B. discriminate. }
    unfold reads. cbn [fst snd skipn]. change (sfx 1 s (c :: d :: e :: s)). apply sfx_cons. auto with sfx.
  - destruct (scanNumberEnd s RADIX_10 46) eqn:E; [|apply intel_sfx]. apply scanend_sfx in E.
    destruct (is_digit _); [apply intel_sfx|now apply iread_sfx].
Qed.

(* ------------------------------------------------------------ letters *)
Definition lreads (r : err * Z * text) (s : text) : Prop := isOK (fst (fst r)) = true -> sfx 1 (snd r) s.
Definition lreads0 (r : err * Z * text) (s : text) : Prop := isOK (fst (fst r)) = true -> sfx 0 (snd r) s.
Lemma hex_sfx s : forall n, sfx 0 (snd (hex_escape s n)) s.
Proof. induction s as [|c s IH]; intros n; cbn; [auto with sfx|]. destruct (is_xdigit c); cbn; auto with sfx. Qed.
Lemma oct_sfx i : forall s n, sfx 0 (snd (oct_escape i s n)) s.
Proof. induction i as [|i IH]; intros [|c s] n; cbn; auto with sfx. destruct (is_octal c); cbn; auto with sfx. Qed.
Lemma rd_default d s : lreads0 (readLetter_default d s) s.
Proof.
  unfold lreads0, readLetter_default. destruct (expect_char d s) eqn:E.
  - apply expect_sfx in E. destruct (expect_char d t) eqn:F; cbn; [|unfold missing_closing; destruct (d =? _); discriminate].
    apply expect_sfx in F. intros _. apply (sfx_tr 0 _ t); eauto with sfx.
  - destruct s; cbn; auto with sfx.
Qed.
Ltac letters_tac :=
  repeat match goal with |- context [if ?b then _ else _] => destruct b end; cbn [fst snd]; try discriminate; intros _;
  eauto 6 using sfx_tr, tl_sfx, sfx_refl with sfx.
Lemma rd_cstyle d s : lreads0 (readLetter_cstyle d s) s.
Proof.
  unfold lreads0, readLetter_cstyle. destruct (peek s =? 92); [|letters_tac].
  destruct (iexpect 120 (tl_ s)) eqn:E.
  - apply iexpect_sfx in E. pose proof (hex_sfx t 0) as H. destruct (hex_escape t 0) as [n q]. cbn [snd] in H.
    intros _. cbn [snd]. apply (sfx_tr 0 _ t); [assumption|]. apply (sfx_tr 0 _ (tl_ s)); eauto with sfx.
  - destruct (is_octal _); [|letters_tac].
    pose proof (oct_sfx 3 (tl_ s) 0) as H. destruct (oct_escape 3 (tl_ s) 0) as [n q]. cbn [snd] in H.
    intros _. cbn [snd]. apply (sfx_tr 0 _ (tl_ s)); eauto with sfx.
Qed.
Lemma rd_zilog d s : lreads0 (readLetter_zilog d s) s.
Proof. unfold lreads0, readLetter_zilog. letters_tac. Qed.
Lemma rd_ns32000 d s : lreads0 (readLetter_ns32000 d s) s.
Proof. unfold lreads0, readLetter_ns32000. letters_tac. Qed.
Lemma rd_pdp8 d s : lreads0 (readLetter_pdp8 d s) s.
Proof. unfold lreads0, readLetter_pdp8. letters_tac. Qed.
Lemma pl_sfx pre rd s : (forall t, pre s = Some t -> sfx 0 t s) -> (forall t, lreads0 (rd QUOTE t) t) ->
  lreads (parseLetter_with pre rd s) s.
Proof.
  intros P R. unfold lreads, parseLetter_with. destruct (pre s) as [p|]; [|discriminate]. specialize (P p eq_refl).
  destruct (expect_char QUOTE p) as [q|] eqn:E; [|discriminate]. apply expect_sfx in E.
  pose proof (R q) as Q. unfold lreads0 in Q. destruct (rd QUOTE q) as [[e c] t]. cbn [fst snd] in Q.
  destruct (isOK e) eqn:O; [|cbn; congruence]. specialize (Q eq_refl).
  destruct (expect_char QUOTE t) eqn:F; cbn [fst snd]; [|discriminate]. apply expect_sfx in F. intros _.
  apply (sfx_tr1 1 _ t); [assumption|]. apply (sfx_tr 0 _ q); [assumption|]. apply (sfx_tr 0 _ p); eauto with sfx.
Qed.
Lemma lp_motorola_sfx s : lreads (parseLetter_motorola s) s.
Proof.
  unfold lreads, parseLetter_motorola. destruct (expect_char QUOTE s) as [[|c p]|] eqn:E; try discriminate.
  apply expect_sfx in E. intros _. cbn [snd]. apply (sfx_tr 1 _ (c :: p)); auto with sfx.
Qed.
Lemma lp_fairchild_sfx s : lreads (parseLetter_fairchild s) s.
Proof.
  unfold lreads, parseLetter_fairchild. destruct (iexpect 67 s) as [p|] eqn:E.
  - apply iexpect_sfx in E. pose proof (pl_sfx no_prefix readLetter_default p) as H.
    unfold lreads in H. fold parseLetter_default in H.
    destruct (parseLetter_default p) as [[e c] t]. cbn [fst snd] in H. destruct (isOK e) eqn:O; [|cbn; congruence].
    intros _. cbn [snd]. apply (sfx_tr 1 _ p); [|assumption]. apply sfx_0 with 1%nat, H; [|apply rd_default|reflexivity].
    intros ? [= ->]. auto with sfx.
  - destruct (expect_char 35 s) as [[|c p]|] eqn:F; try discriminate.
    { apply expect_sfx in F. intros _. cbn [snd]. apply (sfx_tr 1 _ (c :: p)); auto with sfx. }
    destruct (expect_char QUOTE s) as [p|] eqn:G; [|discriminate]. apply expect_sfx in G.
    pose proof (rd_default QUOTE p) as R. unfold lreads0 in R.
    destruct (readLetter_default QUOTE p) as [[e c] t]. cbn [fst snd] in R. destruct (isOK e) eqn:O; [|cbn; congruence].
    intros _. cbn [snd]. specialize (R eq_refl). apply (sfx_tr 1 _ p); [|assumption]. apply (sfx_tr 0 _ t); auto with sfx.
Qed.
Lemma lp_pdp8_sfx s : lreads (parseLetter_pdp8 s) s.
Proof.
  unfold parseLetter_pdp8. destruct (peek s =? QUOTE).
  { apply pl_sfx; [|apply rd_pdp8]. intros ? [= ->]; auto with sfx. }
  unfold lreads. destruct (expect_char DQUOTE s) as [p|] eqn:G; [|discriminate]. apply expect_sfx in G.
  pose proof (rd_pdp8 0 p) as R. unfold lreads0 in R.
  destruct (readLetter_pdp8 0 p) as [[e c] t]. cbn [fst snd] in R. destruct (isOK e) eqn:O; [|discriminate].
  intros _. cbn [snd]. apply (sfx_tr 1 _ p); auto.
Qed.

(* ------------------------------------------------------------ symbols *)
Lemma name_sfx h c s n r : readName h c s = Some (n, r) -> s = n ++ r /\ n <> [].
Proof.
  destruct s as [|x s]; cbn; [congruence|]. destruct (h x); [|congruence].
  destruct (takeWhile c s) as [a b] eqn:T. intros [= <- <-]. apply take_sfx in T. subst. split; [reflexivity|congruence].
Qed.
Lemma name_sfx1 h c s n r : readName h c s = Some (n, r) -> sfx 1 r s.
Proof. intros H. apply name_sfx in H as [-> N]. exists n. split; [reflexivity|]. destruct n; [congruence|cbn; lia]. Qed.
Lemma loc_sfx sl cs s t : location_any sl cs s = Some t -> sfx 1 t s.
Proof.
  induction cs as [|c cs IH]; cbn; [congruence|]. unfold location_with. destruct (expect_char c s) eqn:E; [|assumption].
  destruct (sl _ _); [assumption|]. intros [= <-]. now apply expect_sfx in E.
Qed.
Lemma insn_letters_sfx y s : forall a r, insn_letters y s = (a, r) -> s = a ++ r.
Proof.
  induction s as [|c s IH]; intros a r; cbn; [intros [= <- <-]; reflexivity|].
  destruct (y_insn_letter y c); [|intros [= <- <-]; reflexivity]. destruct (among _ c); [intros [= <- <-]; reflexivity|].
  destruct (insn_letters y s) as [a' r']. intros [= <- <-]. cbn. now rewrite (IH a' r').
Qed.

(* ------------------------------------------------------------ operators *)
Ltac op_tac :=
  repeat first
   [ match goal with |- context [match expect_char ?c ?s with _ => _ end] =>
       let E := fresh in destruct (expect_char c s) eqn:E; [apply expect_sfx in E|clear E] end
   | match goal with |- context [match iexpect ?c ?s with _ => _ end] =>
       let E := fresh in destruct (iexpect c s) eqn:E; [apply iexpect_sfx in E|clear E] end
   | match goal with |- context [match iexpectText ?c ?s with _ => _ end] =>
       let E := fresh in destruct (iexpectText c s) eqn:E; [apply itext_sfx in E|clear E] end
   | match goal with |- context [if ?b then _ else _] => destruct b end ];
  try congruence; cbn [snd fst];
  try (intros [= <- <-]);
  try match goal with E : sfx (length (s2l _)) _ _ |- _ => eapply sfx_le; [|exact E]; vm_compute; lia end;
  eauto with sfx.
Definition oreads (f : op_reader) : Prop := forall s o t, f s = Some (o, t) -> sfx 1 t s.
Lemma minus_plus_sfx : oreads minus_plus.
Proof. intros s o t. unfold minus_plus. op_tac. Qed.
Lemma rp_cstyle : oreads readPrefix_cstyle.
Proof.
  intros s o t. unfold readPrefix_cstyle. destruct (expect_char 126 s) eqn:E; [apply expect_sfx in E; op_tac|].
  destruct (expect_char 33 s) eqn:F; [apply expect_sfx in F|apply minus_plus_sfx].
  destruct (peek t0 =? 61); [|op_tac]. intros G. apply minus_plus_sfx in G. apply (sfx_tr 1 t t0); eauto with sfx.
Qed.
Lemma ri_cstyle : oreads readInfix_cstyle.
Proof.
  intros s o t. unfold readInfix_cstyle. destruct s as [|c s]; [congruence|]. op_tac;
  apply sfx_cons; eauto with sfx.
Qed.
Lemma word_sfx l s o t : read_word l s = Some (o, t) -> (forall n o', In (n, o') l -> n <> []) -> sfx 1 t s.
Proof.
  unfold read_word. destruct (takeWhile is_alnum s) as [w p] eqn:T. apply take_sfx in T. intros F N.
  assert (w <> []) as W. { intros ->. revert F N. clear. induction l as [|[n x] l IH]; cbn; [congruence|].
    destruct n as [|a n]; [intros _ N; exfalso; now apply (N [] x); [left|]|]. intros F N. apply IH; [exact F|].
    intros m y I. apply (N m y). now right. }
  destruct (find_word w l); [|congruence]. injection F as -> ->. exists w. split; [assumption|]. destruct w; [congruence|cbn; lia].
Qed.
Ltac words := intros ? ? I; cbn in I; repeat (destruct I as [I|I]; [injection I as <- _; discriminate|]); contradiction.
Lemma rp_intel : oreads readPrefix_intel.
Proof.
  intros s o t. unfold readPrefix_intel. destruct (expect_char 45 s) eqn:E; [apply expect_sfx in E; op_tac|].
  destruct (expect_char 43 s) eqn:F; [apply expect_sfx in F; op_tac|].
  destruct (read_word intel_prefix_words s) as [[o' t']|] eqn:W; [|apply rp_cstyle]. intros [= <- <-].
  apply (word_sfx _ _ _ _ W). words.
Qed.
Lemma ri_intel : oreads readInfix_intel.
Proof.
  intros s o t. unfold readInfix_intel. destruct (read_word intel_infix_words s) as [[o' t']|] eqn:W; [|apply ri_cstyle].
  intros [= <- <-]. apply (word_sfx _ _ _ _ W). words.
Qed.
Lemma rp_zilog : oreads readPrefix_zilog.
Proof.
  intros s o t. unfold readPrefix_zilog. destruct (read_word zilog_prefix_words s) as [[o' t']|] eqn:W; [|apply rp_cstyle].
  intros [= <- <-]. apply (word_sfx _ _ _ _ W). words.
Qed.
Lemma ri_zilog : oreads readInfix_zilog.
Proof.
  intros s o t. unfold readInfix_zilog. destruct (read_word zilog_infix_words s) as [[o' t']|] eqn:W; [|apply ri_cstyle].
  intros [= <- <-]. apply (word_sfx _ _ _ _ W). words.
Qed.
Lemma rp_signetics : oreads readPrefix_signetics.
Proof. intros s o t. unfold readPrefix_signetics. op_tac. apply rp_cstyle. Qed.
Lemma rp_texas : oreads readPrefix_texas.
Proof. intros s o t. unfold readPrefix_texas. op_tac. apply rp_cstyle. Qed.
Lemma ri_texas : oreads readInfix_texas.
Proof. intros s o t. unfold readInfix_texas. op_tac. apply ri_cstyle. Qed.
Lemma ri_pdp8 : oreads readInfix_pdp8.
Proof. intros s o t. unfold readInfix_pdp8. op_tac. apply ri_cstyle. Qed.
Lemma ri_pdp11 : oreads readInfix_pdp11.
Proof. intros s o t. unfold readInfix_pdp11. op_tac. apply ri_cstyle. Qed.
Lemma ri_motorola : oreads readInfix_motorola.
Proof.
  intros s o t. unfold readInfix_motorola. destruct (expect_char 33 s) as [p|] eqn:E; [|apply ri_cstyle].
  apply expect_sfx in E.
  match goal with |- (match ?m with Some r => Some r | None => _ end) = _ -> _ => destruct m as [r|] eqn:M; [|apply ri_cstyle] end.
  intros [= ->]. apply (sfx_tr 1 t p); [|assumption]. revert M.
  destruct (expect_char 46 p) eqn:F; [apply expect_sfx in F; op_tac|].
  destruct (expect_char 43 p) eqn:G; [apply expect_sfx in G; op_tac|].
  set (xp := match expect_char 88 p with Some q => (true, q) | None => (false, p) end).
  assert (sfx 0 (snd xp) p) as X.
  { unfold xp. destruct (expect_char 88 p) eqn:H; cbn; [apply expect_sfx in H|]; eauto with sfx. }
  clearbody xp. destruct xp as [x q]. cbn [snd] in X. intros M. apply (sfx_tr1 0 t q); [|assumption]. revert M.
  destruct (x && _); [op_tac|].
  destruct (expect_char 94 q) eqn:H1; [apply expect_sfx in H1; op_tac|].
  destruct (expect_char 60 q) eqn:H2; [apply expect_sfx in H2; op_tac|].
  destruct (expect_char 62 q) eqn:H3; [apply expect_sfx in H3; op_tac|].
  set (yp := match expect_char 76 q with Some q => (true, q) | None => (false, q) end).
  assert (sfx 0 (snd yp) q) as Y.
  { unfold yp. destruct (expect_char 76 q) eqn:H; cbn; [apply expect_sfx in H|]; eauto with sfx. }
  clearbody yp. destruct yp as [y q']. cbn [snd] in Y. intros M. apply (sfx_tr1 0 t q'); [|assumption]. revert M.
  destruct (y && _); op_tac.
Qed.
