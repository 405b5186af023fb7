(** What the evaluator reads where an operand starts. *)
From Coq Require Import ZArith Lia ZifyBool String List Bool.
From Verif Require Import M_Char M_Error M_Value M_Text M_Number M_Operators M_Parsers M_Expr S_Expr S_ExprTree P_ExprRead.
Import ListNotations.
Open Scope string_scope.
Open Scope list_scope.
Local Open Scope Z_scope.

(* ------------------------------------------------------------ no operator *)
Lemma cstyle_none h t : ~ In h [126; 33; 45; 43] -> readPrefix_cstyle (h :: t) = None.
Proof.
  intros N. unfold readPrefix_cstyle, minus_plus. cbn in N. cbn [expect_char].
  rewrite (proj2 (Z.eqb_neq h 126)), (proj2 (Z.eqb_neq h 33)), (proj2 (Z.eqb_neq h 45)), (proj2 (Z.eqb_neq h 43)) by lia. reflexivity.
Qed.
Lemma num_head f t : In f tree_families -> is_digit (peek t) = true \/ In (peek t) (fam_leads f) ->
  exists h q, t = h :: q /\ fam_reader f t = None /\ eol_safe f h /\ ~ In h [0; 41; 44; 61; 93].
Proof.
  intros I H. destruct t as [|h q].
  { exfalso. destruct H as [H|H]; [discriminate H|]. cbn [peek] in H. revert H. fam I; cbn; lia. }
  exists h, q. split; [reflexivity|]. cbn [peek] in H. destruct H as [D|L].
  - split; [|split].
    + revert h D. fam I; apply digit_cases; repeat constructor;
        first [reflexivity|cbn [fam_reader fam_pl p_prefix]; unfold fam_reader; cbn [fam_pl p_prefix pure_prefix];
          cbn; unfold pure_prefix; unfold readPrefix_intel, readPrefix_zilog; cbn [expect_char Z.eqb Pos.eqb]; rewrite read_word_digit by reflexivity; reflexivity].
    + revert h D. fam I; apply digit_cases; repeat constructor.
    + unfold is_digit in D. cbn. lia.
  - split; [|split]; revert L; fam I; cbn [fam_leads In s2l c2z]; intros L;
      repeat (destruct L as [<-|L]; [first [reflexivity|vm_compute; intuition congruence]|]); try contradiction.
Qed.

(* ------------------------------------------------------------ no letter *)
Definition no_letter (f : family) (s : text) : Prop := exists c p, l_parse (p_letter (fam_pl f)) s = (NOT_AN_EXPECTED, c, p).
Ltac nolet := eexists; eexists; reflexivity.
Lemma num_letter f t r : In f tree_families -> is_digit (peek t) = true \/ In (peek t) (fam_leads f) -> no_letter f (t ++ r).
Proof.
  intros I H. destruct (num_head f t I H) as (h & q & -> & _). cbn [app peek] in *. generalize (q ++ r) as s. clear q r. intros s.
  destruct H as [D|L].
  - revert h D. fam I; apply digit_cases; repeat constructor; nolet.
  - revert L; fam I; cbn [fam_leads In s2l c2z]; intros L; repeat (destruct L as [<-|L]; [nolet|]); contradiction.
Qed.
Lemma loc_letter f c r : In f tree_families -> In c (y_locations (p_symbol (fam_pl f))) -> no_letter f (c :: r).
Proof.
  intros I L. revert L; fam I; cbn [fam_pl p_symbol y_locations In]; intros L; cbn in L; repeat (destruct L as [<-|L]; [nolet|]); contradiction.
Qed.
Lemma open_letter f r : In f tree_families -> no_letter f (40 :: r).
Proof. intros I. fam I; nolet. Qed.
Lemma with_letter pre rd s : (forall p, pre s = Some p -> peek p <> 39) -> exists c p, parseLetter_with pre rd s = (NOT_AN_EXPECTED, c, p).
Proof.
  intros H. unfold parseLetter_with. destruct (pre s) as [p|]; [|nolet]. unfold QUOTE. rewrite (expect_not 39 p (H p eq_refl)). nolet.
Qed.
Lemma optional_letter x c q p : name_head c -> peek q <> 39 -> optional_prefix x (c :: q) = Some p -> peek p <> 39.
Proof.
  intros H Q. unfold optional_prefix, opt_ichar, iexpect. destruct (to_upper c =? to_upper x); intros [= <-]; [exact Q|]. cbn. chars. lia.
Qed.
Lemma name_letters f c q : In f tree_families -> name_head c -> peek q <> 39 -> no_letter f (c :: q).
Proof.
  intros I H Q. unfold no_letter.
  assert (peek (c :: q) <> 39) as C by (cbn; chars; lia).
  assert (forall rd, exists x p, parseLetter_with no_prefix rd (c :: q) = (NOT_AN_EXPECTED, x, p)) as N
    by (intros rd; apply with_letter; intros p [= <-]; exact C).
  assert (exists x p, parseLetter_motorola (c :: q) = (NOT_AN_EXPECTED, x, p)) as M.
  { unfold parseLetter_motorola, QUOTE. rewrite (expect_not 39 _ C). nolet. }
  fam I; cbn [fam_pl];
    first [exact (N readLetter_default)|exact (N readLetter_zilog)|exact (N readLetter_ns32000)|exact M
      |apply (with_letter (optional_prefix 67)); intros p; now apply optional_letter
      |apply (with_letter (optional_prefix 84)); intros p; now apply optional_letter
      |idtac].
  - (* Fairchild *)
    change (exists x p, parseLetter_fairchild (c :: q) = (NOT_AN_EXPECTED, x, p)). unfold parseLetter_fairchild. cbn [iexpect].
    destruct (to_upper c =? to_upper 67).
    + unfold parseLetter_default. destruct (with_letter no_prefix readLetter_default q) as (x & p & ->); [intros p [= <-]; exact Q|]. nolet.
    + unfold QUOTE. rewrite (expect_not 35) by (cbn; chars; lia). rewrite (expect_not 39 _ C). nolet.
  - (* PDP-8 *)
    change (exists x p, parseLetter_pdp8 (c :: q) = (NOT_AN_EXPECTED, x, p)). unfold parseLetter_pdp8, QUOTE, DQUOTE.
    rewrite (proj2 (Z.eqb_neq _ _) C). rewrite (expect_not 34) by (cbn; chars; lia). nolet.
  - (* Signetics *)
    apply (with_letter (iexpect 65)). intros p. cbn [iexpect]. destruct (_ =? _); intros [= <-]. exact Q.
Qed.

(* ------------------------------------------------------------ names *)
Lemma symbol_letters f : In f tree_families -> forall c h, name_letter c = true -> (h = true -> is_digit c = false) ->
  y_letter (p_symbol (fam_pl f)) c h = true.
Proof.
  intros I c h N D.
  assert (symbolLetter_default c h = true) as S.
  { unfold symbolLetter_default. unfold name_letter, is_alnum in N. destruct h; [specialize (D eq_refl); rewrite D in N|]; cbn [negb andb];
      destruct (is_alpha c), (is_digit c); cbn in *; congruence. }
  fam I; cbn [fam_pl];
    first [exact S
      |change (symbolLetter_simple (s2l "_") c h = true); unfold symbolLetter_simple; now rewrite S
      |idtac]; cbn [p_symbol];
    match goal with |- y_letter (p_symbol ?pl) c h = true => let y := eval hnf in (p_symbol pl) in change (p_symbol pl) with y; cbn [y_letter] end;
    unfold symbolLetter_simple, symbolLetter_prefix; rewrite S; reflexivity.
Qed.
Lemma symbol_ends f r : In f tree_families -> token_end r ->
  y_letter (p_symbol (fam_pl f)) (peek r) false = false /\ y_fn_letter (p_symbol (fam_pl f)) (peek r) = false.
Proof.
  intros I R. apply token_end_not in R as (A & B & C & D & E & F & G & _). set (c := peek r) in *. clearbody c.
  assert (symbolLetter_default c false = false) as S by (unfold symbolLetter_default; unfold is_alnum in A; cbn [negb andb]; lia).
  assert (forall w, forallb (fun x => existsb (Z.eqb x) [95; 39; 46; 36; 63; 64]) w = true -> among w c = false) as W.
  { intros w. unfold among. destruct (c =? 0); [reflexivity|]. cbn [negb andb]. induction w as [|x w IH]; [reflexivity|].
    cbn [forallb existsb]. rewrite andb_true_iff. intros [X Y]. rewrite (IH Y), orb_false_r. lia. }
  unfold y_fn_letter.
  assert (y_letter (p_symbol (fam_pl f)) c false = false) as Y.
  { fam I; cbn [fam_pl];
    match goal with |- y_letter (p_symbol ?pl) _ _ = _ => let y := eval hnf in (p_symbol pl) in change (p_symbol pl) with y; cbn [y_letter] end;
    try exact S; unfold symbolLetter_simple, symbolLetter_prefix; rewrite ?S, ?W by reflexivity; reflexivity. }
  split; [exact Y|]. rewrite Y. cbn [orb]. apply W. fam I; reflexivity.
Qed.
Lemma name_reads f n r : In f tree_families -> is_name n -> token_end r ->
  readSymbol (p_symbol (fam_pl f)) (n ++ r) = Some (n, r) /\ readFunctionName (p_symbol (fam_pl f)) (n ++ r) = Some (n, r).
Proof.
  intros I N R. destruct n as [|c n]; [contradiction|]. destruct N as [H F]. destruct (symbol_ends f r I R) as [A B].
  unfold readSymbol, readFunctionName, readName. cbn [app]. rewrite (symbol_letters f I c true) by (chars; lia).
  split.
  - rewrite (take_name _ n r (fun c H => symbol_letters f I c false H ltac:(discriminate)) A F). reflexivity.
  - rewrite (take_name _ n r) ; [reflexivity| |exact B|exact F].
    intros x X. unfold y_fn_letter. now rewrite (symbol_letters f I x false X ltac:(discriminate)).
Qed.
Lemma name_number f c q : In f tree_families -> name_head c -> peek q <> 39 -> p_number (fam_pl f) (c :: q) 10 = not_expected (c :: q).
Proof.
  intros I H Q. fam I; cbn [fam_pl];
    first [exact (cstyle_unread c q H)|exact (intel_unread c q H)|exact (zilog_unread c q H)
      |exact (prefix_unread 36 37 64 38 c q H eq_refl)|exact (prefix_unread 62 63 0 0 c q H eq_refl)
      |exact (ibm_unread 88 0 0 0 c q H Q)|exact (ibm_unread 72 66 79 68 c q H Q)
      |exact (national_unread 88 0 0 0 c q H Q)|exact (national_unread 0 66 81 68 c q H Q)|idtac].
  - change (np_rca (c :: q) 10 = not_expected (c :: q)). unfold np_rca. cbn [peek].
    rewrite (proj2 (Z.eqb_neq c 35)) by (chars; lia). exact (ibm_unread 88 66 0 68 c q H Q).
  - change (np_fairchild (c :: q) 10 = not_expected (c :: q)). unfold np_fairchild. cbn [peek].
    rewrite (proj2 (Z.eqb_neq c 36)) by (chars; lia). exact (ibm_unread 72 66 79 68 c q H Q).
Qed.
Lemma loc_none f c q : In f tree_families -> name_head c -> y_location (p_symbol (fam_pl f)) (c :: q) = None.
Proof.
  intros I H. unfold y_location.
  assert (forall sl cs, forallb (fun x => negb (is_alnum x) && negb (x =? 95)) cs = true -> location_any sl cs (c :: q) = None) as L.
  { intros sl cs. induction cs as [|x cs IH]; [reflexivity|]. cbn [forallb location_any]. rewrite andb_true_iff. intros [A B].
    unfold location_with. rewrite (expect_not x) by (cbn [peek]; chars; lia). auto. }
  apply L. fam I; reflexivity.
Qed.
Lemma word_end w n r : is_name n -> token_end r -> w <> [] -> forallb is_alpha w = true ->
  iexpectWord w (n ++ r) <> None -> map to_upper n = map to_upper w.
Proof.
  intros N R. unfold iexpectWord. assert (forallb name_letter n = true) as F.
  { destruct n as [|c n]; [contradiction|]. destruct N as [H F]. cbn. rewrite F. chars. lia. }
  clear N. intros _. revert n F. induction w as [|a w IH]; intros n F W.
  - cbn. destruct n as [|c n]; [reflexivity|]. cbn. cbn in F. apply andb_true_iff in F as [X _]. unfold name_letter in X. rewrite X. congruence.
  - cbn in W. apply andb_true_iff in W as [A W]. destruct n as [|c n].
    + cbn. apply token_end_not in R as (Q & _). destruct r as [|x r]; [congruence|]. cbn in Q. rewrite upper_eq.
      replace (to_upper a =? to_upper x) with false; [congruence|]. symmetry. apply Z.eqb_neq. intros E.
      rewrite <- alnum_upper, <- E, alnum_upper in Q. unfold is_alnum in Q. rewrite A in Q. discriminate.
    + cbn in *. rewrite upper_eq. apply andb_true_iff in F as [_ F]. destruct (to_upper a =? to_upper c) eqn:E; [|congruence].
      apply Z.eqb_eq in E. intros H. f_equal; [congruence|]. now apply IH.
Qed.
Lemma name_float n r d : is_name n -> token_end r -> ~ In (map to_upper n) [s2l "INF"; s2l "INFINITY"; s2l "NAN"] ->
  isFloatNumber (n ++ r) NOT_AN_EXPECTED d = false.
Proof.
  intros N R X. unfold isFloatNumber.
  destruct (iexpectWord (s2l "inf") (n ++ r)) eqn:A.
  { exfalso. apply X. left. symmetry. apply (word_end (s2l "inf") n r N R); [discriminate|reflexivity|congruence]. }
  destruct (iexpectWord (s2l "infinity") (n ++ r)) eqn:B.
  { exfalso. apply X. right; left. symmetry. apply (word_end (s2l "infinity") n r N R); [discriminate|reflexivity|congruence]. }
  destruct (iexpectWord (s2l "nan") (n ++ r)) eqn:C.
  { exfalso. apply X. right; right; left. symmetry. apply (word_end (s2l "nan") n r N R); [discriminate|reflexivity|congruence]. }
  reflexivity.
Qed.
Lemma name_no_prefix f n r : In f tree_families -> is_name n -> token_end r -> ~ reserved f n -> fam_reader f (n ++ r) = None.
Proof.
  intros I N R X. assert (is_alnum (peek r) = false) as A by (now apply token_end_not in R).
  destruct (first_word_take n r A) as [q T].
  assert (forall words, (forall w o, In (w, o) words -> exists d, In d (fam_prefix f) /\ d_text d = map to_upper w /\ is_word (d_text d) = true) ->
    read_word words (n ++ r) = None) as W.
  { intros words F. unfold read_word. rewrite T. enough (find_word (first_word n) words = None) as -> by reflexivity.
    assert (forall w o, In (w, o) words -> iequals (first_word n) w = false) as K.
    { intros w o J. destruct (iequals (first_word n) w) eqn:E; [|reflexivity]. apply iequals_map in E. exfalso. apply X. left.
      destruct (F w o J) as (d & D1 & D2 & D3). exists d. split; [exact D1|]. split; [congruence|exact D3]. }
    clear - K. induction words as [|[w o] l IH]; cbn; [reflexivity|]. rewrite (K w o (or_introl eq_refl)). apply IH. intros. apply (K w0 o0). now right. }
  destruct n as [|c n]; [contradiction|]. destruct N as [H F]. cbn [app] in *.
  assert (readPrefix_cstyle (c :: n ++ r) = None) as C by (apply cstyle_none; cbn; chars; lia).
  assert (forall x, is_alpha x = false -> x <> 95 -> expect_char x (c :: n ++ r) = None) as E
    by (intros x U V; apply expect_not; cbn; chars; lia).
  fam I; try exact C.
  all: unfold fam_reader; cbn [fam_pl];
    match goal with |- context [p_prefix ?pl] => let y := eval hnf in (p_prefix pl) in change (p_prefix pl) with y end; cbv beta iota delta [pure_prefix];
    unfold readPrefix_intel, readPrefix_zilog, readPrefix_texas, readPrefix_signetics; rewrite ?E by (reflexivity || discriminate); try exact C;
    (rewrite W; [exact C|]); intros w o J; cbn in J;
    repeat (destruct J as [[= <- <-]|J]; [clear;
      match goal with |- exists d, In d ?t /\ d_text d = ?w /\ _ => 
        let w' := eval vm_compute in w in
        let l := eval vm_compute in (filter (fun d => if list_eq_dec Z.eq_dec (d_text d) w' then true else false) t) in
        match l with ?d :: _ => exists d; split; [vm_compute; tauto|split; reflexivity] end end|]); contradiction.
Qed.

(* ------------------------------------------------------------ constants *)
Lemma end_not_float r d : token_end r -> isFloatNumber r OK d = false.
Proof.
  intros R. apply token_end_not in R as (A & _ & _ & B & _). unfold isFloatNumber. rewrite (expect_not 46 r B). cbn [orb]. unfold is_exponent.
  destruct r as [|x r]; [reflexivity|]. cbn [iexpect peek] in *. replace (to_upper x =? to_upper 69) with false; [reflexivity|].
  symmetry. apply Z.eqb_neq. intros E. rewrite <- alnum_upper, E in A. discriminate.
Qed.
Lemma num_constant f cx t v r : In f tree_families -> is_digit (peek t) = true \/ In (peek t) (fam_leads f) -> token_end r ->
  p_number (fam_pl f) (t ++ r) 10 = (OK, v, r) -> parseConstant (fam_pl f) cx 10 (t ++ r) = Val (OK, v, r).
Proof.
  intros I H R N. unfold parseConstant. destruct (num_letter f t r I H) as (c & p & ->). cbn [isOK err_eqb negb]. rewrite N, end_not_float by exact R. reflexivity.
Qed.
Lemma loc_any_in sl cs c r : In c cs -> sl (peek r) false = false -> location_any sl cs (c :: r) = Some r.
Proof.
  intros L N. induction cs as [|x cs IH]; [contradiction|]. cbn [location_any]. unfold location_with. cbn [expect_char].
  destruct (c =? x) eqn:E; [now rewrite N|]. destruct L as [-> |L]; [rewrite Z.eqb_refl in E; discriminate|auto].
Qed.
Lemma loc_number f c r : In f tree_families -> In c (y_locations (p_symbol (fam_pl f))) -> token_end r ->
  p_number (fam_pl f) (c :: r) 10 = (NOT_AN_EXPECTED, v_undef, c :: r) /\ isFloatNumber (c :: r) NOT_AN_EXPECTED 0 = false /\ fam_reader f (c :: r) = None /\
  eol_safe f c /\ ~ In c [0; 41; 44; 61; 93].
Proof.
  intros I L R. apply token_end_not in R as (A & _). 
  assert (forall x, peek_at 1 (x :: r) = peek r) as P by (intros x; destruct r; reflexivity).
  assert (is_xdigit (peek r) = false) as X by (unfold is_xdigit; chars; lia).
  fam I; cbn in L; repeat (destruct L as [<-|L]; [split; [first [reflexivity|change (np_fairchild (36 :: r) 10 = not_expected (36 :: r)); unfold np_fairchild; rewrite P, X; reflexivity]
    |split; [reflexivity|split; [reflexivity|split; [split; reflexivity|vm_compute; intuition congruence]]]]|]); contradiction.
Qed.
Lemma float_delim t d : isFloatNumber t NOT_AN_EXPECTED d = isFloatNumber t NOT_AN_EXPECTED 0. Proof. reflexivity. Qed.
Lemma loc_constant f cx c r : In f tree_families -> In c (y_locations (p_symbol (fam_pl f))) -> token_end r ->
  parseConstant (fam_pl f) cx 10 (c :: r) = Val (OK, setUnsigned (c_location cx), r).
Proof.
  intros I L R. unfold parseConstant. destruct (loc_letter f c r I L) as (x & p & ->). cbn [isOK err_eqb negb].
  destruct (loc_number f c r I L R) as (-> & F & _). rewrite float_delim, F. cbn [err_eqb negb].
  unfold y_location. rewrite loc_any_in; [reflexivity|exact L|]. apply (symbol_ends f r I R).
Qed.
Lemma name_constant f cx n r : In f tree_families -> is_name n -> token_end r -> ~ reserved f n ->
  parseConstant (fam_pl f) cx 10 (n ++ r) = Val (NOT_AN_EXPECTED, v_undef, n ++ r).
Proof.
  intros I N R X. destruct (name_app n r N R) as (c & t & -> & H & Q & _). unfold parseConstant. cbn [app] in *.
  destruct (name_letters f c (t ++ r) I H Q) as (x & p & ->). cbn [isOK err_eqb negb]. rewrite (name_number f c (t ++ r) I H Q). unfold not_expected.
  pose proof (name_float (c :: t) r (c_delim cx) N R) as F. cbn [app] in F. rewrite F.
  - cbn [err_eqb negb]. now rewrite (loc_none f c _ I H).
  - intros J. apply X. now right.
Qed.
Lemma open_facts f r : In f tree_families -> (forall cx, parseConstant (fam_pl f) cx 10 (40 :: r) = Val (NOT_AN_EXPECTED, v_undef, 40 :: r)) /\
  fam_reader f (40 :: r) = None /\ readFunctionName (p_symbol (fam_pl f)) (40 :: r) = None /\ readSymbol (p_symbol (fam_pl f)) (40 :: r) = None /\ eol_safe f 40.
Proof.
  intros I. split; [|fam I; (split; [reflexivity|split; [reflexivity|split; [reflexivity|split; reflexivity]]])].
  intros cx. unfold parseConstant. destruct (open_letter f r I) as (x & p & ->). cbn [isOK err_eqb negb].
  assert (p_number (fam_pl f) (40 :: r) 10 = not_expected (40 :: r)) as -> by (fam I; reflexivity).
  unfold not_expected. change (isFloatNumber (40 :: r) NOT_AN_EXPECTED (c_delim cx)) with false. cbn [err_eqb negb].
  assert (y_location (p_symbol (fam_pl f)) (40 :: r) = None) as -> by (fam I; reflexivity).
  reflexivity.
Qed.
