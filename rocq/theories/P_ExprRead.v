(** The operand and operator readers of the syntax families, on the texts of the grammar. *)
From Coq Require Import ZArith Lia ZifyBool String List Bool.
From Verif Require Import M_Char M_Error M_Value M_Text M_Number M_Operators M_Parsers M_Expr S_Expr S_ExprTree.
Import ListNotations.
Open Scope string_scope.
Open Scope list_scope.
Local Open Scope Z_scope.

(* ------------------------------------------------------------ letters *)
Lemma token_end_char (r : text) : token_end r -> r = [] \/ exists c t, r = c :: t /\ (is_space c = true \/ In c (s2l "+-*/%<>=!&|^#(),;]")).
Proof. destruct r as [|c t]; [now left|]. intros H. right. eauto. Qed.
(* no letter of a name or numeral starts what follows one *)
Lemma token_end_not (r : text) : token_end r ->
  is_alnum (peek r) = false /\ peek r <> 95 /\ peek r <> 39 /\ peek r <> 46 /\ peek r <> 36 /\ peek r <> 63 /\ peek r <> 64 /\ peek r <> 34.
Proof.
  intros H. destruct (token_end_char r H) as [-> |(c & t & -> & [S|S])]; [cbn; repeat split; lia| |].
  - cbn [peek]. unfold is_space, is_alnum, is_alpha, is_upper, is_lower, is_digit in *. lia.
  - cbn [peek]. cbn in S. unfold is_alnum, is_alpha, is_upper, is_lower, is_digit. lia.
Qed.
Lemma upper_eq a b : (to_lower a =? to_lower b) = (to_upper a =? to_upper b).
Proof.
  apply eq_true_iff_eq. rewrite !Z.eqb_eq. unfold to_lower, to_upper, is_upper, is_lower.
  destruct ((65 <=? a) && (a <=? 90)) eqn:A, ((65 <=? b) && (b <=? 90)) eqn:B,
    ((97 <=? a) && (a <=? 122)) eqn:C, ((97 <=? b) && (b <=? 122)) eqn:D; lia.
Qed.
Lemma upper_idem a : to_upper (to_upper a) = to_upper a.
Proof. unfold to_upper, is_lower. destruct ((97 <=? a) && (a <=? 122)) eqn:A; [|now rewrite A]. destruct ((97 <=? a - 32) && (a - 32 <=? 122)) eqn:B; lia. Qed.
Lemma iequals_upper w : forall n, iequals w n = iequals (map to_upper w) n.
Proof. induction w as [|a w IH]; intros [|b n]; cbn; try reflexivity. now rewrite !upper_eq, upper_idem, IH. Qed.
Lemma iequals_map w : forall n, iequals w n = true -> map to_upper w = map to_upper n.
Proof.
  induction w as [|a w IH]; intros [|b n]; cbn; try congruence. rewrite upper_eq, andb_true_iff, Z.eqb_eq. intros [-> H]. f_equal. auto.
Qed.
Lemma find_word_upper w l : find_word w l = find_word (map to_upper w) l.
Proof. induction l as [|[n o] l IH]; cbn; [reflexivity|]. now rewrite iequals_upper, IH. Qed.
Lemma alnum_upper a : is_alnum (to_upper a) = is_alnum a.
Proof.
  unfold to_upper, is_lower, is_alnum, is_alpha, is_upper, is_lower, is_digit. destruct ((97 <=? a) && (a <=? 122)) eqn:A; lia.
Qed.
Lemma word_upper w : is_word (map to_upper w) = is_word w.
Proof. unfold is_word. induction w as [|a w IH]; cbn; [reflexivity|]. now rewrite alnum_upper, IH. Qed.
Lemma take_word w r : is_word w = true -> is_alnum (peek r) = false -> takeWhile is_alnum (w ++ r) = (w, r).
Proof.
  intros W R. induction w as [|a w IH]; cbn.
  - destruct r as [|c r]; [reflexivity|]. cbn in *. now rewrite R.
  - cbn in W. apply andb_true_iff in W as [-> W]. now rewrite (IH W).
Qed.

(* ------------------------------------------------------------ operators *)
(* an operator of the evaluator stands for an operator of the table *)
Definition stands (n : Z) (d : opdoc) (o : oper) : Prop :=
  o_prec o = d_level d /\ o_assoc o = d_assoc d /\ o_op o = Some (d_fn d) /\ o_fn o = None /\ o_nargs o <= n.
Definition reads_table (n : Z) (tbl : list opdoc) (rd : op_reader) : Prop :=
  forall d tok rest, In d tbl -> spells tok d -> separate tbl tok rest ->
  exists o, rd (tok ++ rest) = Some (o, rest) /\ stands n d o.

Lemma sep_char tbl tok rest c : separate tbl tok rest ->
  existsb (fun d => if list_eq_dec Z.eq_dec (d_text d) (tok ++ [c]) then true else false) tbl = true ->
  expect_char c rest = None.
Proof.
  intros [S _] H. apply existsb_exists in H as (d & I & H). destruct (list_eq_dec _ _ _) as [E|]; [|discriminate].
  destruct rest as [|x r]; [reflexivity|]. cbn. destruct (x =? c) eqn:X; [|reflexivity]. exfalso. apply Z.eqb_eq in X. subst x.
  apply (S d I).
  - rewrite E, app_length. cbn. lia.
  - rewrite E. exists r. now rewrite <- app_assoc.
Qed.
(* the operator is read and stands for its entry; [tok] is a literal *)
Ltac ends_here S :=
  repeat match goal with
  | |- context [expect_char ?c ?r] => is_var r;
    let N := fresh in assert (expect_char c r = None) as N by (refine (sep_char _ _ _ c S _); vm_compute; reflexivity); rewrite N; clear N
  end.
Ltac table_in I :=
  repeat match type of I with
  | _ \/ _ => destruct I as [I|I]
  end.

Lemma word_read words d tok rest : spells tok d -> is_word (d_text d) = true -> map to_upper (d_text d) = d_text d ->
  (is_alnum (last tok 0) = true -> is_alnum (peek rest) = false) -> d_text d <> [] ->
  read_word words (tok ++ rest) = match find_word (d_text d) words with Some o => Some (o, rest) | None => None end.
Proof.
  intros Sp W U L N. assert (map to_upper tok = d_text d) as M by (destruct Sp as [-> |[_ H]]; assumption).
  assert (is_word tok = true) as T by (rewrite <- word_upper, M; exact W).
  unfold read_word. rewrite take_word; [|exact T|].
  - rewrite find_word_upper, M. reflexivity.
  - apply L. destruct tok as [|a tok]; [cbn in M; congruence|]. unfold is_word in T. rewrite forallb_forall in T. apply T.
    clear. revert a. induction tok as [|b tok IH]; intros a; [now left|]. right. apply IH.
Qed.
Lemma symbol_spell tok d : spells tok d -> is_word (d_text d) = false -> tok = d_text d.
Proof. intros [-> |[H _]] N; congruence. Qed.
Lemma table_ind (P : opdoc -> Prop) (tbl : list opdoc) : Forall P tbl -> forall d, In d tbl -> P d.
Proof. intros F d I. rewrite Forall_forall in F. auto. Qed.


(* a symbol operator: its spelling is the literal of the table *)
Ltac literal Sp :=
  apply symbol_spell in Sp; [|reflexivity]; subst;
  match goal with |- context [d_text ?d] => let t := eval vm_compute in (d_text d) in change (d_text d) with t in * end.
Ltac symbol Sp S :=
  literal Sp; cbn;
  repeat (match goal with
  | |- context [expect_char ?c ?r] => is_var r;
    let N := fresh in assert (expect_char c r = None) as N by (refine (sep_char _ _ _ c S _); vm_compute; reflexivity); rewrite N; clear N
  end; cbn);
  eexists; (split; [reflexivity|]); vm_compute; repeat split; congruence.
Ltac word Sp S :=
  match goal with |- context [read_word ?ws (?tok ++ ?rest)] =>
    rewrite (word_read ws _ tok rest Sp eq_refl eq_refl (proj2 S) ltac:(vm_compute; congruence)) end;
  eexists; (split; [vm_compute; reflexivity|]); vm_compute; repeat split; congruence.
Ltac entries tac := intros d tok rest I Sp S; cbn in I; repeat (destruct I as [<-|I]; [tac Sp S|]); try contradiction.

Lemma infix_c_reads : reads_table 2 infix_c readInfix_cstyle.
Proof. unfold reads_table, readInfix_cstyle. entries ltac:(fun Sp S => symbol Sp S). Qed.
Ltac either Sp S := first [word Sp S | symbol Sp S].
Lemma infix_intel_reads : reads_table 2 infix_intel readInfix_intel.
Proof. unfold reads_table, readInfix_intel, readInfix_cstyle. entries ltac:(fun Sp S => either Sp S). Qed.
Lemma infix_zilog_reads : reads_table 2 infix_zilog readInfix_zilog.
Proof. unfold reads_table, readInfix_zilog, readInfix_cstyle. entries ltac:(fun Sp S => either Sp S). Qed.
Lemma text2 a b s : is_alpha a = false -> is_alpha b = false ->
  iexpectText [a; b] s = match expect_char a s with Some p => expect_char b p | None => None end.
Proof.
  assert (forall a c, is_alpha a = false -> (to_lower a =? to_lower c) = (c =? a)) as H.
  { clear. intros a c A. unfold to_lower, is_alpha, is_upper, is_lower in *.
    destruct ((65 <=? a) && (a <=? 90)) eqn:X, ((65 <=? c) && (c <=? 90)) eqn:Y; lia. }
  intros A B. destruct s as [|x [|y s]]; cbn; rewrite ?(H a x A); try reflexivity; destruct (x =? a); try reflexivity.
  rewrite (H b y B). reflexivity.
Qed.
Definition readInfix_texas' : op_reader := fun s =>
  match (match expect_char 43 s with Some p => expect_char 43 p | None => None end) with Some p => Some (OP_BITWISE_OR, p) | None =>
  match (match expect_char 38 s with Some p => expect_char 38 p | None => None end) with Some p => Some (OP_BITWISE_XOR, p) | None =>
  match (match expect_char 47 s with Some p => expect_char 47 p | None => None end) with Some p => Some (MOTOROLA_SHIFT_RIGHT, p) | None =>
  match expect_char 61 s with Some p => Some (OP_LOGICAL_EQ, p) | None =>
  match (match expect_char 35 s with Some p => expect_char 61 p | None => None end) with Some p => Some (OP_LOGICAL_NE, p) | None =>
  readInfix_cstyle s end end end end end.
Lemma texas_same s : readInfix_texas s = readInfix_texas' s.
Proof. unfold readInfix_texas, readInfix_texas'. cbn [s2l]. rewrite !text2 by reflexivity. reflexivity. Qed.
Lemma infix_texas_reads : reads_table 2 infix_texas readInfix_texas.
Proof.
  intros d tok rest. rewrite texas_same. revert d tok rest. unfold readInfix_texas', readInfix_cstyle. entries ltac:(fun Sp S => symbol Sp S). Qed.
Lemma infix_pdp8_reads : reads_table 2 infix_pdp8 readInfix_pdp8.
Proof. unfold reads_table, readInfix_pdp8, readInfix_cstyle. entries ltac:(fun Sp S => symbol Sp S). Qed.
(* no expression starts with an equal sign *)
Definition reads_prefix (tbl : list opdoc) (rd : op_reader) : Prop :=
  forall d tok rest, In d tbl -> spells tok d -> separate tbl tok rest -> (peek rest =? 61) = false ->
  exists o, rd (tok ++ rest) = Some (o, rest) /\ stands 1 d o.
Ltac prefix_entries tac := intros d tok rest I Sp S E; cbn in I; repeat (destruct I as [<-|I]; [tac Sp S E|]); try contradiction.
Ltac psymbol Sp S E :=
  literal Sp; cbn; rewrite ?E;
  eexists; (split; [reflexivity|]); vm_compute; repeat split; congruence.
Lemma word_char c tok d rest : spells tok d -> is_word (d_text d) = true -> map to_upper (d_text d) = d_text d -> d_text d <> [] ->
  is_alnum c = false -> expect_char c (tok ++ rest) = None.
Proof.
  intros Sp W U N C. assert (map to_upper tok = d_text d) as M by (destruct Sp as [-> |[_ H]]; assumption).
  rewrite <- M, word_upper in W. destruct tok as [|a tok]; [cbn in M; congruence|]. cbn in *. apply andb_true_iff in W as [A _].
  destruct (a =? c) eqn:X; [|reflexivity]. apply Z.eqb_eq in X. congruence.
Qed.
Ltac peither Sp S E :=
  match type of Sp with spells ?tok ?d =>
    try (rewrite (word_char 45 tok d _ Sp eq_refl eq_refl ltac:(vm_compute; congruence) eq_refl),
      (word_char 43 tok d _ Sp eq_refl eq_refl ltac:(vm_compute; congruence) eq_refl)) end;
  first [word Sp S | psymbol Sp S E].
Lemma prefix_c_reads : reads_prefix prefix_c readPrefix_cstyle.
Proof. unfold reads_prefix, readPrefix_cstyle, minus_plus. prefix_entries ltac:(fun Sp S E => psymbol Sp S E). Qed.
Lemma prefix_signetics_reads : reads_prefix prefix_signetics readPrefix_signetics.
Proof. unfold reads_prefix, readPrefix_signetics, readPrefix_cstyle, minus_plus. prefix_entries ltac:(fun Sp S E => psymbol Sp S E). Qed.
Lemma prefix_texas_reads : reads_prefix prefix_texas readPrefix_texas.
Proof. unfold reads_prefix, readPrefix_texas, readPrefix_cstyle, minus_plus. prefix_entries ltac:(fun Sp S E => psymbol Sp S E). Qed.
Lemma prefix_zilog_reads : reads_prefix prefix_zilog readPrefix_zilog.
Proof. unfold reads_prefix, readPrefix_zilog, readPrefix_cstyle, minus_plus. prefix_entries ltac:(fun Sp S E => peither Sp S E). Qed.
Lemma prefix_intel_reads : reads_prefix prefix_intel readPrefix_intel.
Proof. unfold reads_prefix, readPrefix_intel, readPrefix_cstyle, minus_plus. prefix_entries ltac:(fun Sp S E => peither Sp S E). Qed.
Ltac msymbol Sp S :=
  first [symbol Sp S
  | literal Sp; let A := fresh in pose proof (proj2 S eq_refl) as A; cbn [app]; cbn -[is_alnum]; rewrite A; cbn;
    eexists; (split; [reflexivity|]); vm_compute; repeat split; congruence].
Lemma infix_motorola_reads : reads_table 2 infix_motorola readInfix_motorola.
Proof. unfold reads_table, readInfix_motorola, readInfix_cstyle. entries ltac:(fun Sp S => msymbol Sp S). Qed.

(* ------------------------------------------------------------ heads of operands *)
Definition name_head (c : Z) : Prop := is_alpha c = true \/ c = 95.
Ltac chars := unfold name_head, name_letter, is_alnum, is_alpha, is_upper, is_lower, is_digit in *.
Lemma digit_cases (P : Z -> Prop) : Forall P [48;49;50;51;52;53;54;55;56;57] -> forall h, is_digit h = true -> P h.
Proof.
  intros F h H. rewrite Forall_forall in F. apply F. unfold is_digit in H. cbn. lia.
Qed.
Lemma read_word_symbol words h t : is_alnum h = false -> find_word [] words = None -> read_word words (h :: t) = None.
Proof. intros H F. unfold read_word. cbn. rewrite H, F. reflexivity. Qed.
Lemma read_word_digit words h t : is_digit h = true ->
  forallb (fun x => match fst x with a :: _ => is_alpha a | [] => false end) words = true -> read_word words (h :: t) = None.
Proof.
  intros H F. unfold read_word. cbn. replace (is_alnum h) with true by (unfold is_alnum; rewrite H; lia).
  destruct (takeWhile is_alnum t) as [a b]. enough (find_word (h :: a) words = None) as -> by reflexivity.
  induction words as [|[n o] l IH]; cbn; [reflexivity|]. cbn in F. apply andb_true_iff in F as [A F].
  destruct n as [|x n]; [discriminate|]. cbn. replace (to_lower h =? to_lower x) with false; [cbn; auto|].
  symmetry. apply Z.eqb_neq. unfold to_lower. chars. destruct ((65 <=? h) && (h <=? 90)) eqn:X, ((65 <=? x) && (x <=? 90)) eqn:Y; lia.
Qed.
Lemma name_app n r : is_name n -> token_end r -> exists c t, n = c :: t /\ name_head c /\ peek (t ++ r) <> 39 /\ peek (t ++ r) <> 46.
Proof.
  destruct n as [|c t]; [contradiction|]. intros [H F] R. exists c, t. split; [reflexivity|]. split; [exact H|].
  destruct t as [|x t].
  - cbn. apply token_end_not in R as (_ & _ & A & B & _). auto.
  - cbn. cbn in F. chars. lia.
Qed.
Lemma take_name p n r : (forall c, name_letter c = true -> p c = true) -> p (peek r) = false ->
  forallb name_letter n = true -> takeWhile p (n ++ r) = (n, r).
Proof.
  intros P R. induction n as [|c n IH]; cbn.
  - intros _. destruct r as [|x r]; [reflexivity|]. cbn in *. now rewrite R.
  - rewrite andb_true_iff. intros [A B]. now rewrite (P c A), (IH B).
Qed.
Lemma first_word_take n r : is_alnum (peek r) = false -> exists q, takeWhile is_alnum (n ++ r) = (first_word n, q).
Proof.
  intros R. induction n as [|c n [q IH]]; cbn.
  - exists r. destruct r as [|x r]; [reflexivity|]. cbn in *. now rewrite R.
  - destruct (is_alnum c); [|eauto]. rewrite IH. eauto.
Qed.

(* ------------------------------------------------------------ numbers do not start with a name head *)
Lemma not_digit_10 c : name_head c -> is_digit_r 10 c = false.
Proof. unfold is_digit_r. change (10 =? RADIX_16) with false. chars. lia. Qed.
Lemma scan_none c q r suf : name_head c -> r = 16 \/ r = 8 \/ r = 2 \/ r = 10 -> scanNumberEnd (c :: q) r suf = None.
Proof.
  intros H R. unfold scanNumberEnd. match goal with |- (if ?b then None else _) = None => destruct b end; [reflexivity|].
  cbn [peek]. assert (is_digit_r RADIX_10 c = false) as D by (now apply not_digit_10).
  destruct (is_digit_r r c) eqn:E; [|reflexivity]. rewrite D.
  destruct R as [-> |[-> |[-> | ->]]]; [reflexivity| | |]; exfalso; revert E D; unfold is_digit_r; cbn; chars; lia.
Qed.
Lemma intel_unread c q : name_head c -> np_intel (c :: q) 10 = not_expected (c :: q).
Proof.
  intros H. unfold np_intel, intel_suffix. rewrite !scan_none by auto. cbn [Z.eqb RADIX_NONE].
  unfold np_cstyle, cstyle_prefix. cbn [s2l c2z iexpectText].
  assert (c <> 48 /\ to_lower c <> 48) as [C L].
  { unfold to_lower. chars. destruct ((65 <=? c) && (c <=? 90)) eqn:X; lia. }
  replace (to_lower _ =? to_lower c) with false by (symmetry; apply Z.eqb_neq; intros E; apply L; rewrite <- E; reflexivity).
  cbn [peek]. replace (c =? 48) with false by lia. cbn [andb]. now rewrite not_digit_10.
Qed.
Lemma iexpect_not x c q : name_head c -> is_alpha x = false -> x <> 95 -> iexpect x (c :: q) = None.
Proof.
  intros H A B. cbn. replace (to_upper c =? to_upper x) with false; [reflexivity|]. symmetry. apply Z.eqb_neq.
  unfold to_upper. chars. destruct ((97 <=? c) && (c <=? 122)) eqn:X, ((97 <=? x) && (x <=? 122)) eqn:Y; lia.
Qed.
Lemma prefix_unread a b o d c q : name_head c -> forallb (fun x => negb (is_alpha x) && negb (x =? 95)) [a; b; o; d] = true ->
  np_prefix a b o d (c :: q) 10 = not_expected (c :: q).
Proof.
  intros H F. cbn in F. rewrite !andb_true_iff, !negb_true_iff in F. destruct F as ([A A'] & [B B'] & [O O'] & [D D'] & _).
  apply Z.eqb_neq in A', B', O', D'. unfold np_prefix, prefix_of, has_prefix1. rewrite !iexpect_not by assumption.
  destruct (a =? 0), (b =? 0), (o =? 0), (d =? 0); cbn; now apply intel_unread.
Qed.
Lemma zilog_unread c q : name_head c -> np_zilog (c :: q) 10 = not_expected (c :: q).
Proof.
  intros H. unfold np_zilog, zilog_prefix. cbn [s2l c2z iexpectText expect_char].
  assert (c <> 37 /\ to_lower c <> 37) as [C L].
  { unfold to_lower. chars. destruct ((65 <=? c) && (c <=? 90)) eqn:X; lia. }
  replace (to_lower _ =? to_lower c) with false by (symmetry; apply Z.eqb_neq; intros E; apply L; rewrite <- E; reflexivity).
  replace (c =? 37) with false by lia. cbn. now apply intel_unread.
Qed.
Lemma expect_not x q : peek q <> x -> expect_char x q = None.
Proof. destruct q as [|y q]; cbn; [reflexivity|]. intros N. now rewrite (proj2 (Z.eqb_neq _ _) N). Qed.
Lemma prefix_of_cases a b o d c q : let '(r, p) := prefix_of a b o d (c :: q) in (r = RADIX_NONE) \/ p = q.
Proof.
  unfold prefix_of, has_prefix1. cbn [iexpect].
  destruct (a =? 0), (b =? 0), (o =? 0), (d =? 0);
    repeat match goal with |- context [to_upper c =? ?x] => destruct (to_upper c =? x) end; auto.
Qed.
Lemma ibm_unread a b o d c q : name_head c -> peek q <> 39 -> np_ibm a b o d (c :: q) 10 = not_expected (c :: q).
Proof.
  intros H Q. unfold np_ibm. pose proof (prefix_of_cases a b o d c q) as P. destruct (prefix_of _ _ _ _ _) as [r p].
  destruct P as [-> | ->]; [now apply intel_unread|]. destruct (r =? RADIX_NONE); [now apply intel_unread|].
  now rewrite (expect_not 39 q Q).
Qed.
Lemma national_unread a b o d c q : name_head c -> peek q <> 39 -> np_national a b o d (c :: q) 10 = not_expected (c :: q).
Proof.
  intros H Q. unfold np_national. assert (let '(r, p) := national_prefix a b o d (c :: q) in (r = RADIX_NONE) \/ p = q) as P.
  { unfold national_prefix. cbn [iexpect]. pose proof (prefix_of_cases a b o d c q).
    destruct (a =? 0), (o =? 81), (to_upper c =? to_upper 88), (to_upper c =? to_upper 72), (to_upper c =? to_upper 79); auto. }
  destruct (national_prefix _ _ _ _ _) as [r p].
  destruct P as [-> | ->]; [now apply intel_unread|]. destruct (r =? RADIX_NONE); [now apply intel_unread|].
  now rewrite (expect_not 39 q Q).
Qed.
Lemma cstyle_unread c q : name_head c -> np_cstyle (c :: q) 10 = not_expected (c :: q).
Proof.
  intros H. pose proof (intel_unread c q H) as E. unfold np_intel, intel_suffix in E. rewrite !scan_none in E by auto.
  exact E.
Qed.

(* ------------------------------------------------------------ families *)
Definition fam_reader (f : family) : op_reader := fun s =>
  match p_prefix (fam_pl f) s [] 10 with Val (o, _, _) => o | _ => None end.
Ltac fam_go I := lazymatch type of I with False => contradiction | _ => destruct I as [<-|I]; [|fam_go I] end.
Ltac fam I := unfold tree_families in I; cbn [In] in I; fam_go I.

Lemma fam_pure f : In f tree_families -> forall s vs r, p_prefix (fam_pl f) s vs r = Val (fam_reader f s, vs, r).
Proof. intros I. fam I; intros s vs r; reflexivity. Qed.
Lemma fam_prefix_reads f : In f tree_families -> reads_prefix (fam_prefix f) (fam_reader f).
Proof.
  intros I. fam I; first [exact prefix_c_reads|exact prefix_intel_reads|exact prefix_zilog_reads|exact prefix_texas_reads|exact prefix_signetics_reads].
Qed.
Lemma fam_infix_reads f : In f tree_families -> reads_table 2 (fam_infix f) (p_infix (fam_pl f)).
Proof.
  intros I. fam I; first [exact infix_c_reads|exact infix_intel_reads|exact infix_zilog_reads|exact infix_texas_reads|exact infix_pdp8_reads|exact infix_motorola_reads].
Qed.
Lemma fam_open f : In f tree_families -> forall s, p_open (fam_pl f) s = expect_char 40 s.
Proof. intros I. fam I; reflexivity. Qed.
Lemma fam_close f : In f tree_families -> forall s, p_close (fam_pl f) s = expect_char 41 s.
Proof. intros I. fam I; reflexivity. Qed.
Lemma fam_infix_none f : In f tree_families -> forall c t, In c [41; 44; 93] -> p_infix (fam_pl f) (c :: t) = None.
Proof. intros I c t C. cbn in C. destruct C as [<-|[<-|[<-|[]]]]; fam I; reflexivity. Qed.

(* end of line *)
Definition eol_safe (f : family) (h : Z) : Prop := is_space h = false /\ fst (p_eol (fam_pl f) [h]) = false.
Lemma fam_eol f : In f tree_families -> forall h t, eol_safe f h -> p_eol (fam_pl f) (h :: t) = (false, h :: t).
Proof.
  assert (forall h t, is_space h = false -> skipSpaces (h :: t) = h :: t) as K by (intros h t S; unfold skipSpaces; cbn [trimStart]; now rewrite S).
  assert (forall e h t, In e [eol_semicolon; eol_sharp; eol_star; eol_pdp8] -> is_space h = false -> fst (e [h]) = false -> e (h :: t) = (false, h :: t)) as H.
  { intros e h t J S. cbn [In] in J. destruct J as [<-|[<-|[<-|[<-|[]]]]]; unfold eol_semicolon, eol_sharp, eol_star, eol_pdp8; unfold eol_semicolon;
      rewrite ?(K h [] S), ?(K h t S); cbn [peek fst]; intros ->; reflexivity. }
  intros I h t [S E]. apply H; [|exact S|exact E]. clear - I. fam I; cbn; tauto.
Qed.
Lemma fam_eol_end f : In f tree_families -> forall t, p_eol (fam_pl f) [] = (true, []) /\ p_eol (fam_pl f) (59 :: t) = (true, 59 :: t).
Proof. intros I t. fam I; split; reflexivity. Qed.
Lemma fam_heads f : In f tree_families ->
  (forall d, In d (fam_prefix f) -> is_word (d_text d) = false -> eol_safe f (peek (d_text d)) /\ ~ In (peek (d_text d)) [0; 41; 44; 61; 93] /\ d_text d <> []) /\
  (forall d, In d (fam_infix f) -> is_word (d_text d) = false -> eol_safe f (peek (d_text d)) /\ ~ In (peek (d_text d)) [0; 41; 44; 40; 93] /\ d_text d <> []).
Proof.
  intros I.
  assert (forall tbl bad, forallb (fun d => is_word (d_text d) || (negb (is_space (peek (d_text d))) && negb (fst (p_eol (fam_pl f) [peek (d_text d)])) &&
    negb (existsb (Z.eqb (peek (d_text d))) bad) && negb (Nat.eqb (length (d_text d)) 0))) tbl = true ->
    forall d, In d tbl -> is_word (d_text d) = false -> eol_safe f (peek (d_text d)) /\ ~ In (peek (d_text d)) bad /\ d_text d <> []) as H.
  { clear. intros tbl bad F d D W. rewrite forallb_forall in F. specialize (F d D). rewrite W in F. cbn [orb] in F.
    rewrite !andb_true_iff, !negb_true_iff in F. destruct F as [[[A B] C] E]. split; [now split|]. split.
    - intros N. apply not_true_iff_false in C. apply C, existsb_exists. exists (peek (d_text d)). split; [exact N|apply Z.eqb_refl].
    - intros N. rewrite N in E. discriminate. }
  split; apply H; clear H; revert f I; intros f I; fam I; vm_compute; reflexivity.
Qed.
Lemma fam_words f : In f tree_families ->
  (forall d, In d (fam_prefix f) \/ In d (fam_infix f) -> is_word (d_text d) = true -> is_alpha (peek (d_text d)) = true /\ map to_upper (d_text d) = d_text d).
Proof.
  intros I.
  assert (forall tbl, forallb (fun d => negb (is_word (d_text d)) || (is_alpha (peek (d_text d)) && if list_eq_dec Z.eq_dec (map to_upper (d_text d)) (d_text d) then true else false)) tbl = true ->
    forall d, In d tbl -> is_word (d_text d) = true -> is_alpha (peek (d_text d)) = true /\ map to_upper (d_text d) = d_text d) as H.
  { clear. intros tbl F d D W. rewrite forallb_forall in F. specialize (F d D). rewrite W in F. cbn [negb orb] in F.
    apply andb_true_iff in F as [A B]. destruct (list_eq_dec _ _ _); [auto|discriminate]. }
  intros d [D|D]; revert d D; apply H; clear H; fam I; vm_compute; reflexivity.
Qed.
(* the first letter of an operator is safe *)
Lemma upper_alpha a : is_alpha (to_upper a) = true -> is_alpha a = true.
Proof. unfold to_upper. chars. destruct ((97 <=? a) && (a <=? 122)) eqn:X; lia. Qed.
Lemma alpha_safe f h : In f tree_families -> name_head h -> eol_safe f h /\ ~ In h [0; 41; 44; 61; 40; 93].
Proof.
  intros I H. assert (is_space h = false) as S by (unfold is_space; chars; lia).
  split; [|cbn; chars; lia]. split; [exact S|]. 
  assert (skipSpaces [h] = [h]) as K by (unfold skipSpaces; cbn [trimStart]; now rewrite S).
  assert (forall e, In e [eol_semicolon; eol_sharp; eol_star; eol_pdp8] -> fst (e [h]) = false) as J.
  { intros e J. cbn [In] in J. destruct J as [<-|[<-|[<-|[<-|[]]]]]; unfold eol_semicolon, eol_sharp, eol_star, eol_pdp8; unfold eol_semicolon;
      rewrite ?K; cbn [peek fst]; chars; lia. }
  apply J. clear - I. fam I; cbn; tauto.
Qed.
Lemma op_head f d tok : In f tree_families -> In d (fam_prefix f) \/ In d (fam_infix f) -> spells tok d ->
  exists h t, tok = h :: t /\ eol_safe f h /\ ~ In h [0; 41; 44; 93].
Proof.
  intros I D Sp. destruct (is_word (d_text d)) eqn:W.
  - destruct (fam_words f I d D W) as [A U].
    assert (map to_upper tok = d_text d) as M by (destruct Sp as [-> |[_ H]]; assumption).
    destruct tok as [|h t]; [cbn in M; rewrite <- M in A; discriminate|]. exists h, t. split; [reflexivity|].
    rewrite <- M in A. cbn in A. apply upper_alpha in A. destruct (alpha_safe f h I (or_introl A)) as [B C]. split; [exact B|].
    intros N. apply C. cbn in N |- *. tauto.
  - apply symbol_spell in Sp; [|exact W]. subst tok.
    destruct (fam_heads f I) as [P Q]. destruct D as [D|D]; [destruct (P d D W) as (A & B & C)|destruct (Q d D W) as (A & B & C)];
      (destruct (d_text d) as [|h t]; [congruence|]; exists h, t; split; [reflexivity|]; split; [exact A|]; intros N; apply B; cbn in N |- *; tauto).
Qed.
Lemma prefix_head f d tok : In f tree_families -> In d (fam_prefix f) -> spells tok d -> exists h t, tok = h :: t /\ h <> 61.
Proof.
  intros I D Sp. destruct (is_word (d_text d)) eqn:W.
  - destruct (fam_words f I d (or_introl D) W) as [A U].
    assert (map to_upper tok = d_text d) as M by (destruct Sp as [-> |[_ H]]; assumption).
    destruct tok as [|h t]; [cbn in M; rewrite <- M in A; discriminate|]. exists h, t. split; [reflexivity|].
    rewrite <- M in A. cbn in A. apply upper_alpha in A. chars. lia.
  - apply symbol_spell in Sp; [|exact W]. subst tok. destruct (fam_heads f I) as [P _]. destruct (P d D W) as (A & B & C).
    destruct (d_text d) as [|h t]; [congruence|]. exists h, t. split; [reflexivity|]. intros ->. apply B. cbn. tauto.
Qed.
