(** Consequences for the tables of the program. *)
From Coq Require Import String ZArith List Bool Lia ZifyBool Arith.
From Verif Require Import M_Char M_Error M_Text M_Operators M_Table S_Table T_Tables P_Table P_TableData.
Import ListNotations.
Open Scope list_scope.
Local Open Scope Z_scope.

Lemma same_letter_range : forall x y, same_letter x y -> 1 <= y <= 127 -> 1 <= x <= 127.
Proof. intros x y H; unfold same_letter in H; lia. Qed.
Lemma same_name_cstring : forall a b, same_name a b -> cstring b -> cstring a.
Proof.
  induction 1; intros C; [constructor|]. apply Forall_cons_iff in C. destruct C as [C1 C2].
  constructor; [eapply same_letter_range; eassumption|]. apply IHForall2; assumption.
Qed.
Lemma same_name_letters : forall a b, same_name a b -> forallb isNameLetter b = true -> forallb isNameLetter a = true.
Proof.
  induction 1; intros C; [reflexivity|]. cbn [forallb] in *. apply andb_true_iff in C. destruct C as [C1 C2].
  rewrite (IHForall2 C2), andb_true_r.
  unfold same_letter, isNameLetter, is_alnum, is_alpha, is_upper, is_lower, is_digit in *. lia.
Qed.

(* the name search of a processor *)
Lemma processor_search : forall p s accept, In p processors -> cstring s ->
  (forall pg a b, same_operands a b -> accept pg a = accept pg b) ->
  match searchName row_name s accept (pages_of p) with
  | Val (Hit n i) => exists t, nth_error (pr_tables p) n = Some t /\
      first_acceptable row_name s (accept (page_of t)) (it_items t) i /\
      forall m u, (m < n)%nat -> nth_error (pr_tables p) m = Some u ->
        none_acceptable row_name s (accept (page_of u)) (it_items u)
  | Val (Miss e) =>
      (forall t, In t (pr_tables p) -> none_acceptable row_name s (accept (page_of t)) (it_items t)) /\
      ((e = OPERAND_NOT_ALLOWED /\ exists t, In t (pr_tables p) /\ occurs row_name s (it_items t)) \/
       (e = UNKNOWN_INSTRUCTION /\ forall t, In t (pr_tables p) -> ~ occurs row_name s (it_items t)))
  | _ => False
  end.
Proof.
  intros p s accept I Hs HA.
  pose proof (searchName_spec unit row row_name same_operands s accept (pages_of p) Hs (pages_of_ok p I) HA 0 false) as H.
  unfold searchName. destruct (searchName_from row_name s accept (pages_of p) 0 false) as [[n i|e]| | | |]; try contradiction.
  - destruct H as (q & pg & En & Hq & Hf & Hl). cbn in En. subst q. unfold pages_of in *.
    assert (X : exists t, nth_error (pr_tables p) n = Some t /\ pg = page_of t).
    { rewrite nth_error_map in Hq. destruct (nth_error (pr_tables p) n) as [t|]; [|discriminate].
      cbn in Hq. injection Hq as <-. exists t; auto. }
    destruct X as (t & Ht & ->). exists t. split; [assumption|]. split; [exact Hf|].
    intros m u Lm Hu. exact (Hl m (page_of u) Lm (map_nth_error _ _ _ Hu)).
  - destruct H as [H1 H2]. unfold pages_of in *. split.
    + intros t It. exact (H1 (page_of t) (in_map _ _ _ It)).
    + destruct H2 as [[-> [?|(pg & Ip & O)]]|(-> & _ & H2)]; [discriminate| |].
      * left. split; [reflexivity|]. apply in_map_iff in Ip. destruct Ip as (t & <- & It). exists t; auto.
      * right. split; [reflexivity|]. intros t It. exact (H2 (page_of t) (in_map _ _ _ It)).
Qed.

Lemma every_mnemonic : forall p t r s accept, In p processors -> In t (pr_tables p) -> In r (it_items t) ->
  same_name s (row_name r) ->
  (forall pg a b, same_operands a b -> accept pg a = accept pg b) ->
  accept (page_of t) r = true ->
  exists n i u e, searchName row_name s accept (pages_of p) = Val (Hit n i) /\
    nth_error (pr_tables p) n = Some u /\ nth_error (it_items u) i = Some e /\
    same_name s (row_name e) /\ accept (page_of u) e = true.
Proof.
  intros p t r s accept Ip It Ir HS HA Hacc.
  assert (Hs : cstring s).
  { apply (same_name_cstring s (row_name r) HS).
    apply (proj1 (pages_of_ok p Ip (page_of t) (in_map _ _ _ It))). exact Ir. }
  pose proof (processor_search p s accept Ip Hs HA) as H.
  destruct (searchName row_name s accept (pages_of p)) as [[n i|e]| | | |]; try contradiction.
  - destruct H as (u & Hu & [(e & He & HSe & Hae) _] & _). exists n, i, u, e. auto.
  - destruct H as [H _]. pose proof (H t It r Ir HS). congruence.
Qed.

(* registers *)
Lemma register_unique : forall tbl, In tbl register_tables -> forall i j a b,
  nth_error tbl i = Some a -> nth_error tbl j = Some b -> same_name (row_name a) (row_name b) -> i = j.
Proof.
  intros tbl I i j a b Ha Hb HS.
  pose proof (proj1 (forallb_forall _ _) register_names tbl I) as H. cbn beta in H.
  apply andb_true_iff in H. destruct H as [_ H].
  pose proof (proj1 (forallb_forall _ _) register_tables_ok tbl I) as K. cbn beta in K.
  destruct (name_table_ok_spec tbl K) as [C _].
  pose proof (C a (nth_error_In _ _ Ha)) as Ca. pose proof (C b (nth_error_In _ _ Hb)) as Cb.
  destruct (Nat.lt_trichotomy i j) as [L|[L|L]]; [|assumption|]; exfalso.
  - pose proof (pairs_ok_spec _ _ _ H i j _ _ L (map_nth_error _ _ _ Ha) (map_nth_error _ _ _ Hb)) as P. cbn beta in P.
    apply (proj2 (strcasecmp_eq _ _ Ca Cb)) in HS. lia.
  - pose proof (pairs_ok_spec _ _ _ H j i _ _ L (map_nth_error _ _ _ Hb) (map_nth_error _ _ _ Ha)) as P. cbn beta in P.
    apply same_name_sym in HS. apply (proj2 (strcasecmp_eq _ _ Cb Ca)) in HS. lia.
Qed.

Lemma register_search : forall tbl s, In tbl register_tables -> cstring s ->
  match searchText row_name s tbl with
  | Val (Some k, rest) => exists sym r, s = sym ++ rest /\ forallb isNameLetter sym = true /\
      isNameLetter (peek rest) = false /\ nth_error tbl k = Some r /\ same_name sym (row_name r)
  | Val (None, rest) => rest = s /\
      forall sym r t, s = sym ++ t -> isNameLetter (peek t) = false -> In r tbl -> ~ same_name sym (row_name r)
  | _ => False
  end.
Proof.
  intros tbl s I Hs.
  pose proof (proj1 (forallb_forall _ _) register_tables_ok tbl I) as K. cbn beta in K.
  destruct (name_table_ok_spec tbl K) as [C O].
  pose proof (proj1 (forallb_forall _ _) register_names tbl I) as N. cbn beta in N.
  apply andb_true_iff in N. destruct N as [N _].
  unfold searchText. pose proof (searchSymbol_spec row row_name isNameLetter s tbl Hs C O) as H.
  destruct (searchSymbol row_name isNameLetter s tbl) as [[[k|] rest]| | | |]; try contradiction.
  - destruct H as (sym & -> & _ & Hp & Hr & [(r & Hk & HS & _) _]). exists sym, r.
    split; [reflexivity|]. split; [assumption|]. split; [|auto].
    destruct Hr as [->|(c & t & -> & Hc)]; [reflexivity|exact Hc].
  - destruct H as [-> H]. split; [reflexivity|].
    intros sym r t E Ht Ir HS. pose proof (proj1 (forallb_forall _ _) N r Ir) as X. cbn beta in X.
    apply andb_true_iff in X. destruct X as [X1 X2].
    apply (H sym t E).
    + intros ->. inversion HS as [E0 E1|]. rewrite <- E1 in X2. discriminate.
    + apply (same_name_letters _ _ HS X1).
    + destruct t as [|c t]; [left; reflexivity|right; exists c, t; auto].
    + exists r; auto.
Qed.
Lemma every_register : forall tbl k r s rest, In tbl register_tables -> nth_error tbl k = Some r ->
  same_name s (row_name r) -> cstring rest -> isNameLetter (peek rest) = false ->
  searchText row_name (s ++ rest) tbl = Val (Some k, rest).
Proof.
  intros tbl k r s rest I Hk HS Hr Hp.
  pose proof (proj1 (forallb_forall _ _) register_tables_ok tbl I) as K. cbn beta in K.
  destruct (name_table_ok_spec tbl K) as [C _].
  assert (Hs : cstring (s ++ rest)).
  { apply Forall_app. split; [|assumption]. apply (same_name_cstring s (row_name r) HS (C r (nth_error_In _ _ Hk))). }
  pose proof (proj1 (forallb_forall _ _) register_names tbl I) as N. cbn beta in N.
  apply andb_true_iff in N. destruct N as [N _].
  pose proof (proj1 (forallb_forall _ _) N r (nth_error_In _ _ Hk)) as X. cbn beta in X.
  apply andb_true_iff in X. destruct X as [X1 X2].
  pose proof (same_name_letters _ _ HS X1) as X3.
  pose proof (register_search tbl (s ++ rest) I Hs) as H.
  destruct (searchText row_name (s ++ rest) tbl) as [[[j|] rest']| | | |]; try contradiction.
  - destruct H as (sym & q & E & Hl & Hp' & Hj & HSq).
    assert (U : sym = s /\ rest' = rest).
    { clear - E Hl Hp' X3 Hp. revert s E X3. induction sym as [|x sym IH]; intros [|y s] E X3; cbn [app forallb] in *.
      - auto.
      - exfalso. subst rest'. cbn [peek] in Hp'. apply andb_true_iff in X3. destruct X3; congruence.
      - exfalso. subst rest. cbn [peek] in Hp. apply andb_true_iff in Hl. destruct Hl; congruence.
      - injection E as -> E. apply andb_true_iff in Hl, X3.
        destruct (IH (proj2 Hl) s E (proj2 X3)) as [-> ->]; auto. }
    destruct U as [-> ->].
    rewrite (register_unique tbl I k j r q Hk Hj); [reflexivity|].
    eapply same_name_trans; [apply same_name_sym; exact HS|exact HSq].
  - exfalso. destruct H as [_ H]. apply (H s r rest eq_refl Hp (nth_error_In _ _ Hk) HS).
Qed.

(* directives *)
Lemma directive_search : forall tbl s, In tbl directive_tables -> cstring s ->
  match pseudoSearch row_name s tbl with
  | Val (Some k) => exists r, nth_error tbl k = Some r /\ same_name s (row_name r)
  | Val None => ~ occurs row_name s tbl
  | _ => False
  end.
Proof.
  intros tbl s I Hs.
  pose proof (proj1 (forallb_forall _ _) directive_tables_ok tbl I) as K. cbn beta in K.
  destruct (name_table_ok_spec tbl K) as [C O].
  pose proof (pseudoSearch_spec row row_name s tbl Hs C O) as H.
  destruct (pseudoSearch row_name s tbl) as [[k|]| | | |]; try contradiction; [|assumption].
  destruct H as [(r & Hk & HS & _) _]. exists r; auto.
Qed.
Lemma every_directive : forall tbl k r s, In tbl directive_tables -> nth_error tbl k = Some r ->
  same_name s (row_name r) -> pseudoSearch row_name s tbl = Val (Some k).
Proof.
  intros tbl k r s I Hk HS.
  pose proof (proj1 (forallb_forall _ _) directive_tables_ok tbl I) as K. cbn beta in K.
  destruct (name_table_ok_spec tbl K) as [C _].
  pose proof (same_name_cstring s _ HS (C r (nth_error_In _ _ Hk))) as Hs.
  pose proof (directive_search tbl s I Hs) as H.
  destruct (pseudoSearch row_name s tbl) as [[j|]| | | |]; try contradiction.
  - destruct H as (q & Hj & HSq). do 2 f_equal.
    pose proof (proj1 (forallb_forall _ _) directive_names tbl I) as N. cbn beta in N.
    pose proof (C r (nth_error_In _ _ Hk)) as Cr. pose proof (C q (nth_error_In _ _ Hj)) as Cq.
    assert (HRQ : same_name (row_name r) (row_name q))
      by (eapply same_name_trans; [apply same_name_sym; exact HS|exact HSq]).
    destruct (Nat.lt_trichotomy j k) as [L|[L|L]]; [|assumption|]; exfalso.
    + pose proof (pairs_ok_spec _ _ _ N j k _ _ L (map_nth_error _ _ _ Hj) (map_nth_error _ _ _ Hk)) as P. cbn beta in P.
      apply same_name_sym in HRQ. apply (proj2 (strcasecmp_eq _ _ Cq Cr)) in HRQ. lia.
    + pose proof (pairs_ok_spec _ _ _ N k j _ _ L (map_nth_error _ _ _ Hk) (map_nth_error _ _ _ Hj)) as P. cbn beta in P.
      apply (proj2 (strcasecmp_eq _ _ Cr Cq)) in HRQ. lia.
  - exfalso. apply H. exists r. split; [eapply nth_error_In; exact Hk|assumption].
Qed.

(* no directive hides an instruction *)
Definition apart (p : processor) : bool :=
  forallb (fun d => forallb (fun r => forallb (fun t => forallb (fun e =>
    negb (iequals (row_name r) (row_name e))) (it_items t)) (pr_tables p)) d) (pr_directives p).
Lemma processors_apart : forallb apart processors = true.
Proof. vm_compute. reflexivity. Qed.
Lemma directives_apart : forall p d r t e, In p processors -> In d (pr_directives p) -> In r d ->
  In t (pr_tables p) -> In e (it_items t) -> ~ same_name (row_name r) (row_name e).
Proof.
  intros p d r t e Ip Id Ir It Ie HS.
  pose proof (proj1 (forallb_forall _ _) processors_apart p Ip) as H. unfold apart in H.
  pose proof (proj1 (forallb_forall _ _) H d Id) as H1. cbn beta in H1.
  pose proof (proj1 (forallb_forall _ _) H1 r Ir) as H2. cbn beta in H2.
  pose proof (proj1 (forallb_forall _ _) H2 t It) as H3. cbn beta in H3.
  pose proof (proj1 (forallb_forall _ _) H3 e Ie) as H4. cbn beta in H4.
  apply iequals_spec in HS. rewrite HS in H4. discriminate.
Qed.
Definition row_eqb (a b : row) : bool := String.eqb (fst a) (fst b) && String.eqb (snd a) (snd b).
Fixpoint rows_eqb (a b : list row) : bool :=
  match a, b with
  | [], [] => true
  | x :: a', y :: b' => row_eqb x y && rows_eqb a' b'
  | _, _ => false
  end.
Lemma rows_eqb_eq : forall a b, rows_eqb a b = true -> a = b.
Proof.
  induction a as [|[x1 x2] a IH]; intros [|[y1 y2] b] H; cbn in H; try discriminate; [reflexivity|].
  apply andb_true_iff in H. destruct H as [H1 H2]. apply andb_true_iff in H1. cbn in H1. destruct H1 as [E1 E2].
  apply String.eqb_eq in E1, E2. rewrite (IH b H2). congruence.
Qed.
Lemma processor_directives : forallb (fun p => forallb (fun d => existsb (rows_eqb d)
   directive_tables) (pr_directives p)) processors = true.
Proof. vm_compute. reflexivity. Qed.
Lemma directives_listed : forall p d, In p processors -> In d (pr_directives p) -> In d directive_tables.
Proof.
  intros p d Ip Id. pose proof (proj1 (forallb_forall _ _) processor_directives p Ip) as H. cbn beta in H.
  pose proof (proj1 (forallb_forall _ _) H d Id) as H1. cbn beta in H1.
  apply existsb_exists in H1. destruct H1 as (t & It & E). rewrite (rows_eqb_eq d t E). exact It.
Qed.
Lemma no_hiding : forall p d s k accept, In p processors -> In d (pr_directives p) -> cstring s ->
  pseudoSearch row_name s d = Val (Some k) ->
  (forall pg a b, same_operands a b -> accept pg a = accept pg b) ->
  searchName row_name s accept (pages_of p) = Val (Miss UNKNOWN_INSTRUCTION).
Proof.
  intros p d s k accept Ip Id Hs E HA.
  pose proof (directive_search d s (directives_listed p d Ip Id) Hs) as H. rewrite E in H.
  destruct H as (r & Hk & HS).
  assert (N : forall t, In t (pr_tables p) -> ~ occurs row_name s (it_items t)).
  { intros t It (e & Ie & HSe). apply (directives_apart p d r t e Ip Id (nth_error_In _ _ Hk) It Ie).
    eapply same_name_trans; [apply same_name_sym; exact HS|exact HSe]. }
  pose proof (processor_search p s accept Ip Hs HA) as R.
  destruct (searchName row_name s accept (pages_of p)) as [[n i|e]| | | |]; try contradiction.
  - exfalso. destruct R as (t & Ht & [(e & He & HSe & _) _] & _).
    apply (N t (nth_error_In _ _ Ht)). exists e. split; [eapply nth_error_In; exact He|assumption].
  - destruct R as [_ [[-> (t & It & O)]|[-> _]]]; [exfalso; exact (N t It O)|reflexivity].
Qed.
(* an instruction is known exactly when its name is in a table *)
Lemma known_iff : forall p s, In p processors -> cstring s ->
  ((exists n i, searchName row_name s (fun _ _ => true) (pages_of p) = Val (Hit n i)) <->
   exists t r, In t (pr_tables p) /\ In r (it_items t) /\ same_name s (row_name r)).
Proof.
  intros p s Ip Hs. pose proof (processor_search p s (fun _ _ => true) Ip Hs ltac:(reflexivity)) as R. split.
  - intros (n & i & E). rewrite E in R. destruct R as (t & Ht & [(r & Hr & HS & _) _] & _).
    exists t, r. split; [eapply nth_error_In; exact Ht|]. split; [eapply nth_error_In; exact Hr|assumption].
  - intros (t & r & It & Ir & HS).
    destruct (searchName row_name s (fun _ _ => true) (pages_of p)) as [[n i|e]| | | |]; try contradiction.
    + exists n, i; reflexivity.
    + exfalso. destruct R as [R _]. pose proof (R t It r Ir HS). discriminate.
Qed.
