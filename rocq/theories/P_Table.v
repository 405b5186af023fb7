(** Proofs about the table searches. *)
From Coq Require Import String ZArith List Bool Lia ZifyBool Arith.
From Verif Require Import M_Char M_Error M_Text M_Operators M_Table S_Table.
Import ListNotations.
Open Scope list_scope.
Local Open Scope Z_scope.

(** ** Letters and names *)
Lemma fold_lower : forall c, to_lower c = fold c.
Proof. reflexivity. Qed.
Lemma same_letter_fold : forall x y, same_letter x y <-> fold x = fold y.
Proof.
  intros x y; unfold same_letter, fold.
  destruct (Z.leb_spec 65 x), (Z.leb_spec x 90), (Z.leb_spec 65 y), (Z.leb_spec y 90); cbn; lia.
Qed.
Lemma same_name_refl : forall a, same_name a a.
Proof. induction a; constructor; [left; reflexivity|assumption]. Qed.
Lemma same_name_sym : forall a b, same_name a b -> same_name b a.
Proof.
  induction 1; constructor; [|assumption].
  apply same_letter_fold; symmetry; apply same_letter_fold; assumption.
Qed.
Lemma same_name_trans : forall a b c, same_name a b -> same_name b c -> same_name a c.
Proof.
  intros a b c H; revert c; induction H; intros c H2; inversion H2; subst; constructor.
  - apply same_letter_fold; rewrite (proj1 (same_letter_fold _ _) H); apply same_letter_fold; assumption.
  - apply IHForall2; assumption.
Qed.
Lemma same_name_length : forall a b, same_name a b -> length a = length b.
Proof. induction 1; cbn [length]; congruence. Qed.

Lemma before_same_r : forall a b c, before a b -> same_name b c -> before a c.
Proof.
  intros a b c H; revert c; induction H; intros c H2; inversion H2; subst.
  - constructor.
  - apply before_head. rewrite <- (proj1 (same_letter_fold _ _) H3); assumption.
  - apply before_tail; [rewrite <- (proj1 (same_letter_fold _ _) H4); assumption|].
    apply IHbefore; assumption.
Qed.
Lemma before_same_l : forall a b c, before a b -> same_name a c -> before c b.
Proof.
  intros a b c H; revert c; induction H; intros c H2; inversion H2; subst.
  - constructor.
  - apply before_head. rewrite <- (proj1 (same_letter_fold _ _) H3); assumption.
  - apply before_tail; [rewrite <- (proj1 (same_letter_fold _ _) H4); assumption|].
    apply IHbefore; assumption.
Qed.
Lemma before_trans : forall a b c, before a b -> before b c -> before a c.
Proof.
  intros a b c H; revert c; induction H; intros c H2; inversion H2; subst.
  - constructor.
  - constructor.
  - apply before_head; lia.
  - apply before_head; lia.
  - apply before_head; lia.
  - apply before_tail; [lia|apply IHbefore; assumption].
Qed.
Lemma before_irrefl : forall a b, before a b -> same_name a b -> False.
Proof.
  induction 1; intros HS; inversion HS; subst.
  - rewrite (proj1 (same_letter_fold _ _) H3) in H; lia.
  - auto.
Qed.
Lemma before_asym : forall a b, before a b -> before b a -> False.
Proof. intros a b H1 H2; apply (before_irrefl a a); [eapply before_trans; eassumption|apply same_name_refl]. Qed.

Lemma fold_pos : forall c, 1 <= c -> 1 <= fold c.
Proof. intros c H; unfold fold; destruct ((65 <=? c) && (c <=? 90)); lia. Qed.

Lemma strcasecmp_spec : forall a b, cstring a -> cstring b ->
  (strcasecmp a b = 0 /\ same_name a b) \/ (strcasecmp a b < 0 /\ before a b) \/
  (0 < strcasecmp a b /\ before b a).
Proof.
  induction a as [|x a IH]; intros [|y b] Ha Hb.
  - left; split; [reflexivity|constructor].
  - right; left. split; [|constructor]. cbn [strcasecmp].
    rewrite fold_lower. pose proof (Forall_inv Hb) as P; cbn in P.
    pose proof (fold_pos y); lia.
  - right; right. split; [|constructor]. cbn [strcasecmp].
    rewrite fold_lower. pose proof (Forall_inv Ha) as P; cbn in P.
    pose proof (fold_pos x); lia.
  - cbn [strcasecmp]. cbv zeta. change to_lower with fold.
    apply Forall_cons_iff in Ha, Hb. destruct Ha as [_ Ha], Hb as [_ Hb].
    destruct (Z.eqb_spec (fold x - fold y) 0) as [E|E].
    + destruct (IH b Ha Hb) as [[R H]|[[R H]|[R H]]].
      * left; split; [assumption|]. constructor; [apply same_letter_fold; lia|assumption].
      * right; left; split; [assumption|]. apply before_tail; [lia|assumption].
      * right; right; split; [assumption|]. apply before_tail; [lia|assumption].
    + destruct (Z.lt_ge_cases (fold x) (fold y)).
      * right; left; split; [lia|apply before_head; lia].
      * right; right; split; [lia|apply before_head; lia].
Qed.
Lemma strcasecmp_eq : forall a b, cstring a -> cstring b -> strcasecmp a b = 0 <-> same_name a b.
Proof.
  intros a b Ha Hb; destruct (strcasecmp_spec a b Ha Hb) as [[R H]|[[R H]|[R H]]].
  - tauto.
  - split; [lia|]. intros HS; exfalso; eapply before_irrefl; eassumption.
  - split; [lia|]. intros HS; exfalso; eapply before_irrefl; [eassumption|apply same_name_sym; assumption].
Qed.
Lemma strcasecmp_lt : forall a b, cstring a -> cstring b -> strcasecmp a b < 0 <-> before a b.
Proof.
  intros a b Ha Hb; destruct (strcasecmp_spec a b Ha Hb) as [[R H]|[[R H]|[R H]]].
  - split; [lia|]. intros HS; exfalso; eapply before_irrefl; eassumption.
  - tauto.
  - split; [lia|]. intros HS; exfalso; eapply before_asym; eassumption.
Qed.
Lemma strcasecmp_gt : forall a b, cstring a -> cstring b -> 0 < strcasecmp a b <-> before b a.
Proof.
  intros a b Ha Hb; destruct (strcasecmp_spec a b Ha Hb) as [[R H]|[[R H]|[R H]]].
  - split; [lia|]. intros HS; exfalso; eapply before_irrefl; [eassumption|apply same_name_sym; assumption].
  - split; [lia|]. intros HS; exfalso; eapply before_asym; eassumption.
  - tauto.
Qed.
Lemma before_total : forall a b, cstring a -> cstring b -> before a b \/ same_name a b \/ before b a.
Proof.
  intros a b Ha Hb; destruct (strcasecmp_spec a b Ha Hb) as [[_ H]|[[_ H]|[_ H]]]; tauto.
Qed.

(** ** Linear search *)
Lemma linearSearch_from_spec : forall A (m : A -> bool) items n,
  match linearSearch_from m items n with
  | Some i => exists k a, i = (n + k)%nat /\ nth_error items k = Some a /\ m a = true /\
      forall j b, (j < k)%nat -> nth_error items j = Some b -> m b = false
  | None => forall a, In a items -> m a = false
  end.
Proof.
  induction items as [|x t IH]; intros n; cbn [linearSearch_from].
  - intros a [].
  - destruct (m x) eqn:E.
    + exists 0%nat, x. repeat split; try assumption; [lia|]. intros j b L; lia.
    + specialize (IH (S n)). destruct (linearSearch_from m t (S n)) as [i|].
      * destruct IH as (k & a & Hi & Hn & Hm & Hf). exists (S k), a.
        split; [lia|]. split; [assumption|]. split; [assumption|].
        intros [|j] b L Hb; [cbn in Hb; congruence|]. apply (Hf j b); [lia|assumption].
      * intros a [->|I]; [assumption|apply IH; assumption].
Qed.
Lemma linearSearch_spec : forall A (m : A -> bool) items,
  match linearSearch m items with
  | Some k => exists a, nth_error items k = Some a /\ m a = true /\
      forall j b, (j < k)%nat -> nth_error items j = Some b -> m b = false
  | None => forall a, In a items -> m a = false
  end.
Proof.
  intros A m items; unfold linearSearch. pose proof (linearSearch_from_spec A m items 0) as H.
  destruct (linearSearch_from m items 0) as [i|]; [|assumption].
  destruct H as (k & a & -> & Hn & Hm & Hf). exists a. auto.
Qed.

(** ** Binary search *)
Definition monotone {A} (cmp : A -> Z) (items : list A) : Prop :=
  forall i j a b, (i < j)%nat -> nth_error items i = Some a -> nth_error items j = Some b ->
    (0 < cmp b -> 0 < cmp a) /\ (cmp a < 0 -> cmp b < 0).

Lemma nth_error_some : forall A (l : list A) i, (i < length l)%nat -> exists a, nth_error l i = Some a.
Proof.
  intros A l i H. destruct (nth_error l i) as [a|] eqn:E; [exists a; reflexivity|].
  apply nth_error_None in E; lia.
Qed.
Lemma div2_lt : forall n, (0 < n)%nat -> (Nat.div n 2 < n)%nat.
Proof. intros n H; apply Nat.div_lt; lia. Qed.

Lemma binarySearch_loop_spec : forall A (cmp : A -> Z) items, monotone cmp items ->
  forall fuel head tail fnd,
  (head <= tail)%nat -> (tail <= length items)%nat -> (tail - head < fuel)%nat ->
  (forall i a, (i < head)%nat -> nth_error items i = Some a -> 0 < cmp a) ->
  match fnd with
  | None => forall i a, (tail <= i)%nat -> nth_error items i = Some a -> cmp a < 0
  | Some k => k = tail /\ exists a, nth_error items k = Some a /\ cmp a = 0
  end ->
  match binarySearch_loop cmp items fuel head tail fnd with
  | Val (Some k) => exists a, nth_error items k = Some a /\ cmp a = 0 /\
      forall j b, (j < k)%nat -> nth_error items j = Some b -> 0 < cmp b
  | Val None => forall i a, nth_error items i = Some a -> cmp a <> 0
  | _ => False
  end.
Proof.
  intros A cmp items M; induction fuel as [|f IH]; intros head tail fnd L1 L2 L3 Hh Ht; [lia|].
  cbn [binarySearch_loop]. destruct (Nat.eqb_spec head tail) as [->|N].
  - destruct fnd as [k|].
    + destruct Ht as (-> & a & Hn & Hc). exists a. split; [assumption|]. split; [assumption|].
      intros j b Lj Hb. apply (Hh j b Lj Hb).
    + intros i a Hn. destruct (Nat.lt_ge_cases i tail).
      * pose proof (Hh i a H Hn); lia.
      * pose proof (Ht i a H Hn); lia.
  - set (mid := (head + Nat.div (tail - head) 2)%nat).
    pose proof (div2_lt (tail - head) ltac:(lia)) as D.
    destruct (nth_error_some A items mid ltac:(unfold mid; lia)) as [m Hm].
    unfold item_at; rewrite Hm; cbn [bind].
    destruct (Z.ltb_spec 0 (cmp m)) as [P|P].
    + apply IH; try (unfold mid in *; lia); [|exact Ht].
      intros i a Li Hi. destruct (Nat.eq_dec i mid) as [->|Ni]; [congruence|].
      apply (proj1 (M i mid a m ltac:(lia) Hi Hm) P).
    + destruct (Z.ltb_spec (cmp m) 0) as [Q|Q].
      * apply IH; try (unfold mid in *; lia); [exact Hh|].
        destruct fnd as [k|].
        -- exfalso. destruct Ht as (-> & a & Hn & Hc).
           pose proof (proj2 (M mid tail m a ltac:(unfold mid; lia) Hm Hn) Q); lia.
        -- intros i a Li Hi. destruct (Nat.eq_dec i mid) as [->|Ni]; [congruence|].
           apply (proj2 (M mid i m a ltac:(lia) Hm Hi) Q).
      * apply IH; try (unfold mid in *; lia); [exact Hh|].
        split; [reflexivity|]. exists m; split; [assumption|lia].
Qed.
Lemma binarySearch_spec : forall A (cmp : A -> Z) items, monotone cmp items ->
  match binarySearch cmp items with
  | Val (Some k) => exists a, nth_error items k = Some a /\ cmp a = 0 /\
      forall j b, (j < k)%nat -> nth_error items j = Some b -> 0 < cmp b
  | Val None => forall i a, nth_error items i = Some a -> cmp a <> 0
  | _ => False
  end.
Proof.
  intros A cmp items M. apply (binarySearch_loop_spec A cmp items M); try lia.
  intros i a L Hi. assert (nth_error items i <> None) by congruence.
    apply nth_error_Some in H; lia.
Qed.

(* a comparator which behaves as the name comparison is monotone on an ordered table *)
Lemma in_order_monotone : forall A (nm : A -> text) (cmp : A -> Z) s items,
  (forall a, In a items ->
     (cmp a = 0 <-> same_name s (nm a)) /\ (cmp a < 0 <-> before s (nm a)) /\ (0 < cmp a <-> before (nm a) s)) ->
  (forall a, In a items -> cstring (nm a)) ->
  in_order nm items -> monotone cmp items.
Proof.
  intros A nm cmp s items C HC O i j a b L Ha Hb.
  pose proof (nth_error_In _ _ Ha) as Ia. pose proof (nth_error_In _ _ Hb) as Ib.
  pose proof (O i j a b L Ha Hb) as N.
  destruct (C a Ia) as (A0 & A1 & A2). destruct (C b Ib) as (B0 & B1 & B2).
  assert (D : before (nm a) (nm b) \/ same_name (nm a) (nm b)).
  { destruct (before_total (nm a) (nm b) (HC a Ia) (HC b Ib)) as [H|[H|H]]; tauto. }
  split.
  - rewrite B2, A2. intros H. destruct D as [D|D].
    + eapply before_trans; eassumption.
    + eapply before_same_l; [exact H|apply same_name_sym; exact D].
  - rewrite A1, B1. intros H. destruct D as [D|D].
    + eapply before_trans; eassumption.
    + eapply before_same_r; [exact H|exact D].
Qed.

Lemma strcasecmp_cmp : forall s n, cstring s -> cstring n ->
  (strcasecmp s n = 0 <-> same_name s n) /\ (strcasecmp s n < 0 <-> before s n) /\
  (0 < strcasecmp s n <-> before n s).
Proof. intros s n Hs Hn; split; [apply strcasecmp_eq|split; [apply strcasecmp_lt|apply strcasecmp_gt]]; assumption. Qed.

Lemma binarySearch_name : forall A (nm : A -> text) (cmp : A -> Z) s items,
  (forall a, In a items ->
     (cmp a = 0 <-> same_name s (nm a)) /\ (cmp a < 0 <-> before s (nm a)) /\ (0 < cmp a <-> before (nm a) s)) ->
  (forall a, In a items -> cstring (nm a)) -> in_order nm items ->
  match binarySearch cmp items with
  | Val (Some k) => first_acceptable nm s (fun _ => true) items k
  | Val None => ~ occurs nm s items
  | _ => False
  end.
Proof.
  intros A nm cmp s items C HC O.
  pose proof (binarySearch_spec A cmp items (in_order_monotone A nm cmp s items C HC O)) as H.
  destruct (binarySearch cmp items) as [[k|]| | | |]; try contradiction.
  - destruct H as (a & Hn & H0 & Hf). split.
    + exists a. split; [assumption|]. split; [|reflexivity].
      apply (proj1 (C a (nth_error_In _ _ Hn))); assumption.
    + intros j b L Hb HS. exfalso. pose proof (Hf j b L Hb) as P.
      pose proof (proj2 (proj1 (C b (nth_error_In _ _ Hb))) HS); lia.
  - intros (a & Ia & HS). destruct (In_nth_error _ _ Ia) as [i Hi].
    apply (H i a Hi). apply (proj1 (C a Ia)); assumption.
Qed.

Lemma pseudoSearch_spec : forall A (nm : A -> text) s items,
  cstring s -> (forall a, In a items -> cstring (nm a)) -> in_order nm items ->
  match pseudoSearch nm s items with
  | Val (Some k) => first_acceptable nm s (fun _ => true) items k
  | Val None => ~ occurs nm s items
  | _ => False
  end.
Proof.
  intros A nm s items Hs HC O. unfold pseudoSearch. apply binarySearch_name; try assumption.
  intros a Ia. apply strcasecmp_cmp; [assumption|apply HC; assumption].
Qed.

(** ** Register names *)
Lemma strncasecmp_take : forall n a b, (n <= length a)%nat ->
  cstring a -> cstring b ->
  let r := strncasecmp a b n in
  (r = 0 /\ (same_name (firstn n a) b \/ (n < length b)%nat /\ before (firstn n a) b)) \/
  (r < 0 /\ before (firstn n a) b) \/ (0 < r /\ before b (firstn n a)).
Proof.
  induction n as [|n IH]; intros a b L Ha Hb; cbn [strncasecmp firstn].
  - left. split; [reflexivity|]. destruct b; [left; constructor|right; split; [cbn; lia|constructor]].
  - destruct a as [|x a]; [cbn in L; lia|]. cbn [firstn].
    apply Forall_cons_iff in Ha; destruct Ha as [Hx Ha].
    destruct b as [|y b].
    + right; right. rewrite fold_lower. pose proof (fold_pos x ltac:(lia)). split; [lia|constructor].
    + apply Forall_cons_iff in Hb; destruct Hb as [Hy Hb]. cbv zeta. change to_lower with fold.
      destruct (Z.eqb_spec (fold x - fold y) 0) as [E|E].
      * destruct (IH a b ltac:(cbn in L; lia) Ha Hb) as [[R [H|[H H']]]|[[R H]|[R H]]].
        -- left; split; [assumption|]. left. constructor; [apply same_letter_fold; lia|assumption].
        -- left; split; [assumption|]. right. cbn [length]. split; [lia|]. apply before_tail; [lia|assumption].
        -- right; left; split; [assumption|]. apply before_tail; [lia|assumption].
        -- right; right; split; [assumption|]. apply before_tail; [lia|assumption].
      * cbn zeta. destruct (Z.lt_ge_cases (fold x) (fold y)).
        -- right; left; split; [lia|apply before_head; lia].
        -- right; right; split; [lia|apply before_head; lia].
Qed.
Lemma textMatcher_spec : forall s n name, (n <= length s)%nat -> cstring s -> cstring name ->
  (textMatcher s n name = 0 <-> same_name (firstn n s) name) /\
  (textMatcher s n name < 0 <-> before (firstn n s) name) /\
  (0 < textMatcher s n name <-> before name (firstn n s)).
Proof.
  intros s n name L Hs Hn.
  assert (K : (textMatcher s n name = 0 /\ same_name (firstn n s) name) \/
              (textMatcher s n name < 0 /\ before (firstn n s) name) \/
              (0 < textMatcher s n name /\ before name (firstn n s))).
  { unfold textMatcher. destruct (strncasecmp_take n s name L Hs Hn) as [[R H]|[[R H]|[R H]]].
    - rewrite R. cbn [Z.eqb negb]. destruct H as [H|[H H']].
      + pose proof (same_name_length _ _ H) as HL. rewrite firstn_length_le in HL by assumption.
        destruct (Nat.ltb_spec n (length name)); [lia|]. left; split; [reflexivity|assumption].
      + destruct (Nat.ltb_spec n (length name)); [|lia]. right; left; split; [lia|assumption].
    - destruct (Z.eqb_spec (strncasecmp s name n) 0); cbn [negb]; [lia|]. right; left; auto.
    - destruct (Z.eqb_spec (strncasecmp s name n) 0); cbn [negb]; [lia|]. right; right; auto. }
  destruct K as [[R H]|[[R H]|[R H]]]; repeat split; intros; try lia; try assumption; exfalso.
  - eapply before_irrefl; eassumption.
  - eapply before_irrefl; [eassumption|apply same_name_sym; assumption].
  - eapply before_irrefl; eassumption.
  - eapply before_asym; eassumption.
  - eapply before_irrefl; [eassumption|apply same_name_sym; assumption].
  - eapply before_asym; eassumption.
Qed.

Lemma takeWhile_spec : forall p s a b, takeWhile p s = (a, b) ->
  s = a ++ b /\ forallb p a = true /\ (b = [] \/ exists c t, b = c :: t /\ p c = false).
Proof.
  induction s as [|c t IH]; cbn [takeWhile]; intros a b E.
  - injection E as <- <-. auto.
  - destruct (p c) eqn:P.
    + destruct (takeWhile p t) as [a' b'] eqn:E'. injection E as <- <-.
      destruct (IH a' b' eq_refl) as (-> & Hp & Hb). cbn. rewrite P. auto.
    + injection E as <- <-. split; [reflexivity|]. split; [reflexivity|].
      right; exists c, t; auto.
Qed.
Lemma firstn_app_exact : forall A (a b : list A), firstn (length a) (a ++ b) = a.
Proof. intros. rewrite firstn_app, Nat.sub_diag, firstn_all, app_nil_r. reflexivity. Qed.

(* the leading letters of the text are a name of the table *)
Lemma searchSymbol_spec : forall A (nm : A -> text) p s items,
  cstring s -> (forall a, In a items -> cstring (nm a)) -> in_order nm items ->
  match searchSymbol nm p s items with
  | Val (Some k, rest) => exists sym, s = sym ++ rest /\ sym <> [] /\ forallb p sym = true /\
      (rest = [] \/ exists c t, rest = c :: t /\ p c = false) /\
      first_acceptable nm sym (fun _ => true) items k
  | Val (None, rest) => rest = s /\
      forall sym r, s = sym ++ r -> sym <> [] -> forallb p sym = true ->
        (r = [] \/ exists c t, r = c :: t /\ p c = false) -> ~ occurs nm sym items
  | _ => False
  end.
Proof.
  intros A nm p s items Hs HC O. unfold searchSymbol.
  destruct (takeWhile p s) as [sym next] eqn:E.
  destruct (takeWhile_spec p s sym next E) as (Es & Hp & Hb).
  assert (U : forall sym' r, s = sym' ++ r -> forallb p sym' = true ->
        (r = [] \/ exists c t, r = c :: t /\ p c = false) -> sym' = sym).
  { clear - Es Hp Hb. intros sym' r E' Hp' Hr. subst s. revert sym' r E' Hp' Hr Hp.
    induction sym as [|x sym IH]; intros [|y sym'] r E' Hp' Hr Hp; cbn in *.
    - reflexivity.
    - exfalso. apply andb_true_iff in Hp'. destruct Hb as [->|(c & t & -> & Hc)]; [discriminate|].
      injection E' as -> _. destruct Hp'; congruence.
    - exfalso. subst r. apply andb_true_iff in Hp. destruct Hr as [?|(c & t & Ec & Hc)]; [discriminate|].
      injection Ec as -> _. destruct Hp; congruence.
    - injection E' as -> E'. apply andb_true_iff in Hp, Hp'. f_equal.
      apply (IH sym' r); tauto. }
  destruct (Nat.eqb_spec (length sym) 0) as [Z|Z].
  - split; [reflexivity|]. intros sym' r E' N' Hp' Hr. rewrite (U sym' r E' Hp' Hr) in N'.
    destruct sym; [contradiction|discriminate].
  - assert (HL : (length sym <= length s)%nat) by (subst s; rewrite app_length; lia).
    assert (HF : firstn (length sym) s = sym) by (subst s; apply firstn_app_exact).
    pose proof (binarySearch_name A nm (fun a => textMatcher s (length sym) (nm a)) sym items) as B.
    assert (B' : match binarySearch (fun a => textMatcher s (length sym) (nm a)) items with
                 | Val (Some k) => first_acceptable nm sym (fun _ => true) items k
                 | Val None => ~ occurs nm sym items | _ => False end).
    { apply B; try assumption. intros a Ia.
      pose proof (textMatcher_spec s (length sym) (nm a) HL Hs (HC a Ia)) as T.
      rewrite HF in T. exact T. }
    destruct (binarySearch (fun a => textMatcher s (length sym) (nm a)) items) as [[k|]| | | |];
      try contradiction; cbn [bind].
    + exists sym. repeat split; try assumption; try apply B'.
      intros ->; apply Z; reflexivity.
    + split; [reflexivity|]. intros sym' r E' N' Hp' Hr. rewrite (U sym' r E' Hp' Hr). exact B'.
Qed.

(** ** Indexed search *)
Definition index_ok {A} (items : list A) (index : list Z) : Prop :=
  forall k, In k index -> 0 <= k < Z.of_nat (length items).
Lemma itemAt_ok : forall A (items : list A) index i, index_ok items index -> (i < length index)%nat ->
  exists k a, itemAt items index i = Val (k, a) /\ nth_error index i = Some (Z.of_nat k) /\
    nth_error items k = Some a.
Proof.
  intros A items index i OKI L. destruct (nth_error_some Z index i L) as [z Hz].
  pose proof (OKI z (nth_error_In _ _ Hz)) as B.
  destruct (nth_error_some A items (Z.to_nat z) ltac:(lia)) as [a Ha].
  exists (Z.to_nat z), a. unfold itemAt, item_at. rewrite Hz. cbn [bind]. rewrite Ha. cbn [bind].
  rewrite Z2Nat.id by lia. auto.
Qed.
(* the item listed at position [i] of the index *)
Definition listed {A} (items : list A) (index : list Z) (i : nat) (k : nat) (a : A) : Prop :=
  nth_error index i = Some (Z.of_nat k) /\ nth_error items k = Some a.
Lemma listed_itemAt : forall A (items : list A) index i k a, listed items index i k a ->
  itemAt items index i = Val (k, a).
Proof.
  intros A items index i k a [H1 H2]. unfold itemAt, item_at. rewrite H1. cbn [bind].
  rewrite Nat2Z.id, H2. reflexivity.
Qed.
Lemma listed_fun : forall A (items : list A) index i k a k' a',
  listed items index i k a -> listed items index i k' a' -> k = k' /\ a = a'.
Proof.
  intros A items index i k a k' a' [H1 H2] [H3 H4]. rewrite H1 in H3. injection H3 as H3.
  apply Nat2Z.inj in H3. subst k'. split; congruence.
Qed.

Lemma lowerBound_spec : forall A (cmp : A -> Z) items index, index_ok items index ->
  (forall i j k l a b, (i < j)%nat -> listed items index i k a -> listed items index j l b ->
     0 < cmp b -> 0 < cmp a) ->
  forall fuel head tail, (head <= tail)%nat -> (tail <= length index)%nat -> (tail - head < fuel)%nat ->
  (forall i k a, (i < head)%nat -> listed items index i k a -> 0 < cmp a) ->
  (forall i k a, (tail <= i)%nat -> listed items index i k a -> cmp a <= 0) ->
  exists h, lowerBound cmp items index fuel head tail = Val h /\ (h <= length index)%nat /\
    (forall i k a, (i < h)%nat -> listed items index i k a -> 0 < cmp a) /\
    (forall i k a, (h <= i)%nat -> listed items index i k a -> cmp a <= 0).
Proof.
  intros A cmp items index OKI M; induction fuel as [|f IH]; intros head tail L1 L2 L3 Hh Ht; [lia|].
  cbn [lowerBound]. destruct (Nat.eqb_spec head tail) as [->|N].
  - exists tail. auto.
  - set (mid := (head + Nat.div (tail - head) 2)%nat).
    pose proof (div2_lt (tail - head) ltac:(lia)) as D.
    destruct (itemAt_ok A items index mid OKI ltac:(unfold mid; lia)) as (km & m & Em & Hi & Hn).
    assert (LM : listed items index mid km m) by (split; assumption).
    rewrite Em; cbn [bind]. destruct (Z.ltb_spec 0 (cmp m)) as [P|P].
    + apply IH; try (unfold mid in *; lia); [|exact Ht].
      intros i k a Li Hl. destruct (Nat.eq_dec i mid) as [->|Ni].
      * destruct (listed_fun _ _ _ _ _ _ _ _ Hl LM) as [_ ->]; assumption.
      * apply (M i mid k km a m ltac:(lia) Hl LM P).
    + apply IH; try (unfold mid in *; lia); [exact Hh|].
      intros i k a Li Hl. destruct (Nat.eq_dec i mid) as [->|Ni].
      * destruct (listed_fun _ _ _ _ _ _ _ _ Hl LM) as [_ ->]; assumption.
      * destruct (Z.lt_ge_cases 0 (cmp a)) as [Q|Q]; [|assumption].
        pose proof (M mid i km k m a ltac:(lia) LM Hl Q); lia.
Qed.

Lemma matchScan_spec : forall A (cmp : A -> Z) acc items index, index_ok items index ->
  forall fuel head r, (head <= length index)%nat -> (length index - head < fuel)%nat ->
  (exists i k a, (head <= i)%nat /\ listed items index i k a /\ cmp a = 0 /\ acc a = true /\
     (forall j l b, (head <= j < i)%nat -> listed items index j l b -> cmp b = 0 /\ acc b = false) /\
     matchScan cmp acc items index fuel head r = Val (Found k)) \/
  (exists i, (head <= i <= length index)%nat /\
     (forall j l b, (head <= j < i)%nat -> listed items index j l b -> cmp b = 0 /\ acc b = false) /\
     (forall k a, listed items index i k a -> cmp a <> 0) /\
     matchScan cmp acc items index fuel head r = Val (if Nat.eqb i head then r else NotExact)).
Proof.
  intros A cmp acc items index OKI; induction fuel as [|f IH]; intros head r L1 L2; [lia|].
  cbn [matchScan]. destruct (Nat.ltb_spec head (length index)) as [L|L].
  - destruct (itemAt_ok A items index head OKI L) as (k & a & E & Hi & Hn).
    assert (LM : listed items index head k a) by (split; assumption).
    rewrite E; cbn [bind]. destruct (Z.eqb_spec (cmp a) 0) as [C|C]; cbn [negb].
    + destruct (acc a) eqn:Ac.
      * left. exists head, k, a. split; [lia|]. split; [assumption|]. split; [assumption|].
        split; [assumption|]. split; [|reflexivity]. intros j l b Lj; lia.
      * assert (X : forall j l b i, (head <= j < i)%nat ->
          (forall j l b, (S head <= j < i)%nat -> listed items index j l b -> cmp b = 0 /\ acc b = false) ->
          listed items index j l b -> cmp b = 0 /\ acc b = false).
        { intros j l b i Lj Hf Hl. destruct (Nat.eq_dec j head) as [->|Nj].
          - destruct (listed_fun _ _ _ _ _ _ _ _ Hl LM) as [_ ->]; auto.
          - apply (Hf j l b); [lia|assumption]. }
        destruct (IH (S head) NotExact ltac:(lia) ltac:(lia)) as
          [(i & k' & a' & Li & Hl & Hc & Ha & Hf & Em)|(i & Li & Hf & Hs & Em)]; rewrite Em.
        -- left. exists i, k', a'. split; [lia|]. split; [assumption|]. split; [assumption|].
           split; [assumption|]. split; [|reflexivity]. intros j l b Lj Hb. exact (X j l b i Lj Hf Hb).
        -- right. exists i. split; [lia|]. split; [intros j l b Lj Hb; exact (X j l b i Lj Hf Hb)|].
           split; [assumption|]. destruct (Nat.eqb_spec i head); [lia|].
           destruct (Nat.eqb i (S head)); reflexivity.
    + right. exists head. split; [lia|]. split; [intros j l b Lj; lia|].
      split.
      * intros k' a' Hl. destruct (listed_fun _ _ _ _ _ _ _ _ Hl LM) as [_ ->]; assumption.
      * rewrite Nat.eqb_refl. reflexivity.
  - right. exists head. split; [lia|]. split; [intros j l b Lj; lia|].
    split.
    + intros k a [Hi _]. assert (nth_error index head <> None) by congruence.
      apply nth_error_Some in H; lia.
    + rewrite Nat.eqb_refl. reflexivity.
Qed.

Lemma indexedSearch_spec : forall A (nm : A -> text) (alike : A -> A -> Prop) s accept items index,
  cstring s -> (forall a, In a items -> cstring (nm a)) ->
  indexes nm alike items index ->
  (forall a b, alike a b -> accept a = accept b) ->
  match indexedSearch (fun a => strcasecmp s (nm a)) accept items index with
  | Val (Found k) => first_acceptable nm s accept items k
  | Val NotExact => occurs nm s items /\ none_acceptable nm s accept items
  | Val NotFound => ~ occurs nm s items
  | _ => False
  end.
Proof.
  intros A nm alike s accept items index Hs HC (OKI & O & Cov) AL.
  set (cmp := fun a => strcasecmp s (nm a)).
  assert (HN : forall i k a, listed items index i k a -> cstring (nm a)).
  { intros i k a [_ H]. apply HC. eapply nth_error_In; exact H. }
  assert (O' : forall i j k l a b, (i < j)%nat -> listed items index i k a -> listed items index j l b ->
     before (nm a) (nm b) \/ (same_name (nm a) (nm b) /\ (k < l)%nat)).
  { intros i j k l a b L [H1 H2] [H3 H4].
    destruct (O i j (Z.of_nat k) (Z.of_nat l) a b L H1 H3) as [H|[H H']]; rewrite ?Nat2Z.id; try assumption.
    - left; assumption.
    - right; split; [assumption|lia]. }
  assert (M : forall i j k l a b, (i < j)%nat -> listed items index i k a -> listed items index j l b ->
     0 < cmp b -> 0 < cmp a).
  { intros i j k l a b L Ha Hb P. unfold cmp in *.
    apply (proj1 (strcasecmp_gt s _ Hs (HN _ _ _ Hb))) in P.
    apply (proj2 (strcasecmp_gt s _ Hs (HN _ _ _ Ha))).
    destruct (O' i j k l a b L Ha Hb) as [H|[H _]].
    - eapply before_trans; eassumption.
    - eapply before_same_l; [exact P|apply same_name_sym; exact H]. }
  destruct (lowerBound_spec A cmp items index OKI M (S (length index)) 0 (length index))
    as (h & Eh & Lh & Hlo & Hhi); try lia.
  { intros i k a L [H _]. assert (nth_error index i <> None) by congruence. apply nth_error_Some in H0; lia. }
  unfold indexedSearch. change (fun a : A => strcasecmp s (nm a)) with cmp. rewrite Eh; cbn [bind].
  (* where an item of the name is listed *)
  assert (Ex : forall j b, nth_error items j = Some b -> same_name s (nm b) ->
     exists q i a, (i <= j)%nat /\ (h <= q)%nat /\ listed items index q i a /\ cmp a = 0 /\
       accept a = accept b).
  { intros j b Hj HS. destruct (Cov j b Hj) as (i & a & Lij & Hin & Ha & HSa & Hal).
    destruct (In_nth_error _ _ Hin) as [q Hq].
    assert (LQ : listed items index q i a) by (split; assumption).
    assert (C0 : cmp a = 0).
    { unfold cmp. apply strcasecmp_eq; [assumption|apply (HN _ _ _ LQ)|].
      eapply same_name_trans; [exact HS|apply same_name_sym; exact HSa]. }
    exists q, i, a. split; [assumption|]. split.
    { destruct (Nat.lt_ge_cases q h) as [L|L]; [|assumption]. pose proof (Hlo q i a L LQ); lia. }
    split; [assumption|]. split; [assumption|].
    destruct Hal as [->|Hal]; [congruence|apply AL; assumption]. }
  (* the listed items of the name are contiguous *)
  assert (Cont : forall i q k l a b, (h <= i <= q)%nat -> listed items index i k a ->
     listed items index q l b -> cmp b = 0 -> cmp a = 0).
  { intros i q k l a b [L1 L2] Ha Hb C0. pose proof (Hhi i k a L1 Ha) as P.
    destruct (Z.eq_dec (cmp a) 0) as [|N]; [assumption|]. exfalso.
    assert (Q : before s (nm a)) by (apply strcasecmp_lt; [assumption|apply (HN _ _ _ Ha)|unfold cmp in *; lia]).
    assert (R : same_name s (nm b)) by (apply strcasecmp_eq; [assumption|apply (HN _ _ _ Hb)|exact C0]).
    destruct (Nat.eq_dec i q) as [->|Nq].
    - destruct (listed_fun _ _ _ _ _ _ _ _ Ha Hb) as [_ ->]. lia.
    - destruct (O' i q k l a b ltac:(lia) Ha Hb) as [H|[H _]].
      + apply (before_irrefl s (nm b)); [eapply before_trans; eassumption|assumption].
      + apply (before_irrefl s (nm b)); [eapply before_same_r; eassumption|assumption]. }
  destruct (matchScan_spec A cmp accept items index OKI (S (length index)) h NotFound Lh ltac:(lia))
    as [(i & k & a & Li & Hl & C0 & Ac & Hf & Em)|(i & Li & Hf & Hst & Em)]; rewrite Em.
  - assert (HSa : same_name s (nm a)) by (apply strcasecmp_eq; [assumption|apply (HN _ _ _ Hl)|exact C0]).
    split.
    + exists a. split; [apply Hl|]. auto.
    + intros j b Lj Hj HS. destruct (Ex j b Hj HS) as (q & i' & a' & Li' & Lq & Hq & Cq & Eq).
      rewrite <- Eq. destruct (Nat.lt_trichotomy q i) as [Q|[Q|Q]].
      * apply (proj2 (Hf q i' a' ltac:(lia) Hq)).
      * subst q. destruct (listed_fun _ _ _ _ _ _ _ _ Hq Hl) as [-> _]. lia.
      * exfalso. destruct (O' i q k i' a a' Q Hl Hq) as [H|[_ H]]; [|lia].
        apply (before_irrefl (nm a) (nm a')); [assumption|].
        eapply same_name_trans; [apply same_name_sym; exact HSa|].
        apply strcasecmp_eq; [assumption|apply (HN _ _ _ Hq)|exact Cq].
  - assert (None' : none_acceptable nm s accept items).
    { intros b Ib HS. destruct (In_nth_error _ _ Ib) as [j Hj].
      destruct (Ex j b Hj HS) as (q & i' & a' & Li' & Lq & Hq & Cq & Eq). rewrite <- Eq.
      destruct (Nat.lt_ge_cases q i) as [Q|Q]; [apply (proj2 (Hf q i' a' ltac:(lia) Hq))|].
      exfalso. assert (Lq' : (q < length index)%nat).
      { destruct Hq as [Hq _]. apply nth_error_Some; congruence. }
      destruct (itemAt_ok A items index i OKI ltac:(lia)) as (ki & ai & _ & Hi1 & Hi2).
      assert (LI : listed items index i ki ai) by (split; assumption).
      apply (Hst ki ai LI). apply (Cont i q ki i' ai a' ltac:(lia) LI Hq Cq). }
    destruct (Nat.eqb_spec i h) as [->|N].
    + intros (b & Ib & HS). destruct (In_nth_error _ _ Ib) as [j Hj].
      destruct (Ex j b Hj HS) as (q & i' & a' & Li' & Lq & Hq & Cq & Eq).
      assert (Lq' : (q < length index)%nat).
      { destruct Hq as [Hq _]. apply nth_error_Some; congruence. }
      destruct (itemAt_ok A items index h OKI ltac:(lia)) as (ki & ai & _ & Hi1 & Hi2).
      assert (LI : listed items index h ki ai) by (split; assumption).
      apply (Hst ki ai LI). apply (Cont h q ki i' ai a' ltac:(lia) LI Hq Cq).
    + split; [|exact None'].
      destruct (itemAt_ok A items index h OKI ltac:(lia)) as (ki & ai & _ & Hi1 & Hi2).
      assert (LI : listed items index h ki ai) by (split; assumption).
      destruct (Hf h ki ai ltac:(lia) LI) as [C0 _].
      exists ai. split; [eapply nth_error_In; exact Hi2|].
      apply strcasecmp_eq; [assumption|apply (HN _ _ _ LI)|exact C0].
Qed.

(** ** Search through pages *)
Definition page_ok {I A} (nm : A -> text) (alike : A -> A -> Prop) (p : page I A) : Prop :=
  (forall a, In a (p_items p) -> cstring (nm a)) /\ indexes nm alike (p_items p) (p_index p).

Lemma searchName_spec : forall I A (nm : A -> text) (alike : A -> A -> Prop) s accept (pages : list (page I A)),
  cstring s -> (forall p, In p pages -> page_ok nm alike p) ->
  (forall p a b, alike a b -> accept p a = accept p b) ->
  forall n seen,
  match searchName_from nm s accept pages n seen with
  | Val (Hit pg i) => exists q p, pg = (n + q)%nat /\ nth_error pages q = Some p /\
      first_acceptable nm s (accept p) (p_items p) i /\
      forall r p', (r < q)%nat -> nth_error pages r = Some p' -> none_acceptable nm s (accept p') (p_items p')
  | Val (Miss e) =>
      (forall p, In p pages -> none_acceptable nm s (accept p) (p_items p)) /\
      ((e = OPERAND_NOT_ALLOWED /\ (seen = true \/ exists p, In p pages /\ occurs nm s (p_items p))) \/
       (e = UNKNOWN_INSTRUCTION /\ seen = false /\ forall p, In p pages -> ~ occurs nm s (p_items p)))
  | _ => False
  end.
Proof.
  intros I A nm alike s accept pages Hs HP HA; induction pages as [|p ps IH]; intros n seen; cbn [searchName_from].
  - split; [intros p []|]. destruct seen; [left|right]; auto.
  - destruct (HP p (or_introl eq_refl)) as [HC HI].
    pose proof (indexedSearch_spec A nm alike s (accept p) (p_items p) (p_index p) Hs HC HI (HA p)) as R.
    assert (HP' : forall p, In p ps -> page_ok nm alike p) by (intros p' I'; apply HP; right; assumption).
    specialize (IH HP').
    destruct (indexedSearch _ _ _ _) as [[| |i]| | | |]; try contradiction; cbn [bind].
    + assert (NA : none_acceptable nm s (accept p) (p_items p)).
      { intros a Ia HS; exfalso; apply R; exists a; auto. }
      specialize (IH (S n) seen). destruct (searchName_from nm s accept ps (S n) seen) as [[pg i|e]| | | |]; try contradiction.
      * destruct IH as (q & p1 & -> & Hq & Hf & Hl). exists (S q), p1. split; [lia|]. split; [assumption|].
        split; [assumption|]. intros [|r] p' Lr Hr; [cbn in Hr; injection Hr as <-; assumption|].
        apply (Hl r p'); [lia|assumption].
      * destruct IH as [H1 H2]. split; [intros p' [<-|I']; auto|].
        destruct H2 as [[-> H2]|(-> & -> & H2)].
        -- left; split; [reflexivity|]. destruct H2 as [->|(p' & I' & O')]; [left; reflexivity|].
           right; exists p'; split; [right; assumption|assumption].
        -- right. split; [reflexivity|]. split; [reflexivity|]. intros p' [<-|I']; auto.
    + destruct R as [RO RN].
      specialize (IH (S n) true). destruct (searchName_from nm s accept ps (S n) true) as [[pg i|e]| | | |]; try contradiction.
      * destruct IH as (q & p1 & -> & Hq & Hf & Hl). exists (S q), p1. split; [lia|]. split; [assumption|].
        split; [assumption|]. intros [|r] p' Lr Hr; [cbn in Hr; injection Hr as <-; assumption|].
        apply (Hl r p'); [lia|assumption].
      * destruct IH as [H1 H2]. split; [intros p' [<-|I']; auto|].
        left. destruct H2 as [[-> _]|(_ & ? & _)]; [|discriminate]. split; [reflexivity|].
        right; exists p; split; [left; reflexivity|assumption].
    + exists 0%nat, p. split; [lia|]. split; [reflexivity|]. split; [assumption|].
      intros r p' Lr; lia.
Qed.

Lemma searchOpCode_spec : forall I A (pm : page I A -> bool) (mc : page I A -> A -> bool) pages n,
  match searchOpCode_from pm mc pages n with
  | Hit pg i => exists q p a, pg = (n + q)%nat /\ nth_error pages q = Some p /\ pm p = true /\
      nth_error (p_items p) i = Some a /\ mc p a = true /\
      (forall j b, (j < i)%nat -> nth_error (p_items p) j = Some b -> mc p b = false) /\
      (forall r p' b, (r < q)%nat -> nth_error pages r = Some p' -> pm p' = true -> In b (p_items p') -> mc p' b = false)
  | Miss e => e = UNKNOWN_INSTRUCTION /\
      forall p a, In p pages -> pm p = true -> In a (p_items p) -> mc p a = false
  end.
Proof.
  intros I A pm mc pages; induction pages as [|p ps IH]; intros n; cbn [searchOpCode_from].
  - split; [reflexivity|]. intros p a [].
  - assert (Step : (pm p = true -> forall a, In a (p_items p) -> mc p a = false) ->
      match searchOpCode_from pm mc ps (S n) with
      | Hit pg i => exists q p0 a, pg = (n + q)%nat /\ nth_error (p :: ps) q = Some p0 /\ pm p0 = true /\
          nth_error (p_items p0) i = Some a /\ mc p0 a = true /\
          (forall j b, (j < i)%nat -> nth_error (p_items p0) j = Some b -> mc p0 b = false) /\
          (forall r p' b, (r < q)%nat -> nth_error (p :: ps) r = Some p' -> pm p' = true -> In b (p_items p') -> mc p' b = false)
      | Miss e => e = UNKNOWN_INSTRUCTION /\
          forall p0 a, In p0 (p :: ps) -> pm p0 = true -> In a (p_items p0) -> mc p0 a = false
      end).
    { intros Hp. specialize (IH (S n)). destruct (searchOpCode_from pm mc ps (S n)) as [pg i|e].
      - destruct IH as (q & p0 & a & -> & Hq & Hm & Ha & Hc & Hf & Hl). exists (S q), p0, a.
        split; [lia|]. repeat (split; [assumption|]).
        intros [|r] p' b Lr Hr Hm' Ib; [cbn in Hr; injection Hr as <-; auto|].
        apply (Hl r p' b); try assumption; lia.
      - destruct IH as [-> H]. split; [reflexivity|]. intros p0 a [<-|Ip]; [auto|apply H; assumption]. }
    destruct (pm p) eqn:E.
    + pose proof (linearSearch_spec A (mc p) (p_items p)) as L.
      destruct (linearSearch (mc p) (p_items p)) as [i|].
      * destruct L as (a & Ha & Hc & Hf). exists 0%nat, p, a. split; [lia|]. split; [reflexivity|].
        repeat (split; [assumption|]). intros r p' b Lr; lia.
      * apply Step. intros _; exact L.
    + apply Step. intros X; discriminate.
Qed.

Lemma isPrefix_spec : forall A (pages : list (page Z A)) code,
  isPrefix pages code = true <-> code <> 0 /\ exists p, In p pages /\ p_info p = code.
Proof.
  intros A pages code; unfold isPrefix; rewrite existsb_exists. split.
  - intros (p & I & H). destruct (Z.eqb_spec (p_info p) 0) as [E|E]; [discriminate|].
    apply Z.eqb_eq in H. split; [congruence|]. exists p; auto.
  - intros (N & p & I & <-). exists p. split; [assumption|].
    destruct (Z.eqb_spec (p_info p) 0); [contradiction|apply Z.eqb_refl].
Qed.

Lemma iequals_spec : forall a b, iequals a b = true <-> same_name a b.
Proof.
  induction a as [|x a IH]; intros [|y b]; cbn [iequals].
  - split; [constructor|reflexivity].
  - split; [discriminate|]. intros H; inversion H.
  - split; [discriminate|]. intros H; inversion H.
  - change to_lower with fold; rewrite andb_true_iff, Z.eqb_eq, IH. split.
    + intros [H1 H2]. constructor; [apply same_letter_fold; assumption|assumption].
    + intros H; inversion H; subst. split; [apply same_letter_fold; assumption|assumption].
Qed.
Lemma cpu_by_name_spec : forall C (nm : C -> text) s cpus,
  match cpu_by_name nm s cpus with
  | Some k => first_acceptable nm s (fun _ => true) cpus k
  | None => ~ occurs nm s cpus
  end.
Proof.
  intros C nm s cpus; unfold cpu_by_name.
  pose proof (linearSearch_spec C (fun c => iequals s (nm c)) cpus) as H.
  destruct (linearSearch _ cpus) as [k|].
  - destruct H as (a & Ha & He & Hf). split.
    + exists a; split; [assumption|]. split; [apply iequals_spec; assumption|reflexivity].
    + intros j b L Hb HS. exfalso. apply iequals_spec in HS. pose proof (Hf j b L Hb) as X. cbn in X. congruence.
  - intros (a & Ia & HS). apply iequals_spec in HS. pose proof (H a Ia) as X. cbn in X. congruence.
Qed.

(** ** Register numbers *)
Lemma decimal_app : forall a b acc, decimal acc (a ++ b) = decimal (decimal acc a) b.
Proof. induction a as [|x a IH]; intros b acc; cbn [decimal app]; [reflexivity|apply IH]. Qed.
Lemma is_digit_spec : forall c, is_digit c = true <-> 48 <= c <= 57.
Proof. intros c; unfold is_digit; lia. Qed.
Lemma isIdLetter_spec : forall c, isIdLetter c = true <-> word_letter c.
Proof. intros c; unfold isIdLetter, is_alnum, is_alpha, is_upper, is_lower, is_digit, word_letter; lia. Qed.

(* after a non-zero digit *)
Lemma regNumber_nonzero : forall p val lz, 0 < val < 10000 ->
  exists ds r, p = ds ++ r /\ Forall (fun d => 48 <= d <= 57) ds /\
    regNumber_loop p val lz = (decimal val ds, lz, r) /\ 0 < decimal val ds < 10000 /\
    (1000 <= decimal val ds \/ is_digit (peek r) = false).
Proof.
  induction p as [|c t IH]; intros val lz Hv; cbn [regNumber_loop].
  - exists [], []. cbn [decimal app peek]. split; [reflexivity|]. split; [constructor|].
    split; [reflexivity|]. split; [assumption|]. right; reflexivity.
  - destruct (is_digit c) eqn:D; cbn [andb].
    + destruct (Z.ltb_spec val 1000) as [L|L].
      * destruct (Z.eqb_spec val 0) as [|_]; [lia|]. cbn [andb].
        pose proof (proj1 (is_digit_spec c) D) as B.
        destruct (IH (val * 10 + (c - 48)) lz ltac:(lia)) as (ds & r & -> & Hd & E & P & St).
        exists (c :: ds), r. split; [reflexivity|]. split; [constructor; assumption|].
        cbn [decimal]. auto.
      * exists [], (c :: t). cbn [decimal app]. split; [reflexivity|]. split; [constructor|].
        split; [reflexivity|]. split; [assumption|]. left; lia.
    + exists [], (c :: t). cbn [decimal app]. split; [reflexivity|]. split; [constructor|].
      split; [reflexivity|]. split; [assumption|]. right; exact D.
Qed.
Lemma regNumber_zeros : forall z t lz, 0 <= lz -> lz + Z.of_nat z < 128 ->
  regNumber_loop (repeat 48 z ++ t) 0 lz = regNumber_loop t 0 (lz + Z.of_nat z).
Proof.
  induction z as [|z IH]; intros t lz H0 H1.
  - cbn [repeat app]. f_equal; lia.
  - cbn [repeat app regNumber_loop]. change (is_digit 48 && (0 <? 1000)) with true.
    change ((0 =? 0) && (48 =? 48)) with true. cbv iota. change (0 * 10 + (48 - 48)) with 0.
    assert (E : int8 (lz + 1) = lz + 1) by (unfold int8; rewrite Z.mod_small; lia).
    rewrite E, IH by lia. f_equal; lia.
Qed.
Lemma split_zeros : forall s : text, exists z t, s = repeat 48 z ++ t /\ (t = [] \/ exists c u, t = c :: u /\ c <> 48).
Proof.
  induction s as [|c s IH].
  - exists 0%nat, []. auto.
  - destruct (Z.eq_dec c 48) as [->|N].
    + destruct IH as (z & t & -> & H). exists (S z), t. auto.
    + exists 0%nat, (c :: s). split; [reflexivity|]. right; exists c, s; auto.
Qed.
Lemma decimal_ge : forall ds acc, Forall (fun d => 48 <= d <= 57) ds -> 0 <= acc -> acc <= decimal acc ds.
Proof.
  induction ds as [|d ds IH]; intros acc H Ha; cbn [decimal]; [lia|].
  apply Forall_cons_iff in H; destruct H as [Hd H].
  specialize (IH (acc * 10 + (d - 48)) H ltac:(lia)). lia.
Qed.
Lemma word_digit : forall r, ~ word_letter (peek r) -> is_digit (peek r) = false.
Proof.
  intros r H. destruct (is_digit (peek r)) eqn:E; [|reflexivity]. exfalso; apply H.
  apply is_digit_spec in E. unfold word_letter; lia.
Qed.
Lemma digits_split : forall (a b : text) r q,
  a ++ r = b ++ q -> Forall (fun d => 48 <= d <= 57) a -> Forall (fun d => 48 <= d <= 57) b ->
  is_digit (peek q) = false -> exists e, b = a ++ e /\ r = e ++ q.
Proof.
  induction a as [|x a IH]; intros b r q E Ha Hb Hq; cbn [app] in *.
  - exists b. auto.
  - apply Forall_cons_iff in Ha. destruct Ha as [Hx Ha]. destruct b as [|y b]; cbn [app] in E.
    + exfalso; subst q. cbn [peek] in Hq. apply (proj2 (is_digit_spec x)) in Hx. congruence.
    + injection E as -> E. apply Forall_cons_iff in Hb.
      destruct (IH b r q E Ha (proj2 Hb) Hq) as (e & -> & ->). exists e; auto.
Qed.

Lemma parseRegNumber_spec : forall s v r,
  (forall z t, s = repeat 48 z ++ t -> (z < 128)%nat) ->
  parseRegNumber s = Some (v, r) <->
  exists ds, s = ds ++ r /\ canonical ds /\ decimal 0 ds = v /\ v <= 9999 /\ ~ word_letter (peek r).
Proof.
  intros s v r HZ. destruct (split_zeros s) as (z & t & Es & Ht).
  pose proof (HZ z t Es) as Lz. unfold parseRegNumber. rewrite Es at 1.
  rewrite regNumber_zeros by lia.
  replace (0 + Z.of_nat z) with (Z.of_nat z) by lia.
  assert (Hz : Forall (fun d => 48 <= d <= 57) (repeat 48 z)).
  { apply Forall_forall. intros x Hx. apply repeat_spec in Hx. lia. }
  assert (D : is_digit (peek t) = false \/ exists c u, t = c :: u /\ 49 <= c <= 57).
  { destruct Ht as [->|(c & u & -> & N)]; [left; reflexivity|].
    destruct (is_digit c) eqn:Dc; [right|left; exact Dc]. exists c, u; split; [reflexivity|].
    apply is_digit_spec in Dc; lia. }
  destruct D as [HT|(c & u & -> & Hc)].
  - assert (Stop : regNumber_loop t 0 (Z.of_nat z) = (0, Z.of_nat z, t)).
    { destruct t as [|c u]; cbn [regNumber_loop]; [reflexivity|]. cbn [peek] in HT. rewrite HT. reflexivity. }
    rewrite Stop. change (0 =? 0) with true. cbn [negb andb orb]. rewrite orb_false_r.
    split.
    + intros E. destruct (isIdLetter (peek t)) eqn:W; [discriminate|].
      destruct (Z.eqb_spec (Z.of_nat z) 1) as [E1|E1]; cbn [negb] in E; [|discriminate].
      injection E as <- <-. exists [48]. assert (z = 1%nat) by lia. subst z. cbn [repeat app] in Es.
      split; [exact Es|]. split; [split; [repeat constructor; lia|left; reflexivity]|].
      split; [reflexivity|]. split; [lia|]. intros X. apply isIdLetter_spec in X. congruence.
    + intros (ds & Eds & (Hd & Hcan) & Ev & _ & W).
      rewrite Es in Eds.
      destruct (digits_split _ _ _ _ Eds Hz Hd (word_digit r W)) as (e & E1 & E2).
      assert (e = []).
      { destruct e as [|x e]; [reflexivity|]. exfalso. subst t. cbn [app peek] in HT.
        rewrite E1 in Hd. apply Forall_app in Hd. destruct Hd as [_ Hd].
        pose proof (Forall_inv Hd) as Hx. cbn beta in Hx. apply (proj2 (is_digit_spec x)) in Hx. congruence. }
      subst e. cbn [app] in E2. rewrite app_nil_r in E1. subst t ds.
      assert (z = 1%nat).
      { destruct Hcan as [Hcan|(d & u & Hcan & Nd)].
        - destruct z as [|[|z]]; [discriminate|reflexivity|discriminate].
        - destruct z as [|z]; [discriminate|]. cbn in Hcan. injection Hcan as X _. congruence. }
      subst z. cbn in Ev. subst v.
      destruct (isIdLetter (peek r)) eqn:W2; [exfalso; apply W; apply isIdLetter_spec; assumption|].
      reflexivity.
  - cbn [regNumber_loop]. rewrite (proj2 (is_digit_spec c)) by lia. change (0 <? 1000) with true.
    cbn [andb]. destruct (Z.eqb_spec c 48) as [|_]; [lia|]. rewrite andb_false_r.
    destruct (regNumber_nonzero u (0 * 10 + (c - 48)) (Z.of_nat z) ltac:(lia)) as (ds & q & Eu & Hd & El & P & St).
    rewrite El. set (n := decimal (0 * 10 + (c - 48)) ds) in *.
    destruct (Z.eqb_spec n 0) as [|_]; [lia|]. cbn [negb andb orb].
    assert (Hds : Forall (fun d => 48 <= d <= 57) (c :: ds)) by (constructor; [lia|assumption]).
    split.
    + intros E. destruct (isIdLetter (peek q)) eqn:W; [discriminate|].
      destruct (Z.leb_spec 1 (Z.of_nat z)) as [|Z0]; [discriminate|]. injection E as <- <-.
      assert (z = 0%nat) by lia. subst z. exists (c :: ds). split; [rewrite Es, Eu; reflexivity|].
      split; [split; [assumption|right; exists c, ds; split; [reflexivity|lia]]|].
      split; [reflexivity|]. split; [lia|]. intros X. apply isIdLetter_spec in X. congruence.
    + intros (ds' & Eds & (Hd' & Hcan) & Ev & Lv & W).
      rewrite Es, Eu in Eds. change (c :: ds ++ q) with ((c :: ds) ++ q) in Eds. rewrite app_assoc in Eds.
      assert (Hall : Forall (fun d => 48 <= d <= 57) (repeat 48 z ++ c :: ds)) by (apply Forall_app; auto).
      destruct (digits_split _ _ _ _ Eds Hall Hd' (word_digit r W)) as (e & E1 & E2).
      assert (z = 0%nat).
      { destruct z as [|z]; [reflexivity|]. exfalso. rewrite E1 in Hcan. cbn [repeat app] in Hcan.
        destruct Hcan as [Hcan|(d & w & Hcan & Nd)].
        - injection Hcan as Hcan. apply app_eq_nil in Hcan. destruct Hcan as [Hcan _].
          apply app_eq_nil in Hcan. destruct Hcan as [_ Hcan]. discriminate.
        - injection Hcan as X _. congruence. }
      subst z. cbn [repeat app] in E1. assert (En : decimal 0 ds' = decimal n e).
      { rewrite E1. cbn [decimal]. rewrite decimal_app. reflexivity. }
      assert (He : Forall (fun d => 48 <= d <= 57) e).
      { rewrite E1 in Hd'. change (c :: ds ++ e) with ((c :: ds) ++ e) in Hd'. apply Forall_app in Hd'. apply Hd'. }
      assert (e = []).
      { destruct e as [|x e]; [reflexivity|]. exfalso.
        apply Forall_cons_iff in He. destruct He as [Hx He].
        destruct St as [St|St].
        - cbn [decimal] in En. pose proof (decimal_ge e (n * 10 + (x - 48)) He ltac:(lia)). lia.
        - subst q. cbn [app peek] in St. apply (proj2 (is_digit_spec x)) in Hx. congruence. }
      subst e. cbn [app] in E2. subst q. cbn [decimal] in En.
      destruct (isIdLetter (peek r)) eqn:W2; [exfalso; apply W; apply isIdLetter_spec; assumption|].
      change (1 <=? Z.of_nat 0) with false. cbv iota. congruence.
Qed.
Lemma parseRegNumber_zeros :
  let s := repeat 48 130 ++ [53] in
  parseRegNumber s = Some (5, []) /\ ~ canonical s.
Proof.
  split; [reflexivity|]. intros [_ [H|(d & t & H & N)]]; [discriminate|].
  injection H as H _. congruence.
Qed.
