(** The tables of the program meet the requirements of the searches. *)
From Coq Require Import String ZArith List Bool Lia ZifyBool Arith.
From Verif Require Import M_Char M_Error M_Text M_Operators M_Table S_Table T_Tables P_Table.
Import ListNotations.
Open Scope list_scope.
Local Open Scope Z_scope.

(* two instructions with the same operands *)
Definition same_operands (a b : row) : Prop := snd a = snd b.

Definition cstringb (s : text) : bool := forallb (fun c => (1 <=? c) && (c <=? 127)) s.
Lemma cstringb_spec : forall s, cstringb s = true -> cstring s.
Proof.
  intros s H. apply Forall_forall. intros c I. pose proof (proj1 (forallb_forall _ _) H c I) as X. cbn in X. lia.
Qed.

(* pairs of a list in order *)
Fixpoint pairs_ok {A} (ok : A -> A -> bool) (l : list A) : bool :=
  match l with [] => true | x :: t => forallb (ok x) t && pairs_ok ok t end.
Lemma pairs_ok_spec : forall A (ok : A -> A -> bool) l, pairs_ok ok l = true ->
  forall i j a b, (i < j)%nat -> nth_error l i = Some a -> nth_error l j = Some b -> ok a b = true.
Proof.
  induction l as [|x t IH]; intros H i j a b L Ha Hb.
  - destruct i; discriminate.
  - cbn [pairs_ok] in H. apply andb_true_iff in H. destruct H as [H1 H2].
    destruct j as [|j]; [lia|]. cbn in Hb. destruct i as [|i].
    + cbn in Ha. injection Ha as <-. apply (proj1 (forallb_forall _ _) H1). eapply nth_error_In; exact Hb.
    + cbn in Ha. apply (IH H2 i j a b); [lia|assumption|assumption].
Qed.

Definition ordered_rows (l : list row) : bool :=
  pairs_ok (fun a b => strcasecmp a b <=? 0) (map row_name l).
Definition names_ok (l : list row) : bool := forallb (fun r => cstringb (row_name r)) l.
Definition name_table_ok (l : name_table) : bool := names_ok l && ordered_rows l.

Lemma names_ok_spec : forall l, names_ok l = true -> forall a, In a l -> cstring (row_name a).
Proof. intros l H a I. apply cstringb_spec. exact (proj1 (forallb_forall _ _) H a I). Qed.
Lemma name_table_ok_spec : forall l, name_table_ok l = true ->
  (forall a, In a l -> cstring (row_name a)) /\ in_order row_name l.
Proof.
  intros l H. apply andb_true_iff in H. destruct H as [H1 H2].
  pose proof (names_ok_spec l H1) as C. split; [exact C|].
  intros i j a b L Ha Hb X.
  pose proof (pairs_ok_spec _ _ _ H2 i j (row_name a) (row_name b) L
    (map_nth_error _ _ _ Ha) (map_nth_error _ _ _ Hb)) as P. cbn in P.
  apply (proj2 (strcasecmp_gt (row_name a) (row_name b) (C a (nth_error_In _ _ Ha)) (C b (nth_error_In _ _ Hb)))) in X.
  lia.
Qed.

(* the index: range, order, coverage *)
Fixpoint zip_from (i : Z) (l : list row) : list (Z * row) :=
  match l with [] => [] | x :: t => (i, x) :: zip_from (i + 1) t end.
Definition at_pos (l : list row) (k : Z) : text := match nth_error l (Z.to_nat k) with Some r => row_name r | None => [] end.
Definition insn_table_ok (t : insn_table) : bool :=
  let n := Z.of_nat (length (it_items t)) in
  let ix := map (fun k => (k, at_pos (it_items t) k)) (it_index t) in
  names_ok (it_items t) &&
  forallb (fun k => (0 <=? k) && (k <? n)) (it_index t) &&
  pairs_ok (fun a b => let r := strcasecmp (snd a) (snd b) in
              (r <? 0) || ((r =? 0) && (fst a <? fst b))) ix &&
  forallb (fun '(j, b) =>
     existsb (fun k => (k =? j) || ((k <? j) &&
       match nth_error (it_items t) (Z.to_nat k) with
       | Some a => String.eqb (fst a) (fst b) && String.eqb (snd a) (snd b)
       | None => false
       end)) (it_index t)) (zip_from 0 (it_items t)).

Lemma zip_from_nth : forall l i j b, nth_error l j = Some b -> In (i + Z.of_nat j, b) (zip_from i l).
Proof.
  induction l as [|x t IH]; intros i j b H; [destruct j; discriminate|].
  destruct j as [|j]; cbn in H.
  - injection H as <-. left. f_equal. lia.
  - right. replace (i + Z.of_nat (S j)) with (i + 1 + Z.of_nat j) by lia. apply IH; assumption.
Qed.
Lemma insn_table_ok_spec : forall t, insn_table_ok t = true ->
  page_ok row_name same_operands (page_of t).
Proof.
  intros t H. unfold insn_table_ok in H. rewrite !andb_true_iff in H.
  destruct H as [[[H1 H2] H3] H4].
  pose proof (names_ok_spec _ H1) as C. split; [exact C|]. cbn [page_of p_items p_index].
  assert (R : forall k, In k (it_index t) -> 0 <= k < Z.of_nat (length (it_items t))).
  { intros k I. pose proof (proj1 (forallb_forall _ _) H2 k I) as X. cbn in X. lia. }
  split; [exact R|]. split.
  - intros i j k l a b L Hk Hl Ha Hb.
    pose proof (pairs_ok_spec _ _ _ H3 i j _ _ L (map_nth_error _ _ _ Hk) (map_nth_error _ _ _ Hl)) as P.
    cbn [fst snd] in P. unfold at_pos in P. rewrite Ha, Hb in P.
    pose proof (C a (nth_error_In _ _ Ha)) as Ca. pose proof (C b (nth_error_In _ _ Hb)) as Cb.
    apply orb_true_iff in P. destruct P as [P|P].
    + left. apply strcasecmp_lt; [assumption|assumption|]. cbv zeta in P. lia.
    + right. apply andb_true_iff in P. destruct P as [P1 P2]. split; [|lia].
      apply strcasecmp_eq; [assumption|assumption|]. lia.
  - intros j b Hb. pose proof (proj1 (forallb_forall _ _) H4 _ (zip_from_nth _ 0 j b Hb)) as X.
    cbn beta iota in X. apply existsb_exists in X. destruct X as (k & Ik & X).
    pose proof (R k Ik) as Rk. apply orb_true_iff in X. destruct X as [X|X].
    + exists j, b. assert (E : k = Z.of_nat j) by lia. subst k.
      split; [lia|]. split; [assumption|]. split; [assumption|]. split; [apply same_name_refl|left; reflexivity].
    + apply andb_true_iff in X. destruct X as [X1 X2].
      destruct (nth_error (it_items t) (Z.to_nat k)) as [a|] eqn:Ea; [|discriminate].
      apply andb_true_iff in X2. destruct X2 as [X2 X3]. apply String.eqb_eq in X2, X3.
      exists (Z.to_nat k), a. split; [lia|]. split; [rewrite Z2Nat.id by lia; assumption|].
      split; [assumption|]. unfold row_name. rewrite X2. split; [apply same_name_refl|right; exact X3].
Qed.

Lemma insn_tables_ok : forallb insn_table_ok insn_tables = true.
Proof. vm_compute. reflexivity. Qed.
Lemma register_tables_ok : forallb name_table_ok register_tables = true.
Proof. vm_compute. reflexivity. Qed.
Lemma directive_tables_ok : forallb name_table_ok directive_tables = true.
Proof. vm_compute. reflexivity. Qed.
Lemma processors_ok : forallb (fun p => forallb insn_table_ok (pr_tables p)) processors = true.
Proof. vm_compute. reflexivity. Qed.

Lemma page_of_ok : forall t, In t insn_tables -> page_ok row_name same_operands (page_of t).
Proof. intros t I. apply insn_table_ok_spec. exact (proj1 (forallb_forall _ _) insn_tables_ok t I). Qed.
Lemma pages_of_ok : forall p, In p processors -> forall q, In q (pages_of p) -> page_ok row_name same_operands q.
Proof.
  intros p I q J. pose proof (proj1 (forallb_forall _ _) processors_ok p I) as H. cbn beta in H.
  unfold pages_of in J. apply in_map_iff in J. destruct J as (t & <- & J).
  apply insn_table_ok_spec. exact (proj1 (forallb_forall _ _) H t J).
Qed.

(** every register name is made of the letters the search reads; no name is listed twice *)
Definition register_names_ok (l : name_table) : bool :=
  forallb (fun r => forallb isNameLetter (row_name r) && negb (Nat.eqb (length (row_name r)) 0)) l &&
  pairs_ok (fun a b => strcasecmp a b <? 0) (map row_name l).
Lemma register_names : forallb register_names_ok register_tables = true.
Proof. vm_compute. reflexivity. Qed.
Lemma directive_names : forallb (fun l => pairs_ok (fun a b => strcasecmp a b <? 0) (map row_name l)) directive_tables = true.
Proof. vm_compute. reflexivity. Qed.
