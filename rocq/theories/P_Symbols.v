(** The symbol store follows its history. *)
From Coq Require Import ZArith List Bool Lia ZifyBool.
From Verif Require Import M_Char M_Error M_Value M_Text M_Operators M_Parsers M_Expr M_Symbols S_Value S_Symbols P_Value.
Import ListNotations.
Local Open Scope Z_scope.

Lemma key_eqb_spec a b : reflect (a = b) (key_eqb a b).
Proof.
  revert b. induction a as [|x a IH]; destruct b as [|y b]; cbn; try (constructor; congruence).
  destruct (Z.eqb_spec x y); cbn; [|constructor; congruence]. destruct (IH b); constructor; congruence.
Qed.
Lemma key_eqb_refl a : key_eqb a a = true.
Proof. destruct (key_eqb_spec a a); congruence. Qed.
Lemma find_set {A} k k' (v : A) m : m_find k (m_set k' v m) = if key_eqb k k' then Some v else m_find k m.
Proof.
  induction m as [|[k0 v0] m IH]; cbn [m_set m_find].
  - reflexivity.
  - destruct (key_eqb_spec k' k0) as [->|N].
    + cbn [m_find]. destruct (key_eqb_spec k k0); reflexivity.
    + destruct (key_ltb k' k0); cbn [m_find]; [reflexivity|]. rewrite IH.
      destruct (key_eqb_spec k k0) as [->|]; [|reflexivity].
      destruct (key_eqb_spec k0 k'); [congruence|reflexivity].
Qed.
Lemma find_emplace {A} k k' (v : A) m : m_find k (m_emplace k' v m) =
  match m_find k' m with Some _ => m_find k m | None => if key_eqb k k' then Some v else m_find k m end.
Proof. unfold m_emplace. destruct (m_find k' m) eqn:E; [reflexivity|]. apply find_set. Qed.

(* sorted maps *)
Fixpoint sorted_from (lo : option key) {A} (m : smap A) : Prop :=
  match m with
  | [] => True
  | (k, _) :: m' => match lo with Some l => key_ltb l k = true | None => True end /\ sorted_from (Some k) m'
  end.
Definition sorted {A} (m : smap A) : Prop := sorted_from None m.
Lemma lt_irrefl a : key_ltb a a = false.
Proof. induction a as [|x a IH]; cbn; [reflexivity|]. rewrite IH, Z.ltb_irrefl, andb_false_r. reflexivity. Qed.
Lemma lt_trans a b c : key_ltb a b = true -> key_ltb b c = true -> key_ltb a c = true.
Proof.
  revert b c. induction a as [|x a IH]; destruct b as [|y b]; destruct c as [|z c]; cbn; try discriminate; auto.
  intros H1 H2. apply orb_true_iff in H1, H2. apply orb_true_iff.
  destruct H1 as [H1|H1], H2 as [H2|H2]; [left; lia|apply andb_true_iff in H2; left; lia|apply andb_true_iff in H1; left; lia|].
  apply andb_true_iff in H1, H2. right. apply andb_true_iff. split; [lia|]. destruct H1, H2. eapply IH; eauto.
Qed.
Lemma lt_total a b : key_ltb a b = false -> a <> b -> key_ltb b a = true.
Proof.
  revert b. induction a as [|x a IH]; destruct b as [|y b]; cbn; try discriminate; try congruence; auto.
  intros H N. apply orb_false_iff in H. destruct H as (H & H'). apply orb_true_iff.
  destruct (Z.eqb_spec x y) as [->|]; [|left; lia]. right. apply andb_true_iff. split; [apply Z.eqb_refl|].
  apply IH; [exact H'|congruence].
Qed.
Lemma sorted_set {A} k (v : A) m lo : sorted_from lo m -> match lo with Some l => key_ltb l k = true | None => True end ->
  sorted_from lo (m_set k v m).
Proof.
  revert lo. induction m as [|[k0 v0] m IH]; intros lo S L; cbn [m_set].
  - cbn. auto.
  - cbn in S. destruct S as (S0 & S1). destruct (key_eqb_spec k k0) as [->|N]; [cbn; auto|].
    destruct (key_ltb k k0) eqn:LT; [cbn; auto|]. cbn [sorted_from]. split; [exact S0|].
    apply IH; [exact S1|]. now apply lt_total.
Qed.
Lemma sorted_emplace {A} k (v : A) m : sorted m -> sorted (m_emplace k v m).
Proof. intros S. unfold m_emplace. destruct (m_find k m); [exact S|]. now apply sorted_set. Qed.
Lemma set_last {A} k (v : A) m : Forall (fun p => key_ltb (fst p) k = true) m -> m_set k v m = m ++ [(k, v)] /\ m_find k m = None.
Proof.
  induction m as [|[k0 v0] m IH]; intros F; [split; reflexivity|]. inversion F as [|? ? L F']; subst. cbn [fst] in L.
  destruct (IH F') as (I1 & I2). cbn [m_set m_find]. destruct (key_eqb_spec k k0) as [->|N]; [rewrite lt_irrefl in L; discriminate|].
  destruct (key_ltb k k0) eqn:LT; [pose proof (lt_trans _ _ _ L LT) as X; rewrite lt_irrefl in X; discriminate|].
  rewrite I1. auto.
Qed.
Lemma sorted_above {A} lo (m : smap A) : sorted_from (Some lo) m -> Forall (fun p => key_ltb lo (fst p) = true) m.
Proof.
  revert lo. induction m as [|[k v] m IH]; intros lo; [constructor|]. cbn. intros (L & S). constructor; [exact L|].
  eapply Forall_impl; [|apply IH, S]. cbn. intros a H. eapply lt_trans; eauto.
Qed.
Lemma copy_same {A} (m : smap A) : sorted m -> m_copy m = m.
Proof.
  unfold m_copy. enough (X : forall acc, Forall (fun p => Forall (fun q => key_ltb (fst p) (fst q) = true) m) acc -> sorted m ->
    fold_left (fun m '(k, v) => m_emplace k v m) m acc = acc ++ m) by (intros S; apply (X []); [constructor|exact S]).
  induction m as [|[k v] m IH]; intros acc F S; cbn [fold_left]; [now rewrite app_nil_r|].
  assert (FA : Forall (fun p => key_ltb (fst p) k = true) acc).
  { eapply Forall_impl; [|exact F]. intros p H. now inversion H. }
  destruct (set_last k v acc FA) as (E1 & E2). unfold m_emplace. rewrite E2, E1. cbn in S. destruct S as (_ & S).
  rewrite IH; [now rewrite <- app_assoc| |].
  - apply Forall_app. split.
    + eapply Forall_impl; [|exact F]. intros p H. now inversion H.
    + constructor; [|constructor]. cbn [fst]. now apply sorted_above.
  - destruct m as [|[k' v'] m]; [exact Logic.I|]. cbn in S |- *. tauto.
Qed.

Definition follows (s : store) (h : history) : Prop :=
  (forall var name v, m_find name (the_map s var) = Some v -> exists d, accepted h d /\ df_name d = name /\ df_variable d = var) /\
  (forall d, accepted h d -> exists v, m_find (df_name d) (the_map s (df_variable d)) = Some v) /\
  (forall name r, latest name h r -> lookupSymbol name s = option_map df_value r) /\
  (forall name, m_find name (st_symbols s) <> None -> m_find name (st_variables s) <> None -> False) /\
  sorted (st_symbols s) /\ sorted (st_variables s).
Lemma fits_ok v : int_value v -> (overflowUint32 v = false <-> fits32 v).
Proof.
  unfold int_value, overflowUint32, fits32, int_of, isUnsigned, v_signed, s64. destruct (v_type v); intros H;
    repeat match goal with |- context [if ?c then _ else _] => destruct c eqn:? end; try tauto; lia.
Qed.
Lemma latest_total name h : exists r, latest name h r.
Proof.
  induction h as [|[d e] h (r & IH)]; [exists None; constructor|].
  destruct (list_eq_dec Z.eq_dec (df_name d) name) as [N|N]; [|exists r; constructor; auto].
  destruct (isOK e) eqn:E; [|exists r; constructor; auto; right; intros ->; discriminate].
  exists (Some d). replace e with OK by (destruct e; cbn in E; congruence). now constructor.
Qed.
Lemma latest_in name h r d : latest name h r -> accepted h d -> df_name d = name -> r <> None.
Proof.
  induction 1 as [|d0 h N|d0 e h r D L IH]; unfold accepted in *; cbn [In]; intros A E; [destruct A|discriminate|].
  destruct A as [A|A]; [injection A as -> ->; destruct D; congruence|]. now apply IH.
Qed.
Lemma latest_some name h d : latest name h (Some d) -> accepted h d /\ df_name d = name.
Proof.
  intros L. remember (Some d) as r eqn:E. revert E. induction L as [|d0 h N|d0 e h r D L IH]; intros E; [discriminate| |].
  - injection E as ->. split; [now left|exact N].
  - destruct (IH E) as (A & B). split; [now right|exact B].
Qed.
Lemma define_step s h d : int_value (df_value d) -> follows s h ->
  let '(e, s') := define d s in answer h d e /\ follows s' ((d, e) :: h) /\ st_functions s' = st_functions s.
Proof.
  intros IV (F1 & F2 & F3 & F4 & F5 & F6). unfold define, internSymbol, hasValue.
  set (name := df_name d). set (var := df_variable d). set (v := df_value d) in *.
  assert (REJ : forall e, e <> OK -> follows s ((d, e) :: h)).
  { intros e NE. split; [|split; [|split; [|auto]]].
    - intros va n x H. destruct (F1 va n x H) as (d' & A & B). exists d'. split; [now right|exact B].
    - intros d' [A|A]; [injection A as -> ->; congruence|]. now apply F2.
    - intros n r L. inversion L as [|? ? ? |? ? ? ? D L']; subst; [congruence|]. now apply F3. }
  assert (SAME : m_find name (the_map s (negb var)) = None -> forall d', accepted h d' -> df_name d' = name -> df_variable d' = var).
  { intros N d' A E. destruct (F2 d' A) as (x & X). destruct (Bool.bool_dec (df_variable d') var) as [|D]; [assumption|].
    replace (df_variable d') with (negb var) in X by (destruct (df_variable d'), var; cbn; congruence). congruence. }
  destruct (m_find name (the_map s (negb var))) as [x|] eqn:O.
  - split; [|split; [apply REJ; discriminate|reflexivity]].
    destruct (F1 _ _ _ O) as (d' & A & B & C). eapply A_duplicate; eauto. fold var. rewrite C. destruct var; discriminate.
  - specialize (SAME eq_refl). destruct (overflowUint32 v) eqn:OV.
    + split; [|split; [apply REJ; discriminate|reflexivity]]. apply A_range; [exact SAME|].
      intros X. apply (fits_ok v IV) in X. congruence.
    + split; [apply A_ok; [exact SAME|now apply (fits_ok v IV)]|].
      set (s' := if var then _ else _).
      assert (FN : forall va n, m_find n (the_map s' va) = if Bool.eqb va var && key_eqb n name then Some v else m_find n (the_map s va)).
      { intros va n. unfold s', the_map. destruct var, va; cbn [st_symbols st_variables Bool.eqb andb]; rewrite ?find_set; reflexivity. }
      split; [|unfold s'; destruct var; reflexivity]. split; [|split; [|split; [|split]]].
      * intros va n x. rewrite FN. destruct (Bool.eqb va var) eqn:B; cbn [andb].
        -- apply Bool.eqb_prop in B. subst va. destruct (key_eqb_spec n name) as [->|N].
           ++ intros _. exists d. split; [now left|split; reflexivity].
           ++ intros H. destruct (F1 _ _ _ H) as (d' & A & C). exists d'. split; [now right|exact C].
        -- intros H. destruct (F1 _ _ _ H) as (d' & A & C). exists d'. split; [now right|exact C].
      * intros d' A. rewrite FN. destruct (Bool.eqb (df_variable d') var && key_eqb (df_name d') name) eqn:B; [eauto|].
        destruct A as [A|A]; [injection A as <-; fold var name in B; rewrite Bool.eqb_reflx, key_eqb_refl in B; discriminate|]. now apply F2.
      * intros n r L. unfold lookupSymbol. change (st_symbols s') with (the_map s' false). change (st_variables s') with (the_map s' true).
        rewrite !FN. inversion L as [|d0 h0 N|d0 e0 h0 r0 D L']; subst.
        -- rewrite key_eqb_refl, !andb_true_r. destruct var eqn:V; cbn [Bool.eqb]; [|reflexivity].
           change (m_find (df_name d) (the_map s false)) with (m_find name (the_map s (negb true))). rewrite O. reflexivity.
        -- destruct D as [D|D]; [|congruence]. destruct (key_eqb_spec n name) as [->|_]; [unfold name in D; congruence|]. rewrite !andb_false_r.
           exact (F3 n r L').
      * intros n. change (st_symbols s') with (the_map s' false). change (st_variables s') with (the_map s' true). rewrite !FN.
        destruct (key_eqb_spec n name) as [->|_]; [|rewrite !andb_false_r; apply F4].
        rewrite !andb_true_r. destruct var; cbn [Bool.eqb negb] in *; rewrite O; congruence.
      * unfold s'. destruct var; cbn [st_symbols st_variables]; split; try assumption; now apply sorted_set.
Qed.
Lemma run_follows ds : forall s h s' h', int_defs ds -> follows s h -> answered h -> run ds s h = (s', h') ->
  follows s' h' /\ answered h' /\ map fst h' = rev ds ++ map fst h /\ st_functions s' = st_functions s.
Proof.
  induction ds as [|d ds IH]; intros s h s' h' I F A; cbn [run].
  - injection 1 as <- <-. auto.
  - inversion I as [|? ? I1 I2]; subst. pose proof (define_step s h d I1 F) as D. destruct (define d s) as [e s1]. destruct D as (AN & F' & FF).
    intros R. destruct (IH _ _ _ _ I2 F' (An_cons _ _ _ AN A) R) as (X & Y & Z0 & W). split; [exact X|]. split; [exact Y|].
    rewrite Z0, W, FF. cbn [map fst rev]. rewrite <- app_assoc. auto.
Qed.
Lemma follows_empty : follows empty_store [].
Proof.
  split; [intros [] ? ? H; discriminate H|]. split; [intros d []|]. split; [intros n r L; inversion L; reflexivity|].
  split; [intros n H; cbn in H; congruence|]. split; exact Logic.I.
Qed.
Lemma eqb_refl_map {A} (eqv : A -> A -> bool) m : Forall (fun p => eqv (snd p) (snd p) = true) m -> m_eqb eqv m m = true.
Proof.
  induction m as [|[k v] m IH]; intros F; [reflexivity|]. inversion F as [|? ? H F']; subst. cbn [snd] in H.
  cbn [m_eqb]. now rewrite key_eqb_refl, H, IH.
Qed.
