(** The search for an instruction by its name does not depend on the case of the letters. *)
From Coq Require Import String ZArith List Bool Lia ZifyBool.
From Verif Require Import M_Char M_Error M_Text M_Operators M_Table.
Import ListNotations.
Local Open Scope Z_scope.

(* a name without NUL *)
Definition no_zero (s : text) : bool := forallb (fun c => negb (to_lower c =? 0)) s.
Lemma compare_case s n t : no_zero n = true -> no_zero t = true -> strcasecmp s n = 0 -> strcasecmp s t = strcasecmp n t.
Proof.
  revert s t. induction n as [|m n IH]; intros s t NZ TZ E.
  - destruct s as [|x s]; [reflexivity|]. cbn [strcasecmp] in E. destruct t as [|y t]; cbn [strcasecmp]; [exact E|]. cbn [no_zero forallb] in TZ. cbv zeta. rewrite E. destruct (0 - to_lower y =? 0) eqn:Q; [lia|reflexivity].
  - cbn [no_zero forallb] in NZ. apply andb_prop in NZ. destruct NZ as (M & NZ). destruct s as [|x s]; cbn [strcasecmp] in E; [lia|]. cbv zeta in E.
    destruct (to_lower x - to_lower m =? 0) eqn:Q; [|lia]. assert (XM : to_lower x = to_lower m) by lia.
    destruct t as [|y t]; cbn [strcasecmp]; [exact XM|]. cbv zeta. rewrite XM. destruct (to_lower m - to_lower y =? 0); [|reflexivity].
    cbn [no_zero forallb] in TZ. apply andb_prop in TZ. destruct TZ as (_ & TZ). now apply IH.
Qed.
Lemma itemAt_in {A} (items : list A) index i k a : itemAt items index i = Val (k, a) -> In a items.
Proof.
  unfold itemAt, item_at. destruct (nth_error index i) as [z|]; cbn [bind]; [|discriminate]. destruct (nth_error items (Z.to_nat z)) as [x|] eqn:N; cbn [bind]; [|discriminate].
  intros H. injection H as _ <-. eapply nth_error_In, N.
Qed.
Lemma lowerBound_ext {A} (c c' : A -> Z) items index : (forall a, In a items -> c a = c' a) -> forall fuel h t, lowerBound c items index fuel h t = lowerBound c' items index fuel h t.
Proof.
  intros X. induction fuel as [|f IH]; intros h t; [reflexivity|]. cbn [lowerBound]. destruct (Nat.eqb h t); [reflexivity|]. cbv zeta.
  destruct (itemAt items index _) as [[k a]| | | |] eqn:I; cbn [bind]; try reflexivity. rewrite (X a (itemAt_in _ _ _ _ _ I)). destruct (0 <? c' a); apply IH.
Qed.
Lemma matchScan_ext {A} (c c' : A -> Z) m2 items index : (forall a, In a items -> c a = c' a) -> forall fuel h r, matchScan c m2 items index fuel h r = matchScan c' m2 items index fuel h r.
Proof.
  intros X. induction fuel as [|f IH]; intros h r; [reflexivity|]. cbn [matchScan]. destruct (Nat.ltb h _); [|reflexivity].
  destruct (itemAt items index _) as [[k a]| | | |] eqn:I; cbn [bind]; try reflexivity. rewrite (X a (itemAt_in _ _ _ _ _ I)). destruct (negb _); [reflexivity|]. destruct (m2 a); [reflexivity|apply IH].
Qed.
Lemma searchName_case {I A} (nm : A -> text) s n accept (pages : list (page I A)) : no_zero n = true -> strcasecmp s n = 0 ->
  (forall p a, In p pages -> In a (p_items p) -> no_zero (nm a) = true) -> searchName nm s accept pages = searchName nm n accept pages.
Proof.
  intros NZ E. unfold searchName. generalize 0%nat, false. induction pages as [|p ps IH]; intros k seen TZ; [reflexivity|]. cbn [searchName_from].
  assert (X : forall a, In a (p_items p) -> strcasecmp s (nm a) = strcasecmp n (nm a)) by (intros a IA; apply compare_case; auto; apply (TZ p); [now left|exact IA]).
  unfold indexedSearch. rewrite (lowerBound_ext _ (fun a => strcasecmp n (nm a)) _ _ X). destruct (lowerBound _ _ _ _ _ _) as [h| | | |]; cbn [bind]; try reflexivity.
  rewrite (matchScan_ext _ (fun a => strcasecmp n (nm a)) _ _ _ X). destruct (matchScan _ _ _ _ _ _ _) as [[| |i]| | | |]; cbn [bind]; try reflexivity; apply IH; intros q a IQ IA; apply (TZ q); auto; now right.
Qed.
