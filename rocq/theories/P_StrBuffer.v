From Coq Require Import ZArith List Bool Lia.
From Verif Require Import M_Char M_Error M_StrBuffer P_Value.
Import ListNotations.
Local Open Scope Z_scope.

(* ---------------------------------------------------------------- texts *)

Definition appb (b : sbuf) (t : text) : sbuf := mkB (b_txt b ++ t) (b_max b) (b_err b) (b_case b).

Lemma appb_nil b : appb b [] = b.
Proof. unfold appb. rewrite app_nil_r. now destruct b. Qed.
Lemma appb_app b s t : appb (appb b s) t = appb b (s ++ t).
Proof. unfold appb. cbn. now rewrite app_assoc. Qed.
Lemma appb_case b t : b_case (appb b t) = b_case b. Proof. reflexivity. Qed.
Lemma appb_err b t : b_err (appb b t) = b_err b. Proof. reflexivity. Qed.
Lemma appb_txt b t : b_txt (appb b t) = b_txt b ++ t. Proof. reflexivity. Qed.
Lemma appb_mark b t : b_mark (appb b t) = b_mark b + Z.of_nat (length t).
Proof. unfold b_mark, appb. cbn. rewrite app_length. lia. Qed.

(* every output operation that ends without error has appended its letters *)
Lemma rletter_ok c b : b_err (rletter c b) = OK -> rletter c b = appb b [c].
Proof.
  unfold rletter. destruct (b_mark b <? b_max b); cbn; [reflexivity|discriminate].
Qed.
Lemma letter_ok c b : b_err (letter c b) = OK -> letter c b = appb b [conv (b_case b) c].
Proof. apply rletter_ok. Qed.
Lemma rletter_err c b : b_err (rletter c b) = OK -> b_err b = OK.
Proof. intros H. rewrite (rletter_ok _ _ H) in H. exact H. Qed.
Lemma letter_err c b : b_err (letter c b) = OK -> b_err b = OK.
Proof. apply rletter_err. Qed.
Lemma rletter_case c b : b_case (rletter c b) = b_case b.
Proof. unfold rletter. now destruct (b_mark b <? b_max b). Qed.
Lemma letter_case c b : b_case (letter c b) = b_case b.
Proof. apply rletter_case. Qed.

Lemma out_text_err t : forall b, b_err (out_text t b) = OK -> b_err b = OK.
Proof.
  induction t as [|c t IH]; intros b H; [exact H|].
  cbn in H. apply IH in H. now apply letter_err in H.
Qed.
Lemma out_text_ok t : forall b, b_err (out_text t b) = OK -> out_text t b = appb b (map (conv (b_case b)) t).
Proof.
  induction t as [|c t IH]; intros b H; [cbn; now rewrite appb_nil|].
  cbn in *. pose proof (out_text_err t _ H) as E.
  unfold out_text in IH. rewrite IH by exact H. rewrite letter_case, (letter_ok _ _ E), appb_app. reflexivity.
Qed.
Lemma out_rtext_err t : forall b, b_err (out_rtext t b) = OK -> b_err b = OK.
Proof.
  induction t as [|c t IH]; intros b H; [exact H|].
  cbn in H. apply IH in H. now apply rletter_err in H.
Qed.
Lemma out_rtext_ok t : forall b, b_err (out_rtext t b) = OK -> out_rtext t b = appb b t.
Proof.
  induction t as [|c t IH]; intros b H; [cbn; now rewrite appb_nil|].
  cbn in *. pose proof (out_rtext_err t _ H) as E.
  unfold out_rtext in IH. rewrite IH by exact H. rewrite (rletter_ok _ _ E), appb_app. reflexivity.
Qed.

Lemma reverse_appb b t : reverse (b_mark b) (appb b t) = appb b (rev t).
Proof.
  unfold reverse. rewrite appb_mark.
  destruct (Z.ltb_spec (b_mark b + Z.of_nat (length t)) (b_mark b)); [lia|].
  unfold appb, b_mark. cbn. rewrite Nat2Z.id, firstn_app, firstn_all, Nat.sub_diag, skipn_app, skipn_all, Nat.sub_diag.
  cbn. now rewrite app_nil_r.
Qed.
Lemma reverse_err s b : b_err (reverse s b) = OK -> b_err b = OK.
Proof. unfold reverse. destruct (b_mark b <? s); cbn; [discriminate|auto]. Qed.

(* ---------------------------------------------------------------- cells *)

Lemma set_nth_some l : forall n c, (n < length l)%nat ->
  set_nth l n c = Some (firstn n l ++ c :: skipn (S n) l).
Proof.
  induction l as [|x l IH]; intros [|n] c H; cbn in *; try lia; [reflexivity|].
  rewrite IH by lia. reflexivity.
Qed.
Lemma set_nth_none l : forall n c, (length l <= n)%nat -> set_nth l n c = None.
Proof. induction l as [|x l IH]; intros [|n] c H; cbn in *; try lia; auto. now rewrite IH by lia. Qed.
Lemma set_nth_len l : forall n c l', set_nth l n c = Some l' -> length l' = length l.
Proof.
  induction l as [|x l IH]; intros [|n] c l' H; cbn in *; try discriminate.
  - injection H as <-. reflexivity.
  - destruct (set_nth l n c) eqn:E; [|discriminate]. injection H as <-. cbn. f_equal. eauto.
Qed.
Lemma store_some l i c : 0 <= i < Z.of_nat (length l) ->
  store l i c = Some (firstn (Z.to_nat i) l ++ c :: skipn (S (Z.to_nat i)) l).
Proof. intros H. unfold store. destruct (Z.ltb_spec i 0); [lia|]. apply set_nth_some. lia. Qed.
Lemma store_len l i c l' : store l i c = Some l' -> length l' = length l.
Proof. unfold store. destruct (i <? 0); [discriminate|]. apply set_nth_len. Qed.

(* the text a buffer of cells holds *)
Definition abs (b : cells) : sbuf :=
  mkB (firstn (Z.to_nat (c_out b)) (c_mem b)) (c_end b) (c_err b) (c_case b).

Record wf (b : cells) : Prop := mkWf {
  wf_end : c_end b = Z.of_nat (length (c_mem b)) - 1;
  wf_out : 0 <= c_out b <= c_end b;
  wf_nul : nth_error (c_mem b) (Z.to_nat (c_out b)) = Some 0 }.

Lemma abs_mark b : wf b -> b_mark (abs b) = c_out b.
Proof. intros [E O _]. unfold b_mark, abs. cbn. rewrite firstn_length. lia. Qed.

Lemma c_new_ok mem k : mem <> [] -> exists b, c_new mem k = Some b /\ wf b /\
  abs b = mkB [] (Z.of_nat (length mem) - 1) OK k /\ length (c_mem b) = length mem.
Proof.
  intros H. destruct mem as [|x mem]; [contradiction|]. eexists. split; [reflexivity|].
  split; [split; cbn [c_mem c_out c_end length]; [lia|lia|reflexivity]|]. split; reflexivity.
Qed.

Lemma c_reset_ok b : wf b -> exists b', c_reset b = Some b' /\ wf b' /\ abs b' = b_reset (abs b) /\
  length (c_mem b') = length (c_mem b).
Proof.
  intros [E O N]. unfold c_reset. destruct (c_mem b) as [|x m] eqn:M; [cbn in *; lia|].
  eexists. split; [reflexivity|]. split; [split; cbn [c_mem c_out c_end length] in *; [lia|lia|reflexivity]|]. split; reflexivity.
Qed.

Lemma c_rletter_ok c b : wf b -> exists b', c_rletter c b = Some b' /\ wf b' /\ abs b' = rletter c (abs b) /\
  length (c_mem b') = length (c_mem b).
Proof.
  intros W. pose proof (abs_mark b W) as AM. destruct W as [E O N]. unfold c_rletter, rletter.
  rewrite AM. cbn [abs b_max]. destruct (Z.ltb_spec (c_out b) (c_end b)) as [L|L].
  - set (n := Z.to_nat (c_out b)) in *.
    assert (Hn : (S n < length (c_mem b))%nat) by lia.
    rewrite store_some by lia. fold n.
    set (m := firstn n (c_mem b) ++ c :: skipn (S n) (c_mem b)).
    assert (Hm : length m = length (c_mem b)).
    { unfold m. rewrite app_length. cbn [length]. rewrite firstn_length, skipn_length. lia. }
    rewrite store_some by lia. replace (Z.to_nat (c_out b + 1)) with (S n) by lia.
    assert (F : firstn (S n) m = firstn n (c_mem b) ++ [c]).
    { unfold m. rewrite firstn_app, firstn_length, firstn_firstn.
      replace (Nat.min (S n) n) with n by lia.
      replace (S n - Nat.min n (length (c_mem b)))%nat with 1%nat by lia. reflexivity. }
    eexists. split; [reflexivity|]. cbn [c_mem c_out c_end c_err c_case abs].
    assert (LL : length (firstn (S n) m ++ 0 :: skipn (S (S n)) m) = length (c_mem b)).
    { rewrite app_length. cbn [length]. rewrite firstn_length, skipn_length. lia. }
    split; [split; cbn [c_mem c_out c_end]|split].
    + rewrite LL. exact E.
    + lia.
    + replace (Z.to_nat (c_out b + 1)) with (S n) by lia.
      rewrite nth_error_app2; rewrite firstn_length; [|lia].
      replace (S n - Nat.min (S n) (length m))%nat with 0%nat by lia. reflexivity.
    + unfold abs. cbn [c_mem c_out c_end c_err c_case b_txt b_max b_err b_case].
      replace (Z.to_nat (c_out b + 1)) with (S n) by lia.
      rewrite firstn_app, firstn_length, firstn_firstn, Nat.min_id.
      replace (S n - Nat.min (S n) (length m))%nat with 0%nat by lia.
      rewrite firstn_O, app_nil_r, F. reflexivity.
    + exact LL.
  - eexists. split; [reflexivity|]. split; [split; cbn; auto|]. split; reflexivity.
Qed.

Lemma c_letter_ok c b : wf b -> exists b', c_letter c b = Some b' /\ wf b' /\ abs b' = letter c (abs b) /\
  length (c_mem b') = length (c_mem b).
Proof. intros W. unfold c_letter, letter. exact (c_rletter_ok (conv (c_case b) c) b W). Qed.

Lemma c_text_ok t : forall b, wf b -> exists b', c_text t b = Some b' /\ wf b' /\ abs b' = out_text t (abs b) /\
  length (c_mem b') = length (c_mem b).
Proof.
  induction t as [|c t IH]; intros b W; [exists b; cbn; auto|].
  destruct (c_letter_ok c b W) as (b1 & E & W1 & A & L). destruct (IH b1 W1) as (b2 & E2 & W2 & A2 & L2).
  exists b2. cbn. rewrite E. unfold out_text in A2. rewrite A in A2. split; [|split; [|split]]; auto. congruence.
Qed.
Lemma c_rtext_ok t : forall b, wf b -> exists b', c_rtext t b = Some b' /\ wf b' /\ abs b' = out_rtext t (abs b) /\
  length (c_mem b') = length (c_mem b).
Proof.
  induction t as [|c t IH]; intros b W; [exists b; cbn; auto|].
  destruct (c_rletter_ok c b W) as (b1 & E & W1 & A & L). destruct (IH b1 W1) as (b2 & E2 & W2 & A2 & L2).
  exists b2. cbn. rewrite E. unfold out_rtext in A2. rewrite A in A2. split; [|split; [|split]]; auto. congruence.
Qed.

(* the swapping loop reverses a segment *)
Lemma load_mid p x s : load (p ++ x :: s) (Z.of_nat (length p)) = Some x.
Proof.
  unfold load. destruct (Z.ltb_spec (Z.of_nat (length p)) 0); [lia|].
  rewrite Nat2Z.id, nth_error_app2 by lia. now rewrite Nat.sub_diag.
Qed.
Lemma store_mid p x s c : store (p ++ x :: s) (Z.of_nat (length p)) c = Some (p ++ c :: s).
Proof.
  rewrite store_some by (rewrite app_length; cbn [length]; lia).
  rewrite Nat2Z.id. f_equal. rewrite firstn_app, firstn_all, Nat.sub_diag. cbn [firstn]. rewrite app_nil_r.
  f_equal. f_equal. rewrite skipn_app, skipn_all2 by lia.
  replace (S (length p) - length p)%nat with 1%nat by lia. reflexivity.
Qed.
Lemma swap_loop_rev n : forall fuel p mid s, length mid = n -> (n < fuel)%nat ->
  swap_loop fuel (p ++ mid ++ s) (Z.of_nat (length p)) (Z.of_nat (length p) + Z.of_nat n - 1)
  = Some (p ++ rev mid ++ s).
Proof.
  induction n as [n IH] using lt_wf_ind. intros fuel p mid s Hl Hf.
  destruct fuel as [|f]; [lia|]. cbn [swap_loop].
  destruct (Z.ltb_spec (Z.of_nat (length p)) (Z.of_nat (length p) + Z.of_nat n - 1)) as [L|L].
  - destruct mid as [|a mid]; [cbn in *; lia|].
    destruct (exists_last (l := mid)) as (mm & z & ->). { intros ->. cbn in *. lia. }
    cbn [length] in Hl. rewrite app_length in Hl. cbn [length] in Hl.
    assert (P : Z.of_nat (length p) + Z.of_nat n - 1 = Z.of_nat (length (p ++ a :: mm))).
    { rewrite app_length. cbn [length]. lia. }
    cbn [app]. rewrite load_mid. rewrite P.
    replace (p ++ a :: (mm ++ [z]) ++ s) with ((p ++ a :: mm) ++ z :: s)
      by (rewrite <- !app_assoc; reflexivity).
    rewrite load_mid.
    replace ((p ++ a :: mm) ++ z :: s) with (p ++ a :: (mm ++ z :: s)) by (rewrite <- !app_assoc; reflexivity).
    rewrite store_mid.
    replace (p ++ z :: mm ++ z :: s) with ((p ++ z :: mm) ++ z :: s) by (rewrite <- !app_assoc; reflexivity).
    replace (Z.of_nat (length (p ++ a :: mm))) with (Z.of_nat (length (p ++ z :: mm)))
      by (rewrite !app_length; reflexivity).
    rewrite store_mid.
    replace ((p ++ z :: mm) ++ a :: s) with ((p ++ [z]) ++ mm ++ (a :: s)) by (rewrite <- !app_assoc; reflexivity).
    replace (Z.of_nat (length p) + 1) with (Z.of_nat (length (p ++ [z]))) by (rewrite app_length; cbn [length]; lia).
    replace (Z.of_nat (length (p ++ z :: mm)) - 1) with
      (Z.of_nat (length (p ++ [z])) + Z.of_nat (length mm) - 1) by (rewrite !app_length; cbn [length]; lia).
    rewrite (IH (length mm)) by lia.
    f_equal. cbn [rev]. rewrite rev_app_distr. cbn [rev app]. now rewrite <- !app_assoc.
  - destruct mid as [|a [|]]; cbn [length] in Hl; [reflexivity|reflexivity|lia].
Qed.

Lemma c_reverse_ok start b : wf b -> 0 <= start -> exists b', c_reverse start b = Some b' /\ wf b' /\
  abs b' = reverse start (abs b) /\ length (c_mem b') = length (c_mem b).
Proof.
  intros W Hs. pose proof (abs_mark b W) as AM. destruct W as [E O N]. unfold c_reverse, reverse. rewrite AM.
  destruct (Z.ltb_spec (c_out b) start) as [L|L].
  - eexists. split; [reflexivity|]. split; [split; cbn; auto|]. split; reflexivity.
  - set (m := c_mem b) in *. set (i := Z.to_nat start). set (o := Z.to_nat (c_out b)) in *.
    assert (D : m = firstn i m ++ skipn i (firstn o m) ++ skipn o m).
    { rewrite <- (firstn_skipn o m) at 1. rewrite <- (firstn_skipn i (firstn o m)) at 1.
      rewrite firstn_firstn. replace (Nat.min i o) with i by lia. now rewrite <- app_assoc. }
    assert (LF : length (firstn i m) = i) by (rewrite firstn_length; lia).
    assert (LM : length (skipn i (firstn o m)) = (o - i)%nat) by (rewrite skipn_length, firstn_length; lia).
    assert (SW : swap_loop (S (length m)) m start (c_out b - 1) =
                 Some (firstn i m ++ rev (skipn i (firstn o m)) ++ skipn o m)).
    { rewrite <- (swap_loop_rev (length (skipn i (firstn o m))) (S (length m))) by (auto; lia).
      rewrite <- D. f_equal; lia. }
    rewrite SW.
    eexists. split; [reflexivity|]. cbn [c_mem c_out c_end c_err c_case abs].
    assert (LL : length (firstn i m ++ rev (skipn i (firstn o m)) ++ skipn o m) = length m).
    { rewrite !app_length, rev_length, LF, LM, skipn_length. lia. }
    split; [split; cbn [c_mem c_out c_end]|split].
    + now rewrite LL.
    + lia.
    + fold o. rewrite app_assoc, nth_error_app2 by (rewrite app_length, rev_length; lia).
      rewrite app_length, rev_length, LF, LM. replace (o - (i + (o - i)))%nat with 0%nat by lia.
      rewrite <- N. rewrite <- (firstn_skipn o m) at 2. rewrite nth_error_app2 by (rewrite firstn_length; lia).
      rewrite firstn_length. replace (o - Nat.min o (length m))%nat with 0%nat by lia. reflexivity.
    + unfold abs. cbn [c_mem c_out c_end c_err c_case b_txt b_max b_err b_case]. fold o m.
      f_equal. fold i. rewrite app_assoc, firstn_app, app_length, rev_length, LF, LM.
      replace (o - (i + (o - i)))%nat with 0%nat by lia. cbn [firstn]. rewrite app_nil_r.
      rewrite firstn_all2 by (rewrite app_length, rev_length; lia).
      f_equal. rewrite firstn_firstn. now replace (Nat.min i o) with i by lia.
    + exact LL.
Qed.
