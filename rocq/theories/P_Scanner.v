(** Proofs for C29. *)
From Coq Require Import ZArith List Bool Lia.
From Verif Require Import M_Char M_Operators M_Text M_Scanner S_Scanner.
Import ListNotations.
Local Open Scope Z_scope.

Lemma rd_in buf i : 0 <= i <= Z.of_nat (length buf) -> exists c, rd buf i = Val c.
Proof.
  intros H. unfold rd. replace (i <? 0) with false by lia.
  destruct (nth_error (buf ++ [0]) (Z.to_nat i)) eqn:E; [eauto|]. apply nth_error_None in E. rewrite app_length in E. cbn in E. lia.
Qed.
Lemma rd_char buf i : 0 <= i < Z.of_nat (length buf) -> rd buf i = Val (nth (Z.to_nat i) buf 0).
Proof.
  intros H. unfold rd. replace (i <? 0) with false by lia. rewrite nth_error_app1 by lia.
  rewrite nth_error_nth' with (d := 0) by lia. reflexivity.
Qed.
Lemma rd_end buf : rd buf (Z.of_nat (length buf)) = Val 0.
Proof.
  unfold rd. rewrite (proj2 (Z.ltb_ge _ _)) by apply Nat2Z.is_nonneg. rewrite Nat2Z.id, nth_error_app2 by lia. now rewrite Nat.sub_diag.
Qed.

(* ------------------------------------------------------------ staying inside *)
Lemma trim_start_in buf p n : forall i, 0 <= i -> i + Z.of_nat n <= Z.of_nat (length buf) ->
  exists j, trim_start n buf p i = Val j /\ i <= j <= i + Z.of_nat n.
Proof.
  induction n as [|n IH]; intros i L H; [exists i; split; [reflexivity|lia]|].
  cbn [trim_start]. destruct (rd_in buf i) as (c & ->); [lia|]. cbn [bind].
  destruct (p c); [|exists i; split; [reflexivity|lia]]. destruct (IH (i + 1)) as (j & -> & B); try lia. exists j. split; [reflexivity|lia].
Qed.
Lemma trim_end_in buf p n : forall i, 0 <= i - Z.of_nat n -> i <= Z.of_nat (length buf) ->
  exists j, trim_end n buf p i = Val j /\ i - Z.of_nat n <= j <= i.
Proof.
  induction n as [|n IH]; intros i L H; [exists i; split; [reflexivity|lia]|].
  cbn [trim_end]. destruct (rd_in buf (i - 1)) as (c & ->); [lia|]. cbn [bind].
  destruct (p c); [|exists i; split; [reflexivity|lia]]. destruct (IH (i - 1)) as (j & -> & B); try lia. exists j. split; [reflexivity|lia].
Qed.
Lemma strncase_ends buf w : c_string buf -> c_string w -> forall i, 0 <= i <= Z.of_nat (length buf) ->
  exists b, strncase buf i w = Val b /\ (b = true -> i + Z.of_nat (length w) <= Z.of_nat (length buf)).
Proof.
  intros CB. induction w as [|a w IH]; intros CW i H; [exists true; split; [reflexivity|cbn; lia]|].
  cbn [strncase]. assert (a <> 0) as A by (intros ->; apply CW; now left).
  assert (c_string w) as CW' by (intros K; apply CW; now right).
  destruct (Z.eq_dec i (Z.of_nat (length buf))) as [->|N].
  - rewrite rd_end. cbn [bind]. change (to_lower 0) with 0. exists false.
    assert (to_lower a <> 0) as LA by (unfold to_lower, is_upper; destruct ((65 <=? a) && (a <=? 90)) eqn:U; lia).
    apply Z.eqb_neq in LA. rewrite LA. split; [reflexivity|discriminate].
  - rewrite rd_char by lia. cbn [bind]. destruct (to_lower a =? _); [|exists false; split; [reflexivity|discriminate]].
    destruct (nth (Z.to_nat i) buf 0 =? 0) eqn:Z0.
    + exfalso. apply CB. apply Z.eqb_eq in Z0. rewrite <- Z0. apply nth_In. lia.
    + destruct (IH CW' (i + 1)) as (b & -> & B); [lia|]. exists b. split; [reflexivity|]. intros T. specialize (B T). cbn [length]. lia.
Qed.

Lemma char_in buf lo hi o s : 0 <= lo -> hi <= Z.of_nat (length buf) -> inside lo hi s -> by_character o ->
  exists s', apply buf o s = Val s' /\ inside (sc_str s) (sc_end s) s'.
Proof.
  intros L H (I1 & I2 & I3) B. unfold inside. destruct o; cbn [by_character] in B; try contradiction; cbn [apply].
  - eexists. split; [reflexivity|]. unfold sc_advance. cbn. destruct (sc_end s <=? _) eqn:E; lia.
  - unfold sc_trimStart. destruct (trim_start_in buf p (room s) (sc_str s)) as (j & -> & J); [lia|unfold room; lia|].
    eexists. split; [reflexivity|]. cbn. unfold room in J. lia.
  - unfold sc_trimEnd. destruct (trim_end_in buf p (room s) (sc_end s)) as (j & -> & J); [unfold room; lia|lia|].
    eexists. split; [reflexivity|]. cbn. unfold room in J. lia.
  - unfold sc_takeWhile. destruct (trim_start_in buf p (room s) (sc_str s)) as (j & -> & J); [lia|unfold room; lia|].
    eexists. split; [reflexivity|]. cbn. unfold room in J. lia.
  - unfold sc_takeWhile. destruct (trim_start_in buf p (room s) (sc_str s)) as (j & -> & J); [lia|unfold room; lia|].
    eexists. split; [reflexivity|]. cbn. unfold room in J. lia.
  - unfold sc_expect. destruct (rd_in buf (sc_str s)) as (c & ->); [lia|]. cbn [bind].
    destruct ((sc_str s <? sc_end s) && p c) eqn:E; (eexists; split; [reflexivity|]); cbn; [|lia].
    apply andb_prop in E as [E _]. lia.
Qed.

Lemma C29_char buf lo hi os : 0 <= lo -> hi <= Z.of_nat (length buf) -> Forall by_character os ->
  forall s, inside lo hi s -> exists s', apply_all buf os s = Val s' /\ inside (sc_str s) (sc_end s) s'.
Proof.
  intros L H F. induction F as [|o os B F IH]; intros s I.
  - exists s. split; [reflexivity|]. destruct I. split; [lia|]. lia.
  - cbn [apply_all]. destruct (char_in buf lo hi o s L H I B) as (s1 & -> & I1). cbn [bind].
    destruct (IH s1) as (s2 & -> & I2); [destruct I as (?&?&?), I1 as (?&?&?); split; [|split]; lia|].
    exists s2. split; [reflexivity|]. destruct I1 as (?&?&?), I2 as (?&?&?). split; [|split]; lia.
Qed.

Lemma text_in buf w s : c_string buf -> c_string w -> 0 <= sc_str s <= sc_end s -> sc_end s = Z.of_nat (length buf) ->
  exists b s', sc_iexpectText buf w s = Val (b, s') /\ inside (sc_str s) (sc_end s) s' /\ sc_end s' = sc_end s.
Proof.
  intros CB CW I E. unfold sc_iexpectText. destruct (strncase_ends buf w CB CW (sc_str s)) as (b & -> & B); [lia|]. cbn [bind].
  destruct b; (eexists; eexists; split; [reflexivity|]); cbn; unfold inside; cbn; [|lia]. specialize (B eq_refl). lia.
Qed.
Lemma word_in buf w s : c_string buf -> c_string w -> 0 <= sc_str s <= sc_end s -> sc_end s = Z.of_nat (length buf) ->
  exists b s', sc_iexpectWord buf w s = Val (b, s') /\ inside (sc_str s) (sc_end s) s' /\ sc_end s' = sc_end s.
Proof.
  intros CB CW I E. unfold sc_iexpectWord. destruct (text_in buf w s CB CW I E) as (b & s' & -> & I' & E'). cbn [bind fst snd].
  destruct b; [|eexists; eexists; split; [reflexivity|]; unfold inside; lia].
  destruct I' as (A & B & C). destruct (rd_in buf (sc_str s')) as (c & ->); [lia|]. cbn [bind].
  destruct (is_alnum c || (c =? 95)); (eexists; eexists; split; [reflexivity|]); unfold inside; lia.
Qed.
Lemma oneOf_in buf ws s : c_string buf -> Forall c_string ws -> 0 <= sc_str s <= sc_end s -> sc_end s = Z.of_nat (length buf) ->
  exists b s', sc_oneOf buf ws s = Val (b, s') /\ inside (sc_str s) (sc_end s) s' /\ sc_end s' = sc_end s.
Proof.
  intros CB F I E. induction F as [|w ws CW F IH]; [eexists; eexists; split; [reflexivity|]; unfold inside; lia|].
  cbn [sc_oneOf]. destruct (word_in buf w s CB CW I E) as (b & s' & -> & I'). cbn [bind fst]. destruct b; [|exact IH].
  eexists; eexists; split; [reflexivity|exact I'].
Qed.
Lemma end_in buf o s : c_string buf -> 0 <= sc_str s <= sc_end s -> sc_end s = Z.of_nat (length buf) -> keeps_end o ->
  exists s', apply buf o s = Val s' /\ inside (sc_str s) (sc_end s) s' /\ sc_end s' = sc_end s.
Proof.
  intros CB I E K.
  assert (forall o, by_character o -> (forall s', apply buf o s = Val s' -> sc_end s' = sc_end s) ->
    exists s', apply buf o s = Val s' /\ inside (sc_str s) (sc_end s) s' /\ sc_end s' = sc_end s) as BC.
  { intros o' B X. destruct (char_in buf 0 (sc_end s) o' s) as (s' & A & I'); try lia; [split; [|split]; lia|exact B|].
    exists s'. split; [exact A|]. split; [exact I'|]. exact (X _ A). }
  destruct o; cbn [keeps_end] in K; try contradiction.
  - apply BC; [exact K|]. intros s' A. cbn [apply] in A. now injection A as <-.
  - apply BC; [exact Logic.I|]. intros s' A. cbn [apply] in A. unfold sc_trimStart in A. destruct (trim_start _ _ _ _); try discriminate. now injection A as <-.
  - apply BC; [exact Logic.I|]. intros s' A. cbn [apply] in A. unfold sc_takeWhile in A. destruct (trim_start _ _ _ _); try discriminate. now injection A as <-.
  - apply BC; [exact Logic.I|]. intros s' A. cbn [apply] in A. unfold sc_expect in A. destruct (rd _ _); try discriminate. cbn [bind] in A.
    destruct (_ && _) in A; now injection A as <-.
  - cbn [apply]. destruct (text_in buf w s CB K I E) as (b & s' & -> & X). exists s'. split; [reflexivity|exact X].
  - cbn [apply]. destruct (word_in buf w s CB K I E) as (b & s' & -> & X). exists s'. split; [reflexivity|exact X].
  - cbn [apply]. destruct (oneOf_in buf ws s CB K I E) as (b & s' & -> & X). exists s'. split; [reflexivity|exact X].
Qed.
Lemma C29_end buf os : c_string buf -> Forall keeps_end os ->
  forall s, 0 <= sc_str s <= sc_end s -> sc_end s = Z.of_nat (length buf) ->
  exists s', apply_all buf os s = Val s' /\ sc_str s <= sc_str s' <= sc_end s' /\ sc_end s' = sc_end s.
Proof.
  intros CB F. induction F as [|o os B F IH]; intros s I E.
  - exists s. split; [reflexivity|]. lia.
  - cbn [apply_all]. destruct (end_in buf o s CB I E B) as (s1 & -> & (A1 & A2 & A3) & E1). cbn [bind].
    destruct (IH s1) as (s2 & -> & I2 & E2); [lia|lia|]. exists s2. split; [reflexivity|]. lia.
Qed.

Lemma strlen_c buf : c_string buf -> strlen buf = Z.of_nat (length buf).
Proof.
  induction buf as [|c t IH]; intros C; [reflexivity|]. cbn [strlen length].
  destruct (Z.eqb_spec c 0) as [->|]; [exfalso; apply C; now left|]. rewrite IH; [lia|]. intros K; apply C; now right.
Qed.

(* ------------------------------------------------------------ agreement with texts *)
Lemma view_nil buf s : sc_end s <= sc_str s -> view buf s = [].
Proof. intros H. unfold view. replace (Z.to_nat (sc_end s - sc_str s)) with O by lia. reflexivity. Qed.
Lemma skipn_nth (l : text) n : (n < length l)%nat -> skipn n l = nth n l 0 :: skipn (S n) l.
Proof. revert n. induction l as [|a l IH]; intros [|n] H; cbn in H |- *; try lia; [reflexivity|]. apply IH. lia. Qed.
Lemma view_cons buf i e : 0 <= i < e -> e <= Z.of_nat (length buf) ->
  view buf (mkSc i e) = nth (Z.to_nat i) buf 0 :: view buf (mkSc (i + 1) e).
Proof.
  intros H E. unfold view. cbn [sc_str sc_end]. replace (Z.to_nat (e - i)) with (S (Z.to_nat (e - (i + 1)))) by lia.
  rewrite skipn_nth by lia. cbn [firstn]. do 3 f_equal. lia.
Qed.
Lemma view_eta buf s : view buf s = view buf (mkSc (sc_str s) (sc_end s)). Proof. reflexivity. Qed.

Lemma trim_view buf p n : forall i e, n = Z.to_nat (e - i) -> 0 <= i <= e -> e <= Z.of_nat (length buf) ->
  exists j, trim_start n buf p i = Val j /\ i <= j <= e /\
    view buf (mkSc j e) = trimStart p (view buf (mkSc i e)) /\ takeWhile p (view buf (mkSc i e)) = (view buf (mkSc i j), view buf (mkSc j e)).
Proof.
  induction n as [|n IH]; intros i e N I E.
  - exists i. rewrite !(view_nil buf (mkSc i e)), (view_nil buf (mkSc i i)) by (cbn; lia). cbn. repeat split; lia.
  - cbn [trim_start]. rewrite rd_char by lia. cbn [bind]. rewrite (view_cons buf i e) by lia. cbn [trimStart takeWhile].
    destruct (p (nth (Z.to_nat i) buf 0)).
    + destruct (IH (i + 1) e) as (j & -> & J & T & W); [lia|lia|lia|]. exists j. split; [reflexivity|]. split; [lia|]. split; [exact T|].
      rewrite W. now rewrite (view_cons buf i j) by lia.
    + exists i. split; [reflexivity|]. split; [lia|]. split; [now rewrite (view_cons buf i e) by lia|].
      rewrite (view_nil buf (mkSc i i)) by (cbn; lia). now rewrite (view_cons buf i e) by lia.
Qed.
Lemma view_last buf i e : 0 <= i < e -> e <= Z.of_nat (length buf) ->
  view buf (mkSc i e) = view buf (mkSc i (e - 1)) ++ [nth (Z.to_nat (e - 1)) buf 0].
Proof.
  intros H E. remember (Z.to_nat (e - 1 - i)) as n eqn:N. revert i H N. induction n as [|n IH]; intros i H N.
  - replace i with (e - 1) by lia. rewrite (view_cons buf (e - 1) e) by lia. rewrite (view_nil buf (mkSc (e - 1) (e - 1))), (view_nil buf (mkSc (e - 1 + 1) e)) by (cbn; lia). reflexivity.
  - rewrite (view_cons buf i e), (view_cons buf i (e - 1)) by lia. rewrite (IH (i + 1)) by lia. reflexivity.
Qed.
Lemma trimStart_app p c : forall l, rev (trimStart p (rev (l ++ [c]))) = if p c then rev (trimStart p (rev l)) else l ++ [c].
Proof. intros l. rewrite rev_app_distr. cbn. destruct (p c); [reflexivity|]. cbn. now rewrite rev_involutive. Qed.
Lemma trim_end_view buf p n : forall i e, n = Z.to_nat (e - i) -> 0 <= i <= e -> e <= Z.of_nat (length buf) ->
  exists j, trim_end n buf p e = Val j /\ i <= j <= e /\ view buf (mkSc i j) = rev (trimStart p (rev (view buf (mkSc i e)))).
Proof.
  induction n as [|n IH]; intros i e N I E.
  - exists e. rewrite (view_nil buf (mkSc i e)) by (cbn; lia). cbn. repeat split; lia.
  - cbn [trim_end]. rewrite rd_char by lia. cbn [bind]. rewrite (view_last buf i e), trimStart_app by lia.
    destruct (p (nth (Z.to_nat (e - 1)) buf 0)).
    + destruct (IH i (e - 1)) as (j & -> & J & T); [lia|lia|lia|]. exists j. split; [reflexivity|]. split; [lia|exact T].
    + exists e. split; [reflexivity|]. split; [lia|]. now rewrite (view_last buf i e) by lia.
Qed.
Lemma C29_trim buf p s : inside 0 (Z.of_nat (length buf)) s ->
  (exists s', sc_trimStart buf p s = Val s' /\ view buf s' = trimStart p (view buf s)) /\
  (exists s', sc_trimEnd buf p s = Val s' /\ view buf s' = rev (trimStart p (rev (view buf s)))) /\
  (exists s1 s2, sc_takeWhile buf p s = Val (s1, s2) /\ takeWhile p (view buf s) = (view buf s1, view buf s2)).
Proof.
  intros (A & B & C). destruct (trim_view buf p (room s) (sc_str s) (sc_end s) eq_refl ltac:(lia) C) as (j & T & J & V & W).
  destruct (trim_end_view buf p (room s) (sc_str s) (sc_end s) eq_refl ltac:(lia) C) as (k & TE & K & VE).
  split; [|split].
  - exists (mkSc j (sc_end s)). unfold sc_trimStart. rewrite T. split; [reflexivity|exact V].
  - exists (mkSc (sc_str s) k). unfold sc_trimEnd. rewrite TE. split; [reflexivity|exact VE].
  - exists (mkSc (sc_str s) j), (mkSc j (sc_end s)). unfold sc_takeWhile. rewrite T. split; [reflexivity|exact W].
Qed.
Lemma C29_expect buf p s : inside 0 (Z.of_nat (length buf)) s ->
  match M_Char.expect p (view buf s) with
  | Some (c, t) => exists s', sc_expect buf p s = Val (c, s') /\ view buf s' = t
  | None => sc_expect buf p s = Val (0, s)
  end.
Proof.
  intros (A & B & C). unfold sc_expect. destruct (Z.eq_dec (sc_str s) (sc_end s)) as [E|N].
  - rewrite (view_nil buf s) by lia. cbn [M_Char.expect]. destruct (rd_in buf (sc_str s)) as (c & ->); [lia|]. cbn [bind].
    replace (sc_str s <? sc_end s) with false by lia. reflexivity.
  - rewrite view_eta, view_cons by lia. rewrite rd_char by lia. cbn [bind M_Char.expect]. replace (sc_str s <? sc_end s) with true by lia. cbn [andb].
    destruct (p _); [|reflexivity]. eexists. split; reflexivity.
Qed.
Lemma C29_at buf s k : inside 0 (Z.of_nat (length buf)) s -> 0 <= k -> sc_at buf s k = Val (peek_at (Z.to_nat k) (view buf s)).
Proof.
  intros (A & B & C) K. unfold sc_at, peek_at, view. destruct (_ <? _) eqn:L.
  - rewrite rd_char by lia. f_equal. symmetry.
    transitivity (nth (Z.to_nat k) (skipn (Z.to_nat (sc_str s)) buf) 0).
    + remember (skipn (Z.to_nat (sc_str s)) buf) as l. assert (Z.to_nat k < Z.to_nat (sc_end s - sc_str s))%nat as Q by lia. clear - Q.
      revert l Q. generalize (Z.to_nat (sc_end s - sc_str s)). generalize (Z.to_nat k). induction n as [|n IH]; intros [|m] [|a l] Q; cbn; try lia; try reflexivity. apply IH. lia.
    + replace (Z.to_nat (sc_str s + k)) with (Z.to_nat (sc_str s) + Z.to_nat k)%nat by lia. clear.
      revert buf. induction (Z.to_nat (sc_str s)) as [|n IH]; intros [|a l]; cbn; try reflexivity; [now destruct (Z.to_nat k)|apply IH].
  - rewrite nth_overflow; [reflexivity|]. rewrite firstn_length. lia.
Qed.
Lemma C29_advance buf s k : inside 0 (Z.of_nat (length buf)) s -> 0 <= k -> view buf (sc_advance s k) = skipn (Z.to_nat k) (view buf s).
Proof.
  intros (A & B & C) K. unfold sc_advance. remember (Z.to_nat k) as n eqn:N. destruct s as [i e]. cbn [sc_str sc_end] in *.
  revert k K i A B N. induction n as [|n IH]; intros k K i A B N.
  - replace k with 0 by lia. cbn. destruct (e <=? i + 0) eqn:E; [rewrite !view_nil by (cbn; lia); reflexivity|]. now rewrite Z.add_0_r.
  - destruct (Z.eq_dec i e) as [->|NE].
    + rewrite (view_nil buf (mkSc e e)) by (cbn; lia). replace (e <=? e + k) with true by lia. now rewrite view_nil by (cbn; lia).
    + rewrite (view_cons buf i e) by lia. cbn [skipn]. rewrite <- (IH (k - 1)) by lia. now replace (i + 1 + (k - 1)) with (i + k) by lia.
Qed.
Lemma strncase_view buf w : c_string buf -> c_string w -> forall i, 0 <= i <= Z.of_nat (length buf) ->
  match iexpectText w (view buf (mkSc i (Z.of_nat (length buf)))) with
  | Some t => strncase buf i w = Val true /\ i + Z.of_nat (length w) <= Z.of_nat (length buf) /\ t = view buf (mkSc (i + Z.of_nat (length w)) (Z.of_nat (length buf)))
  | None => strncase buf i w = Val false
  end.
Proof.
  intros CB. induction w as [|a w IH]; intros CW i H.
  - cbn [iexpectText strncase length]. rewrite Z.add_0_r. auto with zarith.
  - assert (a <> 0) as A by (intros ->; apply CW; now left). assert (c_string w) as CW' by (intros K; apply CW; now right).
    cbn [strncase iexpectText]. destruct (Z.eq_dec i (Z.of_nat (length buf))) as [->|N].
    + rewrite view_nil by (cbn; lia). rewrite rd_end. cbn [bind]. change (to_lower 0) with 0.
      assert (to_lower a <> 0) as LA by (unfold to_lower, is_upper; destruct ((65 <=? a) && (a <=? 90)) eqn:U; lia).
      apply Z.eqb_neq in LA. now rewrite LA.
    + rewrite view_cons by lia. rewrite rd_char by lia. cbn [bind]. destruct (to_lower a =? _); [|reflexivity].
      replace (nth (Z.to_nat i) buf 0 =? 0) with false.
      2:{ symmetry. apply Z.eqb_neq. intros Z0. apply CB. rewrite <- Z0. apply nth_In. lia. }
      specialize (IH CW' (i + 1) ltac:(lia)). destruct (iexpectText w _) as [t|]; [|exact IH]. destruct IH as (S1 & S2 & S3).
      split; [exact S1|]. cbn [length]. replace (i + Z.of_nat (S (length w))) with (i + 1 + Z.of_nat (length w)) by lia. split; [lia|exact S3].
Qed.
Lemma peek_view buf i e : 0 <= i <= e -> e = Z.of_nat (length buf) -> rd buf i = Val (peek (view buf (mkSc i e))).
Proof.
  intros I ->. destruct (Z.eq_dec i (Z.of_nat (length buf))) as [->|N].
  - rewrite view_nil by (cbn; lia). apply rd_end.
  - rewrite view_cons by lia. now rewrite rd_char by lia.
Qed.
Lemma C29_text buf w s : c_string buf -> c_string w -> inside 0 (Z.of_nat (length buf)) s -> sc_end s = Z.of_nat (length buf) ->
  match iexpectText w (view buf s) with
  | Some t => exists s', sc_iexpectText buf w s = Val (true, s') /\ view buf s' = t
  | None => sc_iexpectText buf w s = Val (false, s)
  end /\
  match iexpectWord w (view buf s) with
  | Some t => exists s', sc_iexpectWord buf w s = Val (true, s') /\ view buf s' = t
  | None => sc_iexpectWord buf w s = Val (false, s)
  end.
Proof.
  intros CB CW (A & B & C) E. unfold iexpectWord, sc_iexpectWord, sc_iexpectText. rewrite view_eta, E.
  pose proof (strncase_view buf w CB CW (sc_str s) ltac:(lia)) as V. destruct (iexpectText w _) as [t|].
  - destruct V as (-> & L & ->). cbn [bind fst snd sc_str]. split; [eexists; split; reflexivity|].
    rewrite (peek_view buf _ (Z.of_nat (length buf))) by lia. cbn [bind]. destruct (is_alnum _ || _); [reflexivity|]. eexists. split; reflexivity.
  - rewrite V. cbn [bind fst]. split; reflexivity.
Qed.
Lemma view_length buf s : inside 0 (Z.of_nat (length buf)) s -> length (view buf s) = Z.to_nat (sc_end s - sc_str s).
Proof. intros (A & B & C). unfold view. rewrite firstn_length, skipn_length. lia. Qed.
Lemma iequals_length a : forall b, length a <> length b -> iequals a b = false.
Proof.
  induction a as [|x a IH]; intros [|y b] H; cbn in *; try lia; try reflexivity. rewrite IH by lia. apply andb_false_r.
Qed.
Lemma C29_iequals buf buf' s s' : c_string buf -> inside 0 (Z.of_nat (length buf)) s -> inside 0 (Z.of_nat (length buf')) s' ->
  Z.of_nat (length buf) < 2 ^ 64 -> Z.of_nat (length buf') < 2 ^ 64 ->
  sc_iequals buf buf' s s' = Val (iequals (view buf s) (view buf' s')).
Proof.
  intros CB I I' L L'. unfold sc_iequals, sc_size. pose proof I as (A & B & C). pose proof I' as (A' & B' & C').
  rewrite !Z.mod_small by lia. destruct (Z.eqb_spec (sc_end s - sc_str s) (sc_end s' - sc_str s')) as [E|N].
  - destruct s as [i e], s' as [i' e']. cbn [sc_str sc_end] in *. clear I I' L L'. remember (Z.to_nat (e - i)) as n eqn:NN.
    revert i i' A B A' B' E NN. induction n as [|n IH]; intros i i' A B A' B' E NN.
    + rewrite (view_nil buf), (view_nil buf') by (cbn; lia). reflexivity.
    + rewrite (view_cons buf i e), (view_cons buf' i' e') by lia. rewrite !rd_char by lia. cbn [bind iequals].
      destruct (to_lower (nth (Z.to_nat i) buf 0) =? _); [|reflexivity].
      replace (nth (Z.to_nat i) buf 0 =? 0) with false.
      2:{ symmetry. apply Z.eqb_neq. intros Z0. apply CB. rewrite <- Z0. apply nth_In. lia. }
      cbn [andb]. apply IH; lia.
  - f_equal. symmetry. apply iequals_length. rewrite !view_length by assumption. lia.
Qed.
