From Coq Require Import ZArith String List Bool Lia ZifyBool.
From Verif Require Import M_Char M_Error M_Value M_Text M_StrBuffer M_Format M_Number S_Value S_Number
  P_Value P_StrBuffer.
Import ListNotations.
Local Open Scope string_scope.
Local Open Scope list_scope.
Local Open Scope Z_scope.
Ltac Zify.zify_post_hook ::= Z.div_mod_to_equations.

Ltac chr :=
  unfold to_upper, to_lower, is_alnum, is_alpha, is_upper, is_lower, is_digit in *;
  repeat match goal with
         | H : context [if ?b then _ else _] |- _ => destruct b eqn:?
         | |- context [if ?b then _ else _] => destruct b eqn:?
         end; lia.

(* ---------------------------------------------------------------- digits printed *)

(* digit values, least significant first *)
Fixpoint drev (fuel : nat) (r v : Z) : list Z :=
  match fuel with
  | O => []
  | S f => if v =? 0 then [] else (v mod r) :: drev f r (v / r)
  end.
Definition dfuel (v : Z) : nat := S (Z.to_nat (Z.log2 v)).
Definition dl (k : option bool) (d : Z) : Z := conv k (digit_letter d).

Lemma digit_cases c d : digit_of c = Some d ->
  (48 <= c <= 57 /\ d = c - 48) \/ (65 <= c <= 70 /\ d = c - 55) \/ (97 <= c <= 102 /\ d = c - 87).
Proof.
  unfold digit_of.
  destruct ((48 <=? c) && (c <=? 57)) eqn:A; [intros [= <-]; lia|].
  destruct ((65 <=? c) && (c <=? 70)) eqn:B; [intros [= <-]; lia|].
  destruct ((97 <=? c) && (c <=? 102)) eqn:C; [intros [= <-]; lia|discriminate].
Qed.

Lemma digit_of_dl k d : 0 <= d < 16 -> digit_of (dl k d) = Some d.
Proof.
  intros H.
  assert (C : In d [0;1;2;3;4;5;6;7;8;9;10;11;12;13;14;15]) by (cbn; lia).
  cbn in C. destruct k as [[|]|]; intuition (subst; reflexivity).
Qed.

Lemma log2_div r v : 2 <= r -> 0 < v -> v / r <> 0 -> Z.log2 (v / r) < Z.log2 v.
Proof.
  intros R V N. assert (0 < v / r) by (assert (0 <= v / r) by (apply Z.div_pos; lia); lia).
  assert (v / r <= v / 2) by (apply Z.div_le_compat_l; lia).
  assert (Z.log2 (v / r) <= Z.log2 (v / 2)) by (apply Z.log2_le_mono; lia).
  assert (Z.log2 (v / 2) = Z.log2 v - 1).
  { rewrite <- Z.div2_div, Z.div2_spec. rewrite Z.log2_shiftr by lia.
    assert (1 <= Z.log2 v). { apply Z.log2_le_pow2; [lia|]. assert (v / r < v) by (apply Z.div_lt; lia). cbn. lia. }
    lia. }
  lia.
Qed.
Lemma pos_app r ds c : positional r (ds ++ [c]) = positional r ds * r + match digit_of c with Some d => d | None => 0 end.
Proof. unfold positional. rewrite fold_left_app. reflexivity. Qed.

Lemma drev_ok r k : 2 <= r <= 16 -> forall fuel v, 0 <= v -> (v = 0 \/ Z.log2 v < Z.of_nat fuel) ->
  Forall (fun d => 0 <= d < r) (drev fuel r v) /\
  positional r (rev (map (dl k) (drev fuel r v))) = v /\
  (v <> 0 -> drev fuel r v <> [] /\ last (drev fuel r v) 0 <> 0).
Proof.
  intros R. induction fuel as [|f IH]; intros v V F.
  - assert (v = 0) by (pose proof (Z.log2_nonneg v); lia). subst. cbn. split; [constructor|]. split; [reflexivity|lia].
  - cbn [drev]. destruct (Z.eqb_spec v 0) as [->|N].
    + cbn. split; [constructor|]. split; [reflexivity|lia].
    + assert (D : 0 <= v / r) by (apply Z.div_pos; lia).
      assert (M : 0 <= v mod r < r) by (apply Z.mod_pos_bound; lia).
      destruct (IH (v / r) D) as (A & B & C).
      { destruct (Z.eq_dec (v / r) 0); [auto|right]. pose proof (log2_div r v). lia. }
      split; [constructor; auto|]. split.
      * cbn [map rev]. rewrite pos_app, B, digit_of_dl by lia. rewrite (Z.div_mod v r) at 3 by lia. lia.
      * intros _. split; [discriminate|]. destruct (Z.eq_dec (v / r) 0) as [E|E].
        -- rewrite E. assert (drev f r 0 = []) as -> by (destruct f; reflexivity). cbn.
           rewrite (Z.div_mod v r) in N by lia. rewrite E in N. lia.
        -- destruct (C E) as (C1 & C2). destruct (drev f r (v / r)); [contradiction|]. exact C2.
Qed.

Lemma digit_loop_err r fuel : forall v b, b_err (digit_loop fuel r v b) = OK -> b_err b = OK.
Proof.
  induction fuel as [|f IH]; intros v b H; [exact H|]. cbn [digit_loop] in H.
  destruct (v =? 0); [exact H|]. apply IH in H. now apply letter_err in H.
Qed.
Lemma digit_loop_ok r fuel : forall v b, b_err (digit_loop fuel r v b) = OK ->
  digit_loop fuel r v b = appb b (map (dl (b_case b)) (drev fuel r v)).
Proof.
  induction fuel as [|f IH]; intros v b H; cbn [digit_loop drev] in *; [now rewrite appb_nil|].
  destruct (v =? 0); [cbn; now rewrite appb_nil|].
  rewrite IH by exact H. apply digit_loop_err in H.
  rewrite letter_case, (letter_ok _ _ H), appb_app. reflexivity.
Qed.

Lemma fill_loop_err start n fuel : forall b, b_err (fill_loop fuel start n b) = OK -> b_err b = OK.
Proof.
  induction fuel as [|f IH]; intros b H; [exact H|]. cbn [fill_loop] in H.
  destruct ((b_mark b - start <? n) && isOK (b_err b)); [|exact H]. apply IH in H. now apply letter_err in H.
Qed.
Lemma conv_zero k : conv k 48 = 48. Proof. now destruct k as [[|]|]. Qed.
Lemma fill_loop_ok start n fuel : forall b, b_err (fill_loop fuel start n b) = OK ->
  n - (b_mark b - start) <= Z.of_nat fuel ->
  exists m, fill_loop fuel start n b = appb b (repeat 48 m) /\ n <= b_mark b + Z.of_nat m - start /\
    (m <> O -> b_mark b + Z.of_nat m - start = n).
Proof.
  induction fuel as [|f IH]; intros b H F.
  - exists O. cbn. rewrite appb_nil. split; [reflexivity|]. split; [lia|congruence].
  - pose proof (fill_loop_err _ _ _ _ H) as E0. cbn [fill_loop] in *. rewrite E0 in *. cbn [isOK] in *. unfold isOK, err_eqb in *. cbn [err_code Z.eqb] in *.
    rewrite andb_true_r in *. destruct (Z.ltb_spec (b_mark b - start) n) as [L|L].
    + pose proof (fill_loop_err _ _ _ _ H) as E1. pose proof (letter_ok _ _ E1) as EL. rewrite conv_zero in EL.
      rewrite EL in *. destruct (IH _ H) as (m & A & B & C); [rewrite appb_mark; cbn [length]; lia|].
      exists (S m). rewrite A, appb_app. cbn [repeat app]. rewrite appb_mark in B, C. cbn [length] in *.
      split; [reflexivity|]. split; [lia|]. intros _. destruct m; [|specialize (C ltac:(congruence)); lia].
      lia.
    + exists O. cbn. rewrite appb_nil. split; [reflexivity|]. split; [lia|congruence].
Qed.

Lemma rev_repeat {A} (x : A) n : rev (repeat x n) = repeat x n.
Proof.
  induction n; [reflexivity|]. cbn. rewrite IHn. clear. induction n; [reflexivity|]. cbn. now rewrite IHn.
Qed.
Lemma pos_zeros r n ds : positional r (repeat 48 n ++ ds) = positional r ds.
Proof. unfold positional. rewrite fold_left_app. f_equal. induction n; [reflexivity|]. cbn. exact IHn. Qed.

Definition digits (r : Z) (ds : text) (v : Z) : Prop :=
  ds <> [] /\ Forall (is_digit_in r) ds /\ positional r ds = v.

Lemma Forall_dl r k l : 2 <= r <= 16 -> Forall (fun d => 0 <= d < r) l -> Forall (is_digit_in r) (map (dl k) l).
Proof.
  intros R H. induction H; cbn; constructor; auto. exists x. split; [apply digit_of_dl; lia|lia].
Qed.

(* the shared part of outBin, outOct and outHex *)
Lemma zero_fill_ok r v n b : 2 <= r <= 16 -> 0 <= v -> 1 <= n ->
  b_err (zero_fill (b_mark b) n (out_digits r v b)) = OK ->
  exists l, zero_fill (b_mark b) n (out_digits r v b) = appb b l /\ digits r (rev l) v /\
    n <= Z.of_nat (length l).
Proof.
  intros R V N H. unfold zero_fill in *. pose proof (fill_loop_err _ _ _ _ H) as E. unfold out_digits in *.
  pose proof (digit_loop_ok _ _ _ _ E) as EL. rewrite EL in *.
  destruct (fill_loop_ok _ _ _ _ H) as (m & A & B & C); [rewrite appb_mark; lia|].
  destruct (drev_ok r (b_case b) R (dfuel v) v V) as (D1 & D2 & D3); [right; unfold dfuel; pose proof (Z.log2_nonneg v); lia|].
  fold (dfuel v) in *. rewrite A, appb_app. eexists. split; [reflexivity|]. rewrite appb_mark in B.
  rewrite app_length, repeat_length. split; [|lia].
  rewrite rev_app_distr, rev_repeat. split; [|split].
  - intros E0. apply (f_equal (@length Z)) in E0. rewrite app_length, repeat_length, rev_length in E0. cbn [length] in E0. lia.
  - apply Forall_app. split; [|apply Forall_rev, Forall_dl; auto].
    apply Forall_forall. intros x Hx. apply repeat_spec in Hx. subst. exists 0. split; [reflexivity|lia].
  - rewrite pos_zeros. exact D2.
Qed.

(* the four basic formatters *)
Definition base_ok (f : formatter) (r : Z) : Prop := forall v w b, 0 <= v -> 1 <= w ->
  b_err (f v w b) = OK -> b_err b = OK /\ exists ds, f v w b = appb b ds /\ digits r ds v.

Lemma zf_base r n : 2 <= r <= 16 -> (forall w, 1 <= w -> 1 <= n w) ->
  base_ok (fun v w b => reverse (b_mark b) (zero_fill (b_mark b) (n w) (out_digits r v b))) r.
Proof.
  intros R Hn v w b V W H. pose proof (reverse_err _ _ H) as E.
  split. { apply fill_loop_err in E. now apply digit_loop_err in E. }
  destruct (zero_fill_ok r v (n w) b R V (Hn w W) E) as (l & A & B & _).
  exists (rev l). rewrite A, reverse_appb. auto.
Qed.
Lemma bin_base : base_ok BinFormatter 2.
Proof. apply (zf_base 2 (fun w => w)); lia. Qed.
Lemma oct_base : base_ok OctFormatter 8.
Proof. apply (zf_base 8 (fun w => w / 3 + (if w mod 3 =? 0 then 0 else 1))); [lia|]. intros w W. destruct (Z.eqb_spec (w mod 3) 0); lia. Qed.
Lemma hex_base : base_ok HexFormatter 16.
Proof. apply (zf_base 16 (fun w => w / 4 + (if w mod 4 =? 0 then 0 else 1))); [lia|]. intros w W. destruct (Z.eqb_spec (w mod 4) 0); lia. Qed.

(* decimal: no superfluous leading zero *)
Lemma dec_ok v w b : 0 <= v -> b_err (DecFormatter v w b) = OK ->
  b_err b = OK /\ exists ds, DecFormatter v w b = appb b ds /\ digits 10 ds v /\ (hd 0 ds = 48 -> ds = [48]).
Proof.
  unfold DecFormatter, outDec. intros V H. pose proof (reverse_err _ _ H) as E.
  assert (E0 : b_err (out_digits 10 v b) = OK).
  { destruct (b_mark (out_digits 10 v b) =? b_mark b); [now apply letter_err in E|exact E]. }
  split; [now apply digit_loop_err in E0|].
  unfold out_digits in *. pose proof (digit_loop_ok _ _ _ _ E0) as EL. rewrite EL in *.
  destruct (drev_ok 10 (b_case b) ltac:(lia) (dfuel v) v V) as (D1 & D2 & D3); [right; unfold dfuel; pose proof (Z.log2_nonneg v); lia|].
  fold (dfuel v) in *. rewrite appb_mark in *. rewrite map_length in *.
  destruct (Z.eqb_spec (b_mark b + Z.of_nat (length (drev (dfuel v) 10 v))) (b_mark b)) as [L|L].
  - assert (Z0 : v = 0). { destruct (Z.eq_dec v 0); [auto|]. destruct (D3 n). destruct (drev (dfuel v) 10 v); [contradiction|cbn in L; lia]. }
    assert (N : drev (dfuel v) 10 v = []) by (destruct (drev (dfuel v) 10 v); [auto|cbn in L; lia]).
    rewrite N in *. cbn [map] in *. rewrite appb_nil in *. pose proof (letter_ok _ _ E) as E2. rewrite conv_zero in E2.
    exists [48]. rewrite E2, reverse_appb. split; [reflexivity|]. split; [|auto].
    split; [discriminate|]. split; [constructor; [exists 0; split; [reflexivity|lia]|constructor]|]. subst. reflexivity.
  - eexists. rewrite reverse_appb. split; [reflexivity|]. assert (NZ : v <> 0) by (intros ->; cbn in L; lia).
    destruct (D3 NZ) as (D4 & D5). split; [split; [|split]|].
    + intros E1. apply (f_equal (@length Z)) in E1. rewrite rev_length, map_length in E1. destruct (drev (dfuel v) 10 v); [contradiction|discriminate].
    + apply Forall_rev, Forall_dl; [lia|auto].
    + exact D2.
    + intros HD. exfalso. destruct (exists_last D4) as (l & z & Hl). rewrite Hl in *. rewrite last_last in D5.
      rewrite map_app, rev_app_distr in HD. cbn in HD.
      apply Forall_app in D1. destruct D1 as [_ D1]. inversion D1; subst.
      assert (X : digit_of (dl (b_case b) z) = Some z) by (apply digit_of_dl; lia).
      rewrite HD in X. cbn in X. congruence.
Qed.

(* hexadecimal with suffix: a leading zero before a letter *)
Lemma sufhex_ok suf v w b : 0 <= v -> 1 <= w -> b_err (SuffixHexFormatter suf v w b) = OK ->
  b_err b = OK /\ exists ds, SuffixHexFormatter suf v w b = appb b (ds ++ [conv (b_case b) suf]) /\ digits 16 ds v /\
    is_digit (hd 0 ds) = true.
Proof.
  unfold SuffixHexFormatter, outHex. intros V W H. pose proof (letter_err _ _ H) as E.
  pose proof (reverse_err _ _ E) as E1.
  set (n := w / 4 + (if w mod 4 =? 0 then 0 else 1)) in *.
  assert (N : 1 <= n) by (subst n; destruct (Z.eqb_spec (w mod 4) 0); lia).
  set (b1 := zero_fill (b_mark b) n (out_digits 16 v b)) in *.
  assert (E2 : b_err b1 = OK) by (destruct (57 <? last (b_txt b1) 0); [now apply letter_err in E1|exact E1]).
  split. { subst b1. apply fill_loop_err in E2. now apply digit_loop_err in E2. }
  destruct (zero_fill_ok 16 v n b ltac:(lia) V N E2) as (l & A & (B1 & B2 & B3) & B4). fold b1 in A.
  assert (NE : l <> []) by (destruct l; [cbn in B4; lia|discriminate]).
  destruct (exists_last NE) as (l' & z & ->).
  assert (LAST : last (b_txt b1) 0 = z) by (rewrite A, appb_txt, app_assoc, last_last; reflexivity).
  rewrite LAST in *. rewrite rev_app_distr in *. cbn [rev app] in *.
  inversion_clear B2 as [|? ? Dz B2'].
  destruct Dz as (d & Ed & Ld).
  assert (ZC : is_digit z = negb (57 <? z)).
  { apply digit_cases in Ed. unfold is_digit. lia. }
  destruct (57 <? z) eqn:Z57.
  - pose proof (letter_ok _ _ E1) as E3. rewrite conv_zero in E3.
    exists (48 :: rev (l' ++ [z])). rewrite rev_app_distr. cbn [rev app].
    assert (R : reverse (b_mark b) (letter 48 b1) = appb b (48 :: z :: rev l')).
    { rewrite E3, A, appb_app, reverse_appb. rewrite !rev_app_distr. reflexivity. }
    pose proof (letter_ok _ _ H) as E4. rewrite R in E4. rewrite R, E4, appb_app, appb_case.
    split; [reflexivity|]. split; [|reflexivity]. split; [discriminate|]. split.
    + constructor; [exists 0; split; [reflexivity|lia]|]. constructor; [exists d; auto|auto].
    + rewrite <- B3. apply (pos_zeros 16 1).
  - exists (z :: rev l').
    assert (R : reverse (b_mark b) b1 = appb b (z :: rev l')).
    { rewrite A, reverse_appb, rev_app_distr. reflexivity. }
    pose proof (letter_ok _ _ H) as E4. rewrite R in E4. rewrite R, E4, appb_app, appb_case.
    split; [reflexivity|]. split; [|exact ZC]. split; [discriminate|]. split; [constructor; [exists d; auto|auto]|auto].
Qed.

(* ---------------------------------------------------------------- absolute and sign *)

Lemma land_pow2 v n : 0 <= n -> (Z.land v (2 ^ n) =? 0) = negb (Z.testbit v n).
Proof.
  intros H. destruct (Z.testbit v n) eqn:T.
  - cbn. apply Z.eqb_neq. intros E. apply (f_equal (fun z => Z.testbit z n)) in E.
    rewrite Z.land_spec, T, Z.pow2_bits_true, Z.bits_0 in E by lia. discriminate.
  - cbn. apply Z.eqb_eq. apply Z.bits_inj'. intros m Hm. rewrite Z.land_spec, Z.bits_0.
    destruct (Z.eq_dec m n) as [->|N]; [now rewrite T|]. rewrite Z.pow2_bits_false by lia. apply andb_false_r.
Qed.
Lemma testbit_top v n : 0 <= n -> Z.testbit v n = negb (v mod 2 ^ (n + 1) <? 2 ^ n).
Proof.
  intros H. rewrite <- (Z.mod_pow2_bits_low v (n + 1) n) by lia.
  set (u := v mod 2 ^ (n + 1)).
  assert (B : 0 <= u < 2 ^ (n + 1)) by (apply Z.mod_pos_bound; lia).
  rewrite Z.pow_add_r in B by lia. change (2 ^ 1) with 2 in B. clearbody u.
  rewrite Z.testbit_eqb by lia. assert (P : 0 < 2 ^ n) by lia.
  set (p := 2 ^ n) in *. clearbody p. clear - B P.
  destruct (Z.ltb_spec u p).
  - rewrite Z.div_small by lia. reflexivity.
  - assert (u / p = 1) as -> by (symmetry; apply Z.div_unique with (u - p); lia). reflexivity.
Qed.

Lemma absolute_spec v bits : 0 <= v < 2^32 -> 1 <= Z.abs bits <= 32 ->
  absolute v bits = (shown v bits <? 0, Z.abs (shown v bits)).
Proof.
  intros V B. unfold absolute, shown.
  replace (2 ^ Z.abs bits - 1) with (Z.ones (Z.abs bits)) by (rewrite Z.ones_equiv; lia).
  rewrite Z.land_ones by lia.
  destruct (Z.ltb_spec bits 0) as [N|N].
  - replace (0 <? bits) with false by lia. cbn [andb].
    replace (Z.abs bits) with (- bits) by lia. set (w := - bits) in *.
    rewrite land_pow2, negb_involutive by lia. rewrite (testbit_top v (w - 1)) by lia.
    replace (w - 1 + 1) with w by lia.
    assert (P2 : 2 ^ w = 2 * 2 ^ (w - 1)) by (rewrite <- Z.pow_succ_r by lia; f_equal; lia).
    assert (P : 0 < 2 ^ (w - 1)) by lia.
    assert (DV : (2 ^ w | 2 ^ 32)) by (exists (2 ^ (32 - w)); rewrite <- Z.pow_add_r by lia; f_equal; lia).
    set (u := v mod 2 ^ w).
    assert (U : 0 <= u < 2 ^ w) by (apply Z.mod_pos_bound; lia).
    destruct (Z.ltb_spec u (2 ^ (w - 1))) as [L|L]; cbn [negb].
    + fold u. f_equal; [|lia]. symmetry. apply Z.ltb_ge. lia.
    + replace (u - 2 ^ w <? 0) with true by (symmetry; apply Z.ltb_lt; lia). f_equal.
      rewrite <- (Znumtheory.Zmod_div_mod (2 ^ w) (2 ^ 32)) by (auto; lia).
      replace (Z.abs (u - 2 ^ w)) with (2 ^ w - u) by lia.
      replace (2 ^ 32 - 1 - v + 1) with (2 ^ 32 - v) by ring.
      rewrite Zminus_mod. fold u. rewrite (Znumtheory.Zdivide_mod _ _ DV).
      replace (0 - u) with ((2 ^ w - u) + (-1) * 2 ^ w) by ring.
      rewrite Z.mod_add by lia. apply Z.mod_small. lia.
  - replace (0 <? bits) with true by lia. cbn [andb]. replace (Z.abs bits) with bits by lia.
    assert (0 <= v mod 2 ^ bits) by (apply Z.mod_pos_bound; lia).
    f_equal; lia.
Qed.

Lemma conv_minus k : conv k 45 = 45. Proof. now destruct k as [[|]|]. Qed.

(* a formatter of non-negative numbers whose text the parser reads back *)
Definition fmt_reads (f : formatter) (np : number_parser) (dr : Z) : Prop := forall v w b rest,
  0 <= v < 2^32 -> 1 <= w -> boundary rest -> b_err (f v w b) = OK ->
  b_err b = OK /\ exists t, f v w b = appb b t /\ np (t ++ rest) dr = (OK, mkV V_UNSIGNED v, rest).

Lemma fmt_reads_back f np dr : fmt_reads f np dr -> reads_back (format_signed f) np dr.
Proof.
  intros F val bits b rest V B R H. unfold format_signed in *. rewrite absolute_spec in * by auto.
  assert (S : 0 <= Z.abs (shown val bits) < 2 ^ 32).
  { split; [lia|]. unfold shown. destruct (Z.ltb_spec 0 bits).
    - assert (P : 2 ^ bits <= 2 ^ 32) by (apply Z.pow_le_mono_r; lia).
      assert (0 <= val mod 2 ^ bits < 2 ^ bits) by (apply Z.mod_pos_bound; lia). lia.
    - assert (P : 2 ^ (- bits) <= 2 ^ 32) by (apply Z.pow_le_mono_r; lia).
      assert (0 <= val mod 2 ^ (- bits) < 2 ^ (- bits)) by (apply Z.mod_pos_bound; lia).
      assert (P2 : 2 ^ (- bits) = 2 * 2 ^ (- bits - 1)) by (rewrite <- Z.pow_succ_r by lia; f_equal; lia).
      destruct (Z.ltb_spec (val mod 2 ^ (- bits)) (2 ^ (- bits - 1))); lia. }
  destruct (F _ _ _ rest S (proj1 B) R H) as (E & t & A & P).
  exists t. split; [|exact P]. rewrite A, appb_txt. destruct (shown val bits <? 0).
  - rewrite (letter_ok _ _ E), appb_txt, conv_minus, <- app_assoc. reflexivity.
  - reflexivity.
Qed.

(* ---------------------------------------------------------------- parsing *)

Definition no_digit (r : Z) (rest : text) : Prop := forall c t, rest = c :: t -> ~ is_digit_in r c.

Lemma digit_alnum c d : digit_of c = Some d -> is_alnum c = true.
Proof. intros H. apply digit_cases in H. unfold is_alnum, is_alpha, is_upper, is_lower, is_digit. lia. Qed.
Lemma boundary_no_digit r rest : boundary rest -> no_digit r rest.
Proof.
  intros B c t ->. cbn in B. intros (d & E & _). apply digit_alnum in E. destruct B as [B _]. congruence.
Qed.
Lemma is_digit_r_ok r c : std_radix r -> (is_digit_r r c = true <-> is_digit_in r c).
Proof. exact (valid_digit r c). Qed.
Lemma is_digit_r_false r c : std_radix r -> ~ is_digit_in r c -> is_digit_r r c = false.
Proof. intros R N. destruct (is_digit_r r c) eqn:E; [|reflexivity]. apply is_digit_r_ok in E; [contradiction|auto]. Qed.

Lemma v_read_digits r ds v rest : std_radix r -> digits r ds v -> v < 2^64 -> no_digit r rest ->
  v_read (ds ++ rest) r = (OK, mkV V_UNSIGNED v, rest).
Proof.
  intros R (N & F & P) L B. rewrite v_read_ok by auto. rewrite P. now destruct (Z.ltb_spec v (2^64)); [|lia].
Qed.
Lemma read_from_digits s r ds v rest : std_radix r -> digits r ds v -> v < 2^64 -> no_digit r rest ->
  read_from s (ds ++ rest) r = (OK, mkV V_UNSIGNED v, rest).
Proof. intros. unfold read_from. now rewrite (v_read_digits r ds v) by auto. Qed.

Lemma trim_digits r ds rest : std_radix r -> Forall (is_digit_in r) ds -> no_digit r rest ->
  trimStart (is_digit_r r) (ds ++ rest) = rest.
Proof.
  intros R F N. induction F as [|c ds D F IH]; cbn [app trimStart].
  - destruct rest as [|c t]; [reflexivity|]. cbn. now rewrite is_digit_r_false by (auto; eapply N; eauto).
  - cbn [app trimStart]. rewrite (proj2 (is_digit_r_ok r c R)) by auto. exact IH.
Qed.

(* scanNumberEnd on digits of a smaller radix followed by [rest] *)
Lemma dig_mono r r' c : r <= r' -> is_digit_in r c -> is_digit_in r' c.
Proof. intros L (d & E & H). exists d. split; [auto|lia]. Qed.

Lemma upper_cases x c : to_upper x =? to_upper c = true -> 65 <= c <= 90 -> x = c \/ x = c + 32.
Proof. intros H L. chr. Qed.

Lemma scan_end_no r ds rest suffix : std_radix r -> Forall (is_digit_in r) ds -> no_digit r rest ->
  65 <= suffix <= 90 ->
  (forall c t, rest = c :: t -> c <> suffix /\ c <> suffix + 32) ->
  scanNumberEnd (ds ++ rest) r suffix = None.
Proof.
  intros R F N S H. unfold scanNumberEnd. destruct ((r =? RADIX_2) && _ && _); [reflexivity|].
  destruct (is_digit_r r (peek (ds ++ rest))); [|reflexivity].
  destruct ((r =? RADIX_16) && _); [reflexivity|]. rewrite trim_digits by auto.
  replace (suffix =? 0) with false by lia. destruct rest as [|c t]; [reflexivity|]. cbn.
  destruct (to_upper c =? to_upper suffix) eqn:E; [|reflexivity].
  apply upper_cases in E; [|auto]. destruct (H c t eq_refl). lia.
Qed.

(* what follows the longest run of digits of radix [r] *)
Lemma split_digits r s : std_radix r -> exists ds rest, s = ds ++ rest /\ Forall (is_digit_in r) ds /\ no_digit r rest.
Proof.
  intros R. induction s as [|c s (ds & rest & E & F & N)].
  - exists [], []. split; [reflexivity|]. split; [constructor|]. intros c t H. discriminate.
  - destruct (is_digit_r r c) eqn:D.
    + exists (c :: ds), rest. subst. split; [reflexivity|]. split; [constructor; auto; now apply is_digit_r_ok|auto].
    + exists [], (c :: s). split; [reflexivity|]. split; [constructor|]. intros ? ? [= <- <-] X.
      apply is_digit_r_ok in X; [congruence|auto].
Qed.

Lemma boundary_suffix rest suffix : boundary rest -> 65 <= suffix <= 90 ->
  forall c t, rest = c :: t -> c <> suffix /\ c <> suffix + 32.
Proof.
  intros B S c t ->. cbn in B. destruct B as (B & _). unfold is_alnum, is_alpha, is_upper, is_lower, is_digit in B. lia.
Qed.

Lemma std2 : std_radix 2. Proof. unfold std_radix; auto. Qed.
Lemma std8 : std_radix 8. Proof. unfold std_radix; auto. Qed.
Lemma std10 : std_radix 10. Proof. unfold std_radix; auto. Qed.
Lemma std16 : std_radix 16. Proof. unfold std_radix; auto. Qed.
#[export] Hint Resolve std2 std8 std10 std16 : radix.

(* no number suffix: hexadecimal digits only, followed by a boundary; then the last letter
   decides, so ask that it is none of the suffix letters *)
Definition plain (ds : text) : Prop := Forall (fun c => is_digit c = true) ds.

Lemma plain_in10 ds : plain ds <-> Forall (is_digit_in 10) ds.
Proof.
  unfold plain. split; apply Forall_impl; intros c H.
  - exists (c - 48). unfold digit_of. unfold is_digit in H. rewrite H. split; [reflexivity|lia].
  - destruct H as (d & E & L). apply digit_cases in E. unfold is_digit in *. lia.
Qed.

Lemma scan_plain_none r suffix ds rest : std_radix r -> plain ds -> boundary rest -> 65 <= suffix <= 90 ->
  scanNumberEnd (ds ++ rest) r suffix = None.
Proof.
  intros R P B S.
  destruct (split_digits r ds R) as (d1 & d2 & -> & F & N).
  rewrite <- app_assoc.
  assert (P2 : plain d2) by (apply Forall_app in P; tauto).
  apply scan_end_no; auto.
  - intros c t E. destruct d2 as [|x d2]; cbn in E.
    + exact (boundary_no_digit r rest B c t E).
    + injection E as -> _. eapply N; reflexivity.
  - intros c t E. destruct d2 as [|x d2]; cbn in E.
    + exact (boundary_suffix rest suffix B S c t E).
    + injection E as -> _. inversion P2; subst. unfold is_digit in *. lia.
Qed.
Lemma intel_suffix_plain ds rest : plain ds -> boundary rest -> intel_suffix (ds ++ rest) = (RADIX_NONE, ds ++ rest).
Proof.
  intros P B. unfold intel_suffix, RADIX_16, RADIX_8, RADIX_2, RADIX_10.
  rewrite !scan_plain_none by (auto with radix; lia). reflexivity.
Qed.

(* C style prefixes do not show up in a run of decimal digits *)
Lemma iexpect2_plain x ds rest : plain ds -> boundary rest -> is_alpha x = true -> is_lower x = true ->
  iexpectText [48; x] (ds ++ rest) = None \/ ds = [].
Proof.
  intros P B A L. destruct ds as [|a [|b ds]]; [auto|left|left].
  - cbn [iexpectText app]. destruct (to_lower 48 =? to_lower a); [|reflexivity]. destruct rest as [|c t]; [reflexivity|]. cbn in B.
    destruct (to_lower x =? to_lower c) eqn:E; [|reflexivity]. destruct B as (B & _).
    chr.
  - inversion P as [|? ? Pa P']; inversion P' as [|? ? Pb P'']; subst. cbn [iexpectText app]. destruct (to_lower 48 =? to_lower a); [|reflexivity].
    destruct (to_lower x =? to_lower b) eqn:E; [|reflexivity].
    chr.
Qed.

Lemma cstyle_prefix_plain ds rest dr : plain ds -> ds <> [] -> boundary rest ->
  cstyle_prefix (ds ++ rest) dr =
  if (hd 0 ds =? 48) && is_octal (peek (tl ds)) then (RADIX_8, ds ++ rest)
  else if is_digit_r dr (hd 0 ds) then (dr, ds ++ rest) else (RADIX_NONE, ds ++ rest).
Proof.
  intros P N B. unfold cstyle_prefix.
  destruct (iexpect2_plain 120 ds rest P B eq_refl eq_refl) as [E|E]; [|contradiction]. 
  destruct (iexpect2_plain 98 ds rest P B eq_refl eq_refl) as [E'|E']; [|contradiction].
  change (s2l "0x") with [48; 120]. change (s2l "0b") with [48; 98]. rewrite E, E'.
  destruct ds as [|a ds]; [contradiction|]. cbn [app peek hd tl]. unfold peek_at. cbn [nth].
  assert (O : is_octal (nth 0 (ds ++ rest) 0) = is_octal (peek ds)).
  { destruct ds as [|x ds]; [|reflexivity]. cbn. destruct rest as [|c t]; [reflexivity|]. cbn in B.
    destruct B as (B & _). unfold is_octal. cbn. chr. }
  rewrite O. reflexivity.
Qed.

(* decimal without superfluous zeros, default radix 10 *)
Lemma cstyle_dec ds v rest : digits 10 ds v -> v < 2^64 -> (hd 0 ds = 48 -> ds = [48]) -> boundary rest ->
  np_cstyle (ds ++ rest) 10 = (OK, mkV V_UNSIGNED v, rest).
Proof.
  intros D L Z B. pose proof D as (N & F & _). pose proof (proj2 (plain_in10 ds) F) as P.
  unfold np_cstyle. rewrite cstyle_prefix_plain by auto.
  assert ((hd 0 ds =? 48) && is_octal (peek (tl ds)) = false) as ->.
  { destruct (Z.eqb_spec (hd 0 ds) 48) as [E|E]; [|reflexivity]. rewrite (Z E). reflexivity. }
  assert (is_digit_r 10 (hd 0 ds) = true) as ->.
  { destruct ds; [contradiction|]. inversion F; subst. apply is_digit_r_ok; auto with radix. }
  cbn [Z.eqb]. rewrite (read_from_digits _ 10 ds v) by (auto using boundary_no_digit with radix). reflexivity.
Qed.
Lemma intel_dec ds v rest : digits 10 ds v -> v < 2^64 -> (hd 0 ds = 48 -> ds = [48]) -> boundary rest ->
  np_intel (ds ++ rest) 10 = (OK, mkV V_UNSIGNED v, rest).
Proof.
  intros D L Z B. pose proof D as (N & F & _). pose proof (proj2 (plain_in10 ds) F) as P.
  unfold np_intel. rewrite intel_suffix_plain by auto. cbn [Z.eqb]. now apply cstyle_dec.
Qed.
Lemma in8_plain ds : Forall (is_digit_in 8) ds -> plain ds.
Proof. intros F. apply plain_in10. eapply Forall_impl; [|exact F]. intros c. apply dig_mono. lia. Qed.
Lemma in2_plain ds : Forall (is_digit_in 2) ds -> plain ds.
Proof. intros F. apply plain_in10. eapply Forall_impl; [|exact F]. intros c. apply dig_mono. lia. Qed.

(* plain octal, default radix 8 *)
Lemma intel_oct_plain ds v rest : digits 8 ds v -> v < 2^64 -> boundary rest ->
  np_intel (ds ++ rest) 8 = (OK, mkV V_UNSIGNED v, rest).
Proof.
  intros D L B. pose proof D as (N & F & _). pose proof (in8_plain ds F) as P.
  unfold np_intel. rewrite intel_suffix_plain by auto. cbn [Z.eqb].
  unfold np_cstyle. rewrite cstyle_prefix_plain by auto.
  assert (is_digit_r 8 (hd 0 ds) = true) as ->.
  { destruct ds; [contradiction|]. inversion F; subst. apply is_digit_r_ok; auto with radix. }
  destruct ((hd 0 ds =? 48) && is_octal (peek (tl ds))); cbn [Z.eqb];
    now rewrite (read_from_digits _ 8 ds v) by (auto using boundary_no_digit with radix).
Qed.

(* C style notations *)
Lemma cstyle_oct ds v rest : digits 8 ds v -> v < 2^64 -> boundary rest ->
  forall dr, np_cstyle (48 :: ds ++ rest) dr = (OK, mkV V_UNSIGNED v, rest).
Proof.
  intros D L B dr. pose proof D as (N & F & V).
  assert (D' : digits 8 (48 :: ds) v).
  { split; [discriminate|]. split; [constructor; [exists 0; split; [reflexivity|lia]|auto]|].
    rewrite <- V. apply (pos_zeros 8 1). }
  assert (P : plain (48 :: ds)) by (apply in8_plain, D').
  change (48 :: ds ++ rest) with ((48 :: ds) ++ rest).
  unfold np_cstyle. rewrite cstyle_prefix_plain by (auto; discriminate). cbn [hd tl].
  assert (is_octal (peek ds) = true) as ->.
  { destruct ds as [|c ds]; [contradiction|]. inversion F; subst. destruct H1 as (d & E & X). apply digit_cases in E.
    unfold is_octal. cbn. lia. }
  change (48 =? 48) with true. cbn [andb]. change (RADIX_8 =? RADIX_NONE) with false. cbn iota. change RADIX_8 with 8.
  now rewrite (read_from_digits _ 8 (48 :: ds) v) by (auto using boundary_no_digit with radix).
Qed.
Lemma cstyle_hex ds v rest : digits 16 ds v -> v < 2^64 -> boundary rest ->
  forall dr, np_cstyle (48 :: 120 :: ds ++ rest) dr = (OK, mkV V_UNSIGNED v, rest).
Proof.
  intros D L B dr. unfold np_cstyle, cstyle_prefix. cbn.
  now rewrite (read_from_digits _ 16 ds v) by (auto using boundary_no_digit with radix).
Qed.
Lemma cstyle_bin ds v rest : digits 2 ds v -> v < 2^64 -> boundary rest ->
  forall dr, np_cstyle (48 :: 98 :: ds ++ rest) dr = (OK, mkV V_UNSIGNED v, rest).
Proof.
  intros D L B dr. unfold np_cstyle, cstyle_prefix. cbn.
  now rewrite (read_from_digits _ 2 ds v) by (auto using boundary_no_digit with radix).
Qed.
(* they have no Intel suffix *)
Lemma intel_suffix_0x s : intel_suffix (48 :: 120 :: s) = (RADIX_NONE, 48 :: 120 :: s).
Proof. reflexivity. Qed.
Lemma intel_suffix_0b ds v rest : digits 2 ds v -> boundary rest ->
  intel_suffix (48 :: 98 :: ds ++ rest) = (RADIX_NONE, 48 :: 98 :: ds ++ rest).
Proof.
  intros (N & F & V) B. unfold intel_suffix.
  assert (scanNumberEnd (48 :: 98 :: ds ++ rest) RADIX_16 72 = None) as ->.
  { change (48 :: 98 :: ds ++ rest) with ((48 :: 98 :: ds) ++ rest). unfold RADIX_16.
    apply scan_end_no; auto using boundary_no_digit with radix; [|lia|now apply boundary_suffix; auto; lia].
    constructor; [exists 0; split; [reflexivity|lia]|]. constructor; [exists 11; split; [reflexivity|lia]|].
    eapply Forall_impl; [|exact F]. intros c. apply dig_mono. lia. }
  assert (is_binary (peek (ds ++ rest)) = true).
  { destruct ds as [|c ds]; [contradiction|]. inversion F; subst. destruct H1 as (d & E & X). apply digit_cases in E.
    unfold is_binary. cbn. lia. }
  assert (scanNumberEnd (48 :: 98 :: ds ++ rest) RADIX_2 66 = None) as ->.
  { unfold scanNumberEnd. match goal with |- (if ?c then _ else _) = _ => assert (c = true) as -> end; [exact H|reflexivity]. }
  reflexivity.
Qed.

(* Intel notations *)
Lemma scan_end_yes r ds rest suffix c0 : std_radix r -> Forall (is_digit_in r) ds -> ds <> [] ->
  (r = 16 -> is_digit (hd 0 ds) = true) -> (r = 2 -> suffix <> 66 \/ is_binary (peek rest) = false) ->
  65 <= suffix <= 90 -> to_upper c0 = suffix -> ~ is_digit_in r c0 ->
  scanNumberEnd (ds ++ c0 :: rest) r suffix = Some rest.
Proof.
  intros R F N H16 H2 S U ND. unfold scanNumberEnd.
  assert (SU : to_upper suffix = suffix) by chr.
  assert (C : (r =? RADIX_2) && (suffix =? 66) &&
     match expect_char 48 (ds ++ c0 :: rest) with
     | Some p => match iexpect 66 p with Some q => is_binary (peek q) | None => false end
     | None => false end = false).
  { destruct (Z.eqb_spec r RADIX_2) as [->|]; [|reflexivity]. destruct (Z.eqb_spec suffix 66) as [->|]; [|reflexivity].
    destruct (H2 eq_refl) as [X|X]; [contradiction|]. cbn [andb].
    destruct ds as [|a [|b ds]]; [contradiction| |].
    - cbn [app expect_char]. destruct (a =? 48); [|reflexivity]. cbn [iexpect].
      destruct (to_upper c0 =? to_upper 66); [exact X|reflexivity].
    - cbn [app expect_char]. destruct (a =? 48); [|reflexivity]. cbn [iexpect]. inversion F as [|? ? _ F']; inversion F' as [|? ? Db _]; subst.
      destruct Db as (d & E & L). apply digit_cases in E. unfold RADIX_2 in L.
      replace (to_upper b =? to_upper 66) with false by chr. reflexivity. }
  rewrite C. destruct ds as [|a ds]; [contradiction|]. pose proof (Forall_inv F) as Da.
  cbn [app peek]. rewrite (proj2 (is_digit_r_ok r a R) Da).
  assert ((r =? RADIX_16) && negb (is_digit_r RADIX_10 a) = false) as ->.
  { destruct (Z.eqb_spec r RADIX_16) as [->|]; [|reflexivity]. cbn [andb]. specialize (H16 eq_refl). cbn in H16.
    change (is_digit_r RADIX_10 a) with ((48 <=? a) && (a <? 58)). unfold is_digit in H16. lia. }
  change (a :: ds ++ c0 :: rest) with ((a :: ds) ++ c0 :: rest).
  rewrite (trim_digits r (a :: ds) (c0 :: rest)) by (auto; intros ? ? [= <- <-]; auto).
  replace (suffix =? 0) with false by lia. cbn [iexpect]. rewrite SU, U, Z.eqb_refl. reflexivity.
Qed.

Lemma conv_upper k c : 65 <= c <= 90 -> conv k c = c \/ conv k c = c + 32.
Proof. intros H. destruct k as [[|]|]; cbn; chr. Qed.
Lemma conv_upper' k c : 65 <= c <= 90 -> to_upper (conv k c) = c.
Proof. intros H. destruct k as [[|]|]; cbn; chr. Qed.
Lemma conv_lower' k c : 97 <= c <= 122 -> to_upper (conv k c) = c - 32.
Proof. intros H. destruct k as [[|]|]; cbn; chr. Qed.

Lemma boundary_binary rest : boundary rest -> is_binary (peek rest) = false.
Proof. destruct rest as [|c t]; [reflexivity|]. cbn. intros (B & _). unfold is_binary. chr. Qed.

(* a letter that is no suffix letter stops scanNumberEnd *)
Lemma scan_end_other r ds c0 rest suffix : std_radix r -> Forall (is_digit_in r) ds -> 65 <= suffix <= 90 ->
  ~ is_digit_in r c0 -> to_upper c0 <> suffix -> scanNumberEnd (ds ++ c0 :: rest) r suffix = None.
Proof.
  intros R F S N U. apply scan_end_no; auto.
  - intros ? ? [= <- <-]. exact N.
  - intros ? ? [= <- <-]. chr.
Qed.
Lemma not_digit_letter r c : r <= 16 -> 71 <= to_upper c -> to_upper c <= 90 -> ~ is_digit_in r c.
Proof. intros R L U (d & E & X). apply digit_cases in E. chr. Qed.
Lemma not_digit_low r c : r <= 10 -> 65 <= to_upper c -> ~ is_digit_in r c.
Proof. intros R L (d & E & X). apply digit_cases in E. chr. Qed.

Lemma intel_hex ds v h rest : digits 16 ds v -> v < 2^64 -> is_digit (hd 0 ds) = true -> to_upper h = 72 ->
  forall dr, np_intel (ds ++ h :: rest) dr = (OK, mkV V_UNSIGNED v, rest).
Proof.
  intros D L Z H dr. pose proof D as (N & F & V).
  assert (NH : ~ is_digit_in 16 h) by (apply not_digit_letter; lia).
  unfold np_intel, intel_suffix. unfold RADIX_16 at 1.
  rewrite (scan_end_yes 16 ds rest 72 h) by (auto with radix; lia).
  cbn [Z.eqb]. unfold intel_read. change RADIX_16 with 16.
  rewrite (v_read_digits 16 ds v) by (auto with radix; intros ? ? [= <- <-]; auto). reflexivity.
Qed.
Lemma intel_oct ds v h rest : digits 8 ds v -> v < 2^64 -> to_upper h = 81 ->
  forall dr, np_intel (ds ++ h :: rest) dr = (OK, mkV V_UNSIGNED v, rest).
Proof.
  intros D L H dr. pose proof D as (N & F & V).
  assert (NH : ~ is_digit_in 16 h) by (apply not_digit_letter; lia).
  assert (NH8 : ~ is_digit_in 8 h) by (apply not_digit_letter; lia).
  assert (F16 : Forall (is_digit_in 16) ds) by (eapply Forall_impl; [|exact F]; intros c; apply dig_mono; lia).
  unfold np_intel, intel_suffix, RADIX_16, RADIX_8.
  rewrite (scan_end_other 16) by (auto with radix; lia).
  rewrite (scan_end_other 8) by (auto with radix; lia).
  rewrite (scan_end_yes 8 ds rest 81 h) by (auto with radix; lia).
  cbn [Z.eqb]. unfold intel_read.
  rewrite (v_read_digits 8 ds v) by (auto with radix; intros ? ? [= <- <-]; auto). reflexivity.
Qed.
Lemma intel_bin ds v h rest : digits 2 ds v -> v < 2^64 -> to_upper h = 66 -> boundary rest ->
  forall dr, np_intel (ds ++ h :: rest) dr = (OK, mkV V_UNSIGNED v, rest).
Proof.
  intros D L H B dr. pose proof D as (N & F & V).
  assert (NH8 : ~ is_digit_in 8 h) by (apply not_digit_low; lia).
  assert (NH2 : ~ is_digit_in 2 h) by (apply not_digit_low; lia).
  assert (DH : is_digit_in 16 h) by (exists 11; split; [|lia]; assert (h = 66 \/ h = 98) as [-> | ->] by chr; reflexivity).
  assert (F16 : Forall (is_digit_in 16) (ds ++ [h])).
  { apply Forall_app. split; [|constructor; auto]. eapply Forall_impl; [|exact F]; intros c; apply dig_mono; lia. }
  assert (F8 : Forall (is_digit_in 8) ds) by (eapply Forall_impl; [|exact F]; intros c; apply dig_mono; lia).
  unfold np_intel, intel_suffix, RADIX_16, RADIX_8, RADIX_2.
  replace (scanNumberEnd (ds ++ h :: rest) 16 72) with (@None text).
  2:{ symmetry. change (h :: rest) with ([h] ++ rest). rewrite app_assoc.
      apply scan_end_no; auto using boundary_no_digit with radix; [lia|apply boundary_suffix; auto; lia]. }
  rewrite !(scan_end_other 8) by (auto with radix; lia).
  rewrite (scan_end_yes 2 ds rest 66 h) by (auto using boundary_binary with radix; lia).
  cbn [Z.eqb]. unfold intel_read.
  rewrite (v_read_digits 2 ds v) by (auto with radix; intros ? ? [= <- <-]; auto). reflexivity.
Qed.
