From Coq Require Import ZArith Zpow_facts List Bool Lia ZifyBool.
From Verif Require Import M_Char M_Error M_Value S_Value.
Import ListNotations.
Local Open Scope Z_scope.
Ltac Zify.zify_post_hook ::= Z.div_mod_to_equations.

Lemma int_cases v : int_value v ->
  (isInteger v = true /\ isUnsigned v = true /\ isSigned v = false /\ isNegative v = false /\
     0 <= v_bits v < 2^64 /\ int_of v = v_bits v) \/
  (isInteger v = true /\ isUnsigned v = false /\ isSigned v = true /\ isNegative v = true /\
     2^63 <= v_bits v < 2^64 /\ int_of v = v_bits v - 2^64 /\ v_signed v = v_bits v - 2^64 /\
     isUndefined v = false).
Proof.
  unfold int_value, isInteger, isUnsigned, isSigned, isNegative, isFloat, int_of, v_signed, s64, isUndefined, isSigned.
  destruct v as [[] b]; cbn [v_type v_bits]; intros H; try contradiction; cbn [negb andb].
  - left; lia.
  - left; lia.
  - right. destruct (Z.ltb_spec b (2^63)); [lia|]. lia.
Qed.

Lemma setU_ok u : 0 <= u < 2^64 -> denotes (Some (setU u)) u.
Proof.
  intros H. exists (setU u). unfold setU, u64, int_value, int_of. cbn [v_type v_bits].
  rewrite Z.mod_small by lia. auto.
Qed.
Lemma setU_ok2 u : 0 <= u < 2^64 -> int_value (setU u) /\ int_of (setU u) = u.
Proof.
  intros H. unfold setU, u64, int_value, int_of. cbn [v_type v_bits].
  rewrite Z.mod_small by lia. auto.
Qed.
Lemma setS_ok s : - 2^63 <= s < 2^63 -> denotes (Some (setS s)) s.
Proof.
  intros H. unfold setS. destruct (Z.leb_spec 0 s); [apply setU_ok; lia|].
  exists (mkV V_SIGNED (u64 s)). unfold int_value, int_of, u64. cbn [v_type v_bits]. split; [reflexivity|].
  assert (s mod 2^64 = s + 2^64) by lia. lia.
Qed.
Lemma setNeg_ok u : 0 <= u < 2^63 -> denotes (setNeg u) (- u).
Proof.
  intros H. unfold setNeg, s64, neg64. destruct (Z.ltb_spec u (2^63)); [|lia].
  destruct (Z.eqb_spec u (- 2^63)); [lia|]. cbn [option_map]. apply setS_ok. lia.
Qed.

Lemma absolute_ok v : int_value v -> int_of v <> - 2^63 -> v_absolute v = Some (Z.abs (int_of v)).
Proof.
  intros H N. unfold v_absolute.
  destruct (int_cases v H) as [(A & B & C & D & E & F)|(A & B & C & D & E & F & G & U)]; rewrite D.
  - rewrite F in *. f_equal. lia.
  - unfold neg64. rewrite G. destruct (Z.eqb_spec (v_bits v - 2^64) (- 2^63)); [lia|].
    cbn [option_map]. f_equal. unfold u64. rewrite Z.mod_small by lia. lia.
Qed.

Lemma neg_flag v : int_value v -> isNegative v = (int_of v <? 0).
Proof. intros H. destruct (int_cases v H) as [(A & B & C & D & E & F)|(A & B & C & D & E & F & G & U)]; rewrite D; lia. Qed.
Lemma int_flag v : int_value v -> isInteger v = true.
Proof. intros H. destruct (int_cases v H) as [(A & _)|(A & _)]; exact A. Qed.
Lemma int_range v : int_value v -> representable (int_of v).
Proof. intros H. unfold representable. destruct (int_cases v H) as [(A & B & C & D & E & F)|(A & B & C & D & E & F & G & U)]; lia. Qed.

Lemma v_neg_ok v : int_value v -> - 2^63 < int_of v < 2^63 -> denotes (v_neg v) (- int_of v).
Proof.
  intros H R. unfold v_neg. rewrite int_flag by auto.
  destruct (int_cases v H) as [(A & B & C & D & E & F)|(A & B & C & D & E & F & G & U)]; rewrite D.
  - rewrite F in *. apply (setNeg_ok (v_bits v)). lia.
  - unfold neg64. rewrite G. destruct (Z.eqb_spec (v_bits v - 2^64) (- 2^63)); [lia|].
    cbn [option_map]. rewrite F. unfold u64. rewrite Z.mod_small by lia. apply setU_ok. lia.
Qed.

Lemma v_add_ok a b : int_value a -> int_value b -> int_of a <> - 2^63 -> int_of b <> - 2^63 ->
  - 2^63 < int_of a + int_of b < 2^64 -> denotes (v_add a b) (int_of a + int_of b).
Proof.
  intros Ha Hb Na Nb R. unfold v_add. rewrite !int_flag by auto. cbn [andb].
  rewrite !absolute_ok by auto. rewrite !neg_flag by auto.
  pose proof (int_range a Ha) as Ra. pose proof (int_range b Hb) as Rb. unfold representable in *.
  unfold u64.
  destruct (Z.ltb_spec (int_of a) 0); destruct (Z.ltb_spec (int_of b) 0); cbn [Bool.eqb].
  - rewrite Z.mod_small by lia. replace (int_of a + int_of b) with (- (Z.abs (int_of a) + Z.abs (int_of b))) by lia.
    apply setNeg_ok. lia.
  - destruct (Z.leb_spec (Z.abs (int_of b)) (Z.abs (int_of a))).
    + rewrite Z.mod_small by lia. replace (int_of a + int_of b) with (- (Z.abs (int_of a) - Z.abs (int_of b))) by lia.
      apply setNeg_ok. lia.
    + rewrite Z.mod_small by lia. replace (int_of a + int_of b) with (Z.abs (int_of b) - Z.abs (int_of a)) by lia.
      apply setU_ok. lia.
  - destruct (Z.leb_spec (Z.abs (int_of b)) (Z.abs (int_of a))).
    + rewrite Z.mod_small by lia. replace (int_of a + int_of b) with (Z.abs (int_of a) - Z.abs (int_of b)) by lia.
      apply setU_ok. lia.
    + rewrite Z.mod_small by lia. replace (int_of a + int_of b) with (- (Z.abs (int_of b) - Z.abs (int_of a))) by lia.
      apply setNeg_ok. lia.
  - rewrite Z.mod_small by lia. replace (int_of a + int_of b) with (Z.abs (int_of a) + Z.abs (int_of b)) by lia.
    apply setU_ok. lia.
Qed.

Lemma v_sub_ok a b : int_value a -> int_value b -> int_of a <> - 2^63 -> int_of b <> - 2^63 ->
  int_of b <> 2^63 -> (2^63 < int_of b -> int_of b <= int_of a) ->
  - 2^63 < int_of a - int_of b < 2^64 -> denotes (v_sub a b) (int_of a - int_of b).
Proof.
  intros Ha Hb Na Nb Nb2 G R. unfold v_sub.
  pose proof (int_range a Ha) as Ra. pose proof (int_range b Hb) as Rb. unfold representable in *.
  destruct (Z.lt_ge_cases (int_of b) (2^63)) as [L|L].
  - destruct (v_neg_ok b Hb) as (nb & -> & In & En); [lia|].
    replace (int_of a - int_of b) with (int_of a + int_of nb) by lia.
    apply v_add_ok; auto; lia.
  - (* -b wraps to 2^64-b, and the unsigned sum wraps back *)
    assert (NB : v_neg b = Some (setU (2^64 - int_of b))).
    { unfold v_neg. rewrite int_flag by auto.
      destruct (int_cases b Hb) as [(A & B & C & D & E & F)|(A & B & C & D & E & F & _)]; [|lia]. rewrite D.
      unfold s64. destruct (Z.ltb_spec (v_bits b) (2^63)); [lia|].
      unfold neg64. destruct (Z.eqb_spec (v_bits b - 2^64) (- 2^63)); [lia|]. cbn [option_map].
      unfold setS. destruct (Z.leb_spec 0 (- (v_bits b - 2^64))); [|lia]. do 2 f_equal. lia. }
    rewrite NB. destruct (setU_ok2 (2^64 - int_of b)) as (In & En); [lia|].
    unfold v_add. rewrite !int_flag by auto. cbn [andb]. rewrite !absolute_ok by (auto; lia).
    rewrite !neg_flag by auto. rewrite En.
    destruct (Z.ltb_spec (int_of a) 0); [lia|]. destruct (Z.ltb_spec (2^64 - int_of b) 0); [lia|]. cbn [Bool.eqb].
    unfold u64. rewrite !Z.abs_eq by lia.
    replace ((int_of a + (2 ^ 64 - int_of b)) mod 2 ^ 64) with (int_of a - int_of b).
    + apply setU_ok. lia.
    + replace (int_of a + (2 ^ 64 - int_of b)) with (int_of a - int_of b + 1 * 2^64) by lia.
      rewrite Z.mod_add by lia. symmetry. apply Z.mod_small. lia.
Qed.

Lemma v_mul_ok a b : int_value a -> int_value b -> int_of a <> - 2^63 -> int_of b <> - 2^63 ->
  - 2^63 < int_of a * int_of b < 2^64 -> denotes (v_mul a b) (int_of a * int_of b).
Proof.
  intros Ha Hb Na Nb R. unfold v_mul. rewrite !int_flag by auto. cbn [andb].
  rewrite !absolute_ok by auto. rewrite !neg_flag by auto. unfold u64.
  rewrite <- Z.abs_mul.
  destruct (Z.ltb_spec (int_of a) 0); destruct (Z.ltb_spec (int_of b) 0); cbn [Bool.eqb].
  - rewrite Z.abs_eq by nia. rewrite Z.mod_small by nia. apply setU_ok. nia.
  - rewrite Z.abs_neq by nia. rewrite Z.mod_small by nia.
    replace (int_of a * int_of b) with (- - (int_of a * int_of b)) at 2 by lia. apply setNeg_ok. nia.
  - rewrite Z.abs_neq by nia. rewrite Z.mod_small by nia.
    replace (int_of a * int_of b) with (- - (int_of a * int_of b)) at 2 by lia. apply setNeg_ok. nia.
  - rewrite Z.abs_eq by nia. rewrite Z.mod_small by nia. apply setU_ok. nia.
Qed.

Lemma zero_flag b : int_value b -> int_of b <> 0 -> isZero b || isUndefined b = false.
Proof.
  intros H N. unfold isZero. destruct (isUndefined b) eqn:U.
  - unfold isUndefined, int_value, int_of in *. destruct b as [[] x]; cbn in *; try discriminate. lia.
  - rewrite orb_false_r.
    destruct (int_cases b H) as [(A & B & C & D & E & F)|(A & B & C & D & E & F & G & _)]; lia.
Qed.

Lemma v_div_ok a b : int_value a -> int_value b -> int_of a <> - 2^63 -> int_of b <> - 2^63 ->
  int_of b <> 0 -> - 2^63 < Z.quot (int_of a) (int_of b) -> denotes (v_div a b) (Z.quot (int_of a) (int_of b)).
Proof.
  intros Ha Hb Na Nb Nz R. unfold v_div. rewrite zero_flag by auto. rewrite !int_flag by auto. cbn [andb].
  rewrite !absolute_ok by auto. rewrite !neg_flag by auto.
  pose proof (int_range a Ha) as Ra. unfold representable in *.
  assert (Q : Z.abs (int_of a) / Z.abs (int_of b) = Z.abs (Z.quot (int_of a) (int_of b))).
  { rewrite <- Z.quot_abs by auto. symmetry. apply Z.quot_div_nonneg; lia. }
  assert (QB : 0 <= Z.abs (int_of a) / Z.abs (int_of b) <= Z.abs (int_of a)).
  { split; [apply Z.div_pos; lia|]. apply Z.div_le_upper_bound; nia. }
  destruct (Z.ltb_spec (int_of a) 0); destruct (Z.ltb_spec (int_of b) 0); cbn [Bool.eqb].
  - assert (0 <= Z.quot (int_of a) (int_of b)).
    { rewrite <- (Z.opp_involutive (int_of a)), <- (Z.opp_involutive (int_of b)).
      rewrite Z.quot_opp_opp by lia. apply Z.quot_pos; lia. }
    rewrite Q in *. rewrite Z.abs_eq in * by lia. apply setU_ok. lia.
  - assert (Z.quot (int_of a) (int_of b) <= 0).
    { rewrite <- (Z.opp_involutive (int_of a)). rewrite Z.quot_opp_l by lia.
      pose proof (Z.quot_pos (- int_of a) (int_of b)). lia. }
    rewrite Q in *. rewrite Z.abs_neq in * by lia.
    replace (int_of a ÷ int_of b) with (- - (int_of a ÷ int_of b)) at 2 by lia. apply setNeg_ok. lia.
  - assert (Z.quot (int_of a) (int_of b) <= 0).
    { rewrite <- (Z.opp_involutive (int_of b)). rewrite Z.quot_opp_r by lia.
      pose proof (Z.quot_pos (int_of a) (- int_of b)). lia. }
    rewrite Q in *. rewrite Z.abs_neq in * by lia.
    replace (int_of a ÷ int_of b) with (- - (int_of a ÷ int_of b)) at 2 by lia. apply setNeg_ok. lia.
  - assert (0 <= Z.quot (int_of a) (int_of b)) by (apply Z.quot_pos; lia).
    rewrite Q in *. rewrite Z.abs_eq in * by lia. apply setU_ok. lia.
Qed.

Lemma v_mod_ok a b : int_value a -> int_value b -> int_of a <> - 2^63 -> int_of b <> - 2^63 ->
  int_of b <> 0 -> denotes (v_mod a b) (Z.rem (int_of a) (int_of b)).
Proof.
  intros Ha Hb Na Nb Nz. unfold v_mod. rewrite zero_flag by auto. rewrite !int_flag by auto. cbn [andb].
  rewrite !absolute_ok by auto. rewrite !neg_flag by auto.
  pose proof (int_range a Ha) as Ra. unfold representable in *.
  assert (Q : Z.abs (int_of a) mod Z.abs (int_of b) = Z.abs (Z.rem (int_of a) (int_of b))).
  { rewrite <- Z.rem_abs by auto. symmetry. apply Z.rem_mod_nonneg; lia. }
  assert (QB : 0 <= Z.abs (int_of a) mod Z.abs (int_of b) <= Z.abs (int_of a)).
  { split; [apply Z.mod_pos_bound; lia|]. apply Z.mod_le; lia. }
  destruct (Z.ltb_spec (int_of a) 0).
  - assert (Z.rem (int_of a) (int_of b) <= 0).
    { rewrite <- (Z.opp_involutive (int_of a)). rewrite Z.rem_opp_l by lia.
      pose proof (Z.rem_nonneg (- int_of a) (int_of b)). lia. }
    rewrite Q in *. rewrite Z.abs_neq in * by lia.
    replace (Z.rem (int_of a) (int_of b)) with (- - (Z.rem (int_of a) (int_of b))) at 2 by lia. apply setNeg_ok. lia.
  - assert (0 <= Z.rem (int_of a) (int_of b)) by (apply Z.rem_nonneg; lia).
    rewrite Q in *. rewrite Z.abs_eq in * by lia. apply setU_ok. lia.
Qed.

(* ---- bitwise ---- *)
Lemma s64_bits v : int_value v -> int_of v < 2^63 -> s64 (v_bits v) = int_of v.
Proof.
  intros H R. unfold s64. destruct (int_cases v H) as [(A & B & C & D & E & F)|(A & B & C & D & E & F & G & U)];
  destruct (Z.ltb_spec (v_bits v) (2^63)); lia.
Qed.
Lemma bits_mod v : int_value v -> v_bits v = int_of v mod 2^64.
Proof. intros H. destruct (int_cases v H) as [(A & B & C & D & E & F)|(A & B & C & D & E & F & G & U)]; rewrite F; lia. Qed.

Lemma v_lnot_ok v : int_value v -> int_of v < 2^63 -> denotes (Some (v_lnot v)) (Z.lnot (int_of v)).
Proof.
  intros H R. unfold v_lnot. rewrite int_flag by auto. unfold Z.lnot.
  pose proof (int_range v H) as Rv. unfold representable in *.
  replace (s64 (2^64 - 1 - v_bits v)) with (- int_of v - 1).
  - replace (Z.pred (- int_of v)) with (- int_of v - 1) by lia. apply setS_ok. lia.
  - unfold s64. destruct (int_cases v H) as [(A & B & C & D & E & F)|(A & B & C & D & E & F & G & U)];
    destruct (Z.ltb_spec (2^64 - 1 - v_bits v) (2^63)); lia.
Qed.

Definition in63 z := - 2^63 <= z < 2^63.
Lemma in63_bits z : in63 z <-> (forall i, 63 <= i -> Z.testbit z i = Z.testbit z 63).
Proof.
  unfold in63. split.
  - intros H i Hi. destruct (Z.lt_ge_cases z 0).
    + assert (Z.testbit (Z.lnot z) i = false /\ Z.testbit (Z.lnot z) 63 = false) as [P Q].
      { assert (0 <= Z.lnot z < 2^63) by (unfold Z.lnot; lia).
        rewrite <- (Z.mod_small (Z.lnot z) (2^63)) by lia. split; apply Z.mod_pow2_bits_high; lia. }
      rewrite Z.lnot_spec in P, Q by lia. destruct (Z.testbit z i), (Z.testbit z 63); cbn in *; congruence.
    + rewrite <- (Z.mod_small z (2^63)) by lia. rewrite !Z.mod_pow2_bits_high by lia. reflexivity.
  - intros H. assert (E : Z.shiftr z 63 = if Z.testbit z 63 then -1 else 0).
    { apply Z.bits_inj'. intros n Hn. rewrite Z.shiftr_spec by lia. rewrite H by lia.
      destruct (Z.testbit z 63); [rewrite Z.bits_m1 by lia|rewrite Z.bits_0]; reflexivity. }
    rewrite Z.shiftr_div_pow2 in E by lia. destruct (Z.testbit z 63); lia.
Qed.

Lemma in63_land a b : in63 a -> in63 b -> in63 (Z.land a b).
Proof. rewrite !in63_bits. intros A B i Hi. rewrite !Z.land_spec. rewrite A, B by auto. reflexivity. Qed.
Lemma in63_lor a b : in63 a -> in63 b -> in63 (Z.lor a b).
Proof. rewrite !in63_bits. intros A B i Hi. rewrite !Z.lor_spec. rewrite A, B by auto. reflexivity. Qed.
Lemma in63_lxor a b : in63 a -> in63 b -> in63 (Z.lxor a b).
Proof. rewrite !in63_bits. intros A B i Hi. rewrite !Z.lxor_spec. rewrite A, B by auto. reflexivity. Qed.

Lemma s64_mod z : in63 z -> s64 (z mod 2^64) = z.
Proof. unfold in63, s64. intros H. destruct (Z.ltb_spec (z mod 2^64) (2^63)); lia. Qed.

Lemma land_mod a b : Z.land (a mod 2^64) (b mod 2^64) = Z.land a b mod 2^64.
Proof.
  apply Z.bits_inj'. intros n Hn. rewrite Z.land_spec, !Z.testbit_mod_pow2, Z.land_spec by lia.
  destruct (n <? 64); reflexivity.
Qed.
Lemma lor_mod a b : Z.lor (a mod 2^64) (b mod 2^64) = Z.lor a b mod 2^64.
Proof.
  apply Z.bits_inj'. intros n Hn. rewrite Z.lor_spec, !Z.testbit_mod_pow2, Z.lor_spec by lia.
  destruct (n <? 64); reflexivity.
Qed.
Lemma lxor_mod a b : Z.lxor (a mod 2^64) (b mod 2^64) = Z.lxor a b mod 2^64.
Proof.
  apply Z.bits_inj'. intros n Hn. rewrite Z.lxor_spec, !Z.testbit_mod_pow2, Z.lxor_spec by lia.
  destruct (n <? 64); reflexivity.
Qed.

Lemma v_and_ok a b : int_value a -> int_value b -> int_of a < 2^63 -> int_of b < 2^63 ->
  denotes (Some (v_and a b)) (Z.land (int_of a) (int_of b)).
Proof.
  intros Ha Hb Ra Rb. unfold v_and. rewrite !int_flag by auto. cbn [andb].
  pose proof (int_range a Ha). pose proof (int_range b Hb). unfold representable in *.
  rewrite (bits_mod a), (bits_mod b) by auto. rewrite land_mod.
  assert (in63 (Z.land (int_of a) (int_of b))) by (apply in63_land; unfold in63; lia).
  rewrite s64_mod by auto. apply setS_ok. auto.
Qed.
Lemma v_or_ok a b : int_value a -> int_value b -> int_of a < 2^63 -> int_of b < 2^63 ->
  denotes (Some (v_or a b)) (Z.lor (int_of a) (int_of b)).
Proof.
  intros Ha Hb Ra Rb. unfold v_or. rewrite !int_flag by auto. cbn [andb].
  pose proof (int_range a Ha). pose proof (int_range b Hb). unfold representable in *.
  rewrite (bits_mod a), (bits_mod b) by auto. rewrite lor_mod.
  assert (in63 (Z.lor (int_of a) (int_of b))) by (apply in63_lor; unfold in63; lia).
  rewrite s64_mod by auto. apply setS_ok. auto.
Qed.
Lemma v_xor_ok a b : int_value a -> int_value b -> int_of a < 2^63 -> int_of b < 2^63 ->
  denotes (Some (v_xor a b)) (Z.lxor (int_of a) (int_of b)).
Proof.
  intros Ha Hb Ra Rb. unfold v_xor. rewrite !int_flag by auto. cbn [andb].
  pose proof (int_range a Ha). pose proof (int_range b Hb). unfold representable in *.
  rewrite (bits_mod a), (bits_mod b) by auto. rewrite lxor_mod.
  assert (in63 (Z.lxor (int_of a) (int_of b))) by (apply in63_lxor; unfold in63; lia).
  rewrite s64_mod by auto. apply setS_ok. auto.
Qed.

Lemma v_shr_ok a b : int_value a -> int_value b -> 0 <= int_of b < 2^32 ->
  denotes (Some (v_shr a b)) (int_of a / 2 ^ int_of b).
Proof.
  intros Ha Hb R. unfold v_shr, getUnsigned. rewrite !int_flag by auto. cbn [andb].
  rewrite (bits_mod b) by auto. replace ((int_of b mod 2^64) mod 2^32) with (int_of b) by lia.
  pose proof (int_range a Ha) as Ra. unfold representable in *.
  assert (P : 0 < 2 ^ int_of b) by (apply Z.pow_pos_nonneg; lia).
  destruct (Z.leb_spec 64 (int_of b)).
  - assert (P2 : 2^64 <= 2 ^ int_of b) by (apply Z.pow_le_mono_r; lia).
    destruct (int_cases a Ha) as [(A & B & C & D & E & F)|(A & B & C & D & E & F & G & U)]; rewrite C; cbn [andb].
    + rewrite Z.div_small by lia. apply setU_ok. lia.
    + rewrite D. replace (int_of a / 2 ^ int_of b) with (-1) by nia. apply setS_ok. lia.
  - destruct (int_cases a Ha) as [(A & B & C & D & E & F)|(A & B & C & D & E & F & G & U)]; rewrite D.
    + rewrite Z.shiftr_div_pow2 by lia. rewrite F. apply setU_ok.
      split; [apply Z.div_pos; lia|]. apply Z.div_lt_upper_bound; nia.
    + rewrite Z.shiftr_div_pow2 by lia. rewrite G, F. apply setS_ok. split.
      * apply Z.div_le_lower_bound; nia.
      * apply Z.div_lt_upper_bound; nia.
Qed.

(* ---- exponential ---- *)
Lemma pow_loop_u p : forall prod base, exists r, power_loop mulU prod base p = Some r /\
  (0 <= r < 2^64) /\ r mod 2^64 = (prod * base ^ Zpos p) mod 2^64.
Proof.
  induction p as [p IH|p IH|]; intros prod base; cbn [power_loop mulU].
  - destruct (IH (u64 (prod * base)) (u64 (base * base))) as (r & -> & R & E). exists r. split; [reflexivity|].
    split; [exact R|]. rewrite E. rewrite (Pos2Z.inj_xI p). rewrite Z.pow_add_r, Z.pow_mul_r by lia. unfold u64.
    rewrite Z.mul_mod_idemp_l by lia. rewrite Z.pow_1_r, Z.pow_2_r.
    rewrite <- (Z.mul_mod_idemp_r (prod * base)) by lia. rewrite Zpower_mod by lia.
    rewrite Z.mod_mod by lia. rewrite <- Zpower_mod by lia. rewrite Z.mul_mod_idemp_r by lia. f_equal. ring.
  - destruct (IH prod (u64 (base * base))) as (r & -> & R & E). exists r. split; [reflexivity|].
    split; [exact R|]. rewrite E. rewrite (Pos2Z.inj_xO p). rewrite Z.pow_mul_r by lia. unfold u64.
    rewrite Z.pow_2_r.
    rewrite <- (Z.mul_mod_idemp_r prod) by lia. rewrite Zpower_mod by lia.
    rewrite Z.mod_mod by lia. rewrite <- Zpower_mod by lia. rewrite Z.mul_mod_idemp_r by lia. reflexivity.
  - eexists. split; [reflexivity|]. unfold u64. rewrite Z.pow_1_r. split; [lia|]. apply Z.mod_mod. lia.
Qed.

Lemma mul_ge1 a b : 1 <= a -> 1 <= b -> 1 <= a * b.
Proof. clear. intros. nia. Qed.
Lemma abs_mul_le x q : q <> 0 -> Z.abs x <= Z.abs (x * q).
Proof. clear. intros. rewrite Z.abs_mul. assert (1 <= Z.abs q) by lia. assert (0 <= Z.abs x) by lia. nia. Qed.
Lemma abs_mul_le2 x q : 2 <= Z.abs q -> 2 * Z.abs x <= Z.abs (x * q).
Proof. clear. intros. rewrite Z.abs_mul. assert (0 <= Z.abs x) by lia. nia. Qed.
Lemma sq_lt x : x * x <= 2^63 -> x * x < 2^63.
Proof.
  clear. intros H. assert (E : x * x = Z.abs x * Z.abs x) by (rewrite <- Z.abs_mul; symmetry; apply Z.abs_eq; apply Z.square_nonneg).
  rewrite E in *. clear E. pose proof (Z.abs_nonneg x) as P. set (y := Z.abs x) in *. clearbody y. clear x.
  destruct (Z.le_gt_cases y 3037000499) as [L|G].
  - assert (y * y <= 3037000499 * 3037000499) by (apply Z.mul_le_mono_nonneg; lia). lia.
  - assert (3037000500 * 3037000500 <= y * y) by (apply Z.mul_le_mono_nonneg; lia). lia.
Qed.
Lemma sq_ge4 x : 2 <= Z.abs x -> 4 <= x * x.
Proof.
  clear. intros H. assert (E : x * x = Z.abs x * Z.abs x) by (rewrite <- Z.abs_mul; symmetry; apply Z.abs_eq; apply Z.square_nonneg).
  rewrite E. nia.
Qed.
Lemma mulS_ok a b : - 2^63 <= a * b < 2^63 -> mulS a b = Some (a * b).
Proof.
  clear. intros H. unfold mulS. set (x := a * b) in *. clearbody x.
  replace ((- 2^63 <=? x) && (x <? 2^63)) with true by lia. reflexivity.
Qed.

Lemma pow_loop_s p : forall prod base, prod <> 0 -> 2 <= Z.abs base ->
  - 2^63 <= prod * base ^ Zpos p < 2^63 -> power_loop mulS prod base p = Some (prod * base ^ Zpos p).
Proof.
  induction p as [p IH|p IH|]; intros prod base Hp Hb R; cbn [power_loop].
  - assert (E : prod * base ^ Z.pos p~1 = (prod * base) * (base * base) ^ Zpos p).
    { rewrite (Pos2Z.inj_xI p), Z.pow_add_r, Z.pow_mul_r, Z.pow_1_r, Z.pow_2_r by lia. ring. }
    rewrite E in *. pose proof (sq_ge4 base Hb) as A1.
    assert (S : (base * base) ^ Zpos p = (base * base) * (base * base) ^ (Zpos p - 1)).
    { rewrite <- Z.pow_succ_r by lia. f_equal. lia. }
    assert (B : 1 <= (base * base) ^ (Zpos p - 1)).
    { pose proof (Z.pow_pos_nonneg (base * base) (Z.pos p - 1)). lia. }
    assert (P4 : 4 <= (base * base) ^ Zpos p).
    { rewrite S. set (q := (base * base) ^ (Zpos p - 1)) in *. set (w := base * base) in *. clearbody q w. clear -A1 B. nia. }
    set (q := (base * base) ^ Zpos p) in *.
    assert (M1 : mulS prod base = Some (prod * base)).
    { apply mulS_ok. pose proof (abs_mul_le2 (prod * base) q). set (x := prod * base) in *. set (y := x * q) in *.
      clearbody x y. clear -H R P4. lia. }
    assert (M2 : mulS base base = Some (base * base)).
    { apply mulS_ok.
      assert (EQ : prod * base * q = base * base * (prod * base * (base * base) ^ (Zpos p - 1))) by (rewrite S; ring).
      assert (N : 2 <= Z.abs (prod * base * (base * base) ^ (Zpos p - 1))).
      { rewrite !Z.abs_mul. set (z := (base * base) ^ (Zpos p - 1)) in *. clearbody z. clear -Hp Hb B.
        assert (1 <= Z.abs prod) by lia. assert (1 <= Z.abs z) by lia. nia. }
      pose proof (abs_mul_le2 (base * base) _ N) as L. rewrite <- EQ in L.
      set (x := base * base) in *. set (y := prod * base * q) in *. clearbody x y. clear -L R A1. lia. }
    rewrite M1, M2. apply IH; [|lia|exact R].
    clear -Hp Hb. intros Q. apply Z.mul_eq_0 in Q. lia.
  - assert (E : prod * base ^ Z.pos p~0 = prod * (base * base) ^ Zpos p).
    { rewrite (Pos2Z.inj_xO p), Z.pow_mul_r, Z.pow_2_r by lia. ring. }
    rewrite E in *. pose proof (sq_ge4 base Hb) as A1.
    assert (S : (base * base) ^ Zpos p = (base * base) * (base * base) ^ (Zpos p - 1)).
    { rewrite <- Z.pow_succ_r by lia. f_equal. lia. }
    assert (B : 1 <= (base * base) ^ (Zpos p - 1)).
    { pose proof (Z.pow_pos_nonneg (base * base) (Z.pos p - 1)). lia. }
    assert (M2 : mulS base base = Some (base * base)).
    { apply mulS_ok.
      assert (EQ : prod * (base * base) ^ Zpos p = base * base * (prod * (base * base) ^ (Zpos p - 1))) by (rewrite S; ring).
      assert (N : prod * (base * base) ^ (Zpos p - 1) <> 0).
      { intros Q. apply Z.mul_eq_0 in Q. clear -Q B Hp. lia. }
      pose proof (abs_mul_le (base * base) _ N) as L. rewrite <- EQ in L.
      pose proof (sq_lt base) as SQ.
      set (x := base * base) in *. set (y := prod * x ^ Z.pos p) in *. clearbody x y. clear -L R A1 SQ. lia. }
    rewrite M2. apply IH; [exact Hp|lia|exact R].
  - rewrite Z.pow_1_r in *. apply mulS_ok. exact R.
Qed.

Lemma pow_loop_m1 p : forall prod base, (prod = 1 \/ prod = -1) -> (base = 1 \/ base = -1) ->
  power_loop mulS prod base p = Some (prod * base ^ Zpos p).
Proof.
  induction p as [p IH|p IH|]; intros prod base Hp Hb; cbn [power_loop].
  - assert (M1 : mulS prod base = Some (prod * base)) by (destruct Hp as [-> | ->], Hb as [-> | ->]; reflexivity).
    assert (M2 : mulS base base = Some 1) by (destruct Hb as [-> | ->]; reflexivity).
    rewrite M1, M2, IH; [|destruct Hp as [-> | ->], Hb as [-> | ->]; lia|auto].
    rewrite (Pos2Z.inj_xI p), Z.pow_add_r, Z.pow_mul_r, Z.pow_1_r, Z.pow_2_r by lia.
    replace (base * base) with 1 by (destruct Hb as [-> | ->]; reflexivity). f_equal. ring.
  - assert (M2 : mulS base base = Some 1) by (destruct Hb as [-> | ->]; reflexivity).
    rewrite M2, IH; auto. rewrite (Pos2Z.inj_xO p), Z.pow_mul_r, Z.pow_2_r by lia.
    replace (base * base) with 1 by (destruct Hb as [-> | ->]; reflexivity). reflexivity.
  - rewrite Z.pow_1_r. destruct Hp as [-> | ->], Hb as [-> | ->]; reflexivity.
Qed.

Lemma v_exp_ok a b : int_value a -> int_value b -> 0 <= int_of b ->
  (if int_of a <? 0 then - 2^63 <= int_of a ^ int_of b < 2^63 else int_of a ^ int_of b < 2^64) ->
  denotes (v_exp a b) (int_of a ^ int_of b).
Proof.
  intros Ha Hb Nb R. unfold v_exp. rewrite !int_flag by auto. cbn [andb].
  rewrite neg_flag by auto.
  assert (EB : v_bits b = int_of b).
  { destruct (int_cases b Hb) as [(A & B & C & D & E & F)|(A & B & C & D & E & F & G & U)]; lia. }
  rewrite EB. unfold power.
  destruct (Z.ltb_spec (int_of a) 0).
  - assert (EA : v_signed a = int_of a).
    { destruct (int_cases a Ha) as [(A & B & C & D & E & F)|(A & B & C & D & E & F & G & U)]; lia. }
    rewrite EA. destruct (int_of b) as [|p|p]; [apply setS_ok; lia| |lia].
    assert (PL : power_loop mulS 1 (int_of a) p = Some (1 * int_of a ^ Zpos p)).
    { destruct (Z.eq_dec (int_of a) (-1)) as [E1|N1].
      - apply pow_loop_m1; auto.
      - apply pow_loop_s; lia. }
    rewrite PL, Z.mul_1_l. cbn [option_map]. apply setS_ok. lia.
  - assert (EA : v_bits a = int_of a).
    { destruct (int_cases a Ha) as [(A & B & C & D & E & F)|(A & B & C & D & E & F & G & U)]; lia. }
    rewrite EA. destruct (int_of b) as [|p|p]; [apply setU_ok; lia| |lia].
    destruct (pow_loop_u p 1 (int_of a)) as (r & -> & Rr & E).
    rewrite Z.mul_1_l in E. cbn [option_map].
    assert (0 <= int_of a ^ Z.pos p) by (apply Z.pow_nonneg; lia).
    rewrite !Z.mod_small in E by lia. subst r. apply setU_ok. lia.
Qed.

(* ---- comparison ---- *)
Lemma v_ltb_ok a b : int_value a -> int_value b -> v_ltb a b = (int_of a <? int_of b).
Proof.
  intros Ha Hb. unfold v_ltb. rewrite !int_flag by auto. cbn [andb].
  destruct (int_cases a Ha) as [(A & B & C & D & E & F)|(A & B & C & D & E & F & G & U)];
  destruct (int_cases b Hb) as [(A' & B' & C' & D' & E' & F')|(A' & B' & C' & D' & E' & F' & G' & U')];
  rewrite ?B, ?B', ?C, ?C', ?G, ?G', ?F, ?F'.
  - reflexivity.
  - destruct (Z.leb_spec 0 (v_bits b - 2^64)); [lia|]. cbn [andb]. lia.
  - lia.
  - reflexivity.
Qed.

Lemma v_eqb_ok a b : int_value a -> int_value b ->
  ~ (int_of a < 0 /\ 2^63 <= int_of b) -> ~ (int_of b < 0 /\ 2^63 <= int_of a) ->
  v_eqb a b = (int_of a =? int_of b).
Proof.
  intros Ha Hb N1 N2. unfold v_eqb. rewrite !int_flag by auto. cbn [andb].
  destruct (int_cases a Ha) as [(A & B & C & D & E & F)|(A & B & C & D & E & F & G & U)];
  destruct (int_cases b Hb) as [(A' & B' & C' & D' & E' & F')|(A' & B' & C' & D' & E' & F' & G' & U')]; lia.
Qed.

(* ---- ranges ---- *)
Lemma overflowInt32_ok v : int_value v -> (overflowInt32 v = true <-> int_of v < - 2^31 \/ 2^31 - 1 < int_of v).
Proof.
  intros H. unfold overflowInt32.
  destruct (int_cases v H) as [(A & B & C & D & E & F)|(A & B & C & D & E & F & G & U)]; rewrite B; rewrite ?G; lia.
Qed.
Lemma overflowUint32_ok v : int_value v -> (overflowUint32 v = true <-> int_of v < - 2^31 \/ 2^32 - 1 < int_of v).
Proof.
  intros H. unfold overflowUint32.
  destruct (int_cases v H) as [(A & B & C & D & E & F)|(A & B & C & D & E & F & G & U)]; rewrite B; rewrite ?G; lia.
Qed.
Lemma overflow_ok v max min : int_value v -> 0 <= max < 2^32 -> - 2^31 <= min < 2^31 ->
  (overflow v max min = true <-> int_of v < min \/ max < int_of v).
Proof.
  intros H M1 M2. unfold overflow. pose proof (overflowUint32_ok v H) as O.
  destruct (overflowUint32 v).
  - split; [intros _|reflexivity]. lia.
  - destruct (int_cases v H) as [(A & B & C & D & E & F)|(A & B & C & D & E & F & G & U)]; rewrite B; rewrite ?G.
    + assert (v_bits v < 2^32) by lia. rewrite Z.mod_small by lia. lia.
    + destruct (Z.leb_spec 0 (v_bits v - 2^64)); [lia|]. lia.
Qed.

Lemma of_int_ok z : representable z -> int_value (of_int z) /\ int_of (of_int z) = z.
Proof.
  unfold representable, of_int, int_value, int_of. intros H. destruct (Z.ltb_spec z 0); cbn [v_type v_bits]; lia.
Qed.

(* ---- digit strings ---- *)
Definition std_radix (r : Z) := r = 2 \/ r = 8 \/ r = 10 \/ r = 16.

Lemma digit_of_bounds c d : digit_of c = Some d -> 0 <= d < 16.
Proof.
  unfold digit_of.
  destruct ((48 <=? c) && (c <=? 57)) eqn:A; [intros [= <-]; lia|].
  destruct ((65 <=? c) && (c <=? 70)) eqn:B; [intros [= <-]; lia|].
  destruct ((97 <=? c) && (c <=? 102)) eqn:C; [intros [= <-]; lia|discriminate].
Qed.

Lemma valid_digit r c : std_radix r -> (isValidDigit c r = true <-> is_digit_in r c).
Proof.
  intros H. unfold isValidDigit, is_digit_in, digit_of, RADIX_16, is_xdigit, is_digit.
  destruct (Z.eqb_spec r 16) as [->|N].
  - destruct ((48 <=? c) && (c <=? 57)) eqn:A; [split; intros; [eexists; split; [reflexivity|lia]|reflexivity]|].
    destruct ((65 <=? c) && (c <=? 70)) eqn:B; [split; intros; [eexists; split; [reflexivity|lia]|reflexivity]|].
    destruct ((97 <=? c) && (c <=? 102)) eqn:C; [split; intros; [eexists; split; [reflexivity|lia]|reflexivity]|].
    cbn [orb]. split; [discriminate|intros (d & E & _); discriminate].
  - unfold std_radix in H. split.
    + intros V. exists (c - 48). destruct ((48 <=? c) && (c <=? 57)) eqn:A; [split; [reflexivity|lia]|lia].
    + intros (d & E & L).
      destruct ((48 <=? c) && (c <=? 57)) eqn:A; [injection E as <-; lia|].
      destruct ((65 <=? c) && (c <=? 70)) eqn:B; [injection E as <-; lia|].
      destruct ((97 <=? c) && (c <=? 102)) eqn:C; [injection E as <-; lia|discriminate].
Qed.

Lemma toNumber_ok r c d : std_radix r -> digit_of c = Some d -> d < r -> toNumber c r = d.
Proof.
  intros H E L. unfold toNumber, RADIX_16. unfold digit_of in E.
  destruct ((48 <=? c) && (c <=? 57)) eqn:A.
  { injection E as <-. replace ((r =? 16) && (65 <=? c)) with false by lia. lia. }
  unfold std_radix in H.
  assert (LD : forall x, 65 <= x <= 70 \/ 97 <= x <= 102 -> Z.ldiff x 32 = if x <? 97 then x else x - 32).
  { intros x Hx. assert (I : In x [65;66;67;68;69;70;97;98;99;100;101;102]) by (cbn; lia). cbn [In] in I.
    repeat (destruct I as [<-|I]; [reflexivity|]). contradiction. }
  destruct ((65 <=? c) && (c <=? 70)) eqn:B.
  { injection E as <-. replace ((r =? 16) && (65 <=? c)) with true by lia. rewrite LD by lia.
    destruct (Z.ltb_spec c 97); [|lia]. lia. }
  destruct ((97 <=? c) && (c <=? 102)) eqn:C; [|discriminate].
  injection E as <-. replace ((r =? 16) && (65 <=? c)) with true by lia. rewrite LD by lia.
  destruct (Z.ltb_spec c 97); [lia|]. lia.
Qed.

Definition pos_from (r acc : Z) (ds : text) : Z :=
  fold_left (fun acc c => acc * r + match digit_of c with Some d => d | None => 0 end) ds acc.

Lemma pos_from_ge r acc ds : std_radix r -> 0 <= acc -> acc <= pos_from r acc ds.
Proof.
  intros Hr. unfold pos_from. revert acc. induction ds as [|c ds IH]; intros acc Ha; cbn [fold_left]; [lia|].
  assert (0 <= match digit_of c with Some d => d | None => 0 end).
  { destruct (digit_of c) eqn:E; [apply digit_of_bounds in E; lia|lia]. }
  set (d := match digit_of c with Some d => d | None => 0 end) in *.
  specialize (IH (acc * r + d)). unfold std_radix in Hr.
  assert (acc <= acc * r) by nia. lia.
Qed.

Lemma std_radix_cases r : std_radix r -> exists L D, (2^64 - 1) / r = L /\ (2^64 - 1) mod r = D /\ L * r + D = 2^64 - 1 /\ 0 <= D < r /\ 2 <= r.
Proof.
  intros H. exists ((2^64 - 1) / r), ((2^64 - 1) mod r). unfold std_radix in H. repeat split; auto.
  - rewrite Z.mul_comm. symmetry. apply Z.div_mod. lia.
  - apply Z.mod_pos_bound. lia.
  - apply Z.mod_pos_bound. lia.
  - lia.
Qed.

Lemma digits_loop_ok r : std_radix r -> forall ds rest v e n,
  Forall (is_digit_in r) ds -> (forall c t, rest = c :: t -> ~ is_digit_in r c) ->
  0 <= n -> (if n <? 2^64 then e = OK /\ v = n else e = OVERFLOW_RANGE) ->
  exists v', digits_loop r (ds ++ rest) v e =
    (if pos_from r n ds <? 2^64 then OK else OVERFLOW_RANGE, v', rest) /\
    (pos_from r n ds < 2^64 -> v' = pos_from r n ds).
Proof.
  intros Hr. induction ds as [|c ds IH]; intros rest v e n HF Hrest Hn I.
  - cbn [app]. exists v. unfold pos_from. cbn [fold_left]. split.
    + assert (digits_loop r rest v e = (e, v, rest)) as ->.
      { destruct rest as [|c t]; [reflexivity|]. cbn [digits_loop].
        destruct (isValidDigit c r) eqn:V; [|reflexivity].
        apply (valid_digit r c Hr) in V. exfalso. eapply Hrest; eauto. }
      destruct (Z.ltb_spec n (2^64)); [destruct I as [-> ->]|subst e]; reflexivity.
    + intros L. destruct (Z.ltb_spec n (2^64)); [destruct I as [_ ->]; reflexivity|lia].
  - inversion HF as [|? ? Hc HF']; subst. cbn [app digits_loop].
    rewrite (proj2 (valid_digit r c Hr) Hc). destruct Hc as (d & Ed & Ld).
    rewrite (toNumber_ok r c d Hr Ed Ld). pose proof (digit_of_bounds c d Ed) as Bd.
    assert (PF : pos_from r n (c :: ds) = pos_from r (n * r + d) ds).
    { unfold pos_from. cbn [fold_left]. rewrite Ed. reflexivity. }
    rewrite PF.
    destruct (std_radix_cases r Hr) as (L & D & EL & ED & LD & BD & R2).
    cbv zeta. rewrite EL, ED. apply IH; auto; [nia|].
    destruct (Z.ltb_spec n (2^64)) as [Lt|Ge].
    + destruct I as [-> ->]. unfold u64.
      destruct (Z.ltb_spec L n) as [G1|G1]; cbn [orb].
      * destruct (Z.ltb_spec (n * r + d) (2^64)); [nia|reflexivity].
      * destruct (Z.eqb_spec n L) as [->|N1]; cbn [andb].
        -- destruct (Z.ltb_spec D d).
           ++ destruct (Z.ltb_spec (L * r + d) (2^64)); [lia|reflexivity].
           ++ destruct (Z.ltb_spec (L * r + d) (2^64)); [|lia].
              split; [reflexivity|]. rewrite (Z.mod_small (L * r)) by nia. apply Z.mod_small. nia.
        -- assert (n * r + r <= L * r) by nia.
           destruct (Z.ltb_spec (n * r + d) (2^64)); [|lia].
           split; [reflexivity|]. rewrite (Z.mod_small (n * r)) by nia. apply Z.mod_small. nia.
    + subst e. destruct (Z.ltb_spec (n * r + d) (2^64)); [nia|].
      destruct ((L <? v) || (v =? L) && (D <? d)); reflexivity.
Qed.

Lemma v_read_ok r ds rest : std_radix r -> ds <> [] -> Forall (is_digit_in r) ds ->
  (forall c t, rest = c :: t -> ~ is_digit_in r c) ->
  v_read (ds ++ rest) r =
    if positional r ds <? 2^64 then (OK, mkV V_UNSIGNED (positional r ds), rest) else (OVERFLOW_RANGE, v_undef, rest).
Proof.
  intros Hr Hne HF Hrest. unfold v_read, read_digits.
  destruct ds as [|c ds]; [contradiction|]. inversion HF; subst.
  cbn [app peek]. rewrite (proj2 (valid_digit r c Hr)) by auto.
  destruct (digits_loop_ok r Hr (c :: ds) rest 0 OK 0 HF Hrest (Z.le_refl 0) (conj eq_refl eq_refl)) as (v' & E & V).
  cbn [app] in E. rewrite E. unfold positional. fold (pos_from r 0 (c :: ds)).
  destruct (Z.ltb_spec (pos_from r 0 (c :: ds)) (2^64)); cbn [isOK]; unfold isOK, err_eqb; cbn [err_code Z.eqb].
  - rewrite V by auto. reflexivity.
  - reflexivity.
Qed.

Lemma v_read_none r rest : std_radix r -> (forall c t, rest = c :: t -> ~ is_digit_in r c) ->
  v_read rest r = (NOT_AN_EXPECTED, v_undef, rest).
Proof.
  intros Hr H. unfold v_read, read_digits. destruct rest as [|c t].
  - cbn [peek]. unfold std_radix in Hr. destruct Hr as [->|[->|[->| ->]]]; reflexivity.
  - cbn [peek]. destruct (isValidDigit c r) eqn:V; [|reflexivity].
    apply (valid_digit r c Hr) in V. exfalso. eapply H; eauto.
Qed.

(* ---- errors ---- *)
Lemma isOK_spec e : isOK e = true <-> e = OK.
Proof. split; [|intros ->; reflexivity]. destruct e; unfold isOK, err_eqb; cbn [err_code]; intros H; try discriminate H. reflexivity. Qed.
Lemma err_eqb_eq a b : err_eqb a b = true <-> a = b.
Proof.
  split; [|intros ->; unfold err_eqb; apply Z.eqb_refl].
  intros H. unfold err_eqb in H. apply Z.eqb_eq in H.
  destruct a; destruct b; try reflexivity; exfalso; cbn [err_code] in H; discriminate H.
Qed.

Lemma setErrorIf_first es e0 :
  fold_left setErrorIf es e0 = match filter (fun e => negb (isOK e)) (e0 :: es) with e :: _ => e | [] => OK end.
Proof.
  revert e0. induction es as [|e es IH]; intros e0; cbn [fold_left].
  - cbn [filter]. destruct (isOK e0) eqn:E; cbn [negb]; [apply isOK_spec in E; auto|reflexivity].
  - rewrite IH. unfold setErrorIf. cbn [filter]. destruct (isOK e0) eqn:E; cbn [negb]; [reflexivity|].
    rewrite E. reflexivity.
Qed.
Lemma setErrorIfAt_first es e0 :
  fold_left setErrorIfAt es e0 = match filter (fun e => negb (isOK e)) (e0 :: es) with e :: _ => e | [] => OK end.
Proof.
  revert e0. induction es as [|e es IH]; intros e0; cbn [fold_left].
  - cbn [filter]. destruct (isOK e0) eqn:E; cbn [negb]; [apply isOK_spec in E; auto|reflexivity].
  - rewrite IH. unfold setErrorIfAt. cbn [filter]. destruct (isOK e0) eqn:E; cbn [negb andb].
    + apply isOK_spec in E. subst e0. destruct (isOK e) eqn:E2; cbn [negb]; [apply isOK_spec in E2; subst e; reflexivity|].
      unfold setError. rewrite E2. reflexivity.
    + rewrite E. reflexivity.
Qed.
