From Coq Require Import ZArith List Bool Lia ZifyBool.
From Verif Require Import M_Char M_Error M_Config P_Value.
Import ListNotations.
Local Open Scope Z_scope.
Ltac Zify.zify_post_hook ::= Z.div_mod_to_equations.

Lemma land_high a k : 0 <= k <= 32 -> 0 <= a < 2^32 -> Z.land a (2^32 - 2^k) = a / 2^k * 2^k.
Proof.
  intros K A. replace (2^32 - 2^k) with (Z.shiftl (Z.ones (32 - k)) k).
  2:{ rewrite Z.shiftl_mul_pow2, Z.ones_equiv by lia. rewrite <- Z.sub_1_r, Z.mul_sub_distr_r, <- Z.pow_add_r by lia.
      f_equal; [f_equal; lia|lia]. }
  rewrite <- Z.shiftr_div_pow2, <- Z.shiftl_mul_pow2 by lia. apply Z.bits_inj'. intros n N.
  rewrite Z.land_spec. rewrite !Z.shiftl_spec by lia. destruct (Z.lt_ge_cases n k) as [L|L].
  - rewrite !(Z.testbit_neg_r _ (n - k)) by lia. apply andb_false_r.
  - rewrite Z.shiftr_spec by lia. replace (n - k + k) with n by lia.
    destruct (Z.lt_ge_cases n 32) as [M|M].
    + rewrite Z.ones_spec_low by lia. apply andb_true_r.
    + rewrite Z.ones_spec_high by lia. rewrite andb_false_r. symmetry.
      rewrite <- (Z.mod_small a (2^32)) by lia. apply Z.mod_pow2_bits_high. lia.
Qed.
Lemma pow_le k n : 0 <= k <= n -> 0 < 2^k <= 2^n.
Proof. intros. split; [apply Z.pow_pos_nonneg; lia|apply Z.pow_le_mono_r; lia]. Qed.

Lemma signExtend_spec u w : 1 <= w <= 32 -> 0 <= u < 2^32 ->
  exists d, signExtend u w = Some d /\ - 2^(w-1) <= d < 2^(w-1) /\ (d - u) mod 2^w = 0.
Proof.
  intros W U. unfold signExtend. replace ((w <? 1) || (32 <? w)) with false by lia.
  rewrite Z.shiftl_mul_pow2, Z.mul_1_l by lia. set (h := 2^(w-1)).
  assert (Hh : 0 < h <= 2^31) by (apply pow_le; lia). assert (W2 : 2^w = 2 * h).
  { unfold h. rewrite <- Z.pow_succ_r by lia. f_equal. lia. }
  assert (S : u32 h = h) by (unfold u32; apply Z.mod_small; lia). rewrite S.
  rewrite Z.shiftl_mul_pow2 by lia. change (2^1) with 2.
  assert (M : u32 (u32 (h * 2) - 1) = Z.ones w).
  { rewrite Z.ones_equiv, W2, <- Z.sub_1_r. unfold u32. destruct (Z.eq_dec w 32) as [-> |]; [reflexivity|].
    assert (h <= 2^30) by (apply pow_le; lia). rewrite (Z.mod_small (h * 2)) by lia. rewrite Z.mod_small by lia. lia. }
  rewrite M, Z.land_ones by lia.
  assert (E : u32 (u + h) mod 2^w = (u + h) mod 2^w).
  { unfold u32. replace (2^32) with (2^w * 2^(32-w)) by (rewrite <- Z.pow_add_r by lia; f_equal; lia).
    assert (0 < 2^(32-w)) by (apply pow_le with (n := 32); lia).
    rewrite Z.rem_mul_r by lia. rewrite (Z.mul_comm (2^w)), Z.mod_add by lia. apply Z.mod_mod. lia. }
  rewrite E. assert (B : 0 <= (u + h) mod 2^w < 2^w) by (apply Z.mod_pos_bound; lia).
  set (m := (u + h) mod 2^w) in *.
  assert (R : s32 (m - h) = m - h).
  { unfold s32, u32. destruct (Z.lt_ge_cases m h).
    - replace ((m - h) mod 2^32) with (m - h + 2^32) by (rewrite <- (Z.mod_small (m - h + 2^32) (2^32)) by lia; rewrite Z.add_mod, Z.mod_same, Z.add_0_r, Z.mod_mod by lia; reflexivity).
      destruct (Z.ltb_spec (m - h + 2^32) (2^31)); lia.
    - rewrite Z.mod_small by lia. destruct (Z.ltb_spec (m - h) (2^31)); lia. }
  rewrite R. exists (m - h). split; [reflexivity|]. split; [lia|].
  unfold m. replace ((u + h) mod 2^w - h - u) with ((u + h) mod 2^w - (u + h)) by lia.
  rewrite Zminus_mod, Z.mod_mod, Z.sub_diag by lia. apply Z.mod_0_l. lia.
Qed.
(* uniqueness *)
Lemma congr_unique h a b : 0 < h -> - h <= a < h -> - h <= b < h -> (a - b) mod (2 * h) = 0 -> a = b.
Proof. intros H A B E. apply Z.mod_divide in E; [|lia]. destruct E as [k E]. assert (k = 0) by nia. subst. lia. Qed.

Lemma C30_sign u w : 1 <= w <= 32 -> 0 <= u < 2^32 ->
  exists d, signExtend u w = Some d /\ - 2^(w-1) <= d < 2^(w-1) /\ (d - u) mod 2^w = 0 /\
  forall d', - 2^(w-1) <= d' < 2^(w-1) -> (d' - u) mod 2^w = 0 -> d' = d.
Proof.
  intros W U. destruct (signExtend_spec u w W U) as (d & E & R & M). exists d. repeat split; auto; try tauto.
  intros d' R' M'. assert (W2 : 2^w = 2 * 2^(w-1)). { rewrite <- Z.pow_succ_r by lia. f_equal. lia. }
  rewrite W2 in *. apply congr_unique with (h := 2^(w-1)); auto; [apply Z.pow_pos_nonneg; lia|].
  replace (d' - d) with ((d' - u) - (d - u)) by lia. rewrite Zminus_mod, M, M'. reflexivity.
Qed.
Lemma C30_delta d w : 1 <= w <= 31 -> exists b, overflowDelta d w = Some b /\ (b = false <-> - 2^(w-1) <= d < 2^(w-1)).
Proof.
  intros W. unfold overflowDelta. replace ((w <? 1) || (32 <=? w)) with false by lia.
  rewrite Z.shiftl_mul_pow2, Z.mul_1_l by lia. eexists. split; [reflexivity|]. lia.
Qed.
Lemma C30_delta_ub d : overflowDelta d 32 = None.
Proof. reflexivity. Qed.

Lemma checkAddr_false aw a al : 1 <= aw <= 32 -> 0 <= a < 2^32 ->
  checkAddr aw a al = if 2^aw <=? a then OVERFLOW_RANGE else if al && negb (a mod 2 =? 0) then OPERAND_NOT_ALIGNED else OK.
Proof.
  intros W A. unfold checkAddr. rewrite Z.shiftl_mul_pow2, Z.mul_1_l by lia.
  assert (P : 0 < 2^aw <= 2^32) by (apply pow_le; lia).
  assert (M : u32 (u32 (2^aw) - 1) = 2^aw - 1).
  { unfold u32. destruct (Z.eq_dec aw 32) as [-> |]; [reflexivity|]. assert (2^aw <= 2^31) by (apply pow_le; lia).
    rewrite (Z.mod_small (2^aw)) by lia. apply Z.mod_small. lia. }
  rewrite M. replace (2^32 - 1 - (2^aw - 1)) with (2^32 - 2^aw) by lia. rewrite land_high by lia.
  assert (0 <= a / 2^aw) by (apply Z.div_pos; lia).
  destruct (Z.leb_spec (2^aw) a) as [L|L].
  - assert (1 <= a / 2^aw). { apply Z.div_le_lower_bound; lia. }
    replace (a / 2^aw * 2^aw =? 0) with false by nia. reflexivity.
  - rewrite Z.div_small by lia. reflexivity.
Qed.
Lemma C31_addr aw a al : 1 <= aw <= 32 -> 0 <= a < 2^32 ->
  (checkAddr aw a al = OK <-> a < 2^aw /\ (al = true -> Z.Even a)) /\
  (checkAddr aw a al = OVERFLOW_RANGE <-> 2^aw <= a).
Proof.
  intros W A. rewrite checkAddr_false by auto. destruct (Z.leb_spec (2^aw) a) as [L|L].
  - split; split; intros H; try discriminate; try lia; reflexivity.
  - assert (EV : Z.Even a <-> a mod 2 = 0) by (rewrite Zmod_even, <- Z.even_spec; destruct (Z.even a); split; congruence).
    destruct al; cbn [andb].
    2:{ split; split; intros H; try discriminate; try lia; try reflexivity. }
    destruct (Z.eqb_spec (a mod 2) 0) as [E|E]; cbn [negb]; split; split; intros H; try discriminate; try lia; auto.
    + split; [lia|]. intros _. now apply EV.
    + destruct H as (_ & H). specialize (H eq_refl). apply EV in H. contradiction.
Qed.
Lemma high_mask w : 0 <= w < 64 -> u32 (2^64 - 1 - (Z.shiftl 1 w - 1)) = 2^32 - 2^(Z.min w 32).
Proof.
  intros W. rewrite Z.shiftl_mul_pow2, Z.mul_1_l by lia. unfold u32. destruct (Z.le_gt_cases w 32) as [L|L].
  - rewrite Z.min_l by lia. assert (0 < 2^w <= 2^32) by (apply pow_le; lia).
    replace (2^64 - 1 - (2^w - 1)) with (2^32 - 2^w + (2^32 - 1) * 2^32) by (change (2^64) with (2^32 * 2^32); lia).
    rewrite Z.mod_add by lia. apply Z.mod_small. lia.
  - rewrite Z.min_r by lia. rewrite Z.sub_diag. replace (2^w) with (2^(w-32) * 2^32) by (rewrite <- Z.pow_add_r by lia; f_equal; lia).
    replace (2^64 - 1 - (2^(w-32) * 2^32 - 1)) with ((2^32 - 2^(w-32)) * 2^32) by (change (2^64) with (2^32 * 2^32); lia).
    apply Z.mod_mul. lia.
Qed.
Lemma C31_segment aw a base w al : 1 <= aw <= 32 -> 0 <= a < 2^32 -> 0 <= base < 2^32 -> 0 <= w < 64 ->
  (checkAddr_in aw a base w al = OK <-> a < 2^aw /\ (al = true -> Z.Even a) /\ a / 2^w = base / 2^w).
Proof.
  intros W A B S. unfold checkAddr_in. rewrite high_mask by auto. rewrite !land_high by lia.
  destruct (C31_addr aw a al W A) as (C & _).
  assert (D : forall x, 0 <= x < 2^32 -> x / 2^(Z.min w 32) = x / 2^w).
  { intros x X. destruct (Z.le_gt_cases w 32); [now rewrite Z.min_l by lia|]. rewrite Z.min_r by lia.
    assert (2^32 <= 2^w) by (apply pow_le; lia). rewrite !Z.div_small by lia. reflexivity. }
  rewrite !D by auto. assert (P : 0 < 2^Z.min w 32) by (apply pow_le with (n := 32); lia).
  destruct (isOK (checkAddr aw a al)) eqn:E.
  - apply isOK_spec in E. cbn [negb]. apply C in E. destruct (Z.eqb_spec (a / 2^w * 2^Z.min w 32) (base / 2^w * 2^Z.min w 32)) as [Q|Q].
    + apply Z.mul_cancel_r in Q; [tauto|lia].
    + split; [discriminate|]. intros (_ & _ & Q'). rewrite Q' in Q. contradiction.
  - cbn [negb]. split; [intros H; rewrite H in E; discriminate|]. intros (H1 & H2 & _).
    assert (checkAddr aw a al = OK) by (apply C; auto). rewrite H in E. discriminate.
Qed.

Lemma setErr_OK st e : setErrorIfAt st e = OK <-> st = OK /\ e = OK.
Proof.
  unfold setErrorIfAt, setError. destruct (isOK st) eqn:A, (isOK e) eqn:B; cbn [andb negb];
    try (apply isOK_spec in A); try (apply isOK_spec in B); split; intros; subst; try tauto; try (destruct H; subst); try discriminate; auto.
Qed.
(* the distance, and when it is accepted *)
Lemma C30_branch aw base target : 1 <= aw <= 32 -> 0 <= base < 2^aw -> 0 <= target < 2^32 ->
  exists delta e, branchDelta aw base target OK = Some (delta, e) /\
  (base + delta - target) mod 2^aw = 0 /\ - 2^(aw-1) <= delta < 2^(aw-1) /\
  (e = OK \/ e = OVERFLOW_RANGE) /\
  (e = OK <-> target < 2^aw /\ - 2^(aw-1) <= target - base < 2^(aw-1)) /\
  (e = OK -> delta = target - base).
Proof.
  intros W B T. unfold branchDelta. assert (P : 0 < 2^aw <= 2^32) by (apply pow_le; lia).
  assert (W2 : 2^aw = 2 * 2^(aw-1)). { rewrite <- Z.pow_succ_r by lia. f_equal. lia. }
  set (h := 2^(aw-1)) in *.
  destruct (signExtend_spec (u32 (target - base)) aw W ltac:(unfold u32; apply Z.mod_pos_bound; lia)) as (d & E & R & M).
  fold h in R. rewrite E. eexists d, _. split; [reflexivity|].
  assert (K : (base + d - target) mod 2^aw = 0).
  { unfold u32 in M. apply Z.mod_divide in M; [|lia]. destruct M as [k M]. apply Z.mod_divide; [lia|].
    exists (k - (target - base) / 2^32 * 2^(32 - aw)). 
    assert (2^32 = 2^aw * 2^(32-aw)) by (rewrite <- Z.pow_add_r by lia; f_equal; lia).
    pose proof (Z.div_mod (target - base) (2^32) ltac:(lia)). clear E. nia. }
  split; [exact K|]. split; [exact R|]. rewrite checkAddr_false by lia. cbn [andb].
  destruct (Z.leb_spec (2^aw) target) as [L|L].
  - assert (X : forall b : bool, (if b then setErrorIfAt (setErrorIfAt OK OVERFLOW_RANGE) OVERFLOW_RANGE else setErrorIfAt OK OVERFLOW_RANGE) = OVERFLOW_RANGE) by (intros []; reflexivity).
    rewrite X. split; [now right|]. split; [split; [discriminate|lia]|discriminate].
  - change (setErrorIfAt OK OK) with OK. change (setErrorIfAt OK OVERFLOW_RANGE) with OVERFLOW_RANGE.
    assert (Q : ((0 <=? d) && (target <? base) || (d <? 0) && (base <=? target)) = false <-> d = target - base).
    { apply Z.mod_divide in K; [|lia]. destruct K as [k K]. rewrite W2 in *. split; [|lia]. intros Q. assert (k = 0) by nia. subst. lia. }
    destruct ((0 <=? d) && (target <? base) || (d <? 0) && (base <=? target)) eqn:C.
    + split; [now right|]. split; [|discriminate]. split; [discriminate|]. intros (_ & H). exfalso.
      enough (d = target - base) by (apply Q in H0; discriminate). apply congr_unique with (h := h); try lia. rewrite <- W2.
      replace (d - (target - base)) with (base + d - target) by lia. exact K.
    + split; [now left|]. assert (d = target - base) by tauto. split; [|auto]. split; [|auto]. intros _. lia.
Qed.
