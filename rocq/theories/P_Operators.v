From Coq Require Import ZArith List Bool Lia ZifyBool.
From Verif Require Import M_Char M_Error M_Value M_Operators S_Value P_Value.
Import ListNotations.
Local Open Scope Z_scope.
Ltac Zify.zify_post_hook ::= Z.div_mod_to_equations.

Ltac conjs := repeat match goal with |- _ /\ _ => split end.

Lemma std_radix_in r : In r [2; 8; 10; 16] -> std_radix r.
Proof. cbn. unfold std_radix. intuition. Qed.

Lemma C16_read_digits r ds rest : In r [2; 8; 10; 16] -> ds <> [] -> Forall (is_digit_in r) ds ->
  (forall c t, rest = c :: t -> ~ is_digit_in r c) ->
  v_read (ds ++ rest) r =
    if positional r ds <? 2^64 then (OK, mkV V_UNSIGNED (positional r ds), rest) else (OVERFLOW_RANGE, v_undef, rest).
Proof. intros H. apply v_read_ok. apply std_radix_in. exact H. Qed.
Lemma C16_read_none r s : In r [2; 8; 10; 16] -> (forall c t, s = c :: t -> ~ is_digit_in r c) ->
  v_read s r = (NOT_AN_EXPECTED, v_undef, s).
Proof. intros H. apply v_read_none. apply std_radix_in. exact H. Qed.

Lemma C22_div0 op a b : (op = divide \/ op = modulo) -> int_value b -> isUndefined b = false -> int_of b = 0 ->
  exists v, eval2 op a b = Some (DIVIDE_BY_ZERO, v).
Proof.
  intros O H U Z0. exists v_undef.
  assert (isZero b = true).
  { unfold isZero. rewrite U. destruct (int_cases b H) as [(A & B & C & D & E & F)|(A & B & C & D & E & F & G & _)]; lia. }
  destruct O as [-> | ->]; unfold eval2; rewrite H0; reflexivity.
Qed.

Lemma getUnsigned_small v : int_value v -> 0 <= int_of v < 2^32 -> getUnsigned v = int_of v.
Proof. intros H R. unfold getUnsigned. rewrite (bits_mod v H). lia. Qed.

Lemma C22_shl a b : int_value a -> int_value b ->
  0 <= int_of a < 2^32 -> 0 <= int_of b < 2^32 -> int_of a * 2 ^ int_of b < 2^32 ->
  exists v, eval2 logical_shift_left a b = Some (OK, v) /\ int_value v /\ int_of v = int_of a * 2 ^ int_of b.
Proof.
  intros Ha Hb Ra Rb R. unfold eval2. rewrite !getUnsigned_small by auto.
  set (x := if int_of b <? 32 then Z.shiftl (int_of a) (int_of b) mod 2 ^ 32 else 0).
  assert (P : 0 < 2 ^ int_of b) by (apply Z.pow_pos_nonneg; lia).
  assert (X : x = int_of a * 2 ^ int_of b).
  { unfold x. destruct (Z.ltb_spec (int_of b) 32).
    - rewrite Z.shiftl_mul_pow2 by lia. apply Z.mod_small. nia.
    - assert (2^32 <= 2 ^ int_of b) by (apply Z.pow_le_mono_r; lia).
      assert (int_of a = 0) by nia. nia. }
  exists (setUnsigned x). split; [reflexivity|]. rewrite X.
  set (y := int_of a * 2 ^ int_of b) in *. assert (0 <= y) by (unfold y; nia).
  unfold setUnsigned. rewrite Z.mod_small by lia.
  apply setU_ok2. lia.
Qed.

Lemma C22_addition_counterexample : exists a b, int_value a /\ int_value b /\
  representable (int_of a + int_of b) /\ ~ denotes (v_add a b) (int_of a + int_of b).
Proof.
  exists (of_int (- 2^63)), (of_int 1). conjs; [vm_compute; intuition congruence..|].
  intros (v & E & _). vm_compute in E. discriminate.
Qed.
Lemma C22_subtraction_counterexample : exists a b, int_value a /\ int_value b /\
  int_of a = 2^63 /\ int_of b = 2^63 + 1 /\ representable (int_of a - int_of b) /\
  ~ denotes (v_sub a b) (int_of a - int_of b).
Proof.
  exists (of_int (2^63)), (of_int (2^63 + 1)). conjs; [vm_compute; intuition congruence..|].
  intros (v & E & _ & Q). vm_compute in E. injection E as <-. vm_compute in Q. discriminate.
Qed.
Lemma C22_or_counterexample : exists a b, int_value a /\ int_value b /\
  representable (Z.lor (int_of a) (int_of b)) /\ int_of (v_or a b) <> Z.lor (int_of a) (int_of b).
Proof. exists (of_int (2^63)), (of_int 0). conjs; vm_compute; intuition congruence. Qed.
Lemma C22_shl_counterexample : exists a b v, int_value a /\ int_value b /\
  representable (int_of a * 2 ^ int_of b) /\ eval2 logical_shift_left a b = Some (OK, v) /\
  int_of v <> int_of a * 2 ^ int_of b.
Proof. exists (of_int 1), (of_int 32), (of_int 0). conjs; try (vm_compute; intuition congruence). Qed.
Lemma C22_shr_counterexample : exists a b, int_value a /\ int_value b /\
  int_of a = 1 /\ int_of b = 2^32 /\ int_of (v_shr a b) = 1.
Proof. exists (of_int 1), (of_int (2^32)). conjs; vm_compute; intuition congruence. Qed.

Lemma C23_ops a b : int_value a -> int_value b ->
  ~ (int_of a < 0 /\ 2^63 <= int_of b) -> ~ (int_of b < 0 /\ 2^63 <= int_of a) ->
  let answer (b : bool) := Some (OK, of_int (if b then 1 else 0)) in
  eval2 less_than a b = answer (int_of a <? int_of b) /\
  eval2 less_than_or_equal a b = answer (int_of a <=? int_of b) /\
  eval2 greater_than a b = answer (int_of b <? int_of a) /\
  eval2 greater_than_or_equal a b = answer (int_of b <=? int_of a) /\
  eval2 logical_equal a b = answer (int_of a =? int_of b) /\
  eval2 logical_not_equal a b = answer (negb (int_of a =? int_of b)).
Proof.
  intros Ha Hb N1 N2 answer. cbn [eval2]. rewrite v_ltb_ok, v_eqb_ok by auto.
  assert (S : forall x : bool, Some (OK, setUnsigned (b2z x)) = answer x) by (intros []; reflexivity).
  rewrite !S. unfold answer.
  assert (X : forall x y : bool, x = y -> Some (OK, of_int (if x then 1 else 0)) = Some (OK, of_int (if y then 1 else 0)))
    by (intros ? ? ->; reflexivity).
  conjs; apply X; lia.
Qed.
Lemma C23_counterexample : exists a b, int_value a /\ int_value b /\
  int_of a <> int_of b /\ v_eqb a b = true /\ v_ltb a b = true.
Proof. exists (of_int (-1)), (of_int (2^64 - 1)). conjs; vm_compute; intuition congruence. Qed.

Lemma C24_overflow v max min : int_value v -> 0 <= max < 2^32 -> - 2^31 <= min < 2^31 ->
  (overflow v max min = true <-> ~ (min <= int_of v <= max)).
Proof. intros H M1 M2. rewrite overflow_ok by auto. lia. Qed.
Lemma C24_named v : int_value v ->
  (overflowInt8 v = true <-> ~ (- 2^7 <= int_of v < 2^7)) /\
  (overflowUint8 v = true <-> ~ (- 2^7 <= int_of v < 2^8)) /\
  (overflowInt16 v = true <-> ~ (- 2^15 <= int_of v < 2^15)) /\
  (overflowUint16 v = true <-> ~ (- 2^15 <= int_of v < 2^16)) /\
  (overflowInt32 v = true <-> ~ (- 2^31 <= int_of v < 2^31)) /\
  (overflowUint32 v = true <-> ~ (- 2^31 <= int_of v < 2^32)).
Proof.
  intros H. unfold overflowInt8, overflowUint8, overflowInt16, overflowUint16.
  rewrite !C24_overflow by lia || auto. rewrite overflowInt32_ok, overflowUint32_ok by auto. lia.
Qed.

Lemma C27_first reports :
  let first := match filter (fun e => negb (isOK e)) reports with e :: _ => e | [] => OK end in
  fold_left setErrorIf reports OK = first /\ fold_left setErrorIfAt reports OK = first.
Proof. cbv zeta. rewrite setErrorIf_first, setErrorIfAt_first. cbn [filter]. split; reflexivity. Qed.
Lemma C27_overwrite before e : fold_left setError (before ++ [e]) OK = e.
Proof. rewrite fold_left_app. reflexivity. Qed.
Lemma C27_hard e : hasError e = true <-> (e <> OK /\ e <> UNDEFINED_SYMBOL).
Proof.
  unfold hasError, isOK. rewrite andb_true_iff, !negb_true_iff.
  pose proof (err_eqb_eq e OK). pose proof (err_eqb_eq e UNDEFINED_SYMBOL).
  destruct (err_eqb e OK), (err_eqb e UNDEFINED_SYMBOL); intuition congruence.
Qed.
