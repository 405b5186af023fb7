(** C16, C22, C23, C24, C27: digit strings, integer values and error reports. *)
From Coq Require Import ZArith String List Lia.
From Verif Require Import M_Char M_Error M_Value M_Operators S_Value P_Value P_Operators.
Import ListNotations.
Open Scope string_scope.
Open Scope list_scope.
Local Open Scope Z_scope.

(* ------------------------------------------------------------------ C16 *)

(* Digits in a standard radix read as their positional value; exactly the digits are consumed;
   overflow is reported exactly when the number exceeds 2^64-1. *)
Theorem C16_digits_denote_positional_value : forall r ds rest,
  In r [2; 8; 10; 16] -> ds <> [] -> Forall (is_digit_in r) ds ->
  (forall c t, rest = c :: t -> ~ is_digit_in r c) ->
  v_read (ds ++ rest) r =
    if positional r ds <? 2^64
    then (OK, mkV V_UNSIGNED (positional r ds), rest)
    else (OVERFLOW_RANGE, v_undef, rest).
Proof. exact C16_read_digits. Qed.
Print Assumptions C16_digits_denote_positional_value.

(* a text not starting with a digit is not a number, and nothing is consumed *)
Theorem C16_no_digit_no_number : forall r s,
  In r [2; 8; 10; 16] -> (forall c t, s = c :: t -> ~ is_digit_in r c) ->
  v_read s r = (NOT_AN_EXPECTED, v_undef, s).
Proof. exact C16_read_none. Qed.
Print Assumptions C16_no_digit_no_number.

Example C16_case : v_read (s2l "1fE,X") 16 = (OK, mkV V_UNSIGNED 510, s2l ",X").
Proof. reflexivity. Qed.
Example C16_case_limits :
  v_read (s2l "18446744073709551615") 10 = (OK, mkV V_UNSIGNED (2^64 - 1), []) /\
  v_read (s2l "18446744073709551616;") 10 = (OVERFLOW_RANGE, v_undef, s2l ";").
Proof. split; vm_compute; reflexivity. Qed.

(* ------------------------------------------------------------------ C22 *)

(* Full statement: the result is exact whenever it is representable (-2^63 <= z < 2^64).
   Missing below: operands or results equal to -2^63, and for the binary minus and the bitwise
   operators operands from 2^63 on; the refutations show that those cases do fail. *)
Theorem C22_negation_exact_partial : forall a, int_value a ->
  - 2^63 < int_of a < 2^63 -> denotes (v_neg a) (- int_of a).
Proof. exact v_neg_ok. Qed.
Print Assumptions C22_negation_exact_partial.

Theorem C22_addition_exact_partial : forall a b, int_value a -> int_value b ->
  int_of a <> - 2^63 -> int_of b <> - 2^63 ->
  - 2^63 < int_of a + int_of b < 2^64 -> denotes (v_add a b) (int_of a + int_of b).
Proof. exact v_add_ok. Qed.
Print Assumptions C22_addition_exact_partial.

Theorem C22_subtraction_exact_partial : forall a b, int_value a -> int_value b ->
  int_of a <> - 2^63 -> int_of b <> - 2^63 -> int_of b <> 2^63 ->
  (2^63 < int_of b -> int_of b <= int_of a) ->
  - 2^63 < int_of a - int_of b < 2^64 -> denotes (v_sub a b) (int_of a - int_of b).
Proof. exact v_sub_ok. Qed.
Print Assumptions C22_subtraction_exact_partial.

Theorem C22_multiplication_exact_partial : forall a b, int_value a -> int_value b ->
  int_of a <> - 2^63 -> int_of b <> - 2^63 ->
  - 2^63 < int_of a * int_of b < 2^64 -> denotes (v_mul a b) (int_of a * int_of b).
Proof. exact v_mul_ok. Qed.
Print Assumptions C22_multiplication_exact_partial.

(* division truncates towards zero *)
Theorem C22_division_exact_partial : forall a b, int_value a -> int_value b ->
  int_of a <> - 2^63 -> int_of b <> - 2^63 -> int_of b <> 0 ->
  - 2^63 < Z.quot (int_of a) (int_of b) -> denotes (v_div a b) (Z.quot (int_of a) (int_of b)).
Proof. exact v_div_ok. Qed.
Print Assumptions C22_division_exact_partial.

(* the remainder takes the sign of the dividend *)
Theorem C22_remainder_exact_partial : forall a b, int_value a -> int_value b ->
  int_of a <> - 2^63 -> int_of b <> - 2^63 -> int_of b <> 0 ->
  denotes (v_mod a b) (Z.rem (int_of a) (int_of b)).
Proof. exact v_mod_ok. Qed.
Print Assumptions C22_remainder_exact_partial.

Theorem C22_division_by_zero_reported : forall op a b, (op = divide \/ op = modulo) ->
  int_value b -> isUndefined b = false -> int_of b = 0 ->
  exists v, eval2 op a b = Some (DIVIDE_BY_ZERO, v).
Proof. exact C22_div0. Qed.
Print Assumptions C22_division_by_zero_reported.

Theorem C22_complement_exact_partial : forall a, int_value a -> int_of a < 2^63 ->
  denotes (Some (v_lnot a)) (Z.lnot (int_of a)).
Proof. exact v_lnot_ok. Qed.
Print Assumptions C22_complement_exact_partial.

Theorem C22_and_exact_partial : forall a b, int_value a -> int_value b ->
  int_of a < 2^63 -> int_of b < 2^63 -> denotes (Some (v_and a b)) (Z.land (int_of a) (int_of b)).
Proof. exact v_and_ok. Qed.
Print Assumptions C22_and_exact_partial.
Theorem C22_or_exact_partial : forall a b, int_value a -> int_value b ->
  int_of a < 2^63 -> int_of b < 2^63 -> denotes (Some (v_or a b)) (Z.lor (int_of a) (int_of b)).
Proof. exact v_or_ok. Qed.
Print Assumptions C22_or_exact_partial.
Theorem C22_xor_exact_partial : forall a b, int_value a -> int_value b ->
  int_of a < 2^63 -> int_of b < 2^63 -> denotes (Some (v_xor a b)) (Z.lxor (int_of a) (int_of b)).
Proof. exact v_xor_ok. Qed.
Print Assumptions C22_xor_exact_partial.

(* arithmetic right shift: floor division by a power of two, counts below 2^32 *)
Theorem C22_shift_right_exact_partial : forall a b, int_value a -> int_value b ->
  0 <= int_of b < 2^32 -> denotes (Some (v_shr a b)) (int_of a / 2 ^ int_of b).
Proof. exact v_shr_ok. Qed.
Print Assumptions C22_shift_right_exact_partial.

(* the << operator of expressions works on 32 bits *)
Theorem C22_shift_left_exact_partial : forall a b, int_value a -> int_value b ->
  0 <= int_of a < 2^32 -> 0 <= int_of b < 2^32 -> int_of a * 2 ^ int_of b < 2^32 ->
  exists v, eval2 logical_shift_left a b = Some (OK, v) /\ int_value v /\ int_of v = int_of a * 2 ^ int_of b.
Proof. exact C22_shl. Qed.
Print Assumptions C22_shift_left_exact_partial.

Theorem C22_power_exact_partial : forall a b, int_value a -> int_value b -> 0 <= int_of b ->
  (if int_of a <? 0 then - 2^63 <= int_of a ^ int_of b < 2^63 else int_of a ^ int_of b < 2^64) ->
  denotes (v_exp a b) (int_of a ^ int_of b).
Proof. exact v_exp_ok. Qed.
Print Assumptions C22_power_exact_partial.

(* Values of every representable integer exist, so the theorems above apply to all of them. *)
Example C22_operands_exist : forall z, representable z -> int_value (of_int z) /\ int_of (of_int z) = z.
Proof. exact of_int_ok. Qed.
Example C22_case : v_sub (of_int 5) (of_int 9) = Some (of_int (-4)) /\
  v_mul (of_int (-3)) (of_int 7) = Some (of_int (-21)) /\
  v_div (of_int (-7)) (of_int 2) = Some (of_int (-3)) /\
  v_mod (of_int (-7)) (of_int 2) = Some (of_int (-1)) /\
  v_shr (of_int (-7)) (of_int 1) = of_int (-4) /\
  v_exp (of_int (-2)) (of_int 63) = Some (of_int (- 2^63)) /\
  v_add (of_int (2^63)) (of_int (2^63 - 1)) = Some (of_int (2^64 - 1)).
Proof. conjs; vm_compute; reflexivity. Qed.

(* -2^63 + 1 is representable, but the addition overflows a signed integer (undefined behaviour) *)
Theorem C22_addition_refuted : exists a b, int_value a /\ int_value b /\
  representable (int_of a + int_of b) /\ ~ denotes (v_add a b) (int_of a + int_of b).
Proof. exact C22_addition_counterexample. Qed.
Print Assumptions C22_addition_refuted.

(* 2^63 - (2^63+1) is not -1 *)
Theorem C22_subtraction_refuted : exists a b, int_value a /\ int_value b /\
  int_of a = 2^63 /\ int_of b = 2^63 + 1 /\ representable (int_of a - int_of b) /\
  ~ denotes (v_sub a b) (int_of a - int_of b).
Proof. exact C22_subtraction_counterexample. Qed.
Print Assumptions C22_subtraction_refuted.

(* 2^63 | 0 gives -2^63 *)
Theorem C22_or_refuted : exists a b, int_value a /\ int_value b /\
  representable (Z.lor (int_of a) (int_of b)) /\
  int_of (v_or a b) <> Z.lor (int_of a) (int_of b).
Proof. exact C22_or_counterexample. Qed.
Print Assumptions C22_or_refuted.

(* 1 << 32 gives 0 *)
Theorem C22_shift_left_refuted : exists a b v, int_value a /\ int_value b /\
  representable (int_of a * 2 ^ int_of b) /\ eval2 logical_shift_left a b = Some (OK, v) /\
  int_of v <> int_of a * 2 ^ int_of b.
Proof. exact C22_shl_counterexample. Qed.
Print Assumptions C22_shift_left_refuted.

(* 1 >> 2^32 gives 1 *)
Theorem C22_shift_right_refuted : exists a b, int_value a /\ int_value b /\
  int_of a = 1 /\ int_of b = 2^32 /\ int_of (v_shr a b) = 1.
Proof. exact C22_shr_counterexample. Qed.
Print Assumptions C22_shift_right_refuted.

(* ------------------------------------------------------------------ C23 *)
Theorem C23_less_exact : forall a b, int_value a -> int_value b ->
  v_ltb a b = (int_of a <? int_of b).
Proof. exact v_ltb_ok. Qed.
Print Assumptions C23_less_exact.

(* the six comparison operators of expressions; missing: a negative number against one from 2^63 on *)
Theorem C23_comparisons_exact_partial : forall a b, int_value a -> int_value b ->
  ~ (int_of a < 0 /\ 2^63 <= int_of b) -> ~ (int_of b < 0 /\ 2^63 <= int_of a) ->
  let answer (b : bool) := Some (OK, of_int (if b then 1 else 0)) in
  eval2 less_than a b = answer (int_of a <? int_of b) /\
  eval2 less_than_or_equal a b = answer (int_of a <=? int_of b) /\
  eval2 greater_than a b = answer (int_of b <? int_of a) /\
  eval2 greater_than_or_equal a b = answer (int_of b <=? int_of a) /\
  eval2 logical_equal a b = answer (int_of a =? int_of b) /\
  eval2 logical_not_equal a b = answer (negb (int_of a =? int_of b)).
Proof. exact C23_ops. Qed.
Print Assumptions C23_comparisons_exact_partial.

(* -1 == 2^64-1 answers true, and -1 < 2^64-1 also does *)
Theorem C23_equality_refuted : exists a b, int_value a /\ int_value b /\
  int_of a <> int_of b /\ v_eqb a b = true /\ v_ltb a b = true.
Proof. exact C23_counterexample. Qed.
Print Assumptions C23_equality_refuted.

Example C23_case : v_ltb (of_int (-1)) (of_int (2^64 - 1)) = true /\ v_ltb (of_int 3) (of_int (-2)) = false /\
  eval2 less_than_or_equal (of_int (-5)) (of_int (-5)) = Some (OK, of_int 1).
Proof. conjs; vm_compute; reflexivity. Qed.

(* ------------------------------------------------------------------ C24 *)
Theorem C24_overflow_exact : forall v max min, int_value v ->
  0 <= max < 2^32 -> - 2^31 <= min < 2^31 ->
  (overflow v max min = true <-> ~ (min <= int_of v <= max)).
Proof. exact C24_overflow. Qed.
Print Assumptions C24_overflow_exact.

Theorem C24_named_ranges_exact : forall v, int_value v ->
  (overflowInt8 v = true <-> ~ (- 2^7 <= int_of v < 2^7)) /\
  (overflowUint8 v = true <-> ~ (- 2^7 <= int_of v < 2^8)) /\
  (overflowInt16 v = true <-> ~ (- 2^15 <= int_of v < 2^15)) /\
  (overflowUint16 v = true <-> ~ (- 2^15 <= int_of v < 2^16)) /\
  (overflowInt32 v = true <-> ~ (- 2^31 <= int_of v < 2^31)) /\
  (overflowUint32 v = true <-> ~ (- 2^31 <= int_of v < 2^32)).
Proof. exact C24_named. Qed.
Print Assumptions C24_named_ranges_exact.
Example C24_case : overflowUint8 (of_int 255) = false /\ overflowUint8 (of_int 256) = true /\
  overflowUint8 (of_int (-129)) = true /\ overflow (of_int 7) 15 8 = true.
Proof. conjs; vm_compute; reflexivity. Qed.

(* ------------------------------------------------------------------ C27 *)
(* setErrorIf, with or without a position, keeps the first error of any sequence of reports *)
Theorem C27_first_error_kept : forall reports,
  let first := match filter (fun e => negb (isOK e)) reports with e :: _ => e | [] => OK end in
  fold_left setErrorIf reports OK = first /\ fold_left setErrorIfAt reports OK = first.
Proof. exact C27_first. Qed.
Print Assumptions C27_first_error_kept.

Theorem C27_setError_overwrites : forall before e, fold_left setError (before ++ [e]) OK = e.
Proof. exact C27_overwrite. Qed.
Print Assumptions C27_setError_overwrites.

Theorem C27_undefined_symbol_is_not_hard : forall e,
  hasError e = true <-> (e <> OK /\ e <> UNDEFINED_SYMBOL).
Proof. exact C27_hard. Qed.
Print Assumptions C27_undefined_symbol_is_not_hard.

(* But an undefined symbol reported first hides a later hard error. *)
Theorem C27_hard_error_hidden_refuted : exists reports, In OVERFLOW_RANGE reports /\
  hasError (fold_left setErrorIfAt reports OK) = false.
Proof. exists [UNDEFINED_SYMBOL; OVERFLOW_RANGE]. split; [right; left; reflexivity|reflexivity]. Qed.
Print Assumptions C27_hard_error_hidden_refuted.
Example C27_case : fold_left setErrorIf [OK; MISSING_COMMA; OVERFLOW_RANGE] OK = MISSING_COMMA.
Proof. reflexivity. Qed.
