(** Specification vocabulary for integer values and digit strings. *)
From Coq Require Import ZArith List Bool.
From Verif Require Import M_Char M_Value.
Import ListNotations.
Local Open Scope Z_scope.

(* A 64-bit integer value as the API creates them: unsigned, or signed and negative.  The
   undefined value counts as 0. *)
Definition int_value (v : value) : Prop :=
  match v_type v with
  | V_UNDEF => v_bits v = 0
  | V_UNSIGNED => 0 <= v_bits v < 2^64
  | V_SIGNED => 2^63 <= v_bits v < 2^64
  | V_FLOAT => False
  end.

(* the integer it denotes *)
Definition int_of (v : value) : Z :=
  match v_type v with V_SIGNED => v_bits v - 2^64 | _ => v_bits v end.

(* the value that holds a given integer *)
Definition of_int (z : Z) : value := if z <? 0 then mkV V_SIGNED (z + 2^64) else mkV V_UNSIGNED z.

(* what a value can hold *)
Definition representable (z : Z) : Prop := - 2^63 <= z < 2^64.

(* [denotes r z]: the computation is defined and its result is an integer value denoting [z] *)
Definition denotes (r : option value) (z : Z) : Prop :=
  exists v, r = Some v /\ int_value v /\ int_of v = z.

(* the digits of a radix: 0-9, then A-F in either case *)
Definition digit_of (c : Z) : option Z :=
  if (48 <=? c) && (c <=? 57) then Some (c - 48)
  else if (65 <=? c) && (c <=? 70) then Some (c - 55)
  else if (97 <=? c) && (c <=? 102) then Some (c - 87)
  else None.
Definition is_digit_in (r c : Z) : Prop := exists d, digit_of c = Some d /\ d < r.

(* the number a digit string stands for *)
Definition positional (r : Z) (ds : text) : Z :=
  fold_left (fun acc c => acc * r + match digit_of c with Some d => d | None => 0 end) ds 0.
