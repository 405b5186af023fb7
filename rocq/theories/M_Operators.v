(** Model of src/operators.{h,cpp} and src/stack.h: operators, their evaluation on the value
    stack, and the operator readers of the syntax families.
    A stack is a list with the top first. *)
From Coq Require Import ZArith String List Bool.
From Verif Require Import M_Char M_Error M_Value.
Import ListNotations.
Open Scope string_scope.
Open Scope list_scope.
Local Open Scope Z_scope.

(* The result of a computation: a value; undefined arithmetic (signed overflow); an access outside
   an array; a floating-point number, which is outside the model; out of fuel. *)
Inductive res (A : Type) : Type := Val (a : A) | UB | OOB | FLOAT | FUEL.
Arguments Val {A} _.
Arguments UB {A}.
Arguments OOB {A}.
Arguments FLOAT {A}.
Arguments FUEL {A}.
Definition bind {A B} (r : res A) (k : A -> res B) : res B :=
  match r with Val a => k a | UB => UB | OOB => OOB | FLOAT => FLOAT | FUEL => FUEL end.
Definition arith {A} (o : option A) : res A := match o with Some a => Val a | None => UB end.

(* stack.h:24-42, operators.h:28-35: a stack of 8 values *)
Definition vstack := list value.
Definition CAPACITY : Z := 8.
Definition vs_size (s : vstack) : Z := Z.of_nat (List.length s).
Definition vs_full (s : vstack) : bool := CAPACITY <=? vs_size s.
(* operators.h:30-32 push: no bound check *)
Definition vs_push (s : vstack) (v : value) : res vstack := if vs_full s then OOB else Val (v :: s).
(* stack.h:37 pop: an undefined value when empty *)
Definition vs_pop (s : vstack) : value * vstack := match s with [] => (v_undef, []) | v :: t => (v, t) end.

(* the evaluation functions named in operators.cpp *)
Inductive opfn : Set :=
| bitwise_not | logical_not | unary_minus | unary_plus
| multiply | divide | modulo | add_ | subtract
| logical_shift_left | arithmetic_shift_right
| less_than | less_than_or_equal | greater_than_or_equal | greater_than
| logical_equal | logical_not_equal
| bitwise_and | bitwise_xor | bitwise_or | logical_and | logical_or
| exponential | rotate_left_16bit | rotate_right_16bit
| logical_shift_left_16bit | logical_shift_right_16bit
| most_significant_byte | least_significant_byte | most_significant_word | least_significant_word
| restore_radix | to_float16.

Definition b2z (b : bool) : Z := if b then 1 else 0.

(* operators.cpp:51-71,401-424: functions of one popped value *)
Definition eval1 (f : opfn) (v : value) : option value :=
  let u := getUnsigned v in
  match f with
  | bitwise_not => Some (v_lnot v)
  | logical_not => Some (setUnsigned (b2z (u =? 0)))
  | unary_minus => v_neg v
  | unary_plus => Some v
  | most_significant_byte => Some (setUnsigned (Z.shiftr u 8 mod 2^8))
  | least_significant_byte => Some (setUnsigned (u mod 2^8))
  | most_significant_word => Some (setUnsigned (Z.shiftr u 16 mod 2^16))
  | least_significant_word => Some (setUnsigned (u mod 2^16))
  | _ => None
  end.

(* operators.cpp:83-218,322-368: functions of two popped values *)
Definition eval2 (f : opfn) (lhs rhs : value) : option (err * value) :=
  let ok v := Some (OK, v) in
  let ok' (o : option value) := option_map (fun v => (OK, v)) o in
  let bool_ b := ok (setUnsigned (b2z b)) in
  let r := getUnsigned rhs in
  let l := getUnsigned lhs in
  let l16 := l mod 2^16 in
  match f with
  | multiply => ok' (v_mul lhs rhs)
  | divide => if isZero rhs then Some (DIVIDE_BY_ZERO, v_undef) else ok' (v_div lhs rhs)
  | modulo => if isZero rhs then Some (DIVIDE_BY_ZERO, v_undef) else ok' (v_mod lhs rhs)
  | add_ => ok' (v_add lhs rhs)
  | subtract => ok' (v_sub lhs rhs)
  | logical_shift_left => ok (setUnsigned (if r <? 32 then Z.shiftl l r mod 2^32 else 0))
  | arithmetic_shift_right => ok (v_shr lhs rhs)
  | less_than => bool_ (v_ltb lhs rhs)
  | less_than_or_equal => bool_ (v_ltb lhs rhs || v_eqb lhs rhs)
  | greater_than_or_equal => bool_ (negb (v_ltb lhs rhs))
  | greater_than => bool_ (negb (v_ltb lhs rhs) && negb (v_eqb lhs rhs))
  | logical_equal => bool_ (v_eqb lhs rhs)
  | logical_not_equal => bool_ (negb (v_eqb lhs rhs))
  | bitwise_and => ok (v_and lhs rhs)
  | bitwise_xor => ok (v_xor lhs rhs)
  | bitwise_or => ok (v_or lhs rhs)
  | logical_and => bool_ (v_land lhs rhs)
  | logical_or => bool_ (v_lor lhs rhs)
  | exponential => ok' (v_exp lhs rhs)
  | rotate_left_16bit =>
    let n := r mod 16 in ok (setUnsigned (Z.lor (Z.shiftl l16 n) (Z.shiftr l16 (16 - n)) mod 2^16))
  | rotate_right_16bit =>
    let n := r mod 16 in ok (setUnsigned (Z.lor (Z.shiftr l16 n) (Z.shiftl l16 (16 - n)) mod 2^16))
  | logical_shift_left_16bit => ok (setUnsigned (if r <? 16 then Z.shiftl l16 r mod 2^16 else 0))
  | logical_shift_right_16bit => ok (setUnsigned (if r <? 16 then Z.shiftr l16 r mod 2^16 else 0))
  | _ => None
  end.

(* how many values a function pops *)
Definition pops (f : opfn) : nat :=
  match f with
  | bitwise_not | logical_not | unary_minus | unary_plus | most_significant_byte
  | least_significant_byte | most_significant_word | least_significant_word | to_float16 => 1
  | _ => 2
  end%nat.

(* Evaluation on the stack and the current default radix: error, stack, radix.
   operators.cpp:51-218,322-368,401-424, restore_radix 690-696; to_float16 is outside the model. *)
Definition run_op (f : opfn) (s : vstack) (rdx : Z) : res (err * vstack * Z) :=
  match f with
  | to_float16 => FLOAT
  | restore_radix =>
    let '(v, s) := vs_pop s in
    let '(r, s) := vs_pop s in
    bind (vs_push s v) (fun s => Val (OK, s, getUnsigned r mod 256))
  | _ =>
    match pops f with
    | S O =>
      let '(v, s) := vs_pop s in
      bind (arith (eval1 f v)) (fun r => bind (vs_push s r) (fun s => Val (OK, s, rdx)))
    | _ =>
      let '(rhs, s) := vs_pop s in
      let '(lhs, s) := vs_pop s in
      bind (arith (eval2 f lhs rhs)) (fun '(e, r) =>
        if isOK e then bind (vs_push s r) (fun s => Val (OK, s, rdx)) else Val (e, s, rdx))
    end
  end.
