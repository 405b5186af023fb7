(** C19 and C21: expression evaluation keeps within its stacks, comes to an end and consumes a
    prefix of its text. *)
From Coq Require Import ZArith String List Bool.
From Verif Require Import M_Char M_Error M_Value M_Text M_Number M_Operators M_Parsers M_Expr S_Expr P_Expr P_ExprSafe.
Import ListNotations.
Open Scope string_scope.
Open Scope list_scope.
Local Open Scope Z_scope.

(* ------------------------------------------------------------------------------- C19 *)
(* In every syntax family but the PDP-11's, on every text, with functions that keep to their own
   arguments, no slot outside the two 8-slot stacks is read or written. *)
Theorem C19_no_access_outside_stacks_partial : forall pl cx t rdx e,
  In pl families -> safe_functions cx -> eval pl cx t rdx e <> OOB.
Proof. exact C19_safe. Qed.
Print Assumptions C19_no_access_outside_stacks_partial.

(* In every state the evaluation loop reaches, at most 8 values and 8 operators are stacked. *)
Theorem C19_stacks_bounded_partial : forall pl cx t rdx e s,
  In pl families -> safe_functions cx -> reached pl cx t rdx e s ->
  (length (s_vs s) <= 8 /\ length (s_os s) <= 8)%nat.
Proof. exact C19_states. Qed.
Print Assumptions C19_stacks_bounded_partial.

Definition empty_context := mkC 0x1000 (fun _ => None) (fun _ => None) 0.
Example C19_case_context : safe_functions empty_context /\ total_functions empty_context.
Proof. split; intros n f H; discriminate H. Qed.
(* nine open parentheses are reported, eight are not too many *)
Example C19_case :
  eval pl_default empty_context (s2l "(((((((((1)))))))))") 10 OK =
    Val (v_undef, TOO_COMPLEX_EXPRESSION, s2l "1)))))))))", 10) /\
  eval pl_default empty_context (s2l "((((((((1))))))))") 10 OK = Val (setUnsigned 1, OK, [], 10).
Proof. split; reflexivity. Qed.

(* PDP-11: nine radix prefixes push nine values without asking whether the value stack is full. *)
Theorem C19_pdp11_radix_prefixes_refuted : exists t, eval pl_pdp11 empty_context t 10 OK = OOB.
Proof. exists (s2l "^D^D^D^D^D^D^D^D^D1"). vm_compute. reflexivity. Qed.
Print Assumptions C19_pdp11_radix_prefixes_refuted.

(* PDP-11: the comma in a call [F<1,2>] of a function without parameters reads the top of an
   empty operator stack. *)
Definition constant_function := mkF 0 (fun s _ => Val (OK, setUnsigned 7 :: s)).
Theorem C19_pdp11_call_refuted : exists cx t,
  total_functions cx /\ eval pl_pdp11 cx t 10 OK = OOB.
Proof.
  exists (mkC 0 (fun _ => None) (fun n => if iequals n (s2l "F") then Some constant_function else None) 0), (s2l "F<1,2>").
  split; [|vm_compute; reflexivity].
  intros n f. cbn [c_function]. destruct (iequals n (s2l "F")); intros H; [|discriminate H].
  injection H as <-. intros s r. discriminate.
Qed.
Print Assumptions C19_pdp11_call_refuted.

(* ------------------------------------------------------------------------------- C21 *)
(* The loop makes progress: as many rounds as the text has letters, and one more, are enough. *)
Theorem C21_evaluation_terminates : forall pl cx t rdx e fuel,
  In pl all_families -> total_functions cx -> (length t < fuel)%nat ->
  eval_fuel fuel pl cx t rdx e = eval pl cx t rdx e /\ eval pl cx t rdx e <> FUEL.
Proof. exact C21_term. Qed.
Print Assumptions C21_evaluation_terminates.

(* The scanner is left on a suffix of the text. *)
Theorem C21_rest_is_suffix : forall pl cx t rdx e v e' t' r',
  In pl all_families -> total_functions cx -> eval pl cx t rdx e = Val (v, e', t', r') ->
  exists consumed, t = consumed ++ t'.
Proof. exact C21_sfx. Qed.
Print Assumptions C21_rest_is_suffix.

(* An evaluation that consumes nothing but blanks ends in an error. *)
Theorem C21_nothing_consumed_reported : forall pl cx b t rdx e v e' r',
  In pl all_families -> total_functions cx -> Forall (fun c => is_space c = true) b ->
  eval pl cx (b ++ t) rdx e = Val (v, e', t, r') -> e' <> OK.
Proof. exact C21_nothing. Qed.
Print Assumptions C21_nothing_consumed_reported.

Example C21_case :
  eval pl_intel empty_context (s2l "  0FFH AND (3 SHL 2), 5") 10 OK = Val (setUnsigned 12, OK, s2l ", 5", 10) /\
  eval pl_intel empty_context (s2l "  , 5") 10 OK = Val (v_undef, NOT_AN_EXPECTED, s2l ", 5", 10).
Proof. split; vm_compute; reflexivity. Qed.
