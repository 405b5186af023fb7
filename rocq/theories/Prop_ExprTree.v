(** C18: the value of an expression text is the value of the tree that operator levels and
    associativities give to it. *)
From Coq Require Import ZArith String List Bool.
From Verif Require Import M_Char M_Error M_Value M_Text M_Number M_Operators M_Parsers M_Expr S_Expr S_ExprTree P_ExprTree P_ExprCase.
Import ListNotations.
Open Scope string_scope.
Open Scope list_scope.
Local Open Scope Z_scope.

(* In the 21 syntax combinations other than the PDP-11's: a text [s] that reads, with the family's
   operator tables, as the tree [e], nested as levels and associativities demand and needing at
   most 8 slots of each stack, evaluates to the tree's value, and the scanner is left on what
   follows. The first error met, from left to right, is reported: a division by zero, an error of a
   function, a call with another number of arguments than the function has. Calls have one argument
   or more; a function is whatever the [computes] of its tree says. Missing: calls without
   arguments, undefined symbols, letter constants, and the PDP-11 with its angle brackets and radix
   prefixes. *)
Theorem C18_value_is_tree_value_partial : forall f cx e b0 s rest,
  In f tree_families -> quiet cx -> blanks b0 ->
  derives f cx e s rest -> well_nested e -> ends cx rest ->
  value_slots e <= 8 -> operator_slots e <= 8 ->
  match value_of e with
  | Val (OK, v) => exists b, blanks b /\ eval (fam_pl f) cx (b0 ++ s) 10 OK = Val (v, OK, b ++ rest, 10)
  | Val (x, _) => exists t, eval (fam_pl f) cx (b0 ++ s) 10 OK = Val (v_undef, x, t, 10)
  | UB => eval (fam_pl f) cx (b0 ++ s) 10 OK = UB
  | OOB => eval (fam_pl f) cx (b0 ++ s) 10 OK = OOB
  | FLOAT => eval (fam_pl f) cx (b0 ++ s) 10 OK = FLOAT
  | FUEL => eval (fam_pl f) cx (b0 ++ s) 10 OK = FUEL
  end.
Proof. exact C18_exact. Qed.
Print Assumptions C18_value_is_tree_value_partial.

(* Without the bound on the slots: an answer that is not an error is the tree's value. *)
Theorem C18_no_other_value_partial : forall f cx e b0 s rest v t r,
  In f tree_families -> quiet cx -> blanks b0 ->
  derives f cx e s rest -> well_nested e -> ends cx rest ->
  eval (fam_pl f) cx (b0 ++ s) 10 OK = Val (v, OK, t, r) ->
  value_of e = Val (OK, v) /\ skipSpaces t = rest /\ r = 10.
Proof. exact C18_sound. Qed.
Print Assumptions C18_no_other_value_partial.

(* The tree of a text is unique as far as its value goes. *)
Theorem C18_tree_is_unique_partial : forall f cx e1 e2 s rest1 rest2,
  In f tree_families -> quiet cx ->
  derives f cx e1 s rest1 -> well_nested e1 -> ends cx rest1 -> value_slots e1 <= 8 -> operator_slots e1 <= 8 ->
  derives f cx e2 s rest2 -> well_nested e2 -> ends cx rest2 -> value_slots e2 <= 8 -> operator_slots e2 <= 8 ->
  match value_of e1 with
  | Val (OK, v) => value_of e2 = Val (OK, v) /\ rest1 = rest2
  | Val (e, _) => exists v', value_of e2 = Val (e, v')
  | r => value_of e2 = r
  end.
Proof. exact C18_unique. Qed.
Print Assumptions C18_tree_is_unique_partial.

(* a case (its pieces are in P_ExprCase.v): 10 - 2 * ( MASK - 3 ) - $ in Intel syntax *)
Example C18_case :
  In ex_fam tree_families /\ quiet ex_cx /\
  derives ex_fam ex_cx ex_tree (s2l "10 - 2*( MASK-3) -$ ; rest") (s2l "; rest") /\
  well_nested ex_tree /\ ends ex_cx (s2l "; rest") /\ value_slots ex_tree <= 8 /\ operator_slots ex_tree <= 8 /\
  value_of ex_tree = Val (OK, setInteger (-250)) /\
  eval pl_intel ex_cx (s2l "10 - 2*( MASK-3) -$ ; rest") 10 OK = Val (setInteger (-250), OK, s2l "; rest", 10).
Proof. exact C18_example. Qed.

(* Intel syntax: a sign, whose level is that of addition, directly after an operator that binds
   tighter, ends that operator's right operand before it began. [1+2*-3] gives -1, which is
   neither of the two readings. *)
Theorem C18_intel_sign_after_operator_refuted :
  eval pl_intel empty_ctx (s2l "1+2*-3") 10 OK = Val (setInteger (-1), OK, [], 10) /\
  eval pl_intel empty_ctx (s2l "1+(2*(-3))") 10 OK = Val (setInteger (-5), OK, [], 10) /\
  eval pl_intel empty_ctx (s2l "(1+2)*(-3)") 10 OK = Val (setInteger (-9), OK, [], 10).
Proof. repeat split; vm_compute; reflexivity. Qed.
Print Assumptions C18_intel_sign_after_operator_refuted.

(* A defined symbol whose name starts with the letters of a word operator and an underscore is
   read as that operator applied to the rest of the name. *)
Theorem C18_symbol_read_as_operator_refuted : exists cx,
  c_symbol cx (s2l "HIGH_X") = Some (setUnsigned 0x1234) /\ c_symbol cx (s2l "_X") = Some (setUnsigned 0x5678) /\
  eval pl_intel cx (s2l "HIGH_X") 10 OK = Val (setUnsigned 0x56, OK, [], 10) /\
  eval pl_zilog cx (s2l "HIGH_X") 10 OK = Val (setUnsigned 0x56, OK, [], 10).
Proof.
  exists (mkC 0 (fun n => if iequals n (s2l "HIGH_X") then Some (setUnsigned 0x1234) else
                          if iequals n (s2l "_X") then Some (setUnsigned 0x5678) else None) (fun _ => None) 0).
  repeat split; vm_compute; reflexivity.
Qed.
Print Assumptions C18_symbol_read_as_operator_refuted.
