(** C20: a malformed expression is reported, not given a value. *)
From Coq Require Import ZArith String List Bool.
From Verif Require Import M_Char M_Error M_Value M_Text M_Number M_Operators M_Parsers M_Expr S_Expr S_ExprTree S_ExprBad P_ExprBad P_ExprCase P_ExprBadCase.
Import ListNotations.
Open Scope string_scope.
Open Scope list_scope.
Local Open Scope Z_scope.

(* An operand is missing: operators, or open parentheses, and then the end of the expression, or
   operators and then a closing parenthesis. Whatever follows the parenthesis, the answer is not
   a value without an error. Missing: texts with calls, the PDP-11, and the words SHR and SHL,
   for all of which the claim is false (below). *)
Theorem C20_missing_operand_partial : forall f cx n m b0 s rest v t x,
  In f tree_families -> quiet cx -> total_functions cx -> no_calls f cx (b0 ++ s) -> no_word_shifts (b0 ++ s) ->
  blanks b0 -> lead f cx n m s rest -> no_operand_here cx rest ->
  (0 < n)%nat \/ ((0 < m)%nat /\ peek rest <> 41) ->
  eval (fam_pl f) cx (b0 ++ s) 10 OK <> Val (v, OK, t, x).
Proof. intros f cx n m b0 s rest v t x I Q T NC NS B L N H. exact (missing_operand f cx (b0 ++ s) I NC NS T Q n m b0 s rest eq_refl B L N H v t x). Qed.
Print Assumptions C20_missing_operand_partial.

(* A closing parenthesis is missing: at least one is open where the expression ends. *)
Theorem C20_missing_parenthesis_partial : forall f cx n m b0 s last e rest v t x,
  In f tree_families -> quiet cx -> total_functions cx -> no_calls f cx (b0 ++ s) -> no_word_shifts (b0 ++ s) ->
  blanks b0 -> lead f cx n m s last -> derives f cx e last rest -> primary e -> well_nested e ->
  ends cx rest -> peek rest <> 41 -> (0 < m)%nat ->
  eval (fam_pl f) cx (b0 ++ s) 10 OK <> Val (v, OK, t, x).
Proof. intros f cx n m b0 s last e rest v t x I Q T NC NS B L D P W N H M. exact (missing_paren f cx (b0 ++ s) I NC NS T Q n m b0 s last e rest eq_refl B L D P W N H M v t x). Qed.
Print Assumptions C20_missing_parenthesis_partial.

(* A comparison compared again, at the start of the expression or just after an open parenthesis
   anywhere in it, and whatever follows. *)
Theorem C20_comparison_chain_partial : forall f cx b0 s v t x,
  In f tree_families -> quiet cx -> total_functions cx -> no_calls f cx (b0 ++ s) -> no_word_shifts (b0 ++ s) ->
  blanks b0 -> chain f cx s ->
  eval (fam_pl f) cx (b0 ++ s) 10 OK <> Val (v, OK, t, x).
Proof. intros f cx b0 s v t x I Q T NC NS B C. exact (chain_start f cx (b0 ++ s) I T Q b0 s eq_refl B C v t x). Qed.
Print Assumptions C20_comparison_chain_partial.
Theorem C20_comparison_chain_inside_partial : forall f cx n m b0 s b1 s1 v t x,
  In f tree_families -> quiet cx -> total_functions cx -> no_calls f cx (b0 ++ s) -> no_word_shifts (b0 ++ s) ->
  blanks b0 -> blanks b1 -> lead f cx n m s (40 :: b1 ++ s1) -> chain f cx s1 ->
  eval (fam_pl f) cx (b0 ++ s) 10 OK <> Val (v, OK, t, x).
Proof. intros f cx n m b0 s b1 s1 v t x I Q T NC NS B B1 L C. exact (chain_paren f cx (b0 ++ s) I NC NS T Q n m b0 s b1 s1 eq_refl B L B1 C v t x). Qed.
Print Assumptions C20_comparison_chain_inside_partial.

(* cases, in Intel syntax *)
Example C20_case_hypotheses : forall s, In s [s2l "10 - 2*( ; x"; s2l "( 10 - 2"; s2l "2<3<10"; s2l "10-(2<3<10)"] ->
  In ex_fam tree_families /\ quiet ex_cx /\ total_functions ex_cx /\ no_calls ex_fam ex_cx s /\ no_word_shifts s.
Proof. exact ex_hyps. Qed.
Example C20_case_operand : lead ex_fam ex_cx 2 1 (s2l "10 - 2*( ; x") (s2l "; x") /\ no_operand_here ex_cx (s2l "; x") /\
  eval pl_intel ex_cx (s2l "10 - 2*( ; x") 10 OK = Val (v_undef, MISSING_CLOSING_PAREN, s2l "; x", 10).
Proof. split; [exact ex_missing_operand|]. split; [left; cbn; tauto|vm_compute; reflexivity]. Qed.
Example C20_case_parenthesis :
  (lead ex_fam ex_cx 1 1 (s2l "( 10 - 2") (s2l "2") /\ derives ex_fam ex_cx (Num (s2l "2") (setUnsigned 2)) (s2l "2") []) /\
  eval pl_intel ex_cx (s2l "( 10 - 2") 10 OK = Val (v_undef, MISSING_CLOSING_PAREN, [], 10).
Proof. split; [exact ex_missing_paren|vm_compute; reflexivity]. Qed.
Example C20_case_chain : chain ex_fam ex_cx (s2l "2<3<10") /\
  eval pl_intel ex_cx (s2l "2<3<10") 10 OK = Val (v_undef, OPERATOR_NOT_ASSOCIATIVE, s2l "10", 10).
Proof. split; [exact ex_chain|vm_compute; reflexivity]. Qed.
Example C20_case_chain_inside : lead ex_fam ex_cx 1 0 (s2l "10-(2<3<10)") (s2l "(2<3<10)") /\ chain ex_fam ex_cx (s2l "2<3<10)").
Proof. exact ex_chain_paren. Qed.

(* Parentheses around nothing are accepted. *)
Theorem C20_empty_parentheses_refuted :
  eval pl_intel empty_ctx (s2l "()") 10 OK = Val (v_undef, OK, [], 10).
Proof. vm_compute. reflexivity. Qed.
Print Assumptions C20_empty_parentheses_refuted.
(* The word shifts of Intel and Zilog syntax are declared with one argument: the missing second
   operand is not noticed. *)
Theorem C20_word_shift_refuted : forall pl, In pl [pl_intel; pl_zilog] ->
  exists v, eval pl empty_ctx (s2l "5 SHR") 10 OK = Val (v, OK, [], 10).
Proof. intros pl [<-|[<-|[]]]; eexists; vm_compute; reflexivity. Qed.
Print Assumptions C20_word_shift_refuted.
(* A closing parenthesis that closes nothing is consumed and forgotten. *)
Theorem C20_stray_parenthesis_refuted :
  eval pl_intel empty_ctx (s2l "1)") 10 OK = Val (setUnsigned 1, OK, [], 10) /\
  eval pl_intel empty_ctx (s2l "1") 10 OK = Val (setUnsigned 1, OK, [], 10).
Proof. split; vm_compute; reflexivity. Qed.
Print Assumptions C20_stray_parenthesis_refuted.
(* An operator without an operand, as the last argument of a call, is applied to the argument
   before it. [F] returns its argument: one parameter. *)
Definition identity_function := mkF 1 (fun s _ => Val (OK, s)).
Theorem C20_operator_in_call_refuted :
  let cx := mkC 0 (fun _ => None) (fun n => if iequals n (s2l "F") then Some identity_function else None) 0 in
  eval pl_intel cx (s2l "F(1,-)") 10 OK = Val (setInteger (-1), OK, [], 10).
Proof. vm_compute. reflexivity. Qed.
Print Assumptions C20_operator_in_call_refuted.
