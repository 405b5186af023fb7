(** Cases of the malformed texts of C20. *)
From Coq Require Import ZArith Lia ZifyBool String List Bool.
From Verif Require Import M_Char M_Error M_Value M_Text M_Number M_Operators M_Parsers M_Expr S_Expr S_ExprTree S_ExprBad P_ExprCase.
Import ListNotations.
Open Scope string_scope.
Open Scope list_scope.
Local Open Scope Z_scope.

Fixpoint tails (s : text) : list text := s :: match s with [] => [] | _ :: t => tails t end.
Lemma tails_in a b : In b (tails (a ++ b)).
Proof. induction a as [|c a IH]; [destruct b; now left|right; exact IH]. Qed.
Lemma shifts_by_tails s : forallb (fun b => negb (existsb (fun w => if list_eq_dec Z.eq_dec w (map to_upper (first_word b)) then true else false) [s2l "SHR"; s2l "SHL"])) (tails s) = true ->
  no_word_shifts s.
Proof.
  intros H a b -> K. rewrite forallb_forall in H. specialize (H b (tails_in a b)). apply negb_true_iff in H.
  assert (existsb (fun w => if list_eq_dec Z.eq_dec w (map to_upper (first_word b)) then true else false) [s2l "SHR"; s2l "SHL"] = true); [|congruence].
  apply existsb_exists. eexists. split; [exact K|]. destruct (list_eq_dec Z.eq_dec _ _); [reflexivity|contradiction].
Qed.
Definition ex_lt := ent "<" 9 NONE less_than.
Lemma ex_sep_lt rest : is_digit (peek rest) = true -> separate infix_intel (s2l "<") rest.
Proof.
  intros N. split; [|cbn; discriminate]. destruct rest as [|b rest]; [discriminate|].
  intros d D L [r E]. cbn in L, E, D, N. unfold is_digit in N.
  repeat (destruct D as [<-|D]; [cbn in L, E; try lia; injection E as E1 E2; try lia|]). destruct D.
Qed.
Ltac b0 := constructor. Ltac b1 := constructor; [reflexivity|constructor].
Lemma ex_missing_operand : lead ex_fam ex_cx 2 1 (s2l "10 - 2*( ; x") (s2l "; x").
Proof.
  apply (L_infix ex_fam ex_cx ex_minus (s2l "-") [32] (Num (s2l "10") (setUnsigned 10)) 1 1 _ (s2l "2*( ; x")); [cbn; tauto|now left|b1|apply ex_sep; cbn; tauto|exact Logic.I|exact Logic.I| |].
  { apply (D_num ex_fam ex_cx (s2l "10") _ [32]); [now left|apply ex_num; cbn; tauto|b1|now left]. }
  apply (L_infix ex_fam ex_cx ex_times (s2l "*") [] (Num (s2l "2") (setUnsigned 2)) 0 1 _ (s2l "( ; x")); [cbn; tauto|now left|b0|apply ex_sep; cbn; tauto|exact Logic.I|exact Logic.I| |].
  { apply (D_num ex_fam ex_cx (s2l "2") _ []); [now left|apply ex_num; cbn; tauto|b0|right; cbn; tauto]. }
  apply (L_open ex_fam ex_cx [32] 0 0 (s2l "; x")); [b1|]. constructor.
Qed.
Lemma ex_missing_paren : lead ex_fam ex_cx 1 1 (s2l "( 10 - 2") (s2l "2") /\ derives ex_fam ex_cx (Num (s2l "2") (setUnsigned 2)) (s2l "2") [].
Proof.
  split.
  - apply (L_open ex_fam ex_cx [32] 1 0 (s2l "10 - 2")); [b1|].
    apply (L_infix ex_fam ex_cx ex_minus (s2l "-") [32] (Num (s2l "10") (setUnsigned 10)) 0 0 _ (s2l "2")); [cbn; tauto|now left|b1|apply ex_sep; cbn; tauto|exact Logic.I|exact Logic.I| |].
    { apply (D_num ex_fam ex_cx (s2l "10") _ [32]); [now left|apply ex_num; cbn; tauto|b1|now left]. }
    constructor.
  - apply (D_num ex_fam ex_cx (s2l "2") _ [] []); [now left|apply ex_num; cbn; tauto|b0|exact Logic.I].
Qed.
Lemma ex_chain : chain ex_fam ex_cx (s2l "2<3<10").
Proof.
  apply (Chain ex_fam ex_cx ex_lt ex_lt (Num (s2l "2") (setUnsigned 2)) (Num (s2l "3") (setUnsigned 3)) (s2l "<") [] _ (s2l "10"));
    [cbn; tauto|now left|b0|now apply ex_sep_lt|reflexivity|reflexivity|cbn; repeat split; auto; left; lia|].
  apply (D_bin ex_fam ex_cx ex_lt (s2l "<") [] _ _ _ (s2l "3<10")); [cbn; tauto|now left|b0|now apply ex_sep_lt| |].
  - apply (D_num ex_fam ex_cx (s2l "2") _ []); [now left|apply ex_num; cbn; tauto|b0|right; cbn; tauto].
  - apply (D_num ex_fam ex_cx (s2l "3") _ []); [now left|apply ex_num; cbn; tauto|b0|right; cbn; tauto].
Qed.
Lemma ex_hyps s : In s [s2l "10 - 2*( ; x"; s2l "( 10 - 2"; s2l "2<3<10"; s2l "10-(2<3<10)"] ->
  In ex_fam tree_families /\ quiet ex_cx /\ total_functions ex_cx /\ no_calls ex_fam ex_cx s /\ no_word_shifts s.
Proof.
  intros K. split; [cbn; tauto|]. split; [cbn; tauto|]. split; [intros n g H; discriminate H|]. split; [intros a n b _; split; reflexivity|].
  apply shifts_by_tails. cbn in K. destruct K as [<-|[<-|[<-|[<-|[]]]]]; vm_compute; reflexivity.
Qed.
Lemma ex_chain_paren : lead ex_fam ex_cx 1 0 (s2l "10-(2<3<10)") (s2l "(2<3<10)") /\ chain ex_fam ex_cx (s2l "2<3<10)").
Proof.
  split.
  - apply (L_infix ex_fam ex_cx ex_minus (s2l "-") [] (Num (s2l "10") (setUnsigned 10)) 0 0 _ (s2l "(2<3<10)")); [cbn; tauto|now left|b0|apply ex_sep; cbn; tauto|exact Logic.I|exact Logic.I| |constructor].
    apply (D_num ex_fam ex_cx (s2l "10") _ []); [now left|apply ex_num; cbn; tauto|b0|right; cbn; tauto].
  - apply (Chain ex_fam ex_cx ex_lt ex_lt (Num (s2l "2") (setUnsigned 2)) (Num (s2l "3") (setUnsigned 3)) (s2l "<") [] _ (s2l "10)"));
      [cbn; tauto|now left|b0|now apply ex_sep_lt|reflexivity|reflexivity|cbn; repeat split; auto; left; lia|].
    apply (D_bin ex_fam ex_cx ex_lt (s2l "<") [] _ _ _ (s2l "3<10)")); [cbn; tauto|now left|b0|now apply ex_sep_lt| |].
    + apply (D_num ex_fam ex_cx (s2l "2") _ []); [now left|apply ex_num; cbn; tauto|b0|right; cbn; tauto].
    + apply (D_num ex_fam ex_cx (s2l "3") _ []); [now left|apply ex_num; cbn; tauto|b0|right; cbn; tauto].
Qed.
