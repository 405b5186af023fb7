(** Proofs about lists of data one item of which is reported. *)
From Coq Require Import String ZArith List Bool Lia ZifyBool.
From Verif Require Import M_Char M_Error M_Value M_Text M_Insn M_Config M_Operators M_Parsers M_Expr M_Directive
  S_Expr S_ExprTree S_Insn S_Directive S_DataBad P_Insn P_ExprTree P_ExprRead P_Directive P_Data.
Import ListNotations.
Local Open Scope list_scope.
Local Open Scope Z_scope.

Lemma ifat_keeps e x : e <> OK -> setErrorIfAt e x = e.
Proof. unfold setErrorIfAt. destruct e; try reflexivity. contradiction. Qed.
Lemma ifat_bad e x : x <> OK -> setErrorIfAt e x <> OK.
Proof. unfold setErrorIfAt. destruct e; try discriminate. destruct x; try discriminate. contradiction. Qed.
(* an error stays one, or an item makes one *)
Definition round_err (r : round) : err := match r with Stop e _ | More e _ => e end.
Lemma expr_keeps a ty e str s r : data_expr a ty e str s = Val r -> e <> OK -> round_err r <> OK.
Proof.
  unfold data_expr. destruct (parseExpr a s 0) as [[[v ee] p]| | | |]; try discriminate. cbn [bind].
  destruct (endOfLine a p) as [z q]. destruct (negb z && negb (peek q =? 44)).
  { intros [= <-] N. cbn. rewrite ifat_keeps; auto. }
  destruct (hasError ee). { intros [= <-] N. cbn. rewrite ifat_keeps; auto. }
  destruct (emit_constant a ty v (ds_insn s)) as [[em i]| | | |]; try discriminate. cbn [bind]. intros H N. rewrite ifat_keeps in H by auto.
  destruct (err_eqb e NO_MEMORY); injection H as <-; exact N.
Qed.
Lemma item_keeps a ty e s r : data_item a ty e s = Val r -> e <> OK -> round_err r <> OK.
Proof.
  unfold data_item. cbv zeta. destruct (has_string ty); [|apply expr_keeps].
  destruct (isString a (skipSpaces (ds_scan s))) as [[se stop]| | | |]; try discriminate. cbn [bind].
  destruct (isOK se); [|apply expr_keeps].
  destruct (generateString _ _ _ _ _ _) as [[[i se'] p]| | | |]; try discriminate. cbn [bind]. intros H N. rewrite ifat_keeps in H by auto.
  destruct (err_eqb e NO_MEMORY); injection H as <-; exact N.
Qed.
Lemma items_keep a ty fuel : forall e s e' s', data_items fuel a ty e s = Val (e', s') -> e <> OK -> e' <> OK.
Proof.
  induction fuel as [|fuel IH]; intros e s e' s' H N; [discriminate|]. cbn [data_items] in H.
  destruct (data_item a ty e s) as [r| | | |] eqn:D; try discriminate. cbn [bind] in H. apply item_keeps in D; auto.
  destruct r as [x y|x y]; cbn in D; [now injection H as <- _|].
  destruct (expect_char 44 (skipSpaces (ds_scan y))); [eapply IH; eauto|now injection H as <- _].
Qed.
(* an expression that is reported *)
Lemma expr_bad a ty e str s r x : data_expr a ty e str s = Val r -> operand_error a s x -> round_err r <> OK.
Proof.
  unfold data_expr. intros H (N & v & p & E). rewrite E in H. cbn [bind] in H.
  destruct (endOfLine a p) as [z q]. destruct (negb z && negb (peek q =? 44)).
  { injection H as <-. cbn. apply ifat_bad. destruct str; discriminate. }
  destruct (hasError x). { injection H as <-. cbn. apply ifat_bad. destruct str; try discriminate. exact N. }
  destruct (emit_constant a ty v (ds_insn s)) as [[em i]| | | |]; try discriminate. cbn [bind] in H.
  assert (setErrorIfAt e (setErrorIfAt x em) <> OK) as B by (rewrite (ifat_keeps x) by exact N; now apply ifat_bad).
  destruct (err_eqb _ NO_MEMORY); injection H as <-; exact B.
Qed.
Lemma items_bad f a ty adr loc : In f data_families -> a_pl a = fam_pl f -> a_radix a = 10 -> (a_unit a = 1 \/ a_unit a = 2) -> integer_type ty = true ->
  total_functions (mkC loc (a_symbol a) (a_function a) 0) ->
  forall t, bad_data f a loc (has_string ty) t -> forall fuel i bs e s', holds adr bs i OK ->
  data_items fuel a ty OK (mkDS loc t i) = Val (e, s') -> e <> OK.
Proof.
  intros I AP RX U TY TF t H. induction H as [x b t B SP Q1 Q2 OE|it b t rest B IT BD IH]; intros fuel i bs e s' HO D; (destruct fuel as [|fuel]; [discriminate|]); cbn [data_items] in D.
  - destruct (data_item a ty OK (mkDS loc (b ++ t) i)) as [r| | | |] eqn:E; try discriminate. cbn [bind] in D.
    assert (round_err r <> OK) as N.
    { unfold data_item in E. cbn [ds_scan] in E. assert (SK : skipSpaces (b ++ t) = t).
      { destruct t as [|c t]; [|now apply skip_head]. exact (skip_after b [] B (or_introl Logic.I)). }
      rewrite SK in E. cbv zeta in E. destruct (has_string ty); [|eapply expr_bad; [exact E|exact (OE i)]].
      unfold isString in E. rewrite AP, (not_string f t I Q1 Q2) in E. cbn [bind] in E. change (isOK NOT_AN_EXPECTED) with false in E. cbv iota in E.
      eapply expr_bad; [exact E|exact (OE i)]. }
    destruct r as [y z|y z]; cbn in N; [now injection D as <- _|].
    destruct (expect_char 44 _); [eapply items_keep; eauto|now injection D as <- _].
  - destruct (round_ok f a ty it (mkDS loc (b ++ t) i) b t (44 :: rest) bs adr I AP RX U TF TY eq_refl B IT (or_intror eq_refl) HO) as (i' & p & X & H' & SK).
    rewrite X in D. cbn [bind] in D. cbv zeta in D. set (one := bs ++ item_bytes (a_big a) (a_unit a) ty it) in *.
    destruct (err_eqb (fill one) NO_MEMORY) eqn:NM.
    + injection D as <- _. intros K. rewrite K in NM. discriminate.
    + assert (fill one = OK) as F1 by (unfold fill in *; destruct (_ <=? 64); [reflexivity|discriminate NM]). rewrite F1 in *.
      cbn [ds_scan] in D. rewrite SK in D. cbn [expect_char Z.eqb Pos.eqb] in D. unfold ds_set_scan in D. cbn [ds_loc ds_insn] in D.
      exact (IH fuel i' one e s' H' D).
Qed.
Lemma C33_bad_item f a ty align s e s' :
  In f data_families -> a_pl a = fam_pl f -> a_radix a = 10 -> (a_unit a = 1 \/ a_unit a = 2) -> integer_type ty = true ->
  total_functions (mkC (data_loc align s) (a_symbol a) (a_function a) 0) -> sound (ds_insn s) -> i_err (ds_insn s) = OK ->
  0 <= i_addr (ds_insn s) -> data_start align s < 2^32 ->
  bad_data f a (data_loc align s) (has_string ty) (ds_scan s) ->
  defineDataConstant a ty align s = Val (e, s') -> e <> OK /\ i_err (ds_insn s') <> OK.
Proof.
  intros I AP RX U TY TF SO ER A0 A1 DT. unfold defineDataConstant.
  assert (i_addr (ds_insn s) <= data_start align s) as S1 by (unfold data_start, space_start; destruct (align && _); lia).
  assert ((if align then i_align 2 (ds_insn s) else Some (ds_insn s)) = Some (i_setaddr (data_start align s) (ds_insn s))) as ->.
  { unfold data_start in *. rewrite <- space_aligned by lia. destruct align; [|reflexivity]. cbn [andb]. destruct (i_addr (ds_insn s) mod 2 =? 0) eqn:E; cbn [negb]; [|reflexivity]. unfold i_align. cbn [Z.eqb]. now rewrite E. }
  set (i := i_setaddr (data_start align s) (ds_insn s)).
  assert ((if align then snd (setCurrentLocation a (i_addr i) false (ds_set_insn i s)) else ds_set_insn i s) = mkDS (data_loc align s) (ds_scan s) i) as ->.
  { destruct align; reflexivity. }
  assert (holds (data_start align s) (i_code (ds_insn s)) i OK) as HO.
  { pose proof (code_length _ SO) as L. assert (sound i) as SI by exact SO. destruct SO as (_ & _ & R). split; [exact SI|]. split; [|split; [reflexivity|]].
    - change (i_code i) with (i_code (ds_insn s)). rewrite firstn_all2; [reflexivity|lia].
    - unfold fill. replace (_ <=? 64) with true by lia. split; [reflexivity|exact ER]. }
  cbn [ds_scan]. destruct (data_items _ a ty OK _) as [[x y]| | | |] eqn:D; try discriminate. cbn [bind]. intros [= <- <-].
  pose proof (items_bad f a ty (data_start align s) (data_loc align s) I AP RX U TY TF (ds_scan s) DT _ i (i_code (ds_insn s)) x y HO D) as N.
  split; [exact N|]. cbn. exact N.
Qed.
