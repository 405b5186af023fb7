(** Evaluation depends on the symbol table only through the names that occur in the text. *)
From Coq Require Import ZArith Lia String List Bool.
From Verif Require Import M_Char M_Error M_Value M_Text M_Number M_Operators M_Parsers M_Expr S_Expr P_Suffix P_Expr.
Import ListNotations.
Local Open Scope Z_scope.

(* functions that answer alike *)
Definition feq (f g : functor) : Prop := f_nargs f = f_nargs g /\ forall s r, f_eval f s r = f_eval g s r.
Definition ofeq (a b : option functor) : Prop :=
  match a, b with Some f, Some g => feq f g | None, None => True | _, _ => False end.
Lemma feq_refl f : feq f f. Proof. split; reflexivity. Qed.
Lemma ofeq_refl f : ofeq f f. Proof. destruct f; [apply feq_refl|exact I]. Qed.
Definition oeq (o p : oper) : Prop :=
  o_prec o = o_prec p /\ o_assoc o = o_assoc p /\ o_nargs o = o_nargs p /\ o_op o = o_op p /\ ofeq (o_fn o) (o_fn p).
Lemma oeq_refl o : oeq o o. Proof. repeat split; apply ofeq_refl. Qed.
Definition oseq := Forall2 oeq.

(* outcomes that agree up to a relation *)
Definition rel {A} (R : A -> A -> Prop) (x y : res A) : Prop :=
  match x, y with
  | Val a, Val b => R a b
  | UB, UB | OOB, OOB | FLOAT, FLOAT | FUEL, FUEL => True
  | _, _ => False
  end.
Lemma rel_bind {A B} (R : A -> A -> Prop) (Q : B -> B -> Prop) x y k l :
  rel R x y -> (forall a b, R a b -> rel Q (k a) (l b)) -> rel Q (bind x k) (bind y l).
Proof. destruct x, y; cbn; intros H K; try contradiction; auto. Qed.
Lemma rel_eq {A} (x y : res A) : rel eq x y -> x = y.
Proof. destruct x, y; cbn; intros H; try contradiction; congruence. Qed.
Lemma rel_refl {A} (R : A -> A -> Prop) (x : res A) : (forall a, R a a) -> rel R x x.
Proof. destruct x; cbn; auto. Qed.
Lemma rel_same {A} (P : A -> Prop) (Q : A -> A -> Prop) (x : res A) : (forall a, x = Val a -> Q a a) -> rel Q x x.
Proof. destruct x; cbn; auto. Qed.

Lemma op_eval_eq o p n s r : oeq o p -> op_eval o n s r = op_eval p n s r.
Proof.
  intros (_ & _ & N & O & F). unfold op_eval. rewrite <- N, <- O. unfold ofeq in F.
  destruct (o_fn o) as [f|], (o_fn p) as [g|]; try contradiction; [|reflexivity].
  destruct F as [A E]. rewrite A, E. reflexivity.
Qed.
Definition R4 (x y : err * list oper * vstack * Z) : Prop :=
  let '(e, os, vs, r) := x in let '(e', os', vs', r') := y in e = e' /\ oseq os os' /\ vs = vs' /\ r = r'.
Lemma higher_eq o p q : oeq o p -> isHigher o q = isHigher p q.
Proof. intros (P & A & _). unfold isHigher. now rewrite P. Qed.
Lemma none_eq o p q : oeq o p -> isNoneAssoc o q = isNoneAssoc p q.
Proof. intros (P & A & _). unfold isNoneAssoc. now rewrite P, A. Qed.
Lemma paren_eq o p : oeq o p -> isOpenParen o = isOpenParen p.
Proof. intros (P & _). unfold isOpenParen. now rewrite P. Qed.
Lemma fn_eq o p : oeq o p -> isFunction o = isFunction p.
Proof. intros (_ & _ & _ & _ & F). unfold isFunction, ofeq in *. destruct (o_fn o), (o_fn p); contradiction || reflexivity. Qed.
Lemma rh_rel q os1 : forall os2 vs r, oseq os1 os2 -> rel R4 (reduce_higher q os1 vs r) (reduce_higher q os2 vs r).
Proof.
  induction os1 as [|o os1 IH]; intros os2 vs r F; inversion F as [|? p ? os E F']; subst; cbn [reduce_higher].
  - cbn. repeat split; constructor.
  - rewrite <- (none_eq o p q E), <- (higher_eq o p q E), <- (op_eval_eq o p 0 vs r E).
    destruct (isNoneAssoc o q); [cbn; auto|]. destruct (negb _); [cbn; auto|].
    destruct (op_eval o 0 vs r) as [[[e v] r']| | | |]; cbn [bind]; try exact I. destruct (isOK e); [now apply IH|cbn; auto].
Qed.
Lemma rp_rel os1 : forall os2 vs r, oseq os1 os2 -> rel R4 (reduce_paren os1 vs r) (reduce_paren os2 vs r).
Proof.
  induction os1 as [|o os1 IH]; intros os2 vs r F; inversion F as [|? p ? os E F']; subst; cbn [reduce_paren].
  - cbn. repeat split; constructor.
  - rewrite <- (paren_eq o p E), <- (op_eval_eq o p 0 vs r E). destruct (isOpenParen o); [cbn; auto|].
    destruct (op_eval o 0 vs r) as [[[e v] r']| | | |]; cbn [bind]; try exact I. destruct (isOK e); [now apply IH|cbn; auto].
Qed.
Lemma ra_eq os1 : forall os2 vs r, oseq os1 os2 -> reduce_all os1 vs r = reduce_all os2 vs r.
Proof.
  induction os1 as [|o os1 IH]; intros os2 vs r F; inversion F as [|? p ? os E F']; subst; cbn [reduce_all]; [reflexivity|].
  rewrite <- (paren_eq o p E), <- (op_eval_eq o p 0 vs r E). destruct (isOpenParen o); [reflexivity|].
  destruct (op_eval o 0 vs r) as [[[e v] r']| | | |]; cbn [bind]; try reflexivity. destruct (isOK e); [now apply IH|reflexivity].
Qed.
Lemma full_eq os1 os2 : oseq os1 os2 -> os_full os1 = os_full os2.
Proof. intros F. unfold os_full. assert (length os1 = length os2) as -> by (induction F; cbn; congruence). reflexivity. Qed.
Lemma push_eq o p os1 os2 : oeq o p -> oseq os1 os2 -> oseq (os_push o os1) (os_push p os2).
Proof. intros E F. unfold os_push. rewrite (full_eq _ _ F). destruct (os_full os2); [exact F|now constructor]. Qed.

(* the name [n] stands somewhere in the text *)
Definition occurs (n t : text) : Prop := exists a b, t = a ++ n ++ b.

Section Agree.
Variable pl : plugins.
Variable cx1 cx2 : context.
Variable T : text.
Hypothesis G : good pl.
Hypothesis HL : c_location cx1 = c_location cx2.
Hypothesis HD : c_delim cx1 = c_delim cx2.
Hypothesis HS : forall n, occurs n T -> c_symbol cx1 n = c_symbol cx2 n.
Hypothesis HF : forall n, occurs n T -> ofeq (c_function cx1 n) (c_function cx2 n).

(* the two states differ in nothing but functions that answer alike, and stand inside the text *)
Definition steq (a b : state) : Prop :=
  sfx 0 (s_scan a) T /\ s_scan a = s_scan b /\ s_vs a = s_vs b /\ oseq (s_os a) (s_os b) /\ s_eoe a = s_eoe b /\
  s_paren a = s_paren b /\ s_prefix a = s_prefix b /\ s_fnargs a = s_fnargs b /\ s_infn a = s_infn b /\
  s_radix a = s_radix b /\ s_err a = s_err b.
Definition ceq (a b : ctl) : Prop :=
  match a, b with
  | Next s, Next s' => steq s s'
  | Break s, Break s' => steq s s'
  | Return v s, Return v' s' => v = v' /\ steq s s'
  | _, _ => False
  end.
Ltac sq H := destruct H as (? & ? & ? & ? & ? & ? & ? & ? & ? & ? & ?).
Ltac fin := unfold steq; cbn [s_scan s_vs s_os s_eoe s_paren s_prefix s_fnargs s_infn s_radix s_err set_scan set_stacks set_prefix];
  repeat split; try assumption; try congruence.
Lemma fail_rel a b e v : steq a b -> rel ceq (fail a e v) (fail b e v).
Proof. intros H. sq H. unfold fail. cbn. split; [reflexivity|]. fin. Qed.
Lemma scan_seq a b t : steq a b -> sfx 0 t T -> steq (set_scan a t) (set_scan b t).
Proof. intros H S. sq H. fin. Qed.
Lemma stacks_seq a b vs os1 os2 r : steq a b -> oseq os1 os2 -> steq (set_stacks a vs os1 r) (set_stacks b vs os2 r).
Proof. intros H F. sq H. fin. Qed.
Lemma prefix_seq a b p : steq a b -> steq (set_prefix a p) (set_prefix b p).
Proof. intros H. sq H. fin. Qed.
Lemma push_rel a b t v e : steq a b -> sfx 0 t T -> rel ceq (push_value a t v e) (push_value b t v e).
Proof.
  intros H S. unfold push_value. pose proof H as K. sq H. replace (s_vs b) with (s_vs a).
  destruct (vs_full (s_vs a)); [apply fail_rel, scan_seq; assumption|]. cbn. fin.
Qed.
Lemma operator_rel a b o : steq a b -> rel ceq (do_operator a o) (do_operator b o).
Proof.
  intros H. unfold do_operator. pose proof H as K. sq H. replace (s_vs b) with (s_vs a). replace (s_radix b) with (s_radix a).
  eapply rel_bind; [now apply rh_rel|]. intros [[[e os] vs] r] [[[e' os'] vs'] r'] (-> & F & -> & ->).
  assert (steq (set_stacks a vs' os r') (set_stacks b vs' os' r')) as Q by now apply stacks_seq.
  destruct (negb _); [now apply fail_rel|]. rewrite (full_eq _ _ F). destruct (os_full os'); [now apply fail_rel|].
  cbn [rel ceq]. apply prefix_seq, stacks_seq; [exact Q|]. apply push_eq; [apply oeq_refl|exact F].
Qed.
Lemma close_rel a b : steq a b -> rel ceq (do_close cx1 a) (do_close cx2 b).
Proof.
  intros H. unfold do_close. pose proof H as K. sq H. replace (s_vs b) with (s_vs a). replace (s_radix b) with (s_radix a).
  eapply rel_bind; [now apply rp_rel|]. intros [[[e os] vs] r] [[[e' os'] vs'] r'] (-> & F & -> & ->).
  assert (steq (set_stacks a vs' os r') (set_stacks b vs' os' r')) as Q by now apply stacks_seq.
  destruct (negb _); [now apply fail_rel|].
  inversion F as [|o p os1 os2 E F1]; subst; [exact Q|].
  assert (forall v l1 l2 ra n n', oseq l1 l2 -> n = n' ->
    rel ceq
      (Val (Next (mkSt (s_scan (set_stacks a vs' (o :: os1) r')) v l1
         (if (s_paren (set_stacks a vs' (o :: os1) r') - 1) mod 256 =? 0 then c_delim cx1 else s_eoe (set_stacks a vs' (o :: os1) r'))
         ((s_paren (set_stacks a vs' (o :: os1) r') - 1) mod 256) false (s_fnargs (set_stacks a vs' (o :: os1) r')) n ra (s_err (set_stacks a vs' (o :: os1) r')))))
      (Val (Next (mkSt (s_scan (set_stacks b vs' (p :: os2) r')) v l2
         (if (s_paren (set_stacks b vs' (p :: os2) r') - 1) mod 256 =? 0 then c_delim cx2 else s_eoe (set_stacks b vs' (p :: os2) r'))
         ((s_paren (set_stacks b vs' (p :: os2) r') - 1) mod 256) false (s_fnargs (set_stacks b vs' (p :: os2) r')) n' ra (s_err (set_stacks b vs' (p :: os2) r')))))) as A.
  { intros v l1 l2 ra n n' L N. cbn [rel ceq set_stacks s_scan s_paren s_eoe s_fnargs s_err]. fin.
    replace (s_paren b) with (s_paren a). replace (s_eoe b) with (s_eoe a). now rewrite HD. }
  assert (s_infn (set_stacks a vs' (o :: os1) r') = s_infn (set_stacks b vs' (p :: os2) r')) as NF by assumption.
  inversion F1 as [|o1 p1 os3 os4 E1 F3]; subst; [apply A; [constructor|exact NF]|].
  rewrite <- (fn_eq _ _ E1). destruct (isFunction o1); [|apply A; [assumption|exact NF]].
  replace (o_nargs p) with (o_nargs o) by apply E. rewrite <- (op_eval_eq _ _ _ _ _ E1).
  destruct (op_eval o1 _ vs' r') as [[[e v] ra]| | | |]; cbn [bind]; try exact I.
  destruct (isOK e); [apply A; [assumption|now rewrite NF]|]. apply fail_rel, stacks_seq; assumption.
Qed.
Lemma punct_rel expr a b : sfx 0 expr T -> steq a b -> rel ceq (do_punct pl cx1 expr a) (do_punct pl cx2 expr b).
Proof.
  intros X H. unfold do_punct. pose proof H as K. sq H. replace (s_infn b) with (s_infn a). replace (s_scan b) with (s_scan a).
  destruct (if s_infn a =? 0 then None else expect_char 44 (s_scan a)) as [p|] eqn:E.
  - destruct (s_infn a =? 0); [congruence|]. apply expect_sfx in E.
    assert (sfx 0 p T) as P by (apply (sfx_tr 0 _ (s_scan a)); eauto with sfx).
    cbn [set_scan s_os s_vs s_radix]. replace (s_vs b) with (s_vs a). replace (s_radix b) with (s_radix a).
    eapply rel_bind; [now apply rp_rel|]. intros [[[e os] vs] r] [[[e' os'] vs'] r'] (-> & F & -> & ->).
    assert (steq (set_stacks (set_scan a p) vs' os r') (set_stacks (set_scan b p) vs' os' r')) as Q by (apply stacks_seq; [now apply scan_seq|exact F]).
    destruct (negb _); [now apply fail_rel|]. inversion F; subst; [exact I|]. cbn [rel ceq]. now apply prefix_seq.
  - replace (s_prefix b) with (s_prefix a). replace (s_fnargs b) with (s_fnargs a). rewrite <- (full_eq (s_os a) (s_os b)) by assumption.
    destruct (p_open pl (s_scan a)) as [p|] eqn:O.
    + apply (g_open _ G) in O. assert (sfx 0 p T) as P by (apply (sfx_tr 0 _ (s_scan a)); eauto with sfx).
      destruct (_ && _); [exact K|]. destruct (os_full _); [apply fail_rel, scan_seq; assumption|].
      cbn [rel ceq]. fin. replace (s_vs b) with (s_vs a). apply push_eq; [apply oeq_refl|assumption].
    + destruct (p_close pl (s_scan a)) as [p|] eqn:C; [|cbn [rel ceq]; now apply scan_seq].
      apply (g_close _ G) in C. assert (sfx 0 p T) as P by (apply (sfx_tr 0 _ (s_scan a)); eauto with sfx).
      apply close_rel. now apply scan_seq.
Qed.
Lemma infix_rel expr a b : sfx 0 expr T -> steq a b -> rel ceq (do_infix pl cx1 expr a) (do_infix pl cx2 expr b).
Proof.
  intros X H. unfold do_infix. pose proof H as K. sq H. replace (s_prefix b) with (s_prefix a). replace (s_scan b) with (s_scan a).
  replace (s_err b) with (s_err a). replace (s_vs b) with (s_vs a). replace (s_radix b) with (s_radix a).
  destruct (s_prefix a).
  - pose proof (g_prefix _ G (s_scan a) (s_vs a) (s_radix a)) as P.
    destruct (p_prefix _ _ _ _) as [[[[[o t']|] vs] r]| | | |]; cbn [bind]; try exact I.
    + specialize (P _ _ _ _ eq_refl). assert (sfx 0 t' T) as Q by (apply (sfx_tr 0 _ (s_scan a)); eauto with sfx).
      cbn [set_stacks s_err]. replace (s_err b) with (s_err a).
      assert (steq (set_scan (set_stacks a vs (s_os a) r) t') (set_scan (set_stacks b vs (s_os b) r) t')) as Y by (apply scan_seq; [apply stacks_seq; assumption|exact Q]).
      destruct (hasError _); [split; [reflexivity|exact Y]|now apply operator_rel].
    + assert (steq (set_stacks a vs (s_os a) r) (set_stacks b vs (s_os b) r)) as Y by (apply stacks_seq; assumption).
      cbn [set_stacks s_err]. replace (s_err b) with (s_err a).
      destruct (hasError _); [split; [reflexivity|exact Y]|now apply punct_rel].
  - destruct (p_infix pl (s_scan a)) as [[o t']|] eqn:E.
    + assert (sfx 0 t' T) as Q by (apply (sfx_tr 0 _ (s_scan a)); [apply (g_infix _ G) in E; eauto with sfx|assumption]).
      destruct (hasError _); [split; [reflexivity|now apply scan_seq]|apply operator_rel; now apply scan_seq].
    + destruct (hasError _); [split; [reflexivity|exact K]|now apply punct_rel].
Qed.
Lemma name_occurs h c s n r : readName h c s = Some (n, r) -> sfx 0 s T -> occurs n T /\ sfx 0 r T.
Proof.
  intros N (p & -> & _). apply name_sfx in N as [-> _]. split; [exists p, r; reflexivity|].
  exists (p ++ n). rewrite app_assoc. split; [reflexivity|lia].
Qed.
Lemma symbol_rel expr a b : sfx 0 expr T -> steq a b -> rel ceq (do_symbol pl cx1 expr a) (do_symbol pl cx2 expr b).
Proof.
  intros X H. unfold do_symbol. pose proof H as K. sq H. replace (s_scan b) with (s_scan a). replace (s_vs b) with (s_vs a).
  destruct (readSymbol _ _) as [[n u]|] eqn:E; [|now apply infix_rel]. apply name_occurs in E as [N U]; [|assumption].
  rewrite <- (HS n N). destruct (c_symbol cx1 n); [destruct (isFloat _); [exact I|]|]; now apply push_rel.
Qed.
Lemma constant_same r s : parseConstant pl cx1 r s = parseConstant pl cx2 r s.
Proof. unfold parseConstant. now rewrite HL, HD. Qed.
Lemma constant_sfx r s e v t : parseConstant pl cx1 r s = Val (e, v, t) -> sfx 0 t s.
Proof. intros E. pose proof (constant_left pl cx1 G r s) as C. rewrite E in C. exact (proj2 C). Qed.
Lemma operand_rel expr a b : sfx 0 expr T -> steq a b -> rel ceq (do_operand pl cx1 expr a) (do_operand pl cx2 expr b).
Proof.
  intros X H. unfold do_operand. pose proof H as K. sq H. replace (s_scan b) with (s_scan a). replace (s_radix b) with (s_radix a).
  rewrite <- constant_same. destruct (parseConstant pl cx1 _ _) as [[[e v] u]| | | |] eqn:C; cbn [bind]; try exact I.
  apply constant_sfx in C. assert (sfx 0 u T) as U by (apply (sfx_tr 0 _ (s_scan a)); assumption).
  destruct (isOK e); [now apply push_rel|]. destruct (negb _); [apply fail_rel; now apply scan_seq|].
  destruct (readFunctionName _ _) as [[n q]|] eqn:R; [|now apply symbol_rel]. apply name_occurs in R as [N Q]; [|assumption].
  assert (ofeq (lookupFunction pl cx1 n) (lookupFunction pl cx2 n)) as L.
  { unfold lookupFunction. destruct (p_function pl n); [apply feq_refl|now apply HF]. }
  destruct (lookupFunction pl cx1 n) as [f|], (lookupFunction pl cx2 n) as [g|]; try contradiction; [|now apply symbol_rel].
  assert (sfx 0 (skipSpaces q) T) as KQ by (apply (sfx_tr 0 _ q); auto with sfx).
  destruct (p_open pl (skipSpaces q)); [|apply fail_rel; now apply scan_seq].
  cbn [rel ceq]. fin. apply push_eq; [|assumption]. repeat split; apply L.
Qed.
Lemma step_rel a b : steq a b -> rel ceq (step pl cx1 a) (step pl cx2 b).
Proof.
  intros H. unfold step. pose proof H as K. sq H. replace (s_scan b) with (s_scan a).
  pose proof (g_eol _ G (skipSpaces (s_scan a))) as E. destruct (p_eol pl _) as [stop t]. cbn [snd] in E.
  assert (sfx 0 t T) as TT by (apply (sfx_tr 0 _ (skipSpaces (s_scan a))); [exact E|apply (sfx_tr 0 _ (s_scan a)); auto with sfx]).
  assert (steq (set_scan a t) (set_scan b t)) as Y by now apply scan_seq.
  destruct stop; [exact Y|]. cbn [set_scan s_eoe s_vs s_prefix s_radix]. replace (s_eoe b) with (s_eoe a). replace (s_vs b) with (s_vs a).
  replace (s_prefix b) with (s_prefix a). replace (s_radix b) with (s_radix a).
  destruct (_ && _); [exact Y|]. destruct (s_prefix a); [|now apply infix_rel].
  pose proof (g_prefix _ G t (s_vs a) (s_radix a)) as P.
  destruct (p_prefix _ _ _ _) as [[[[[o t']|] vs] r]| | | |]; cbn [bind]; try exact I.
  - specialize (P _ _ _ _ eq_refl). assert (sfx 0 t' T) as Q by (apply (sfx_tr 0 _ t); eauto with sfx).
    assert (steq (set_scan (set_stacks (set_scan a t) vs (s_os (set_scan a t)) r) t') (set_scan (set_stacks (set_scan b t) vs (s_os (set_scan b t)) r) t')) as Z1
      by (apply scan_seq; [apply stacks_seq; assumption|exact Q]).
    cbn [set_stacks set_scan s_err] in *. replace (s_err b) with (s_err a).
    destruct (hasError _); [split; [reflexivity|exact Z1]|now apply operator_rel].
  - assert (steq (set_stacks (set_scan a t) vs (s_os (set_scan a t)) r) (set_stacks (set_scan b t) vs (s_os (set_scan b t)) r)) as Z1 by (apply stacks_seq; assumption).
    cbn [set_stacks set_scan s_err] in *. replace (s_err b) with (s_err a).
    destruct (hasError _); [split; [reflexivity|exact Z1]|now apply operand_rel].
Qed.
Lemma finish_eq a b : steq a b -> finish a = finish b.
Proof.
  intros H. sq H. unfold finish. replace (s_vs b) with (s_vs a). replace (s_radix b) with (s_radix a). replace (s_err b) with (s_err a).
  replace (s_scan b) with (s_scan a). now rewrite (ra_eq _ (s_os b)).
Qed.
Lemma rounds_eq fuel : forall a b, steq a b -> rounds fuel pl cx1 a = rounds fuel pl cx2 b.
Proof.
  induction fuel as [|fuel IH]; intros a b H; [reflexivity|]. cbn [rounds]. apply rel_eq. eapply rel_bind; [now apply step_rel|].
  intros [s|s|v s] [s'|s'|v' s'] C; cbn [ceq] in C; try contradiction.
  - rewrite (IH _ _ C). now apply rel_refl.
  - rewrite (finish_eq _ _ C). now apply rel_refl.
  - destruct C as [-> C]. sq C. cbn. congruence.
Qed.
End Agree.

Lemma eval_agree pl cx1 cx2 t rdx e : In pl all_families ->
  c_location cx1 = c_location cx2 -> c_delim cx1 = c_delim cx2 ->
  (forall n, occurs n t -> c_symbol cx1 n = c_symbol cx2 n) ->
  (forall n, occurs n t -> ofeq (c_function cx1 n) (c_function cx2 n)) ->
  eval pl cx1 t rdx e = eval pl cx2 t rdx e.
Proof.
  intros I HL HD HS HF. apply good_all in I. unfold eval, eval_fuel.
  rewrite (rounds_eq pl cx1 cx2 t I HL HD HS HF _ (start cx1 (skipSpaces t) rdx e) (start cx2 (skipSpaces t) rdx e)); [reflexivity|].
  repeat split; cbn; auto with sfx. constructor.
Qed.
