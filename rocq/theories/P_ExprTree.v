(** The evaluator computes the value of the tree. *)
From Coq Require Import ZArith Lia ZifyBool String List Bool.
From Verif Require Import M_Char M_Error M_Value M_Text M_Number M_Operators M_Parsers M_Expr S_Expr S_ExprTree P_Suffix P_Expr P_ExprRead P_ExprOperand.
Import ListNotations.
Open Scope string_scope.
Open Scope list_scope.
Local Open Scope Z_scope.

(* ------------------------------------------------------------ tables *)
Definition unary (f : opfn) : bool := match f with restore_radix | to_float16 => false | _ => Nat.eqb (pops f) 1 end.
Definition binary (f : opfn) : bool := match f with restore_radix | to_float16 => false | _ => Nat.eqb (pops f) 2 end.
Lemma fam_tables f : In f tree_families ->
  (forall d, In d (fam_prefix f) -> unary (d_fn d) = true /\ d_assoc d = RIGHT /\ 0 < d_level d < 254) /\
  (forall d, In d (fam_infix f) -> binary (d_fn d) = true /\ 0 < d_level d < 254) /\
  (forall d e, In d (fam_prefix f) \/ In d (fam_infix f) -> In e (fam_infix f) -> d_assoc d = NONE -> d_assoc e = LEFT -> d_level d <> d_level e).
Proof.
  intros I.
  assert (forallb (fun d => unary (d_fn d) && assoc_eqb (d_assoc d) RIGHT && (0 <? d_level d) && (d_level d <? 254)) (fam_prefix f) = true /\
    forallb (fun d => binary (d_fn d) && (0 <? d_level d) && (d_level d <? 254)) (fam_infix f) = true /\
    forallb (fun d => forallb (fun e => negb (assoc_eqb (d_assoc d) NONE && assoc_eqb (d_assoc e) LEFT && (d_level d =? d_level e))) (fam_infix f))
      (fam_prefix f ++ fam_infix f) = true) as (A & B & C) by (fam I; vm_compute; auto).
  rewrite forallb_forall in A, B, C. split; [|split].
  - intros d D. apply A in D. rewrite !andb_true_iff in D. destruct D as [[[D1 D2] D3] D4]. split; [exact D1|]. split; [|lia].
    destruct (d_assoc d); (reflexivity || discriminate D2).
  - intros d D. apply B in D. rewrite !andb_true_iff in D. destruct D as [[D1 D2] D3]. split; [exact D1|lia].
  - intros d e D E N L. assert (In d (fam_prefix f ++ fam_infix f)) as D' by (apply in_or_app; exact D).
    apply C in D'. rewrite forallb_forall in D'. specialize (D' e E). rewrite N, L in D'. cbn in D'. lia.
Qed.
Lemma run1 g v vs : unary g = true -> (length vs < 8)%nat ->
  run_op g (v :: vs) 10 = match eval1 g v with Some r => Val (OK, r :: vs, 10) | None => UB end.
Proof.
  intros U L. assert (forall r, vs_push vs r = Val (r :: vs)) as P.
  { intros r. unfold vs_push, vs_full, vs_size, CAPACITY. replace (8 <=? _) with false by lia. reflexivity. }
  destruct g; try discriminate U; unfold run_op; cbn [pops vs_pop]; unfold arith;
    match goal with |- context [eval1 ?g v] => destruct (eval1 g v); cbn [bind]; [rewrite P|]; reflexivity end.
Qed.
Lemma run2 g va vb vs : binary g = true -> (length vs < 8)%nat ->
  run_op g (vb :: va :: vs) 10 = match eval2 g va vb with Some (OK, r) => Val (OK, r :: vs, 10) | Some (e, _) => Val (e, vs, 10) | None => UB end.
Proof.
  intros U L. assert (forall r, vs_push vs r = Val (r :: vs)) as P.
  { intros r. unfold vs_push, vs_full, vs_size, CAPACITY. replace (8 <=? _) with false by lia. reflexivity. }
  assert (forall (e : err) (r : value), (if isOK e then bind (vs_push vs r) (fun s => Val (OK, s, 10)) else Val (e, vs, 10)) =
    match e with OK => Val (OK, r :: vs, 10) | e => Val (e, vs, 10) end) as K by (intros [] r; cbn [isOK]; rewrite ?P; reflexivity).
  destruct g; try discriminate U; unfold run_op; cbn [pops vs_pop]; unfold arith;
    match goal with |- context [eval2 ?g va vb] => destruct (eval2 g va vb) as [[e r]|]; cbn [bind]; [apply K|reflexivity] end.
Qed.
Lemma eval2_err g va vb e r : binary g = true -> eval2 g va vb = Some (e, r) -> e = OK \/ e = DIVIDE_BY_ZERO.
Proof.
  intros _. unfold eval2, option_map. destruct g; try (intros [= <- _]; now left); try discriminate;
  repeat match goal with |- context [if ?b then _ else _] => destruct b end;
  repeat match goal with |- context [match ?b with Some _ => _ | None => _ end] => destruct b end;
  try (intros [= <- _]; (now left) || (now right)); discriminate.
Qed.

(* ------------------------------------------------------------ reductions *)
Inductive rk := RH (o : oper) | RP | RA.
Definition red (k : rk) (os : list oper) (vs : vstack) : res (err * list oper * vstack * Z) :=
  match k with
  | RH o => reduce_higher o os vs 10
  | RP => reduce_paren os vs 10
  | RA => bind (reduce_all os vs 10) (fun '(e, vs, r) => Val (e, [], vs, r))
  end.
Definition accept (k : rk) (t : oper) : Prop :=
  match k with RH o => isNoneAssoc t o = false /\ isHigher t o = true | _ => isOpenParen t = false end.
Lemma op_eval_plain o g n d vs : stands n d o -> d_fn d = g -> n <= vs_size vs -> vs <> [] -> op_eval o 0 vs 10 = run_op g vs 10.
Proof.
  intros (_ & _ & F & N & A) G L E. unfold op_eval. cbn [Z.eqb]. rewrite N, F, G. replace (o_nargs o <=? vs_size vs) with true by lia. reflexivity.
Qed.
Lemma red_op k o os vs : accept k o ->
  exists g, forall e vs', op_eval o 0 vs 10 = Val (e, vs', 10) -> red k (o :: os) vs = if isOK e then red k os vs' else Val (e, g, vs', 10).
Proof.
  intros A. destruct k as [p| |].
  - exists os. intros e vs' E. cbn [red reduce_higher] in *. destruct A as [A B]. rewrite A, B. cbn [negb]. rewrite E. cbn [bind]. destruct (isOK e); reflexivity.
  - exists os. intros e vs' E. cbn [red reduce_paren accept] in *. rewrite A, E. cbn [bind]. destruct (isOK e); reflexivity.
  - exists []. intros e vs' E. cbn [red reduce_all accept] in *. rewrite A, E. cbn [bind]. destruct (isOK e); reflexivity.
Qed.
Lemma red_ub k o os vs : accept k o -> op_eval o 0 vs 10 = UB -> red k (o :: os) vs = UB.
Proof.
  intros A E. destruct k as [p| |]; cbn [red reduce_higher reduce_paren reduce_all accept] in *.
  - destruct A as [A B]. rewrite A, B. cbn [negb]. rewrite E. reflexivity.
  - rewrite A, E. reflexivity.
  - rewrite A, E. reflexivity.
Qed.
(* outcomes that are no values *)
Definition relabel {A B} (r : res A) : res B := match r with Val _ => UB | UB => UB | OOB => OOB | FLOAT => FLOAT | FUEL => FUEL end.
Definition novalue {A} (r : res A) : Prop := match r with Val _ => False | _ => True end.
Definition okay {A} (r : res (err * A)) : Prop := match r with Val (e, _) => isOK e = true | _ => False end.
Lemma isOK_eq e : isOK e = true -> e = OK.
Proof. destruct e; (reflexivity || discriminate). Qed.
Lemma val_cases {A} (r : res (err * A)) : (exists v, r = Val (OK, v)) \/ (~ okay r /\ ((exists e v, isOK e = false /\ r = Val (e, v)) \/ novalue r)).
Proof.
  destruct r as [[e v]| | | |]; cbn [novalue okay]; try (right; split; [tauto|]; right; exact I). destruct (isOK e) eqn:E.
  - left. apply isOK_eq in E. subst e. now exists v.
  - right. split; [discriminate|]. left. eauto.
Qed.
(* [r] goes on as [k v] says with the value of the tree, or ends as the tree does *)
Definition outcome_is {A} (val : res (err * A)) (r : res (err * list oper * vstack * Z)) (k : A -> res (err * list oper * vstack * Z)) : Prop :=
  match val with
  | Val (e, v) => if isOK e then r = k v else exists os vs, r = Val (e, os, vs, 10)
  | x => r = relabel x
  end.
Lemma andthen_ok {A B} (none : B) (v : A) k : andthen none (Val (OK, v)) k = k v.
Proof. reflexivity. Qed.
Lemma outcome_stop {A B} (none : B) (val : res (err * A)) kk r k k' : ~ okay val -> outcome_is val r k -> outcome_is (andthen none val kk) r k'.
Proof. destruct val as [[e v]| | | |]; cbn [okay outcome_is andthen]; auto. intros N. destruct (isOK e) eqn:E; [contradiction|]. cbn [outcome_is]. rewrite E. auto. Qed.
Lemma red_un k d o os v vs : stands 1 d o -> unary (d_fn d) = true -> accept k o -> (length vs < 8)%nat ->
  outcome_is (match eval1 (d_fn d) v with Some r => Val (OK, r) | None => UB end) (red k (o :: os) (v :: vs)) (fun r => red k os (r :: vs)).
Proof.
  intros S U A L. assert (op_eval o 0 (v :: vs) 10 = run_op (d_fn d) (v :: vs) 10) as E.
  { apply (op_eval_plain o _ 1 d); [exact S|reflexivity|unfold vs_size; cbn [length]; lia|discriminate]. }
  rewrite (run1 _ _ _ U L) in E. destruct (red_op k o os (v :: vs) A) as [g G]. destruct (eval1 (d_fn d) v) as [r|]; cbn [outcome_is].
  - now rewrite (G _ _ E).
  - now apply red_ub.
Qed.
Lemma red_bin k d o os va vb vs : stands 2 d o -> binary (d_fn d) = true -> accept k o -> (length vs < 8)%nat ->
  outcome_is (match eval2 (d_fn d) va vb with Some r => Val r | None => UB end) (red k (o :: os) (vb :: va :: vs)) (fun r => red k os (r :: vs)).
Proof.
  intros S U A L. assert (op_eval o 0 (vb :: va :: vs) 10 = run_op (d_fn d) (vb :: va :: vs) 10) as E.
  { apply (op_eval_plain o _ 2 d); [exact S|reflexivity|unfold vs_size; cbn [length]; lia|discriminate]. }
  rewrite (run2 _ _ _ _ U L) in E. destruct (red_op k o os (vb :: va :: vs) A) as [g G].
  destruct (eval2 (d_fn d) va vb) as [[e r]|] eqn:V; cbn [outcome_is].
  - destruct (eval2_err _ _ _ _ _ U V) as [-> | ->].
    + cbn [isOK err_eqb err_code Z.eqb]. now rewrite (G _ _ E).
    + change (isOK DIVIDE_BY_ZERO) with false. cbv iota. rewrite (G _ _ E). change (isOK DIVIDE_BY_ZERO) with false. do 2 eexists; reflexivity.
  - now apply red_ub.
Qed.

(* ------------------------------------------------------------ states *)
Fixpoint npar (os : list oper) : Z := match os with [] => 0 | o :: t => (if isOpenParen o then 1 else 0) + npar t end.
Lemma npar_range os : 0 <= npar os <= Z.of_nat (length os).
Proof. induction os as [|o t IH]; cbn [npar length]; [lia|]. destruct (isOpenParen o); lia. Qed.
Lemma npar_app a b : npar (a ++ b) = npar a + npar b.
Proof. induction a as [|o t IH]; cbn [npar app]; [reflexivity|]. rewrite IH. lia. Qed.
Lemma npar_plain sp : Forall (fun o => isOpenParen o = false) sp -> npar sp = 0.
Proof. induction 1 as [|o t H F IH]; cbn [npar]; [reflexivity|]. rewrite H, IH. reflexivity. Qed.
(* calls in progress *)
Fixpoint ncall (os : list oper) : Z := match os with [] => 0 | o :: t => (if isFunction o then 1 else 0) + ncall t end.
Lemma ncall_range os : 0 <= ncall os <= Z.of_nat (length os).
Proof. induction os as [|o t IH]; cbn [ncall length]; [lia|]. destruct (isFunction o); lia. Qed.
Lemma ncall_app a b : ncall (a ++ b) = ncall a + ncall b.
Proof. induction a as [|o t IH]; cbn [ncall app]; [reflexivity|]. rewrite IH. lia. Qed.
Lemma ncall_plain sp : Forall (fun o => o_fn o = None) sp -> ncall sp = 0.
Proof. induction 1 as [|o t H F IH]; cbn [ncall]; [reflexivity|]. unfold isFunction. rewrite H, IH. reflexivity. Qed.
Definition plain_top (os : list oper) : Prop := match os with [] => True | o :: _ => o_fn o = None end.
Definition eoe (cx : context) (os : list oper) : Z := if npar os =? 0 then c_delim cx else 0.
Definition St (cx : context) (t : text) (vs : vstack) (os : list oper) (p : bool) : state :=
  mkSt t vs os (eoe cx os) (npar os) p false (ncall os) 10 OK.
Lemma eoe_in cx os : quiet cx -> In (eoe cx os) [0; 41; 44; 93].
Proof. intros Q. unfold eoe. destruct (_ =? _); [exact Q|now left]. Qed.

Scheme derives_ind2 := Induction for derives Sort Prop with args_ind2 := Induction for derives_args Sort Prop.
Scheme expr_ind2 := Induction for expr Sort Prop with exprs_ind2 := Induction for args Sort Prop.
Combined Scheme derives_both from derives_ind2, args_ind2.
Combined Scheme expr_both from expr_ind2, exprs_ind2.
Lemma slots_pos : (forall e, 0 < value_slots e /\ 0 <= operator_slots e) /\ (forall a, 0 < args_value_slots a /\ 0 <= args_operator_slots a).
Proof. apply expr_both; intros; cbn [value_slots operator_slots args_value_slots args_operator_slots]; lia. Qed.

Lemma eol41 f : In f tree_families -> eol_safe f 41.
Proof. intros I. fam I; split; reflexivity. Qed.
Lemma eol44 f : In f tree_families -> eol_safe f 44.
Proof. intros I. fam I; split; reflexivity. Qed.
Lemma eol93 f : In f tree_families -> eol_safe f 93.
Proof. intros I. fam I; split; reflexivity. Qed.

Lemma infix_open0 f : In f tree_families -> forall t, p_infix (fam_pl f) (40 :: t) = None.
Proof. intros I t. fam I; reflexivity. Qed.

Section Tree.
Variables (f : family) (cx : context).
Hypothesis I : In f tree_families.
Hypothesis Q : quiet cx.
Let pl := fam_pl f.

Definition runs (k : nat) (s s' : state) : Prop := forall n, rounds (k + n) pl cx s = rounds n pl cx s'.
Definition halts (k : nat) (s : state) (r : res outcome) : Prop := forall n, rounds (k + n) pl cx s = r.
Lemma runs_next s s' : step pl cx s = Val (Next s') -> runs 1 s s'.
Proof. intros E n. cbn [rounds Nat.add]. now rewrite E. Qed.
Lemma halts_return s v s' : step pl cx s = Val (Return v s') -> halts 1 s (Val (v, s_err s', s_scan s', s_radix s')).
Proof. intros E n. cbn [rounds Nat.add]. now rewrite E. Qed.
Lemma halts_ub s : step pl cx s = UB -> halts 1 s UB.
Proof. intros E n. cbn [rounds Nat.add]. now rewrite E. Qed.
Lemma halts_none {A} s (r : res A) : novalue r -> step pl cx s = relabel r -> halts 1 s (relabel r).
Proof. intros N E n. cbn [rounds Nat.add]. rewrite E. destruct r; (contradiction || reflexivity). Qed.
Lemma runs_trans a b s t u : runs a s t -> runs b t u -> runs (a + b) s u.
Proof. intros A B n. rewrite <- Nat.add_assoc, A, B. reflexivity. Qed.
Lemma runs_halts a b s t r : runs a s t -> halts b t r -> halts (a + b) s r.
Proof. intros A B n. rewrite <- Nat.add_assoc, A, B. reflexivity. Qed.

Lemma skip_head b h t : blanks b -> is_space h = false -> skipSpaces (b ++ h :: t) = h :: t.
Proof. intros B H. rewrite (skip_blanks b _ B). unfold skipSpaces. cbn [trimStart]. now rewrite H. Qed.
Lemma head_not h os : ~ In h [0; 41; 44; 93] -> (h =? eoe cx os) = false.
Proof. intros N. apply Z.eqb_neq. intros ->. apply N, eoe_in, Q. Qed.

(* the start of a round, on a text that starts with a safe letter *)
Lemma step_head b h t vs os p : blanks b -> eol_safe f h -> (h =? eoe cx os) = false ->
  step pl cx (St cx (b ++ h :: t) vs os p) =
  if p then match fam_reader f (h :: t) with
            | Some (o, t') => do_operator (St cx t' vs os true) o
            | None => do_operand pl cx (b ++ h :: t) (St cx (h :: t) vs os true)
            end
  else do_infix pl cx (b ++ h :: t) (St cx (h :: t) vs os false).
Proof.
  intros B S E. unfold step. cbn [s_scan St]. rewrite (skip_head b h t B (proj1 S)). unfold pl at 1. rewrite (fam_eol f I h t S).
  cbn [set_scan s_eoe St s_prefix s_vs s_os s_radix peek]. rewrite E. cbn [andb].
  destruct p; [|reflexivity]. unfold pl at 1. rewrite (fam_pure f I). cbn [bind set_stacks hasError s_err].
  destruct (fam_reader f (h :: t)) as [[o t']|]; reflexivity.
Qed.
Lemma infix_head b h t vs os : blanks b -> eol_safe f h -> (h =? eoe cx os) = false ->
  step pl cx (St cx (b ++ h :: t) vs os false) =
  match p_infix pl (h :: t) with
  | Some (o, t') => do_operator (St cx t' vs os false) o
  | None => do_punct pl cx (b ++ h :: t) (St cx (h :: t) vs os false)
  end.
Proof. intros B S E. rewrite (step_head b h t vs os false B S E). unfold do_infix. cbn [s_prefix St s_scan hasError s_err]. destruct (p_infix pl (h :: t)) as [[o t']|]; reflexivity. Qed.

(* an operator that the stack does not want to be reduced for *)
Definition below (os : list oper) (p : Z) (a : Prop) : Prop :=
  match os with
  | [] => True
  | t :: _ => isOpenParen t = true \/ p < o_prec t \/ (p = o_prec t /\ a /\ o_assoc t = RIGHT)
  end.
Lemma blocked o os vs : o_prec o < 254 -> below os (o_prec o) (o_assoc o = RIGHT) -> red (RH o) os vs = Val (OK, os, vs, 10).
Proof.
  intros P B. cbn [red]. destruct os as [|t os]; [reflexivity|]. cbn [reduce_higher]. cbn [below] in B.
  assert (isNoneAssoc t o = false /\ isHigher t o = false) as [-> ->]; [|reflexivity].
  unfold isNoneAssoc, isHigher, isOpenParen in *. destruct B as [B|[B|(B & X & Y)]].
  - lia.
  - lia.
  - rewrite X, Y, <- B. cbn [assoc_eqb]. lia.
Qed.

Definition fails {A} (k : nat) (st : state) (val : res (err * A)) : Prop :=
  match val with
  | Val (e, _) => isOK e = false /\ exists t, halts k st (Val (v_undef, e, t, 10))
  | x => halts k st (relabel x)
  end.
Lemma fails_stop {A B} k st (val : res (err * A)) (none : B) kk : fails k st val -> fails k st (andthen none val kk).
Proof. destruct val as [[e v]| | | |]; cbn [fails andthen]; auto. intros [E H]. rewrite E. cbn [fails]. auto. Qed.
Lemma fails_after {A} a k s t (val : res (err * A)) : runs a s t -> fails k t val -> fails (a + k) s val.
Proof.
  intros R. destruct val as [[e v]| | | |]; cbn [fails]; try (intros H; exact (runs_halts _ _ _ _ _ R H)).
  intros [E [t' H]]. split; [exact E|]. exists t'. exact (runs_halts _ _ _ _ _ R H).
Qed.
Lemma fails_not {A} k st (val : res (err * A)) : fails k st val -> ~ okay val.
Proof. destruct val as [[e v]| | | |]; cbn [fails okay]; auto. intros [E _]. rewrite E. discriminate. Qed.
Lemma fail_step {A} s (val : res (err * A)) r kk F : step pl cx s = bind r F -> outcome_is val r kk -> ~ okay val ->
  (forall e os vs, isOK e = false -> exists s', F (e, os, vs, 10) = Val (Return v_undef s') /\ s_err s' = e /\ s_radix s' = 10) -> fails 1 s val.
Proof.
  intros E O N K. destruct val as [[e v]| | | |]; cbn [outcome_is okay fails] in *; try (subst r; apply halts_none; [exact Logic.I|exact E]).
  destruct (isOK e) eqn:X; [contradiction|]. split; [reflexivity|]. destruct O as (os & vs & ->). cbn [bind] in E.
  destruct (K e os vs X) as (s' & E' & <- & R). rewrite E' in E. apply halts_return in E. rewrite R in E. now exists (s_scan s').
Qed.
Lemma outcome_then {A B} (none : B) (val : res (err * A)) kk r k k' : outcome_is val r k ->
  (forall v, val = Val (OK, v) -> outcome_is (kk v) (k v) k') -> outcome_is (andthen none val kk) r k'.
Proof.
  intros O H. destruct (val_cases val) as [[v ->]|[N _]]; [|exact (outcome_stop _ _ _ _ _ _ N O)].
  cbn [outcome_is] in O. rewrite O. exact (H v eq_refl).
Qed.

Definition spine_ok (e : expr) (o : oper) : Prop :=
  o_fn o = None /\ isOpenParen o = false /\ 0 < o_prec o <= level e /\
  (forall d, In d (fam_infix f) -> d_assoc d = LEFT -> d_level d = o_prec o -> o_assoc o <> NONE).
Inductive read_result (e : expr) (s0 : text) (st : state) (vs : vstack) (os : list oper) (rest : text) : Prop :=
| RR_ok k sp vs' b : blanks b -> runs k st (St cx (b ++ rest) vs' (sp ++ os) false) -> Forall (spine_ok e) sp ->
    (forall kd, Forall (accept kd) sp -> outcome_is (value_of e) (red kd (sp ++ os) vs') (fun v => red kd os (v :: vs))) ->
    vs' <> [] -> (length vs < 8)%nat -> (0 < k)%nat -> (k + length (b ++ rest) <= length s0)%nat -> (length (sp ++ os) <= 8)%nat ->
    read_result e s0 st vs os rest
| RR_full k t : halts k st (Val (v_undef, TOO_COMPLEX_EXPRESSION, t, 10)) -> (k <= length s0)%nat ->
    8 < Z.of_nat (length vs) + value_slots e \/ 8 < Z.of_nat (length os) + operator_slots e ->
    read_result e s0 st vs os rest
| RR_err k : fails k st (value_of e) -> (k <= length s0)%nat -> read_result e s0 st vs os rest.
(* the arguments of a call, up to the closing parenthesis *)
Inductive args_result (a : args) (s0 : text) (st : state) (vs : vstack) (os : list oper) (rest : text) : Prop :=
| AR_ok k sp vs' b : blanks b -> runs k st (St cx (b ++ rest) vs' (sp ++ os) false) -> Forall (fun o => isOpenParen o = false) sp -> Forall (fun o => o_fn o = None) sp ->
    outcome_is (values_of a) (reduce_paren (sp ++ os) vs' 10) (fun vals => Val (OK, os, rev vals ++ vs, 10)) ->
    (forall vals, values_of a = Val (OK, vals) -> (length vals + length vs <= 8)%nat) ->
    (k + length (b ++ rest) <= length s0)%nat -> (length (sp ++ os) <= 8)%nat ->
    args_result a s0 st vs os rest
| AR_full k t : halts k st (Val (v_undef, TOO_COMPLEX_EXPRESSION, t, 10)) -> (k <= length s0)%nat ->
    8 < Z.of_nat (length vs) + args_value_slots a \/ 8 < Z.of_nat (length os) + args_operator_slots a ->
    args_result a s0 st vs os rest
| AR_err k : fails k st (values_of a) -> (k <= length s0)%nat -> args_result a s0 st vs os rest.

Lemma derives_head e s rest : derives f cx e s rest -> exists h t, s = h :: t /\ eol_safe f h /\ ~ In h [0; 41; 44; 93] /\ h <> 61.
Proof.
  induction 1 as [t v b rest H _ _ _|t v b rest N _ _ _ _ _ _ _|c b rest L _ T|d tok b e s rest D Sp B S _ IH|d tok bl a b s0 s rest D Sp B S _ IHa _ IHb|b1 b2 e s rest _ _ _ IH|t fn g b1 b2 b3 a s rest N _ _ _ _ _ _ _ _].
  - destruct (num_head f t I H) as (h & q & -> & _ & S & X). exists h, (q ++ b ++ rest). split; [reflexivity|]. split; [exact S|]. cbn in X |- *. lia.
  - destruct t as [|c t]; [contradiction|]. destruct N as [N _]. destruct (alpha_safe f c I N) as [S X]. exists c, (t ++ b ++ rest). split; [reflexivity|].
    split; [exact S|]. cbn in X |- *. lia.
  - destruct (loc_number f c (b ++ rest) I L T) as (_ & _ & _ & S & X). exists c, (b ++ rest). split; [reflexivity|]. split; [exact S|]. cbn in X |- *. lia.
  - destruct (op_head f d tok I (or_introl D) Sp) as (h & t & -> & E & X). destruct (prefix_head f d _ I D Sp) as (h' & t' & [= <- <-] & Y).
    exists h, (t ++ b ++ s). split; [reflexivity|]. split; [exact E|]. split; [exact X|exact Y].
  - exact IHa.
  - exists 40, (b1 ++ s). split; [reflexivity|]. destruct (open_facts f (b1 ++ s) I) as (_ & _ & _ & _ & E). split; [exact E|]. cbn. lia.
  - destruct t as [|c t]; [contradiction|]. destruct N as [N _]. destruct (alpha_safe f c I N) as [S X]. exists c, (t ++ b1 ++ 40 :: b2 ++ s). split; [reflexivity|].
    split; [exact S|]. cbn in X |- *. lia.
Qed.
Lemma do_operator_blocked st o vs os t p : st = St cx t vs os p -> o_prec o < 254 -> isOpenParen o = false -> o_fn o = None -> below os (o_prec o) (o_assoc o = RIGHT) ->
  do_operator st o = if os_full os then fail st TOO_COMPLEX_EXPRESSION v_undef else Val (Next (St cx t vs (o :: os) true)).
Proof.
  intros -> P NP NF B. unfold do_operator. cbn [St s_os s_vs s_radix]. pose proof (blocked o os vs P B) as R. cbn [red] in R. rewrite R. cbn [bind isOK negb set_stacks].
  unfold os_push. destruct (os_full os); [reflexivity|]. unfold set_prefix, set_stacks, St. cbn.
  unfold eoe, isFunction. cbn [npar ncall]. unfold isFunction. rewrite NP, NF. reflexivity.
Qed.
Lemma do_operator_fails o t vs os : exists F, do_operator (St cx t vs os false) o = bind (reduce_higher o os vs 10) F /\
  forall e os' vs', isOK e = false -> exists s', F (e, os', vs', 10) = Val (Return v_undef s') /\ s_err s' = e /\ s_radix s' = 10.
Proof.
  eexists. split; [reflexivity|]. intros e os' vs' E. cbn beta iota. rewrite E. cbn [negb]. unfold fail. eexists. split; [reflexivity|].
  cbn. split; [|reflexivity]. unfold setErrorIfAt. rewrite E. reflexivity.
Qed.
Lemma fits_below e os : below os (level e) (right_rooted e) -> forall d o n, stands n d o -> d_level d = level e -> (right_rooted e -> d_assoc d = RIGHT) ->
  below os (o_prec o) (o_assoc o = RIGHT).
Proof.
  intros B d o n (P & A & _) L R. destruct os as [|t os]; [exact Logic.I|]. cbn [below] in *. rewrite P, A, L. tauto.
Qed.
Lemma operand_step e s0 b h t vs os v b1 rest : blanks b -> eol_safe f h -> ~ In h [0; 41; 44; 93] -> fam_reader f (h :: t) = None ->
  (forall st, s_vs st = vs -> s_scan st = h :: t -> s_radix st = 10 -> do_operand pl cx (b ++ h :: t) st = push_value st (b1 ++ rest) v OK) ->
  value_of e = Val (OK, v) -> value_slots e = 1 -> (length os <= 8)%nat ->
  blanks b1 -> (length (b1 ++ rest) < length s0)%nat -> read_result e s0 (St cx (b ++ h :: t) vs os true) vs os rest.
Proof.
  intros B S X N H V W LO B1 LR.
  assert (step pl cx (St cx (b ++ h :: t) vs os true) = push_value (St cx (h :: t) vs os true) (b1 ++ rest) v OK) as E.
  { rewrite (step_head b h t vs os true B S (head_not h os X)), N. now apply H. }
  unfold push_value in E. cbn [St s_vs] in E. destruct (vs_full vs) eqn:F.
  - apply (RR_full e s0 _ vs os rest 1 (b1 ++ rest)).
    + apply halts_return in E. exact E.
    + lia.
    + left. unfold vs_full, CAPACITY, vs_size in F. lia.
  - apply (RR_ok e s0 _ vs os rest 1 [] (v :: vs) b1); [exact B1| |constructor| |discriminate|unfold vs_full, CAPACITY, vs_size in F; lia|lia|lia|exact LO].
    + apply runs_next. rewrite E. reflexivity.
    + intros kd _. rewrite V. reflexivity.
Qed.
Ltac open_st := cbv beta iota zeta delta [bind St set_scan set_stacks s_scan s_vs s_os s_eoe s_paren s_prefix s_fnargs s_infn s_radix s_err isOK err_eqb negb hasError andb].
Lemma no_comma n c t : c <> 44 -> (if n =? 0 then None else expect_char 44 (c :: t)) = None.
Proof. intros N. destruct (_ =? _); [reflexivity|]. cbn [expect_char]. replace (c =? 44) with false by lia. reflexivity. Qed.
Lemma open_operand expr t vs os : do_operand pl cx expr (St cx (40 :: t) vs os true) =
  if os_full os then fail (St cx t vs os true) TOO_COMPLEX_EXPRESSION v_undef
  else Val (Next (mkSt t vs (op_paren (vs_size vs) :: os) 0 ((npar os + 1) mod 256) true false (ncall os) 10 OK)).
Proof.
  destruct (open_facts f t I) as (Cn & Rd & Fn & Sn & S). unfold pl, do_operand. open_st. rewrite Cn. open_st. rewrite Fn. unfold do_symbol. open_st. rewrite Sn.
  unfold do_infix. open_st. rewrite (fam_pure f I). open_st. rewrite Rd. unfold do_punct. open_st. rewrite no_comma by discriminate. rewrite (fam_open f I). cbn [expect_char Z.eqb Pos.eqb].
  unfold os_push. destruct (os_full os); reflexivity.
Qed.
Lemma close_punct expr t vs os : match p_infix pl (41 :: t) with
  | Some (o, t') => do_operator (St cx t' vs os false) o
  | None => do_punct pl cx expr (St cx (41 :: t) vs os false)
  end = do_close cx (St cx t vs os false).
Proof.
  unfold pl. rewrite (fam_infix_none f I 41) by (cbn; tauto). unfold do_punct. open_st. rewrite no_comma by discriminate. rewrite (fam_open f I). cbn [expect_char Z.eqb Pos.eqb].
  rewrite (fam_close f I). reflexivity.
Qed.
Lemma comma_punct expr t vs os : 0 < ncall os -> match p_infix pl (44 :: t) with
  | Some (o, t') => do_operator (St cx t' vs os false) o
  | None => do_punct pl cx expr (St cx (44 :: t) vs os false)
  end = bind (reduce_paren os vs 10) (fun '(e, os', vs', rdx) =>
      let s := set_stacks (St cx t vs os false) vs' os' rdx in
      if negb (isOK e) then fail s e v_undef
      else match os' with [] => OOB | _ => Val (Next (set_prefix s true)) end).
Proof.
  intros N. unfold pl. rewrite (fam_infix_none f I 44) by (cbn; tauto). unfold do_punct. cbn [St s_infn s_scan]. replace (ncall os =? 0) with false by lia. reflexivity.
Qed.
Lemma close_do t vs' os1 par os w vs : reduce_paren os1 vs' 10 = Val (OK, par :: os, w :: vs, 10) -> eoe cx os1 = 0 -> npar os1 = npar os + 1 -> ncall os1 = ncall os ->
  plain_top os -> (length os < 8)%nat -> do_close cx (St cx t vs' os1 false) = Val (Next (St cx t (w :: vs) os false)).
Proof.
  intros R E N C CL L. pose proof (npar_range os) as Nr. unfold do_close. open_st. rewrite R. open_st. rewrite E, N, C.
  replace ((npar os + 1 - 1) mod 256) with (npar os) by (rewrite Z.add_simpl_r, Z.mod_small by lia; reflexivity).
  destruct os as [|x os']; [reflexivity|]. unfold isFunction. cbn [plain_top] in CL. rewrite CL. reflexivity.
Qed.
Lemma do_close_fails t vs os : exists F, do_close cx (St cx t vs os false) = bind (reduce_paren os vs 10) F /\
  forall e os' vs', isOK e = false -> exists s', F (e, os', vs', 10) = Val (Return v_undef s') /\ s_err s' = e /\ s_radix s' = 10.
Proof.
  eexists. split; [reflexivity|]. intros e os' vs' E. cbn beta iota. rewrite E. cbn [negb]. unfold fail. eexists. split; [reflexivity|].
  cbn. split; [|reflexivity]. unfold setErrorIfAt. rewrite E. reflexivity.
Qed.
(* the opening parenthesis of a call *)
Lemma infix_open t : p_infix pl (40 :: t) = None.
Proof. apply (infix_open0 f I). Qed.
Lemma call_open fn t vs os : (length os <= 8)%nat ->
  step pl cx (mkSt (40 :: t) vs (os_push (op_function fn) os) (eoe cx os) (npar os) false true ((ncall os + 1) mod 256) 10 OK) =
  if 7 <=? Z.of_nat (length os) then fail (mkSt t vs (os_push (op_function fn) os) (eoe cx os) (npar os) false true ((ncall os + 1) mod 256) 10 OK) TOO_COMPLEX_EXPRESSION v_undef
  else Val (Next (St cx t vs (op_paren (vs_size vs) :: op_function fn :: os) true)).
Proof.
  intros L. pose proof (npar_range os) as Nr. pose proof (ncall_range os) as Nc. destruct (open_facts f t I) as (_ & _ & _ & _ & Sf). unfold step. cbn [s_scan].
  pose proof (skip_head [] 40 t (Forall_nil _) (proj1 Sf)) as SH. cbn [app] in SH. rewrite SH. unfold pl at 1. rewrite (fam_eol f I 40 t Sf).
  cbn [set_scan s_eoe s_prefix s_vs s_os s_radix peek]. rewrite (head_not 40 os) by (cbn; lia). cbn [andb].
  unfold do_infix. open_st. rewrite infix_open. unfold do_punct. open_st. rewrite no_comma by discriminate. unfold pl. rewrite (fam_open f I). cbn [expect_char Z.eqb Pos.eqb].
  assert (os_full (os_push (op_function fn) os) = (7 <=? Z.of_nat (length os))) as ->.
  { unfold os_push, os_full, CAPACITY. destruct (8 <=? Z.of_nat (length os)) eqn:X; [lia|]. cbn [length]. lia. }
  destruct (7 <=? Z.of_nat (length os)) eqn:X; [reflexivity|]. unfold os_push, os_full, CAPACITY.
  replace (8 <=? Z.of_nat (length os)) with false by lia. cbn [length]. replace (8 <=? Z.of_nat (S (length os))) with false by lia.
  unfold St. unfold eoe. cbn [npar ncall]. change (isOpenParen (op_paren (vs_size vs))) with true. change (isOpenParen (op_function fn)) with false.
  change (isFunction (op_paren (vs_size vs))) with false. change (isFunction (op_function fn)) with true. cbv iota.
  replace (1 + (0 + npar os) =? 0) with false by lia. rewrite !Z.mod_small by lia.
  replace (1 + (0 + npar os)) with (npar os + 1) by lia. replace (0 + (1 + ncall os)) with (ncall os + 1) by lia. reflexivity.
Qed.
Lemma call_close t vs' os1 fn os vals vs g : reduce_paren os1 vs' 10 = Val (OK, op_paren (vs_size vs) :: op_function fn :: os, rev vals ++ vs, 10) ->
  eoe cx os1 = 0 -> npar os1 = npar os + 1 -> ncall os1 = ncall os + 1 -> (length os < 8)%nat -> 0 <= f_nargs fn -> computes fn g -> vals <> [] -> (length vals + length vs <= 8)%nat ->
  forall val, val = (if Z.of_nat (length vals) =? f_nargs fn then g vals
    else Val (if f_nargs fn <? Z.of_nat (length vals) then TOO_MANY_FUNC_ARGUMENT else TOO_FEW_FUNC_ARGUMENT, v_undef)) ->
  match val with
  | Val (e, v) => if isOK e then do_close cx (St cx t vs' os1 false) = Val (Next (St cx t (v :: vs) os false))
                  else exists s', do_close cx (St cx t vs' os1 false) = Val (Return v_undef s') /\ s_err s' = e /\ s_radix s' = 10
  | x => do_close cx (St cx t vs' os1 false) = relabel x
  end.
Proof.
  intros R E N C L A G NE LV val ->. pose proof (npar_range os) as Nr. pose proof (ncall_range os) as Nc.
  assert (do_close cx (St cx t vs' os1 false) =
    bind (op_eval (op_function fn) (vs_size (rev vals ++ vs) - vs_size vs) (rev vals ++ vs) 10) (fun '(e, vs, rdx) =>
      if isOK e then Val (Next (mkSt t vs os (eoe cx os) (npar os) false false (ncall os) rdx OK))
      else fail (mkSt t vs os 0 (npar os + 1) false false (ncall os + 1) rdx OK) e v_undef)) as D.
  { unfold do_close. open_st. rewrite R. cbv beta iota zeta delta [bind isOK err_eqb negb isFunction op_function o_fn op_paren o_nargs s_scan s_eoe s_paren s_fnargs s_infn s_err set_stacks St]. cbn [err_code Z.eqb].
    rewrite N, C. replace ((npar os + 1 - 1) mod 256) with (npar os) by (rewrite Z.add_simpl_r, Z.mod_small by lia; reflexivity).
    replace ((ncall os + 1 - 1) mod 256) with (ncall os) by (rewrite Z.add_simpl_r, Z.mod_small by lia; reflexivity).
    rewrite E. destruct (op_eval _ _ _ _) as [[[e vs2] r]| | | |]; try reflexivity. }
  rewrite D. clear D.
  assert (vs_size (rev vals ++ vs) - vs_size vs = Z.of_nat (length vals)) as -> by (unfold vs_size; rewrite app_length, rev_length; lia).
  unfold op_eval, op_function, o_fn. replace (Z.of_nat (length vals) =? 0) with false by (destruct vals; [contradiction|cbn [length]; lia]).
  replace (f_nargs fn <? 0) with false by lia. cbn [orb]. destruct (Z.of_nat (length vals) =? f_nargs fn) eqn:EQ.
  - specialize (G vals vs NE ltac:(lia) LV). destruct (g vals) as [[e v]| | | |]; try (rewrite G; reflexivity).
    destruct (isOK e) eqn:EK.
    + apply isOK_eq in EK. subst e. rewrite G. reflexivity.
    + assert (exists s, f_eval fn (rev vals ++ vs) 10 = Val (e, s)) as [s' ->] by (destruct e; (exact G || discriminate EK)). cbn [bind]. rewrite EK. unfold fail. eexists. split; [reflexivity|].
      cbn. split; [|reflexivity]. unfold setErrorIfAt. rewrite EK. reflexivity.
  - destruct (f_nargs fn <? Z.of_nat (length vals)); cbn; eexists; (split; [reflexivity|split; reflexivity]).
Qed.
Lemma values_some a : forall vals, values_of a = Val (OK, vals) -> vals <> [].
Proof.
  destruct a as [e|e a]; cbn [values_of]; intros vals; destruct (val_cases (value_of e)) as [[v ->]|[N _]].
  - cbn. intros [= <-]. discriminate.
  - destruct (value_of e) as [[x v]| | | |]; cbn [andthen okay] in *; try discriminate. destruct (isOK x) eqn:E; [contradiction|]. intros [= -> _]. discriminate E.
  - rewrite andthen_ok. destruct (values_of a) as [[x w]| | | |]; cbn [andthen]; try discriminate. destruct (isOK x) eqn:E; [intros [= <-]; discriminate|]. intros [= -> _]. discriminate E.
  - destruct (value_of e) as [[x v]| | | |]; cbn [andthen okay] in *; try discriminate. destruct (isOK x) eqn:E; [contradiction|]. intros [= -> _]. discriminate E.
Qed.
Lemma andthen_val {A B} (none : B) (r : res (err * A)) k x : andthen none r k = Val (OK, x) -> exists v, r = Val (OK, v) /\ k v = Val (OK, x).
Proof.
  destruct r as [[e v]| | | |]; cbn [andthen]; try discriminate. destruct (isOK e) eqn:E; [|intros [= -> _]; discriminate E]. apply isOK_eq in E. subst e. eauto.
Qed.
Lemma eoe_plain sp os : Forall (fun o => isOpenParen o = false) sp -> eoe cx (sp ++ os) = eoe cx os /\ npar (sp ++ os) = npar os.
Proof. intros P. unfold eoe. rewrite npar_app, (npar_plain sp P), Z.add_0_l. auto. Qed.
Lemma ncall_spine sp os : Forall (fun o => o_fn o = None) sp -> ncall (sp ++ os) = ncall os.
Proof. intros P. rewrite ncall_app, (ncall_plain sp P). lia. Qed.
Lemma spine_paren e sp : Forall (spine_ok e) sp -> Forall (fun o => isOpenParen o = false) sp.
Proof. apply Forall_impl. intros x (_ & A & _); exact A. Qed.
Lemma spine_fn e sp : Forall (spine_ok e) sp -> Forall (fun o => o_fn o = None) sp.
Proof. apply Forall_impl. intros x (A & _); exact A. Qed.
Definition reads_expr (e : expr) (s rest : text) : Prop :=
  well_nested e -> forall vs os b, blanks b -> (length os <= 8)%nat -> plain_top os ->
  below os (level e) (right_rooted e) -> read_result e s (St cx (b ++ s) vs os true) vs os rest.
Definition reads_args (a : args) (s rest : text) : Prop :=
  well_nested_args a -> forall vs par os b, blanks b -> isOpenParen par = true -> o_fn par = None -> 0 < ncall os -> (length (par :: os) <= 8)%nat ->
  args_result a s (St cx (b ++ s) vs (par :: os) true) vs (par :: os) rest.
Theorem reads_both : (forall e s rest, derives f cx e s rest -> reads_expr e s rest) /\ (forall a s rest, derives_args f cx a s rest -> reads_args a s rest).
Proof.
  assert (forall P Q : Prop, P /\ Q -> P /\ Q) as K by auto. apply K. clear K.
  apply (derives_both f cx (fun e s rest _ => reads_expr e s rest) (fun a s rest _ => reads_args a s rest)); unfold reads_expr, reads_args.
  - (* numeral *)
    intros t v b1 rest H Nu B1 T WN vs os b B LO CL FI.
    destruct (num_head f (t ++ b1 ++ rest) I) as (h & q & E & N & Sf & X).
    { destruct (num_head f t I H) as (h & q & -> & _). exact H. }
    pose proof (num_constant f cx t v (b1 ++ rest) I H T (Nu _ T)) as C. rewrite E in *.
    apply (operand_step (Num t v) (h :: q) b h q vs os v b1 rest B Sf); try reflexivity; try assumption.
    + cbn in X |- *. tauto.
    + intros st _ Sc R. unfold do_operand. rewrite Sc, R. unfold pl. rewrite C. reflexivity.
    + rewrite <- E. destruct t as [|x t]; [|cbn [app length]; rewrite !app_length; lia].
      exfalso. destruct (num_head f [] I H) as (h' & q' & Y & _). discriminate Y.
  - (* symbol *)
    intros t v b1 rest Na Re F1 F2 Sy Fl B1 T WN vs os b B LO CL FI.
    destruct (name_reads f t (b1 ++ rest) I Na T) as [RS RF]. pose proof (name_constant f cx t (b1 ++ rest) I Na T Re) as C.
    pose proof (name_no_prefix f t (b1 ++ rest) I Na T Re) as NP.
    destruct t as [|h t]; [contradiction|]. destruct Na as [Nh Nt]. destruct (alpha_safe f h I Nh) as [Sf X]. cbn [app] in *.
    apply (operand_step (Sym (h :: t) v) (h :: t ++ b1 ++ rest) b h (t ++ b1 ++ rest) vs os v b1 rest B Sf); try reflexivity; try assumption.
    + cbn in X |- *. tauto.
    + intros st _ Sc R. unfold do_operand. rewrite Sc, R. unfold pl. rewrite C. cbn [bind isOK err_eqb negb]. rewrite RF. unfold lookupFunction. rewrite F1, F2.
      unfold do_symbol. rewrite Sc, RS, Sy, Fl. reflexivity.
    + cbn [length]. rewrite !app_length. lia.
  - (* location *)
    intros c b1 rest L B1 T WN vs os b B LO CL FI.
    destruct (loc_number f c (b1 ++ rest) I L T) as (_ & _ & NP & Sf & X). pose proof (loc_constant f cx c (b1 ++ rest) I L T) as C.
    apply (operand_step (Here (setUnsigned (c_location cx))) (c :: b1 ++ rest) b c (b1 ++ rest) vs os (setUnsigned (c_location cx)) b1 rest B Sf); try reflexivity; try assumption.
    + cbn in X |- *. tauto.
    + intros st _ Sc R. unfold do_operand. rewrite Sc, R. unfold pl. rewrite C. reflexivity.
    + cbn [length]. lia.
  - (* prefix operator *)
    intros d tok b1 e s rest D Sp B1 Se De IH WN vs os b B LO CL FI.
    destruct (derives_head e s rest De) as (h' & t' & Es & S' & X' & Y').
    destruct (fam_prefix_reads f I d tok (b1 ++ s) D Sp Se) as (o & Rd & Im).
    { rewrite Es. destruct b1 as [|x b1]; cbn [app peek]; [lia|]. unfold blanks in B1. apply Forall_inv in B1. unfold is_space in B1. lia. }
    destruct (op_head f d tok I (or_introl D) Sp) as (h & t & -> & Sf & X).
    destruct (proj1 (fam_tables f I) d D) as (Uny & As & Lv). destruct WN as [WN1 WN2].
    assert (o_prec o = d_level d) as Po by apply Im. assert (isOpenParen o = false) as NP by (unfold isOpenParen; lia).
    assert (o_fn o = None) as NF by apply Im.
    assert (below os (o_prec o) (o_assoc o = RIGHT)) as BO.
    { apply (fits_below (Un d e) os FI d o 1 Im); [reflexivity|]. intros _. exact As. }
    pose proof (step_head b h (t ++ b1 ++ s) vs os true B Sf (head_not h os X)) as St1. cbn [app] in Rd. rewrite Rd in St1.
    rewrite (do_operator_blocked _ o vs os (b1 ++ s) true eq_refl) in St1; [|lia|exact NP|exact NF|exact BO]. cbn [app].
    pose proof (proj1 slots_pos e) as SP.
    assert (length (h :: t ++ b1 ++ s) = S (length t + length b1 + length s))%nat as LL by (cbn [length]; rewrite !app_length; lia).
    destruct (os_full os) eqn:OF.
    { apply (RR_full _ _ _ vs os rest 1 (b1 ++ s)); [apply halts_return in St1; exact St1|lia|]. right. cbn [operator_slots]. unfold os_full, CAPACITY in OF. lia. }
    apply runs_next in St1.
    assert ((length (o :: os) <= 8)%nat) as LO' by (unfold os_full, CAPACITY in OF; cbn [length]; lia).
    specialize (IH WN2 vs (o :: os) b1 B1 LO'). destruct IH as [k sp vs' b2 B2 Ru So Ou Ne Lv' Kp Le Lo|k t2 Ha Kl Or|k Er Kl].
    { exact NF. }
    { cbn [below]. right. rewrite Po. destruct WN1 as [W|[W W']]; [left; exact W|right]. split; [exact W|]. split; [exact W'|]. destruct Im as (_ & A & _). congruence. }
    + apply (RR_ok _ _ _ vs os rest (1 + k) (sp ++ [o]) vs' b2); try assumption.
      * rewrite <- app_assoc. exact (runs_trans _ _ _ _ _ St1 Ru).
      * apply Forall_app. split.
        -- revert So. apply Forall_impl. intros x (A1 & A2 & A3 & A4). split; [exact A1|]. split; [exact A2|]. split; [|exact A4]. cbn [level]. lia.
        -- constructor; [|constructor]. split; [exact NF|]. split; [exact NP|]. split; [cbn [level]; lia|].
           intros d' _ _ _. destruct Im as (_ & A & _). congruence.
      * intros kd F. apply Forall_app in F as [Fa Fo]. apply Forall_inv in Fo. rewrite <- app_assoc. specialize (Ou kd Fa).
        cbn [value_of]. apply (outcome_then _ _ _ _ _ _ Ou). intros w _. cbn [app]. apply red_un; assumption.
      * lia.
      * lia.
      * rewrite <- app_assoc. exact Lo.
    + apply (RR_full _ _ _ vs os rest (1 + k) t2); [exact (runs_halts _ _ _ _ _ St1 Ha)|lia|]. cbn [length value_slots operator_slots] in *. lia.
    + apply (RR_err _ _ _ vs os rest (1 + k)); [|lia]. cbn [value_of]. apply fails_stop. exact (fails_after _ _ _ _ _ St1 Er).
  - (* infix operator *)
    intros d tok bl a b' s0 s rest D Sp Bl Se Da IHa Db IHb WN vs os b B LO CL FI.
    destruct WN as (WA & WB & WNa & WNb). destruct (proj1 (proj2 (fam_tables f I)) d D) as (Bi & Lv).
    assert (below os (level a) (right_rooted a)) as FA.
    { destruct os as [|t os']; [exact Logic.I|]. cbn [below level right_rooted] in *. destruct FI as [FI|[FI|(F1 & F2 & F3)]]; [left; exact FI|right; left; lia|].
      right; left. destruct WA as [WA|[WA WA']]; [lia|congruence]. }
    pose proof (proj1 slots_pos a) as SPa. pose proof (proj1 slots_pos b') as SPb.
    destruct (IHa WNa vs os b B LO CL FA) as [k sp va bx Bx Ru So Ou Ne Lva Kp Le Lo|k t2 Ha Kl Or|k Er Kl].
    2: { apply (RR_full _ _ _ vs os rest k t2); [exact Ha|lia|]. cbn [value_slots operator_slots]. lia. }
    2: { apply (RR_err _ _ _ vs os rest k); [|lia]. cbn [value_of]. apply fails_stop. exact Er. }
    destruct (fam_infix_reads f I d tok (bl ++ s) D Sp Se) as (o & Rd & Im).
    destruct (op_head f d tok I (or_intror D) Sp) as (h & t & -> & Sf & X).
    assert (o_prec o = d_level d) as Po by apply Im. assert (isOpenParen o = false) as NP by (unfold isOpenParen; lia).
    assert (o_assoc o = d_assoc d) as Ao by apply Im. assert (o_fn o = None) as NF by apply Im.
    assert (below os (o_prec o) (o_assoc o = RIGHT)) as BO.
    { destruct os as [|t' os']; [exact Logic.I|]. cbn [below level right_rooted] in *. rewrite Po, Ao. tauto. }
    assert (Forall (accept (RH o)) sp) as AC.
    { revert So. apply Forall_impl. intros x (A1 & A2 & A3 & A4). cbn [accept]. unfold isNoneAssoc, isHigher. rewrite Po, Ao.
      destruct WA as [WA|[WA WA']]; [lia|]. rewrite WA'. cbn [assoc_eqb]. destruct (Z.eq_dec (o_prec x) (d_level d)) as [E|E]; [|lia].
      specialize (A4 d D WA' (eq_sym E)). rewrite E, Z.eqb_refl. destruct (o_assoc x); cbn [assoc_eqb]; try congruence; lia. }
    destruct (eoe_plain sp os (spine_paren _ _ So)) as [Eo Np]. pose proof (ncall_spine sp os (spine_fn _ _ So)) as Nc.
    assert (length (bx ++ (h :: t) ++ bl ++ s) = S (length bx + length t + length bl + length s))%nat as LL by (rewrite app_length; cbn [app length]; rewrite !app_length; lia).
    pose proof (infix_head bx h (t ++ bl ++ s) va (sp ++ os) Bx Sf (head_not h _ X)) as St1. cbn [app] in Rd. unfold pl in St1 at 2. rewrite Rd in St1.
    cbn [app] in Ru. specialize (Ou (RH o) AC). cbn [red] in Ou.
    destruct (val_cases (value_of a)) as [[w Va]|[NA _]].
    2: { destruct (do_operator_fails o (bl ++ s) va (sp ++ os)) as (F & DF & KF). rewrite DF in St1.
         pose proof (fail_step _ _ _ _ _ St1 Ou NA KF) as FS. apply (RR_err _ _ _ vs os rest (k + 1)); [|lia]. cbn [value_of]. apply fails_stop. exact (fails_after _ _ _ _ _ Ru FS). }
    rewrite Va in Ou. cbn [outcome_is] in Ou. change (isOK OK) with true in Ou. cbv iota in Ou.
    unfold do_operator in St1. cbn [St s_os s_vs s_radix] in St1.
    pose proof (blocked o os (w :: vs) ltac:(lia) BO) as Bk. cbn [red] in Bk. rewrite Bk in Ou. rewrite Ou in St1. cbn [bind] in St1. change (isOK OK) with true in St1. cbn [negb] in St1.
    unfold os_push in St1. destruct (os_full os) eqn:OF.
    { apply (RR_full _ _ _ vs os rest (k + 1) (bl ++ s)).
      - apply halts_return in St1. exact (runs_halts _ _ _ _ _ Ru St1).
      - lia.
      - right. cbn [operator_slots]. unfold os_full, CAPACITY in OF. lia. }
    apply runs_next in St1.
    assert (set_prefix (set_stacks (set_stacks (St cx (bl ++ s) va (sp ++ os) false) (w :: vs) os 10) (w :: vs) (o :: os) 10) true = St cx (bl ++ s) (w :: vs) (o :: os) true) as ES.
    { unfold set_prefix, set_stacks, St. cbn. rewrite Eo, Np, Nc. unfold eoe. cbn [npar ncall]. unfold isFunction. rewrite NP, NF. reflexivity. }
    assert ((length (o :: os) <= 8)%nat) as LO' by (unfold os_full, CAPACITY in OF; cbn [length]; lia).
    pose proof (runs_trans _ _ _ _ _ Ru St1) as R1. unfold set_prefix, set_stacks, St in ES, R1. cbn in ES, R1. rewrite ES in R1. clear ES St1 Ru.
    destruct (IHb WNb (w :: vs) (o :: os) bl Bl LO') as [k2 sp2 vb by_ By Ru2 So2 Ou2 Ne2 Lvb Kp2 Le2 Lo2|k2 t2 Ha2 Kl2 Or2|k2 Er2 Kl2].
    { exact NF. }
    { cbn [below]. right. rewrite Po, Ao. tauto. }
    + apply (RR_ok _ _ _ vs os rest (k + 1 + k2) (sp2 ++ [o]) vb by_); try assumption.
      * rewrite <- app_assoc. exact (runs_trans _ _ _ _ _ R1 Ru2).
      * apply Forall_app. split.
        -- revert So2. apply Forall_impl. intros x (A1 & A2 & A3 & A4). split; [exact A1|]. split; [exact A2|]. split; [|exact A4]. cbn [level]. lia.
        -- constructor; [|constructor]. split; [exact NF|]. split; [exact NP|]. split; [cbn [level]; lia|].
           intros d' D' L' E' N'. rewrite Po in E'. rewrite Ao in N'. exact (proj2 (proj2 (fam_tables f I)) d d' (or_intror D) D' N' L' (eq_sym E')).
      * intros kd F. apply Forall_app in F as [Fa Fo]. apply Forall_inv in Fo. rewrite <- app_assoc. specialize (Ou2 kd Fa).
        cbn [value_of]. rewrite Va, andthen_ok. apply (outcome_then _ _ _ _ _ _ Ou2). intros w2 _. cbn [app]. apply red_bin; assumption.
      * lia.
      * lia.
      * rewrite <- app_assoc. exact Lo2.
    + apply (RR_full _ _ _ vs os rest (k + 1 + k2) t2); [exact (runs_halts _ _ _ _ _ R1 Ha2)|lia|]. cbn [length value_slots operator_slots] in *. lia.
    + apply (RR_err _ _ _ vs os rest (k + 1 + k2)); [|lia]. cbn [value_of]. rewrite Va, andthen_ok. apply fails_stop. exact (fails_after _ _ _ _ _ R1 Er2).
  - (* parentheses *)
    intros b1 b2 e s rest B1 B2 De IH WN vs os b B LO CL FI.
    cbn [well_nested] in WN. destruct (open_facts f (b1 ++ s) I) as (Cn & Rd & Fn & Sn & Sf).
    pose proof (step_head b 40 (b1 ++ s) vs os true B Sf (head_not 40 os ltac:(cbn; lia))) as St1. rewrite Rd, open_operand in St1.
    pose proof (proj1 slots_pos e) as SP.
    assert (length (40%Z :: b1 ++ s) = S (length b1 + length s))%nat as LL by (cbn [length]; rewrite !app_length; lia).
    destruct (os_full os) eqn:OF.
    { apply halts_return in St1. apply (RR_full _ _ _ vs os rest 1 (b1 ++ s)); [exact St1|lia|]. right. cbn [operator_slots]. unfold os_full, CAPACITY in OF. lia. }
    apply runs_next in St1. set (par := op_paren (vs_size vs)) in *.
    assert ((length (par :: os) <= 8)%nat) as LO' by (unfold os_full, CAPACITY in OF; cbn [length]; lia).
    assert (npar (par :: os) = npar os + 1) as Np by (cbn [npar]; change (isOpenParen par) with true; cbv iota; lia).
    assert (ncall (par :: os) = ncall os) as Nc by reflexivity.
    pose proof (npar_range os) as Nr.
    assert (eoe cx (par :: os) = 0) as Ep by (unfold eoe; rewrite Np; replace (npar os + 1 =? 0) with false by lia; reflexivity).
    replace ((npar os + 1) mod 256) with (npar (par :: os)) in St1 by (rewrite Np, Z.mod_small by (cbn [length] in LO'; lia); reflexivity).
    assert (runs 1 (St cx (b ++ 40 :: b1 ++ s) vs os true) (St cx (b1 ++ s) vs (par :: os) true)) as R1 by (unfold St at 2; rewrite Ep, Nc; exact St1).
    clear St1. destruct (IH WN vs (par :: os) b1 B1 LO') as [k sp vs' b3 B3 Ru So Ou Ne Lv Kp Le Lo|k t2 Ha Kl Or|k Er Kl].
    { reflexivity. }
    { cbn [below]. left. reflexivity. }
    2: { apply (RR_full _ _ _ vs os rest (1 + k) t2); [exact (runs_halts _ _ _ _ _ R1 Ha)|lia|]. cbn [length value_slots operator_slots] in *. lia. }
    2: { apply (RR_err _ _ _ vs os rest (1 + k)); [|lia]. cbn [value_of]. exact (fails_after _ _ _ _ _ R1 Er). }
    pose proof (runs_trans _ _ _ _ _ R1 Ru) as R2. clear R1 Ru.
    pose proof (spine_paren _ _ So) as SPp. destruct (eoe_plain sp (par :: os) SPp) as [Eo Np2]. rewrite Ep in Eo. rewrite Np in Np2.
    pose proof (ncall_spine sp (par :: os) (spine_fn _ _ So)) as Nc2. rewrite Nc in Nc2.
    pose proof (eol41 f I) as S41.
    pose proof (infix_head b3 41 (b2 ++ rest) vs' (sp ++ par :: os) B3 S41) as St2. rewrite Eo in St2. specialize (St2 eq_refl).
    rewrite close_punct in St2.
    assert (length (b3 ++ 41%Z :: b2 ++ rest) = S (length b3 + length b2 + length rest))%nat as LR by (rewrite app_length; cbn [length]; rewrite !app_length; lia).
    specialize (Ou RP SPp). cbn [red] in Ou.
    destruct (val_cases (value_of e)) as [[w Ve]|[NA _]].
    2: { destruct (do_close_fails (b2 ++ rest) vs' (sp ++ par :: os)) as (F & DF & KF). rewrite DF in St2.
         pose proof (fail_step _ _ _ _ _ St2 Ou NA KF) as FS. apply (RR_err _ _ _ vs os rest (1 + k + 1)); [|lia]. cbn [value_of]. exact (fails_after _ _ _ _ _ R2 FS). }
    rewrite Ve in Ou. cbn [outcome_is] in Ou. change (isOK OK) with true in Ou. cbv iota in Ou.
    assert (reduce_paren (par :: os) (w :: vs) 10 = Val (OK, par :: os, w :: vs, 10)) as RPp by reflexivity.
    rewrite RPp in Ou.
    assert (step pl cx (St cx (b3 ++ 41 :: b2 ++ rest) vs' (sp ++ par :: os) false) = Val (Next (St cx (b2 ++ rest) (w :: vs) os false))) as St3.
    { rewrite St2. apply (close_do _ _ _ par); try assumption. }
    apply runs_next in St3. pose proof (runs_trans _ _ _ _ _ R2 St3) as R3.
    apply (RR_ok _ _ _ vs os rest (1 + k + 1) [] (w :: vs) b2); [exact B2|exact R3|constructor| |discriminate|exact Lv|lia| |exact LO].
    + intros kd _. cbn [value_of]. rewrite Ve. reflexivity.
    + rewrite app_length. lia.
  - (* call *)
    intros t fn g b1 b2 b3 a s rest Na Re Fn Ar Co B1 B2 B3 Da IH WN vs os b B LO CL FI.
    cbn [well_nested] in WN.
    assert (token_end (b1 ++ 40 :: b2 ++ s)) as T.
    { destruct b1 as [|x b1]; cbn [app token_end]; [right; cbn; tauto|left; exact (Forall_inv B1)]. }
    destruct (name_reads f t _ I Na T) as [RS RF]. pose proof (name_constant f cx t _ I Na T Re) as C.
    pose proof (name_no_prefix f t _ I Na T Re) as NP. pose proof (proj2 slots_pos a) as SPa.
    assert (1 <= length t)%nat as Lt by (destruct t; [contradiction|cbn [length]; lia]).
    destruct t as [|h t]; [contradiction|]. destruct Na as [Nh Nt]. destruct (alpha_safe f h I Nh) as [Sf X]. cbn [app] in RS, RF, C, NP.
    assert (length ((h :: t) ++ b1 ++ 40%Z :: b2 ++ s) = length (h :: t) + length b1 + 1 + length b2 + length s)%nat as LL by (rewrite !app_length; cbn [length]; rewrite app_length; lia).
    assert (step pl cx (St cx (b ++ (h :: t) ++ b1 ++ 40 :: b2 ++ s) vs os true) =
      Val (Next (mkSt (40 :: b2 ++ s) vs (os_push (op_function fn) os) (eoe cx os) (npar os) false true ((ncall os + 1) mod 256) 10 OK))) as St1.
    { cbn [app]. rewrite (step_head b h _ vs os true B Sf) by (apply head_not; cbn in X |- *; tauto). rewrite NP.
      unfold do_operand. cbn [St s_radix s_scan]. unfold pl. rewrite C. cbn [bind isOK err_eqb negb]. rewrite RF, Fn.
      destruct (open_facts f (b2 ++ s) I) as (_ & _ & _ & _ & So). rewrite (skip_head b1 40 (b2 ++ s) B1 (proj1 So)), (fam_open f I). reflexivity. }
    apply runs_next in St1. pose proof (call_open fn (b2 ++ s) vs os LO) as St2. pose proof (npar_range os) as Nr. pose proof (ncall_range os) as Ncr.
    destruct (7 <=? Z.of_nat (length os)) eqn:OF.
    { apply halts_return in St2. apply (RR_full _ _ _ vs os rest (1 + 1) (b2 ++ s)); [exact (runs_halts _ _ _ _ _ St1 St2)|lia|]. right. cbn [operator_slots]. lia. }
    apply runs_next in St2. pose proof (runs_trans _ _ _ _ _ St1 St2) as R1. clear St1 St2.
    set (par := op_paren (vs_size vs)) in *. set (fop := op_function fn) in *.
    assert ((length (par :: fop :: os) <= 8)%nat) as LO' by (cbn [length]; lia).
    assert (npar (par :: fop :: os) = npar os + 1 /\ ncall (par :: fop :: os) = ncall os + 1 /\ ncall (fop :: os) = ncall os + 1) as (Np & Nc & Nc').
    { cbn [npar ncall]. change (isOpenParen par) with true. change (isOpenParen fop) with false. change (isFunction par) with false. change (isFunction fop) with true. cbv iota. lia. }
    assert (eoe cx (par :: fop :: os) = 0) as Ep by (unfold eoe; rewrite Np; replace (npar os + 1 =? 0) with false by lia; reflexivity).
    destruct (IH WN vs par (fop :: os) b2 B2 eq_refl eq_refl ltac:(lia) LO') as [k sp vs' b4 B4 Ru SPp SPf Ou Lvs Le Lo|k t2 Ha Kl Or|k Er Kl].
    2: { apply (RR_full _ _ _ vs os rest (1 + 1 + k) t2); [exact (runs_halts _ _ _ _ _ R1 Ha)|lia|]. cbn [length value_slots operator_slots] in *. lia. }
    2: { apply (RR_err _ _ _ vs os rest (1 + 1 + k)); [|lia]. cbn [value_of]. apply fails_stop. exact (fails_after _ _ _ _ _ R1 Er). }
    pose proof (runs_trans _ _ _ _ _ R1 Ru) as R2. clear R1 Ru.
    destruct (eoe_plain sp (par :: fop :: os) SPp) as [Eo Np2]. rewrite Ep in Eo. rewrite Np in Np2.
    pose proof (ncall_spine sp (par :: fop :: os) SPf) as Nc2. rewrite Nc in Nc2.
    pose proof (infix_head b4 41 (b3 ++ rest) vs' (sp ++ par :: fop :: os) B4 (eol41 f I)) as St3. rewrite Eo in St3. specialize (St3 eq_refl). rewrite close_punct in St3.
    assert (length (b4 ++ 41%Z :: b3 ++ rest) = S (length b4 + length b3 + length rest))%nat as LR by (rewrite app_length; cbn [length]; rewrite !app_length; lia).
    destruct (val_cases (values_of a)) as [[vals Va]|[NA _]].
    2: { destruct (do_close_fails (b3 ++ rest) vs' (sp ++ par :: fop :: os)) as (F & DF & KF). rewrite DF in St3.
         pose proof (fail_step _ _ _ _ _ St3 Ou NA KF) as FS. apply (RR_err _ _ _ vs os rest (1 + 1 + k + 1)); [|lia]. cbn [value_of]. apply fails_stop. exact (fails_after _ _ _ _ _ R2 FS). }
    rewrite Va in Ou. cbn [outcome_is] in Ou. change (isOK OK) with true in Ou. cbv iota in Ou. pose proof (Lvs _ Va) as Lv. pose proof (values_some _ _ Va) as NE.
    assert (length vs < 8)%nat as L8 by (destruct vals; [contradiction|cbn [length] in Lv; lia]).
    assert (value_of (Call (h :: t) (f_nargs fn) g a) = (if Z.of_nat (length vals) =? f_nargs fn then g vals
      else Val (if f_nargs fn <? Z.of_nat (length vals) then TOO_MANY_FUNC_ARGUMENT else TOO_FEW_FUNC_ARGUMENT, v_undef))) as VC.
    { cbn [value_of]. rewrite Va. reflexivity. }
    pose proof (call_close (b3 ++ rest) _ _ fn os vals vs g Ou Eo Np2 Nc2 ltac:(lia) Ar Co NE Lv _ VC) as CC. rewrite <- St3 in CC. clear VC.
    destruct (val_cases (value_of (Call (h :: t) (f_nargs fn) g a))) as [[w Ve]|[NV [(x & w & EX & Ve)|NV']]].
    + rewrite Ve in CC. change (isOK OK) with true in CC. cbv iota in CC. apply runs_next in CC. pose proof (runs_trans _ _ _ _ _ R2 CC) as R3.
      apply (RR_ok _ _ _ vs os rest (1 + 1 + k + 1) [] (w :: vs) b3); [exact B3|exact R3|constructor| |discriminate|exact L8|lia| |exact LO].
      * intros kd _. rewrite Ve. reflexivity.
      * rewrite app_length. lia.
    + apply (RR_err _ _ _ vs os rest (1 + 1 + k + 1)); [|lia]. rewrite Ve in CC |- *. rewrite EX in CC. destruct CC as (s' & CC & <- & Rx).
      apply halts_return in CC. rewrite Rx in CC. split; [exact EX|]. exists (s_scan s'). exact (runs_halts _ _ _ _ _ R2 CC).
    + apply (RR_err _ _ _ vs os rest (1 + 1 + k + 1)); [|lia]. apply (fails_after _ _ _ _ _ R2).
      destruct (value_of (Call (h :: t) (f_nargs fn) g a)) as [q| | | |]; [contradiction| | | |]; cbn [fails]; (apply halts_none; [exact Logic.I|exact CC]).
  - (* last argument *)
    intros e s rest De IH WN vs par os b B PA PF NC LO. cbn [well_nested_args] in WN.
    assert (below (par :: os) (level e) (right_rooted e)) as BL by (cbn [below]; now left).
    destruct (IH WN vs (par :: os) b B LO PF BL) as [k sp vs' b1 B1 Ru So Ou Ne Lv Kp Le Lo|k t2 Ha Kl Or|k Er Kl].
    + pose proof (spine_paren _ _ So) as SPp. specialize (Ou RP SPp).
      apply (AR_ok _ _ _ vs (par :: os) rest k sp vs' b1); try assumption.
      * exact (spine_fn _ _ So).
      * cbn [values_of]. apply (outcome_then _ _ _ _ _ _ Ou). intros v _. cbn [red reduce_paren]. rewrite PA. reflexivity.
      * cbn [values_of]. intros vals V. apply andthen_val in V as (v & _ & V). injection V as <-. cbn [length]. lia.
    + apply (AR_full _ _ _ vs (par :: os) rest k t2); assumption.
    + apply (AR_err _ _ _ vs (par :: os) rest k); [|exact Kl]. cbn [values_of]. apply fails_stop. exact Er.
  - (* more arguments *)
    intros b1 e a s0 s rest B1 De IHe Da IHa WN vs par os b B PA PF NC LO. cbn [well_nested_args] in WN. destruct WN as [WNe WNa].
    assert (below (par :: os) (level e) (right_rooted e)) as BL by (cbn [below]; now left).
    pose proof (proj1 slots_pos e) as SPe. pose proof (proj2 slots_pos a) as SPa.
    destruct (IHe WNe vs (par :: os) b B LO PF BL) as [k sp vs' b2 B2 Ru So Ou Ne Lv Kp Le Lo|k t2 Ha Kl Or|k Er Kl].
    2: { apply (AR_full _ _ _ vs (par :: os) rest k t2); [exact Ha|lia|]. cbn [args_value_slots args_operator_slots]. lia. }
    2: { apply (AR_err _ _ _ vs (par :: os) rest k); [|lia]. cbn [values_of]. apply fails_stop. exact Er. }
    pose proof (spine_paren _ _ So) as SPp. specialize (Ou RP SPp). cbn [red] in Ou.
    pose proof (npar_range os) as Nr.
    destruct (eoe_plain sp (par :: os) SPp) as [Eo Np2]. pose proof (ncall_spine sp (par :: os) (spine_fn _ _ So)) as Nc2.
    assert (isFunction par = false) as PF' by (unfold isFunction; now rewrite PF).
    assert (npar (par :: os) = npar os + 1 /\ ncall (par :: os) = ncall os) as [Np Nc] by (cbn [npar ncall]; rewrite PA, PF'; lia).
    assert (eoe cx (par :: os) = 0) as Ep by (unfold eoe; rewrite Np; replace (npar os + 1 =? 0) with false by lia; reflexivity).
    pose proof (infix_head b2 44 (b1 ++ s) vs' (sp ++ par :: os) B2 (eol44 f I)) as St1. rewrite Eo, Ep in St1. specialize (St1 eq_refl). rewrite comma_punct in St1 by lia.
    assert (length (b2 ++ 44%Z :: b1 ++ s) = S (length b2 + length b1 + length s))%nat as LR by (rewrite app_length; cbn [length]; rewrite !app_length; lia).
    destruct (val_cases (value_of e)) as [[v Ve]|[NA _]].
    2: { assert (fails 1 (St cx (b2 ++ 44 :: b1 ++ s) vs' (sp ++ par :: os) false) (value_of e)) as FS.
         { apply (fail_step _ _ _ _ _ St1 Ou NA). intros x os' vs2 E. cbn beta iota zeta. rewrite E. cbn [negb]. unfold fail. eexists. split; [reflexivity|].
           cbn. split; [|reflexivity]. unfold setErrorIfAt. rewrite E. reflexivity. }
         apply (AR_err _ _ _ vs (par :: os) rest (k + 1)); [|lia]. cbn [values_of]. apply fails_stop. exact (fails_after _ _ _ _ _ Ru FS). }
    rewrite Ve in Ou. cbn [outcome_is reduce_paren] in Ou. change (isOK OK) with true in Ou. rewrite PA in Ou. cbv iota in Ou. rewrite Ou in St1. cbn [bind] in St1. change (isOK OK) with true in St1. cbn [negb] in St1.
    assert (set_prefix (set_stacks (St cx (b1 ++ s) vs' (sp ++ par :: os) false) (v :: vs) (par :: os) 10) true = St cx (b1 ++ s) (v :: vs) (par :: os) true) as ES.
    { unfold set_prefix, set_stacks, St. cbn [s_scan s_eoe s_paren s_fnargs s_infn s_err s_vs s_os s_radix]. rewrite Eo, Np2, Nc2. reflexivity. }
    rewrite ES in St1. apply runs_next in St1. pose proof (runs_trans _ _ _ _ _ Ru St1) as R1. clear Ru St1 ES.
    destruct (IHa WNa (v :: vs) par os b1 B1 PA PF NC LO) as [k2 sp2 vs2 b3 B3 Ru2 SPp2 SPf2 Ou2 Lv2 Le2 Lo2|k2 t2 Ha2 Kl2 Or2|k2 Er2 Kl2].
    + apply (AR_ok _ _ _ vs (par :: os) rest (k + 1 + k2) sp2 vs2 b3); try assumption.
      * exact (runs_trans _ _ _ _ _ R1 Ru2).
      * cbn [values_of]. rewrite Ve, andthen_ok. apply (outcome_then _ _ _ _ _ _ Ou2). intros vals _. cbn [outcome_is rev]. change (isOK OK) with true. cbv iota. rewrite <- app_assoc. reflexivity.
      * cbn [values_of]. rewrite Ve, andthen_ok. intros vals V. apply andthen_val in V as (vl & E & V). injection V as <-. specialize (Lv2 _ E). cbn [length] in *. lia.
      * lia.
    + apply (AR_full _ _ _ vs (par :: os) rest (k + 1 + k2) t2); [exact (runs_halts _ _ _ _ _ R1 Ha2)|lia|]. cbn [length args_value_slots args_operator_slots] in *. lia.
    + apply (AR_err _ _ _ vs (par :: os) rest (k + 1 + k2)); [|lia]. cbn [values_of]. rewrite Ve, andthen_ok. apply fails_stop. exact (fails_after _ _ _ _ _ R1 Er2).
Qed.
Theorem reads e s rest : derives f cx e s rest -> well_nested e -> forall vs os b, blanks b -> (length os <= 8)%nat -> plain_top os ->
  below os (level e) (right_rooted e) -> read_result e s (St cx (b ++ s) vs os true) vs os rest.
Proof. exact (proj1 reads_both e s rest). Qed.
Lemma ends_step b rest vs os : blanks b -> ends cx rest -> vs <> [] -> npar os = 0 -> ncall os = 0 ->
  exists b', blanks b' /\ (length b' <= length b)%nat /\ step pl cx (St cx (b ++ rest) vs os false) = Val (Break (St cx (b' ++ rest) vs os false)).
Proof.
  intros B E V N NC. destruct (match rest with [] => true | c :: _ => c =? 59 end) eqn:ZZ.
  - exists []. split; [constructor|]. split; [cbn; lia|]. unfold step. cbn [s_scan St]. rewrite (skip_blanks b _ B).
    destruct (fam_eol_end f I (tl rest)) as [E0 E1]. destruct rest as [|c t].
    + unfold pl. change (skipSpaces []) with (@nil Z). rewrite E0. reflexivity.
    + apply Z.eqb_eq in ZZ. subst c. unfold pl. change (skipSpaces (59 :: t)) with (59 :: t). cbn [tl] in E1. rewrite E1. reflexivity.
  - destruct rest as [|c t]; [discriminate|]. cbn [ends] in E. unfold quiet in Q. cbn in Q.
    assert (c = 44 \/ c = 41 \/ c = 93) as C by lia.
    assert (eol_safe f c) as S by (destruct C as [-> |[-> | ->]]; [now apply eol44|now apply eol41|now apply eol93]).
    destruct (c =? c_delim cx) eqn:D.
    + exists []. split; [constructor|]. split; [cbn; lia|]. unfold step. cbn [s_scan St]. rewrite (skip_head b c t B (proj1 S)). unfold pl. rewrite (fam_eol f I c t S).
      cbn [set_scan s_eoe St s_prefix s_vs s_os s_radix peek]. unfold eoe. rewrite N. cbn [Z.eqb]. rewrite D. destruct vs; [contradiction|]. reflexivity.
    + assert (c = 44) as -> by lia. exists b. split; [exact B|]. split; [lia|].
      rewrite (infix_head b 44 t vs os B S) by (unfold eoe; rewrite N; exact D). unfold pl. rewrite (fam_infix_none f I 44) by (cbn; tauto).
      unfold do_punct. open_st. rewrite NC. cbn [Z.eqb]. rewrite (fam_open f I). cbn [expect_char Z.eqb Pos.eqb]. rewrite (fam_close f I). reflexivity.
Qed.
Lemma tree_rounds e s rest : derives f cx e s rest -> well_nested e -> ends cx rest ->
  exists k, (k <= S (length s))%nat /\
  ((exists t, halts k (start cx s 10 OK) (Val (v_undef, TOO_COMPLEX_EXPRESSION, t, 10)) /\ (8 < value_slots e \/ 8 < operator_slots e)) \/
   (exists v b, value_of e = Val (OK, v) /\ blanks b /\ (length (b ++ rest) < length s)%nat /\ halts k (start cx s 10 OK) (Val (v, OK, b ++ rest, 10))) \/
   fails k (start cx s 10 OK) (value_of e)).
Proof.
  intros D W E. change (start cx s 10 OK) with (St cx ([] ++ s) [] [] true).
  destruct (reads e s rest D W [] [] [] (Forall_nil _)) as [k sp vs' b B R So Ou Ne _ Kp Le _|k t H Kl X|k X Kl]; [cbn; lia|exact Logic.I|exact Logic.I| | |].
  - rewrite app_nil_r in *. pose proof (spine_paren _ _ So) as A.
    specialize (Ou RA A). cbn [red reduce_all bind] in Ou.
    destruct (ends_step b rest vs' sp B E Ne (npar_plain sp A) (ncall_plain sp (spine_fn _ _ So))) as (b' & B' & LB & St1).
    exists (k + 1)%nat. split; [rewrite app_length in Le; lia|]. assert (forall r, finish (St cx (b' ++ rest) vs' sp false) = r -> halts (k + 1) (St cx ([] ++ s) [] [] true) r) as F.
    { intros r <-. eapply runs_halts; [exact R|]. intros n. cbn [rounds Nat.add]. rewrite St1. reflexivity. }
    right. assert ((length (b' ++ rest) <= length (b ++ rest))%nat) as LL.
    { rewrite !app_length. lia. }
    unfold finish in F. cbn [St s_os s_vs s_radix s_err s_scan] in F.
    destruct (val_cases (value_of e)) as [[w V]|[N [(x & w & EX & V)|V]]].
    + left. exists w, b'. split; [exact V|]. split; [exact B'|]. split; [lia|]. apply F. rewrite V in Ou. cbn [outcome_is] in Ou. change (isOK OK) with true in Ou. cbv iota in Ou.
      destruct (reduce_all sp vs' 10) as [[[x y] z]| | | |]; cbn [bind] in *; try discriminate. injection Ou as -> -> ->. reflexivity.
    + right. rewrite V in *. cbn [outcome_is fails] in *. rewrite EX in *. split; [reflexivity|]. destruct Ou as (os2 & vs2 & Ou). exists (b' ++ rest). apply F.
      destruct (reduce_all sp vs' 10) as [[[x' y] z]| | | |]; cbn [bind] in *; try discriminate. injection Ou as -> <- -> ->. rewrite EX.
      unfold setErrorIfAt. rewrite EX. reflexivity.
    + right. destruct (value_of e) as [q| | | |]; [contradiction| | | |]; cbn [outcome_is fails relabel] in *; apply F;
      (destruct (reduce_all sp vs' 10) as [[[x y] z]| | | |]; cbn [bind] in *; try discriminate; reflexivity).
  - exists k. split; [lia|]. left. exists t. cbn [length] in X. split; [exact H|lia].
  - exists k. split; [lia|]. right. right. exact X.
Qed.
End Tree.
Lemma tree_all f : In f tree_families -> In (fam_pl f) all_families.
Proof. intros I. fam I; cbn; tauto. Qed.
Lemma set_err e x : isOK e = false -> setErrorIfAt e x = e.
Proof. intros A. unfold setErrorIfAt. rewrite A. reflexivity. Qed.
Theorem tree_eval f cx e b0 s rest : In f tree_families -> quiet cx -> derives f cx e s rest -> well_nested e -> ends cx rest -> blanks b0 ->
  (exists t, eval (fam_pl f) cx (b0 ++ s) 10 OK = Val (v_undef, TOO_COMPLEX_EXPRESSION, t, 10) /\ (8 < value_slots e \/ 8 < operator_slots e)) \/
  match value_of e with
  | Val (OK, v) => exists b, blanks b /\ eval (fam_pl f) cx (b0 ++ s) 10 OK = Val (v, OK, b ++ rest, 10)
  | Val (x, _) => exists t, eval (fam_pl f) cx (b0 ++ s) 10 OK = Val (v_undef, x, t, 10)
  | UB => eval (fam_pl f) cx (b0 ++ s) 10 OK = UB
  | OOB => eval (fam_pl f) cx (b0 ++ s) 10 OK = OOB
  | FLOAT => eval (fam_pl f) cx (b0 ++ s) 10 OK = FLOAT
  | FUEL => eval (fam_pl f) cx (b0 ++ s) 10 OK = FUEL
  end.
Proof.
  intros I Q D W E B. destruct (derives_head f cx I e s rest D) as (h & t0 & Hs & [Hh _] & _ & _).
  assert (skipSpaces (b0 ++ s) = s) as SK by (rewrite Hs; now apply skip_head).
  destruct (tree_rounds f cx I Q e s rest D W E) as (k & Kl & K).
  assert (forall r, halts f cx k (start cx s 10 OK) r -> eval (fam_pl f) cx (b0 ++ s) 10 OK =
    bind r (fun '(v, e, t', rdx) => Val (v, if Nat.eqb (length t') (length s) then setErrorIfAt e NOT_AN_EXPECTED else e, t', rdx))) as F.
  { intros r H. unfold eval, eval_fuel. rewrite SK. replace (S (length (b0 ++ s))) with (k + (S (length (b0 ++ s)) - k))%nat by (rewrite app_length; lia).
    rewrite H. reflexivity. }
  destruct K as [(t & H & X)|[(v & b & V & Bb & L & H)|K]].
  - left. exists t. split; [|exact X]. rewrite (F _ H). cbn [bind]. rewrite set_err by reflexivity. destruct (Nat.eqb _ _); reflexivity.
  - right. rewrite V. exists b. split; [exact Bb|]. rewrite (F _ H). cbn [bind]. replace (Nat.eqb _ _) with false by (symmetry; apply Nat.eqb_neq; lia). reflexivity.
  - right. destruct (value_of e) as [[x v]| | | |]; cbn [fails relabel] in K; try (rewrite (F _ K); reflexivity).
    destruct K as [EX [t H]]. specialize (F _ H). cbn [bind] in F. rewrite set_err in F by exact EX.
    destruct x; (discriminate EX || (exists t; rewrite F; destruct (Nat.eqb _ _); reflexivity)).
Qed.
