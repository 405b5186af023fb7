(** Calls without arguments, the FUNCTION line, and cases. *)
From Coq Require Import ZArith Lia ZifyBool String List Bool.
From Verif Require Import M_Char M_Error M_Value M_Text M_Number M_Operators M_Parsers M_Expr M_Symbols S_Expr S_ExprTree S_Function
  P_Suffix P_Expr P_Agree P_ExprRead P_ExprOperand P_ExprTree P_ExprCase P_Symbols P_Function.
Import ListNotations.
Open Scope string_scope.
Open Scope list_scope.
Local Open Scope Z_scope.

(* ------------------------------------------------------------ no arguments *)
Lemma close_letter f r : In f tree_families -> exists x p, l_parse (p_letter (fam_pl f)) (41 :: r) = (NOT_AN_EXPECTED, x, p).
Proof. intros I. fam I; (eexists; eexists; reflexivity). Qed.
Lemma close_facts f r : In f tree_families -> (forall cx, parseConstant (fam_pl f) cx 10 (41 :: r) = Val (NOT_AN_EXPECTED, v_undef, 41 :: r)) /\
  fam_reader f (41 :: r) = None /\ readFunctionName (p_symbol (fam_pl f)) (41 :: r) = None /\ readSymbol (p_symbol (fam_pl f)) (41 :: r) = None.
Proof.
  intros I. split; [|fam I; (split; [reflexivity|split; [reflexivity|reflexivity]])].
  intros cx. unfold parseConstant. destruct (close_letter f r I) as (x & p & ->). cbn [isOK err_eqb negb].
  assert (p_number (fam_pl f) (41 :: r) 10 = not_expected (41 :: r)) as -> by (fam I; reflexivity).
  unfold not_expected. change (isFloatNumber (41 :: r) NOT_AN_EXPECTED (c_delim cx)) with false. cbn [err_eqb negb].
  assert (y_location (p_symbol (fam_pl f)) (41 :: r) = None) as -> by (fam I; reflexivity).
  reflexivity.
Qed.
Ltac open_st := cbv beta iota zeta delta [bind St set_scan set_stacks s_scan s_vs s_os s_eoe s_paren s_prefix s_fnargs s_infn s_radix s_err isOK err_eqb negb hasError andb].
Lemma nullary_eval f cx t fn b0 b1 b2 b3 rest : In f tree_families -> quiet cx -> blanks b0 -> blanks b1 -> blanks b2 -> blanks b3 -> ends cx rest ->
  is_name t -> ~ reserved f t -> lookupFunction (fam_pl f) cx t = Some fn -> f_nargs fn = 0 ->
  match f_eval fn [] 10 with
  | Val (OK, [v]) => exists b, blanks b /\ eval (fam_pl f) cx (b0 ++ t ++ b1 ++ 40 :: b2 ++ 41 :: b3 ++ rest) 10 OK = Val (v, OK, b ++ rest, 10)
  | Val (OK, _) => True
  | Val (x, _) => exists u, eval (fam_pl f) cx (b0 ++ t ++ b1 ++ 40 :: b2 ++ 41 :: b3 ++ rest) 10 OK = Val (v_undef, x, u, 10)
  | UB => eval (fam_pl f) cx (b0 ++ t ++ b1 ++ 40 :: b2 ++ 41 :: b3 ++ rest) 10 OK = UB
  | OOB => eval (fam_pl f) cx (b0 ++ t ++ b1 ++ 40 :: b2 ++ 41 :: b3 ++ rest) 10 OK = OOB
  | FLOAT => eval (fam_pl f) cx (b0 ++ t ++ b1 ++ 40 :: b2 ++ 41 :: b3 ++ rest) 10 OK = FLOAT
  | FUEL => eval (fam_pl f) cx (b0 ++ t ++ b1 ++ 40 :: b2 ++ 41 :: b3 ++ rest) 10 OK = FUEL
  end.
Proof.
  intros I Q B0 B1 B2 B3 E Na Re Fn Ar. set (s := t ++ b1 ++ 40 :: b2 ++ 41 :: b3 ++ rest).
  assert (token_end (b1 ++ 40 :: b2 ++ 41 :: b3 ++ rest)) as T.
  { destruct b1 as [|x b1]; cbn [app token_end]; [right; cbn; tauto|left; exact (Forall_inv B1)]. }
  destruct (name_reads f t _ I Na T) as [RS RF]. pose proof (name_constant f cx t _ I Na T Re) as C. pose proof (name_no_prefix f t _ I Na T Re) as NP.
  assert (exists h t', s = h :: t' /\ eol_safe f h /\ ~ In h [0; 41; 44; 93] /\ (length (b3 ++ rest) + 3 <= length s)%nat) as (h & t' & Es & Sf & X & LS).
  { destruct t as [|h t]; [contradiction|]. destruct Na as [Nh Nt]. destruct (alpha_safe f h I Nh) as [Sf X]. exists h, (t ++ b1 ++ 40 :: b2 ++ 41 :: b3 ++ rest).
    split; [reflexivity|]. split; [exact Sf|]. split; [cbn in X |- *; tauto|]. unfold s. cbn [app length]. rewrite !app_length. cbn [length]. rewrite !app_length. cbn [length]. rewrite !app_length. lia. }
  fold s in RS, RF, C, NP.
  assert (step (fam_pl f) cx (St cx ([] ++ s) [] [] true) =
    Val (Next (mkSt (40 :: b2 ++ 41 :: b3 ++ rest) [] (os_push (op_function fn) []) (eoe cx []) (npar []) false true ((ncall [] + 1) mod 256) 10 OK))) as St1.
  { rewrite Es in *. rewrite (step_head f cx I [] h t' [] [] true (Forall_nil _) Sf) by (apply head_not; assumption). rewrite NP.
    unfold do_operand. cbn [St s_radix s_scan]. rewrite C. cbn [bind isOK err_eqb negb]. rewrite RF, Fn.
    destruct (open_facts f (b2 ++ 41 :: b3 ++ rest) I) as (_ & _ & _ & _ & So). rewrite (skip_head b1 40 (b2 ++ 41 :: b3 ++ rest) B1 (proj1 So)), (fam_open f I). reflexivity. }
  pose proof (call_open f cx I Q fn (b2 ++ 41 :: b3 ++ rest) [] [] ltac:(cbn; lia)) as St2. cbn [length Z.of_nat Z.leb Z.compare] in St2.
  apply (runs_next f cx) in St1. apply (runs_next f cx) in St2. pose proof (runs_trans f cx _ _ _ _ _ St1 St2) as R1. clear St1 St2.
  set (par := op_paren (vs_size [])) in *. set (fop := op_function fn) in *.
  assert (step (fam_pl f) cx (St cx (b2 ++ 41 :: b3 ++ rest) [] [par; fop] true) = do_close cx (St cx (b3 ++ rest) [] [par; fop] true)) as St3.
  { rewrite (step_head f cx I b2 41 (b3 ++ rest) [] [par; fop] true B2 (eol41 f I)) by reflexivity.
    destruct (close_facts f (b3 ++ rest) I) as (Cn & Rd & FnN & SnN). rewrite Rd. unfold do_operand. cbn [St s_radix s_scan]. rewrite Cn. cbn [bind isOK err_eqb negb]. rewrite FnN.
    unfold do_symbol. open_st. rewrite SnN. unfold do_infix. open_st. rewrite (fam_pure f I). open_st. rewrite Rd. unfold do_punct. open_st.
    change (ncall [par; fop] =? 0) with false. cbv iota. cbn [expect_char Z.eqb Pos.eqb]. rewrite (fam_open f I). cbn [expect_char Z.eqb Pos.eqb]. rewrite (fam_close f I). reflexivity. }
  assert (do_close cx (St cx (b3 ++ rest) [] [par; fop] true) = bind (f_eval fn [] 10) (fun '(e, vs) =>
    if isOK e then Val (Next (St cx (b3 ++ rest) vs [] false)) else fail (mkSt (b3 ++ rest) vs [] 0 1 true false 1 10 OK) e v_undef)) as DC.
  { unfold do_close. open_st. change (reduce_paren [par; fop] [] 10) with (Val (OK, [par; fop], @nil value, 10)). cbv beta iota zeta delta [bind isOK err_eqb negb isFunction fop op_function o_fn].
    cbn [err_code Z.eqb]. unfold op_eval. cbn [o_fn vs_size length Z.of_nat Z.sub Z.eqb par op_paren o_nargs Z.opp Z.add]. rewrite Ar. cbn [Z.ltb Z.compare Z.eqb orb].
    destruct (f_eval fn [] 10) as [[e vs]| | | |]; reflexivity. }
  rewrite DC in St3. clear DC.
  assert (skipSpaces (b0 ++ s) = s) as SK by (rewrite Es; apply (skip_head b0 h t' B0), Sf).
  assert (forall k r, (k <= S (length s))%nat -> halts f cx k (St cx ([] ++ s) [] [] true) r -> eval (fam_pl f) cx (b0 ++ s) 10 OK =
    bind r (fun '(v, e, t', rdx) => Val (v, if Nat.eqb (length t') (length s) then setErrorIfAt e NOT_AN_EXPECTED else e, t', rdx))) as F.
  { intros k r Kl H. unfold eval, eval_fuel. rewrite SK. change (start cx s 10 OK) with (St cx ([] ++ s) [] [] true).
    replace (S (length (b0 ++ s))) with (k + (S (length (b0 ++ s)) - k))%nat by (rewrite app_length; lia). rewrite H. reflexivity. }
  destruct (f_eval fn [] 10) as [[e vs]| | | |] eqn:FE; cbn [bind] in St3.
  2-5: match type of St3 with _ = ?x => assert (step (fam_pl f) cx (St cx (b2 ++ 41 :: b3 ++ rest) [] [par; fop] true) = relabel x) as St4 by exact St3;
         apply (halts_none f cx _ x Logic.I) in St4 end; rewrite (F (1 + 1 + 1)%nat _ ltac:(lia) (runs_halts f cx _ _ _ _ _ R1 St4)); reflexivity.
  destruct (isOK e) eqn:EK.
  - apply isOK_eq in EK. subst e. destruct vs as [|v [|v' vs]]; try exact Logic.I.
    apply (runs_next f cx) in St3. pose proof (runs_trans f cx _ _ _ _ _ R1 St3) as R3.
    destruct (ends_step f cx I Q b3 rest [v] [] B3 E ltac:(discriminate) eq_refl eq_refl) as (b' & B' & LB & St4).
    exists b'. split; [exact B'|].
    rewrite (F (1 + 1 + 1 + 1)%nat (Val (v, OK, b' ++ rest, 10))).
    + cbn [bind]. replace (Nat.eqb (length (b' ++ rest)) (length s)) with false; [reflexivity|]. symmetry. apply Nat.eqb_neq. rewrite !app_length in *. lia.
    + lia.
    + apply (runs_halts f cx _ _ _ _ _ R3). intros n. cbn [rounds Nat.add]. rewrite St4. reflexivity.
  - assert (exists u, eval (fam_pl f) cx (b0 ++ s) 10 OK = Val (v_undef, e, u, 10)) as G; [|destruct e; (exact G || discriminate EK)].
    apply (halts_return f cx) in St3. cbn [s_err s_scan s_radix] in St3.
    rewrite (F (1 + 1 + 1)%nat _ ltac:(lia) (runs_halts f cx _ _ _ _ _ R1 St3)). cbn [bind].
    assert (setErrorIfAt OK e = e) as OE by (unfold setErrorIfAt; rewrite EK; reflexivity). rewrite OE, (set_err e _ EK). eexists. destruct (Nat.eqb _ _); reflexivity.
Qed.
Lemma C12_nullary f f' depth s loc sym delim name body b0 b1 b2 b3 rest eb bb tb rest' :
  In f tree_families -> In f' tree_families -> later empty_store s ->
  defined name [] body (fam_pl f') s ->
  is_name name -> ~ reserved f name -> p_function (fam_pl f) name = None ->
  let cx := caller (S depth) s loc sym delim in
  quiet cx -> blanks b0 -> blanks b1 -> blanks b2 -> blanks b3 -> ends cx rest -> known_syntax s ->
  let cx' := caller depth s loc sym delim in
  body = bb ++ tb -> blanks bb -> derives f' cx' eb tb rest' -> well_nested eb -> ends cx' rest' -> value_slots eb <= 8 -> operator_slots eb <= 8 ->
  match value_of eb with
  | Val (OK, v) => exists b, blanks b /\ eval (fam_pl f) cx (b0 ++ name ++ b1 ++ 40 :: b2 ++ 41 :: b3 ++ rest) 10 OK = Val (v, OK, b ++ rest, 10)
  | Val (x, _) => exists u, eval (fam_pl f) cx (b0 ++ name ++ b1 ++ 40 :: b2 ++ 41 :: b3 ++ rest) 10 OK = Val (v_undef, x, u, 10)
  | UB => eval (fam_pl f) cx (b0 ++ name ++ b1 ++ 40 :: b2 ++ 41 :: b3 ++ rest) 10 OK = UB
  | OOB => eval (fam_pl f) cx (b0 ++ name ++ b1 ++ 40 :: b2 ++ 41 :: b3 ++ rest) 10 OK = OOB
  | FLOAT => eval (fam_pl f) cx (b0 ++ name ++ b1 ++ 40 :: b2 ++ 41 :: b3 ++ rest) 10 OK = FLOAT
  | FUEL => eval (fam_pl f) cx (b0 ++ name ++ b1 ++ 40 :: b2 ++ 41 :: b3 ++ rest) 10 OK = FUEL
  end.
Proof.
  intros I I' R D N NR PF cx Q B0 B1 B2 B3 E K cx' BE Bb Db Wb Eb Vb Ob.
  pose proof (defined_find _ _ _ _ _ D) as F. pose proof (known_fns s R K) as KF.
  set (fn := mkF 0 (fun stack rdx => bind (eval (fam_pl f') (mkC loc (binding [] stack sym) (user_function depth (st_functions s) loc (binding [] stack sym) delim) delim) body rdx OK)
    (fun '(v, e, _, _) => bind (vs_push stack v) (fun s => Val (e, s))))).
  assert (lookupFunction (fam_pl f) cx name = Some fn) as L.
  { unfold lookupFunction. rewrite PF. unfold cx, caller. cbn [c_function user_function]. rewrite F. reflexivity. }
  pose proof (nullary_eval f cx name fn b0 b1 b2 b3 rest I Q B0 B1 B2 B3 E N NR L eq_refl) as X.
  assert (f_eval fn [] 10 = bind (eval (fam_pl f') cx' body 10 OK) (fun '(v, e, _, _) => Val (e, [v]))) as FE.
  { cbn [fn f_eval]. fold (caller depth s loc (binding [] [] sym) delim).
    rewrite (eval_agree (fam_pl f') (caller depth s loc (binding [] [] sym) delim) cx' body 10 OK (KF _ _ F)); [|reflexivity|reflexivity|reflexivity|].
    - destruct (eval (fam_pl f') cx' body 10 OK) as [[[[v e] t] r]| | | |]; reflexivity.
    - intros n _. apply user_ext; [exact KF|reflexivity]. }
  rewrite FE in X. clear FE.
  pose proof (C18_cases f' cx' eb bb tb rest' I' Q Bb Db Wb Eb Vb Ob) as Y. rewrite <- BE in Y.
  destruct Y as [(v & b & EV & _ & Y)|[(x & v & u & KX & EV & Y)|[NV Y]]]; rewrite Y in X.
  - rewrite EV. exact X.
  - cbn [bind] in X. rewrite EV. destruct x; (discriminate KX || exact X).
  - destruct (value_of eb) as [?| | | |]; cbn [relabel bind] in X; [contradiction NV|exact X..].
Qed.

(* ------------------------------------------------------------ the FUNCTION line *)
From Verif Require Import M_AsmDriver.
Local Open Scope list_scope.
Local Open Scope Z_scope.
Lemma symbol_no_paren f c b : In f tree_families -> y_letter (p_symbol (fam_pl f)) c b = true -> c <> 40.
Proof. intros I H ->. revert H. fam I; destruct b; vm_compute; congruence. Qed.
Lemma take_all p s a r : takeWhile p s = (a, r) -> Forall (fun c => p c = true) a.
Proof.
  revert a r. induction s as [|c s IH]; intros a r; cbn; [intros [= <- <-]; constructor|].
  destruct (p c) eqn:E; [|intros [= <- <-]; constructor]. destruct (takeWhile p s) as [a' r']. intros [= <- <-]. constructor; [exact E|exact (IH _ _ eq_refl)].
Qed.
Lemma body_no_param f body n p : In f tree_families -> (forall pre post, body = pre ++ 44 :: post -> In 40 pre) ->
  readSymbol (p_symbol (fam_pl f)) body = Some (n, p) -> expect_char 44 (skipSpaces p) = None.
Proof.
  intros I H R. destruct (expect_char 44 (skipSpaces p)) as [q|] eqn:E; [|reflexivity]. exfalso.
  assert (skipSpaces p = 44 :: q) as SK. { destruct (skipSpaces p) as [|c t]; [discriminate E|]. cbn in E. destruct (c =? 44) eqn:EC; [|discriminate]. injection E as <-. f_equal. lia. }
  assert (exists b, p = b ++ 44 :: q /\ blanks b) as (b & Ep & Bb).
  { clear -SK. revert SK. induction p as [|c p IH]; cbn; [discriminate|]. unfold skipSpaces in *. cbn. destruct (is_space c) eqn:S.
    - intros X. destruct (IH X) as (b & -> & B). exists (c :: b). split; [reflexivity|now constructor].
    - intros X. exists []. split; [exact X|constructor]. }
  unfold readSymbol, readName in R. destruct body as [|c body]; [discriminate|]. destruct (y_letter (p_symbol (fam_pl f)) c true) eqn:L; [|discriminate].
  destruct (takeWhile _ body) as [a r] eqn:T. injection R as <- <-. pose proof (take_all _ _ _ _ T) as A. apply take_sfx in T.
  assert (In 40 (c :: a ++ b)) as K by (apply (H (c :: a ++ b) q); rewrite T, Ep; cbn; now rewrite <- app_assoc).
  destruct K as [K|K]; [exact (symbol_no_paren f c true I L K)|]. apply in_app_or in K as [K|K].
  - rewrite Forall_forall in A. exact (symbol_no_paren f 40 false I (A _ K) eq_refl).
  - unfold blanks in Bb. rewrite Forall_forall in Bb. specialize (Bb _ K). discriminate Bb.
Qed.
Lemma skip_none t : is_space (peek t) = false -> skipSpaces t = t.
Proof. destruct t as [|c t]; [reflexivity|]. cbn [peek]. intros H. unfold skipSpaces. cbn. now rewrite H. Qed.
Lemma line_params f params body t : In f tree_families -> function_line params body t ->
  forall fuel, (length t < fuel)%nat -> function_params fuel (fam_pl f) t = (params, body).
Proof.
  intros I. induction 1 as [b body B P N|b c p b' params body t B B' C P FL IH]; intros fuel L; (destruct fuel as [|fuel]; [lia|]); cbn [function_params].
  - rewrite (skip_blanks b body B), (skip_none body P). destruct (readSymbol _ body) as [[n q]|] eqn:R; [|reflexivity].
    rewrite (body_no_param f body n q I N R). reflexivity.
  - assert (is_name (c :: p)) as Na by (split; [exact C|exact P]).
    assert (token_end (b' ++ 44 :: t)) as T. { destruct b' as [|x b']; cbn [app token_end]; [right; cbn; tauto|left; exact (Forall_inv B')]. }
    rewrite (skip_blanks b _ B), (skip_none ((c :: p) ++ b' ++ 44 :: t)) by (cbn [app peek]; unfold is_alpha, is_upper, is_lower, is_space in *; lia).
    destruct (name_reads f (c :: p) (b' ++ 44 :: t) I Na T) as [RS _]. rewrite RS. rewrite (skip_blanks b' (44 :: t) B'), (skip_none (44 :: t)) by reflexivity.
    cbn [expect_char Z.eqb Pos.eqb]. rewrite IH; [reflexivity|]. revert L. repeat (rewrite app_length || cbn [app length]). lia.
Qed.
Lemma C12_line {O} (v : env O) f (s : lst O) params body : In f tree_families -> function_line params body (l_scan s) ->
  l_err s = OK -> l_label s <> [] -> hasFunction (l_label s) (l_store s) = false -> hasSymbol (l_label s) (l_store s) = false ->
  exists s', defineFunction v (fam_pl f) s = (OK, s') /\
    internFunction (l_label s) params body (fam_pl f) (l_store s) = (OK, l_store s') /\ defined (l_label s) params body (fam_pl f) (l_store s').
Proof.
  intros I FL E NL NF NS. unfold defineFunction. replace (Nat.eqb (length (l_label s)) 0) with false by (destruct (l_label s); [congruence|reflexivity]).
  rewrite (line_params f params body (l_scan s) I FL) by lia.
  change (l_label (ls_scan body s)) with (l_label s). change (l_store (ls_scan body s)) with (l_store s). rewrite NS, andb_false_r.
  destruct (internFunction (l_label s) params body (fam_pl f) (l_store s)) as [e st] eqn:IF.
  assert (e = OK) as -> by (unfold internFunction in IF; rewrite NF in IF; congruence).
  cbn [ls_scan ls_store l_err ls_label ls_err]. rewrite E. eexists. split; [reflexivity|]. split; [reflexivity|].
  exists (l_store s), st. split; [exact IF|constructor].
Qed.

(* ------------------------------------------------------------ cases *)
Definition fc_body := s2l "(A+B)/2".
Definition fc_params := [s2l "A"; s2l "B"].
Definition fc_store := snd (internFunction (s2l "AVG") fc_params fc_body pl_intel empty_store).
Definition fc_sym : text -> option value := fun n => if iequals n (s2l "A") then Some (setUnsigned 1000) else None.
Definition fc_cx := caller 1 fc_store 0 fc_sym 0.
Definition fc_args := ArgMore (Num (s2l "10") (setUnsigned 10)) (Arg1 (Bin ex_times (Num (s2l "2") (setUnsigned 2)) (Num (s2l "3") (setUnsigned 3)))).
Definition fc_vals := [setUnsigned 10; setInteger 6].
Definition fc_tree := Bin div_c (Par (Bin (ent "+" 6 LEFT add_) (Sym (s2l "A") (setUnsigned 10)) (Sym (s2l "B") (setInteger 6)))) (Num (s2l "2") (setUnsigned 2)).
Definition fc_cx' := caller 0 fc_store 0 (bound fc_params fc_vals fc_sym) 0.
Lemma fc_reserved n : In n [s2l "AVG"; s2l "A"; s2l "B"; s2l "F"] -> ~ reserved ex_fam n.
Proof.
  intros K [(d & D & E & _)|K']; cbn in K; destruct K as [<-|[<-|[<-|[<-|[]]]]].
  1-4: cbn in D; repeat (destruct D as [<-|D]; [discriminate E|]); destruct D.
  all: cbn in K'; intuition discriminate.
Qed.
Lemma fc_sep d tok rest : In d infix_intel -> is_alnum (last tok 0) = false -> length tok = 1%nat -> is_alnum (peek rest) = true -> separate infix_intel tok rest.
Proof.
  intros D A L1 P. split; [|congruence]. intros d' D' L [r E]. destruct tok as [|a [|]]; try discriminate. destruct rest as [|c rest]; [discriminate P|].
  cbn in P, A, E, L. cbn in D'. repeat (destruct D' as [<-|D']; [cbn in L, E; try lia; injection E as E1 E2; subst; try discriminate; exfalso; revert P; vm_compute; congruence|]). destruct D'.
Qed.
Lemma fc_meets :
  In ex_fam tree_families /\ later empty_store fc_store /\ known_syntax fc_store /\
  defined (s2l "AVG") fc_params fc_body (fam_pl ex_fam) fc_store /\ NoDup fc_params /\
  is_name (s2l "AVG") /\ ~ reserved ex_fam (s2l "AVG") /\ quiet fc_cx /\ ends fc_cx (s2l "; rest") /\
  derives_args ex_fam fc_cx fc_args (s2l "10, 2*3) ; rest") (41 :: [32] ++ s2l "; rest") /\ well_nested_args fc_args /\
  args_value_slots fc_args <= 8 /\ args_operator_slots fc_args <= 6 /\ values_of fc_args = Val (OK, fc_vals) /\
  derives ex_fam fc_cx' fc_tree fc_body [] /\ well_nested fc_tree /\ value_slots fc_tree <= 8 /\ operator_slots fc_tree <= 8 /\
  value_of fc_tree = Val (OK, setInteger 8).
Proof.
  assert (blanks [32]) as B1 by (constructor; [reflexivity|constructor]). assert (blanks []) as B0 by constructor.
  assert (internFunction (s2l "AVG") fc_params fc_body pl_intel empty_store = (OK, fc_store)) as IF by reflexivity.
  split; [cbn; tauto|]. split; [exact (L_function _ _ _ _ _ _ _ _ (L_same _) IF)|]. split.
  { intros name params body pl D. pose proof (defined_find _ _ _ _ _ D) as F. cbn [fc_store internFunction hasFunction m_find empty_store st_functions snd m_emplace m_set] in F.
    destruct (key_eqb name (s2l "AVG")); [|discriminate]. injection F as _ _ <-. cbn. tauto. }
  split; [exists empty_store, fc_store; split; [exact IF|constructor]|]. split; [repeat constructor; cbn; intuition discriminate|].
  split; [cbn; auto|]. split; [apply fc_reserved; cbn; tauto|]. split; [cbn; tauto|]. split; [cbn; tauto|]. split.
  { apply (A_more ex_fam fc_cx [32] _ _ _ (s2l "2*3) ; rest")); [exact B1| |].
    - apply (D_num ex_fam fc_cx (s2l "10") _ []); [now left|apply ex_num; cbn; tauto|exact B0|right; cbn; tauto].
    - apply A_one. apply (D_bin ex_fam fc_cx ex_times (s2l "*") [] _ _ _ (s2l "3) ; rest")); [cbn; tauto|now left|exact B0|apply ex_sep; cbn; tauto| |].
      + apply (D_num ex_fam fc_cx (s2l "2") _ []); [now left|apply ex_num; cbn; tauto|exact B0|right; cbn; tauto].
      + apply (D_num ex_fam fc_cx (s2l "3") _ []); [now left|apply ex_num; cbn; tauto|exact B0|right; cbn; tauto]. }
  split; [cbn; intuition (try lia; auto)|]. split; [cbn; lia|]. split; [cbn; lia|]. split; [vm_compute; reflexivity|]. split.
  { apply (D_bin ex_fam fc_cx' div_c (s2l "/") [] _ _ _ (s2l "2")); [cbn; tauto|now left|exact B0|apply (fc_sep div_c); [cbn; tauto|reflexivity|reflexivity|reflexivity]| |].
    - apply (D_par ex_fam fc_cx' [] [] _ (s2l "A+B)/2")); [exact B0|exact B0|].
      apply (D_bin ex_fam fc_cx' (ent "+" 6 LEFT add_) (s2l "+") [] _ _ _ (s2l "B)/2")); [cbn; tauto|now left|exact B0|apply (fc_sep div_c); [cbn; tauto|reflexivity|reflexivity|reflexivity]| |].
      + apply (D_sym ex_fam fc_cx' (s2l "A") _ []); [cbn; auto|apply fc_reserved; cbn; tauto|reflexivity|reflexivity|reflexivity|reflexivity|exact B0|right; cbn; tauto].
      + apply (D_sym ex_fam fc_cx' (s2l "B") _ []); [cbn; auto|apply fc_reserved; cbn; tauto|reflexivity|reflexivity|reflexivity|reflexivity|exact B0|right; cbn; tauto].
    - apply (D_num ex_fam fc_cx' (s2l "2") _ []); [now left|apply ex_num; cbn; tauto|exact B0|exact Logic.I]. }
  split; [cbn; intuition (try lia; auto)|]. split; [cbn; lia|]. split; [cbn; lia|]. vm_compute. reflexivity.
Qed.

(* a function that calls itself *)
Definition rc_store := snd (internFunction (s2l "F") [s2l "X"] (s2l "F(10)") pl_intel empty_store).
Lemma rc_fn depth : forall sym, exists fn, c_function (caller depth rc_store 0 sym 0) (s2l "F") = Some fn /\ f_nargs fn = 1 /\ computes fn (fun _ => FUEL).
Proof.
  assert (internFunction (s2l "F") [s2l "X"] (s2l "F(10)") pl_intel empty_store = (OK, rc_store)) as IF by reflexivity.
  assert (later empty_store rc_store) as R by exact (L_function _ _ _ _ _ _ _ _ (L_same _) IF).
  assert (defined (s2l "F") [s2l "X"] (s2l "F(10)") pl_intel rc_store) as D by (exists empty_store, rc_store; split; [exact IF|constructor]).
  assert (known_syntax rc_store) as K.
  { intros name params body pl D'. pose proof (defined_find _ _ _ _ _ D') as F. cbn [rc_store internFunction hasFunction m_find empty_store st_functions snd m_emplace m_set] in F.
    destruct (key_eqb name (s2l "F")); [|discriminate]. injection F as _ _ <-. cbn. tauto. }
  induction depth as [|depth IH]; intros sym.
  - eexists. split; [reflexivity|]. split; [reflexivity|]. intros vals stack _ _ _. reflexivity.
  - destruct (C12_computes depth rc_store 0 sym 0 _ _ _ _ R K D ltac:(repeat constructor; cbn; tauto)) as (fn & F & N & C).
    exists fn. split; [exact F|]. split; [exact N|]. intros vals stack NE L LL. specialize (C vals stack NE L LL). cbv beta in C.
    replace (eval pl_intel (caller depth rc_store 0 (bound [s2l "X"] vals sym) 0) (s2l "F(10)") 10 OK) with (@FUEL outcome) in C; [exact C|]. symmetry.
    destruct (IH (bound [s2l "X"] vals sym)) as (fn' & F' & N' & C'). set (cx := caller depth rc_store 0 (bound [s2l "X"] vals sym) 0) in *.
    assert (derives ex_fam cx (Call (s2l "F") (f_nargs fn') (fun _ => FUEL) (Arg1 (Num (s2l "10") (setUnsigned 10)))) (s2l "F(10)") []) as T.
    { apply (D_call ex_fam cx (s2l "F") fn' (fun _ => FUEL) [] [] [] _ (s2l "10)") []).
      - cbn; auto.
      - apply fc_reserved; cbn; tauto.
      - exact F'.
      - lia.
      - exact C'.
      - constructor.
      - constructor.
      - constructor.
      - apply A_one. apply (D_num ex_fam cx (s2l "10") _ []); [now left|apply ex_num; cbn; tauto|constructor|right; cbn; tauto]. }
    assert (In ex_fam tree_families) as If by (cbn; tauto).
    pose proof (C18_exact ex_fam cx _ [] (s2l "F(10)") [] If ltac:(cbn; tauto) (Forall_nil _) T Logic.I Logic.I ltac:(cbn; lia) ltac:(cbn; lia)) as X.
    cbn [value_of values_of] in X. rewrite !andthen_ok' in X. rewrite N' in X. exact X.
Qed.
Lemma rc_eval depth : eval pl_intel (caller depth rc_store 0 (fun _ => None) 0) (s2l "F(10)") 10 OK = FUEL.
Proof.
  destruct (rc_fn depth (fun _ => None)) as (fn' & F' & N' & C'). set (cx := caller depth rc_store 0 (fun _ => None) 0) in *.
  assert (derives ex_fam cx (Call (s2l "F") (f_nargs fn') (fun _ => FUEL) (Arg1 (Num (s2l "10") (setUnsigned 10)))) (s2l "F(10)") []) as T.
  { apply (D_call ex_fam cx (s2l "F") fn' (fun _ => FUEL) [] [] [] _ (s2l "10)") []).
    - cbn; auto.
    - apply fc_reserved; cbn; tauto.
    - exact F'.
    - lia.
    - exact C'.
    - constructor.
    - constructor.
    - constructor.
    - apply A_one. apply (D_num ex_fam cx (s2l "10") _ []); [now left|apply ex_num; cbn; tauto|constructor|right; cbn; tauto]. }
  assert (In ex_fam tree_families) as If by (cbn; tauto).
  pose proof (C18_exact ex_fam cx _ [] (s2l "F(10)") [] If ltac:(cbn; tauto) (Forall_nil _) T Logic.I Logic.I ltac:(cbn; lia) ltac:(cbn; lia)) as X.
  cbn [value_of values_of] in X. rewrite !andthen_ok' in X. rewrite N' in X. exact X.
Qed.
