(** Calls of user-defined functions. *)
From Coq Require Import ZArith Lia String List Bool.
From Verif Require Import M_Char M_Error M_Value M_Text M_Number M_Operators M_Parsers M_Expr M_Symbols S_Expr S_ExprTree S_Function
  P_Suffix P_Expr P_Agree P_ExprTree P_ExprCase P_Symbols.
Import ListNotations.
Open Scope string_scope.
Open Scope list_scope.
Local Open Scope Z_scope.

(* ------------------------------------------------------------ definitions *)
Lemma key_eqb_neq a b : a <> b -> key_eqb a b = false.
Proof. intros N. destruct (key_eqb_spec a b); [contradiction|reflexivity]. Qed.
Lemma later_trans a b c : later a b -> later b c -> later a c.
Proof.
  intros A B. revert A. induction B as [s|s s1 v name variable e s2 L IH E|s s1 name params body pl e s2 L IH E]; intros A; [exact A| |].
  - exact (L_symbol _ _ _ _ _ _ _ (IH A) E).
  - exact (L_function _ _ _ _ _ _ _ _ (IH A) E).
Qed.
Lemma symbol_functions v name variable s e s' : internSymbol v name variable s = (e, s') -> st_functions s' = st_functions s.
Proof.
  unfold internSymbol. destruct (hasValue _ _ _); [congruence|]. destruct (overflowUint32 v); [congruence|].
  intros [= _ <-]. destruct variable; reflexivity.
Qed.
Lemma later_find s s' : later s s' -> forall name fd, m_find name (st_functions s) = Some fd -> m_find name (st_functions s') = Some fd.
Proof.
  induction 1 as [s|s s1 v n variable e s2 L IH E|s s1 n params body pl e s2 L IH E]; intros name fd F; [exact F| |].
  - rewrite (symbol_functions _ _ _ _ _ _ E). now apply IH.
  - unfold internFunction in E. destruct (hasFunction n s1); [injection E as _ <-; now apply IH|]. injection E as _ <-. cbn [st_functions].
    rewrite find_emplace. specialize (IH _ _ F). destruct (m_find n (st_functions s1)) eqn:M; [exact IH|].
    destruct (key_eqb_spec name n) as [->|_]; [congruence|exact IH].
Qed.
Lemma intern_find name params body pl s s' : internFunction name params body pl s = (OK, s') ->
  m_find name (st_functions s') = Some (mkFD body (paramsAt params) pl) /\ m_find name (st_functions s) = None /\
  (forall other, other <> name -> m_find other (st_functions s') = m_find other (st_functions s)) /\
  st_symbols s' = st_symbols s /\ st_variables s' = st_variables s.
Proof.
  unfold internFunction, hasFunction. destruct (m_find name (st_functions s)) eqn:M; [discriminate|]. intros [= <-]. cbn [st_functions st_symbols st_variables].
  rewrite find_emplace, M, key_eqb_refl. repeat split.
  intros other N. rewrite find_emplace, M, (key_eqb_neq _ _ N). reflexivity.
Qed.
Lemma defined_find name params body pl s : defined name params body pl s -> m_find name (st_functions s) = Some (mkFD body (paramsAt params) pl).
Proof. intros (s0 & s1 & E & L). apply (later_find _ _ L), (intern_find _ _ _ _ _ _ E). Qed.
Lemma reachable_defined s : later empty_store s -> forall name fd, m_find name (st_functions s) = Some fd ->
  exists params, defined name params (fd_body fd) (fd_parser fd) s /\ fd_params fd = paramsAt params.
Proof.
  intros L. remember empty_store as z eqn:Z0. induction L as [s|s s1 v n variable e s2 L IH E|s s1 n params body pl e s2 L IH E]; intros name fd F; subst s.
  - discriminate F.
  - rewrite (symbol_functions _ _ _ _ _ _ E) in F. destruct (IH eq_refl _ _ F) as (ps & (a & b & D & T) & K). exists ps. split; [|exact K].
    exists a, b. split; [exact D|]. exact (L_symbol _ _ _ _ _ _ _ T E).
  - destruct (m_find name (st_functions s1)) as [fd'|] eqn:M.
    + pose proof (later_find _ _ (L_function _ _ _ _ _ _ _ _ (L_same s1) E) _ _ M) as F'. rewrite F in F'. injection F' as <-.
      destruct (IH eq_refl _ _ M) as (ps & (a & b & D & T) & K). exists ps. split; [|exact K].
      exists a, b. split; [exact D|]. exact (L_function _ _ _ _ _ _ _ _ T E).
    + assert (e = OK /\ name = n) as [-> ->].
      { unfold internFunction in E. destruct (hasFunction n s1); [injection E as _ <-; congruence|]. injection E as <- <-. cbn [st_functions] in F.
        split; [reflexivity|]. rewrite find_emplace in F. destruct (m_find n (st_functions s1)); [congruence|]. destruct (key_eqb_spec name n); congruence. }
      destruct (intern_find _ _ _ _ _ _ E) as (F' & _). rewrite F in F'. injection F' as ->. exists params. split; [|reflexivity].
      exists s1, s2. split; [exact E|constructor].
Qed.

(* ------------------------------------------------------------ parameters *)
Lemma set_length {A} k (v : A) m : m_find k m = None -> length (m_set k v m) = S (length m).
Proof.
  induction m as [|[k' v'] m IH]; cbn; [reflexivity|]. destruct (key_eqb k k'); [discriminate|]. destruct (key_ltb k k'); cbn; [reflexivity|]. intros N. now rewrite IH.
Qed.
Lemma params_at_find params : NoDup params -> forall argc m, (forall p, In p params -> m_find p m = None) ->
  length (params_at params argc m) = (length params + length m)%nat /\
  forall n, m_find n (params_at params argc m) =
    match find (fun q => key_eqb n (fst q)) (combine params (seq 1%nat (length params))) with
    | Some (_, i) => Some (argc - Z.of_nat i)
    | None => m_find n m
    end.
Proof.
  induction 1 as [|p ps NI ND IH]; intros argc m F; [split; reflexivity|]. cbn [params_at].
  assert (m_find p m = None) as FP by (apply F; now left).
  assert (forall q, In q ps -> m_find q (m_emplace p (argc - 1) m) = None) as F'.
  { intros q Q. rewrite find_emplace, FP, key_eqb_neq by (intros ->; contradiction). apply F. now right. }
  destruct (IH (argc - 1) _ F') as [L X]. split.
  - rewrite L. unfold m_emplace. rewrite FP, (set_length _ _ _ FP). cbn. lia.
  - intros n. rewrite X. cbn [length seq combine find fst]. rewrite find_emplace, FP.
    assert (forall k (l : list key), find (fun q => key_eqb n (fst q)) (combine l (seq (S k) (length l))) =
      option_map (fun '(q, i) => (q, S i)) (find (fun q => key_eqb n (fst q)) (combine l (seq k (length l))))) as SH.
    { intros k l. revert k. induction l as [|a l IHl]; intros k; [reflexivity|]. cbn [length seq combine find fst]. destruct (key_eqb n a); [reflexivity|apply IHl]. }
    rewrite (SH 1%nat ps). destruct (find _ (combine ps (seq 1%nat (length ps)))) as [[q i]|] eqn:FD; cbn [option_map].
    + destruct (key_eqb_spec n p) as [->|_]; [|f_equal; lia]. apply find_some in FD as [FD K]. cbn in K.
      destruct (key_eqb_spec p q) as [<-|]; [|discriminate]. apply in_combine_l in FD. contradiction.
    + destruct (key_eqb n p); reflexivity.
Qed.
Lemma binding_bound params : NoDup params -> forall vals stack outer n, length vals = length params ->
  binding (paramsAt params) (rev vals ++ stack) outer n = bound params vals outer n.
Proof.
  intros ND vals stack outer n L. destruct (params_at_find params ND (Z.of_nat (length params)) [] (fun _ _ => eq_refl)) as [_ F].
  unfold binding, paramsAt. rewrite F. clear F ND.
  assert (forall k, match find (fun q => key_eqb n (fst q)) (combine params (seq (S k) (length params))) with
    | Some (_, i) => exists v, nth_error vals (i - 1 - k) = Some v /\ (k < i <= k + length params)%nat /\ bound params vals outer n = Some v
    | None => bound params vals outer n = outer n
    end) as H.
  { revert vals L. induction params as [|p ps IH]; intros [|v vs] L k; cbn in L; try discriminate; [reflexivity|].
    cbn [length seq combine find fst bound]. destruct (key_eqb_spec n p) as [->|N].
    - destruct (list_eq_dec Z.eq_dec p p) as [_|C]; [|congruence]. exists v. replace (S k - 1 - k)%nat with 0%nat by lia. split; [reflexivity|]. split; [lia|reflexivity].
    - destruct (list_eq_dec Z.eq_dec n p) as [C|_]; [congruence|]. specialize (IH vs ltac:(lia) (S k)).
      destruct (find _ _) as [[q i]|]; [|exact IH]. destruct IH as (w & A & B & C). exists w. split; [|split; [lia|exact C]].
      replace (i - 1 - k)%nat with (S (i - 1 - S k)) by lia. exact A. }
  specialize (H 0%nat). destruct (find _ _) as [[q i]|]; [|now rewrite H]. destruct H as (v & A & B & C). rewrite C.
  unfold vs_at. replace (Z.of_nat (length params) - Z.of_nat i <? 0) with false by lia.
  replace (Z.to_nat (Z.of_nat (length params) - Z.of_nat i)) with (length params - i)%nat by lia.
  rewrite nth_error_app1 by (rewrite rev_length; lia).
  replace (nth_error (rev vals) (length params - i)) with (Some v); [reflexivity|]. symmetry.
  rewrite (nth_error_nth' _ v) by (rewrite rev_length; lia). rewrite rev_nth by lia. f_equal.
  apply nth_error_nth. rewrite <- A. f_equal. lia.
Qed.
Lemma params_length params : NoDup params -> length (paramsAt params) = length params.
Proof. intros ND. destruct (params_at_find params ND (Z.of_nat (length params)) [] (fun _ _ => eq_refl)) as [L _]. unfold paramsAt. rewrite L. apply Nat.add_0_r. Qed.

(* ------------------------------------------------------------ calls *)
Lemma ofeq_trans a b c : ofeq a b -> ofeq b c -> ofeq a c.
Proof.
  destruct a, b, c; cbn; try contradiction; auto. intros [A B] [C D]. split; [congruence|]. intros s r. now rewrite B.
Qed.
(* functions see the symbols as they are, however they are written down *)
Lemma user_ext fns loc delim : (forall n fd, m_find n fns = Some fd -> In (fd_parser fd) all_families) ->
  forall d sym1 sym2, (forall n, sym1 n = sym2 n) -> forall n, ofeq (user_function d fns loc sym1 delim n) (user_function d fns loc sym2 delim n).
Proof.
  intros K. induction d as [|d IH]; intros sym1 sym2 E n; cbn [user_function]; destruct (m_find n fns) as [fd|] eqn:F; try exact Logic.I;
  (split; [reflexivity|]); intros s r; cbn [f_eval]; [reflexivity|].
  assert (forall m, binding (fd_params fd) s sym1 m = binding (fd_params fd) s sym2 m) as B by (intros m; unfold binding; now rewrite E).
  rewrite (eval_agree (fd_parser fd) _ (mkC loc (binding (fd_params fd) s sym2) (user_function d fns loc (binding (fd_params fd) s sym2) delim) delim) (fd_body fd) r OK (K _ _ F));
    [reflexivity|reflexivity|reflexivity|intros m _; apply B|]. intros m _. cbn [c_function]. now apply IH.
Qed.
Lemma vs_drop_app (l s : list value) : vs_drop (length l) (l ++ s) = s.
Proof. induction l as [|v l IH]; [reflexivity|]. cbn. exact IH. Qed.
Lemma known_fns s : later empty_store s -> known_syntax s -> forall n fd, m_find n (st_functions s) = Some fd -> In (fd_parser fd) all_families.
Proof. intros R K n fd F. destruct (reachable_defined s R _ _ F) as (ps & D & _). exact (K _ _ _ _ D). Qed.

Lemma C12_computes depth s loc sym delim name params body pl :
  later empty_store s -> known_syntax s -> defined name params body pl s -> NoDup params ->
  exists fn, c_function (caller (S depth) s loc sym delim) name = Some fn /\ f_nargs fn = Z.of_nat (length params) /\
    computes fn (fun vals => answer_of (eval pl (caller depth s loc (bound params vals sym) delim) body 10 OK)).
Proof.
  intros R K D ND. pose proof (known_fns s R K) as KF. pose proof (defined_find _ _ _ _ _ D) as F.
  cbn [caller c_function user_function]. rewrite F. eexists. split; [reflexivity|]. cbn [f_nargs fd_params]. rewrite (params_length _ ND). split; [reflexivity|].
  intros vals stack NE N L. cbn [f_nargs] in N. cbn [f_eval fd_params fd_body fd_parser].
  fold (caller depth s loc (binding (paramsAt params) (rev vals ++ stack) sym) delim).
  rewrite (eval_agree pl (caller depth s loc (binding (paramsAt params) (rev vals ++ stack) sym) delim) (caller depth s loc (bound params vals sym) delim) body 10 OK (KF _ _ F)); [|reflexivity|reflexivity| |].
  - cbn [fd_params]. rewrite Nat2Z.id. replace (length params) with (length (rev vals)) by (rewrite rev_length; lia). rewrite vs_drop_app.
    assert (forall v, vs_push stack v = Val (v :: stack)) as P.
    { intros v. unfold vs_push, vs_full, CAPACITY, vs_size. replace (8 <=? Z.of_nat (length stack)) with false; [reflexivity|]. destruct vals; [congruence|]. cbn [length] in L. lia. }
    destruct (eval _ _ _ _ _) as [[[[v e] t] r]| | | |]; cbn [answer_of bind]; try reflexivity. rewrite P. cbn [bind].
    destruct e; (reflexivity || (eexists; reflexivity)).
  - intros n _. cbn [caller c_symbol]. apply binding_bound; [exact ND|lia].
  - intros n _. cbn [caller c_function]. apply user_ext; [exact KF|]. intros m. apply binding_bound; [exact ND|lia].
Qed.
Lemma andthen_ok' {A B} (none : B) (a : A) k : andthen none (Val (OK, a)) k = k a.
Proof. reflexivity. Qed.
Lemma quiet_caller depth depth' s loc sym sym' delim : quiet (caller depth s loc sym delim) -> quiet (caller depth' s loc sym' delim).
Proof. intros Q. exact Q. Qed.
(* a call in the middle of nothing else *)
Lemma call_tree f depth s loc sym delim name params body pl a b0 b1 b2 b3 t rest :
  In f tree_families -> later empty_store s -> known_syntax s -> defined name params body pl s -> NoDup params ->
  is_name name -> ~ reserved f name -> p_function (fam_pl f) name = None ->
  blanks b0 -> blanks b1 -> blanks b2 -> blanks b3 ->
  derives_args f (caller (S depth) s loc sym delim) a t (41 :: b3 ++ rest) ->
  derives f (caller (S depth) s loc sym delim)
    (Call name (Z.of_nat (length params)) (fun vals => answer_of (eval pl (caller depth s loc (bound params vals sym) delim) body 10 OK)) a)
    (name ++ b1 ++ 40 :: b2 ++ t) rest.
Proof.
  intros I R K D ND N NR PF B0 B1 B2 B3 DA. destruct (C12_computes depth s loc sym delim name params body pl R K D ND) as (fn & F & A & C).
  rewrite <- A. apply (D_call f _ name fn _ b1 b2 b3 a t rest N NR); try assumption.
  - unfold lookupFunction. now rewrite PF.
  - lia.
Qed.
Lemma C12_call f f' depth s loc sym delim name params body a vals b0 b1 b2 b3 t rest eb bb tb rest' :
  In f tree_families -> In f' tree_families -> later empty_store s -> known_syntax s ->
  defined name params body (fam_pl f') s -> NoDup params ->
  is_name name -> ~ reserved f name -> p_function (fam_pl f) name = None ->
  let cx := caller (S depth) s loc sym delim in
  quiet cx -> blanks b0 -> blanks b1 -> blanks b2 -> blanks b3 -> ends cx rest ->
  derives_args f cx a t (41 :: b3 ++ rest) -> well_nested_args a -> args_value_slots a <= 8 -> args_operator_slots a <= 6 ->
  values_of a = Val (OK, vals) -> length vals = length params ->
  let cx' := caller depth s loc (bound params vals sym) delim in
  body = bb ++ tb -> blanks bb -> derives f' cx' eb tb rest' -> well_nested eb -> ends cx' rest' -> value_slots eb <= 8 -> operator_slots eb <= 8 ->
  match value_of eb with
  | Val (OK, v) => exists b, blanks b /\ eval (fam_pl f) cx (b0 ++ name ++ b1 ++ 40 :: b2 ++ t) 10 OK = Val (v, OK, b ++ rest, 10)
  | Val (x, _) => exists u, eval (fam_pl f) cx (b0 ++ name ++ b1 ++ 40 :: b2 ++ t) 10 OK = Val (v_undef, x, u, 10)
  | UB => eval (fam_pl f) cx (b0 ++ name ++ b1 ++ 40 :: b2 ++ t) 10 OK = UB
  | OOB => eval (fam_pl f) cx (b0 ++ name ++ b1 ++ 40 :: b2 ++ t) 10 OK = OOB
  | FLOAT => eval (fam_pl f) cx (b0 ++ name ++ b1 ++ 40 :: b2 ++ t) 10 OK = FLOAT
  | FUEL => eval (fam_pl f) cx (b0 ++ name ++ b1 ++ 40 :: b2 ++ t) 10 OK = FUEL
  end.
Proof.
  intros I I' R K D ND N NR PF cx Q B0 B1 B2 B3 E DA WA VA OA V L cx' BE Bb Db Wb Eb Vb Ob.
  pose proof (call_tree f depth s loc sym delim name params body (fam_pl f') a b0 b1 b2 b3 t rest I R K D ND N NR PF B0 B1 B2 B3 DA) as T.
  fold cx in T. pose proof (C18_exact f cx _ b0 _ rest I Q B0 T WA E VA ltac:(cbn [operator_slots]; lia)) as X.
  cbn [value_of] in X. rewrite V, andthen_ok', L, Z.eqb_refl in X. cbv beta in X. fold cx' in X.
  pose proof (C18_cases f' cx' eb bb tb rest' I' Q Bb Db Wb Eb Vb Ob) as Y. rewrite <- BE in Y.
  destruct Y as [(v & b & EV & _ & Y)|[(x & v & u & KX & EV & Y)|[NV Y]]].
  - rewrite Y in X. rewrite EV. exact X.
  - rewrite Y in X. cbn [answer_of] in X. rewrite EV. destruct x; (discriminate KX || exact X).
  - rewrite Y in X. destruct (value_of eb) as [?| | | |]; cbn [relabel answer_of] in X; [contradiction NV|exact X..].
Qed.
Lemma C12_count f depth s loc sym delim name params body pl a vals b0 b1 b2 b3 t rest :
  In f tree_families -> later empty_store s -> known_syntax s ->
  defined name params body pl s -> NoDup params ->
  is_name name -> ~ reserved f name -> p_function (fam_pl f) name = None ->
  let cx := caller (S depth) s loc sym delim in
  quiet cx -> blanks b0 -> blanks b1 -> blanks b2 -> blanks b3 -> ends cx rest ->
  derives_args f cx a t (41 :: b3 ++ rest) -> well_nested_args a -> args_value_slots a <= 8 -> args_operator_slots a <= 6 ->
  values_of a = Val (OK, vals) -> length vals <> length params ->
  exists u, eval (fam_pl f) cx (b0 ++ name ++ b1 ++ 40 :: b2 ++ t) 10 OK =
    Val (v_undef, if (length params <? length vals)%nat then TOO_MANY_FUNC_ARGUMENT else TOO_FEW_FUNC_ARGUMENT, u, 10).
Proof.
  intros I R K D ND N NR PF cx Q B0 B1 B2 B3 E DA WA VA OA V L.
  pose proof (call_tree f depth s loc sym delim name params body pl a b0 b1 b2 b3 t rest I R K D ND N NR PF B0 B1 B2 B3 DA) as T.
  fold cx in T. pose proof (C18_exact f cx _ b0 _ rest I Q B0 T WA E VA ltac:(cbn [operator_slots]; lia)) as X.
  cbn [value_of] in X. rewrite V, andthen_ok' in X. replace (Z.of_nat (length vals) =? Z.of_nat (length params)) with false in X by lia.
  replace (Z.of_nat (length params) <? Z.of_nat (length vals)) with (length params <? length vals)%nat in X by (apply eq_true_iff_eq; rewrite Nat.ltb_lt, Z.ltb_lt; lia).
  destruct (length params <? length vals)%nat; exact X.
Qed.

(* ------------------------------------------------------------ the end of evaluation *)
Section Ranks.
Variable s : store.
Variable rank : text -> nat.
Hypothesis HR : later empty_store s.
Hypothesis HK : known_syntax s.
Hypothesis HA : ranked s rank.
Lemma body_rank n fd m : m_find n (st_functions s) = Some fd -> occurs m (fd_body fd) -> m_find m (st_functions s) <> None -> (rank m < rank n)%nat.
Proof.
  intros F O M. destruct (reachable_defined s HR _ _ F) as (ps & D & _). apply (HA _ _ _ _ _ D); [|exact O].
  unfold hasFunction. destruct (m_find m (st_functions s)); [reflexivity|congruence].
Qed.
Lemma no_fn d loc sym delim n : m_find n (st_functions s) = None -> user_function d (st_functions s) loc sym delim n = None.
Proof. intros F. destruct d; cbn [user_function]; now rewrite F. Qed.
Lemma depth_same k : forall d1 d2 loc sym delim n, (k <= d1)%nat -> (k <= d2)%nat -> (rank n < k)%nat ->
  ofeq (user_function d1 (st_functions s) loc sym delim n) (user_function d2 (st_functions s) loc sym delim n).
Proof.
  induction k as [|k IH]; intros d1 d2 loc sym delim n L1 L2 RK; [lia|]. destruct d1 as [|d1]; [lia|]. destruct d2 as [|d2]; [lia|].
  cbn [user_function]. destruct (m_find n (st_functions s)) as [fd|] eqn:F; [|exact Logic.I]. split; [reflexivity|]. intros st r. cbn [f_eval].
  rewrite (eval_agree (fd_parser fd) _ (mkC loc (binding (fd_params fd) st sym) (user_function d2 (st_functions s) loc (binding (fd_params fd) st sym) delim) delim) (fd_body fd) r OK);
    [reflexivity|exact (known_fns s HR HK _ _ F)|reflexivity|reflexivity|reflexivity|].
  intros m O. cbn [c_function]. destruct (m_find m (st_functions s)) as [fm|] eqn:M; [|rewrite !no_fn by exact M; exact Logic.I].
  assert (rank m < rank n)%nat by (apply (body_rank n fd m F O); congruence). apply IH; lia.
Qed.
Lemma depth_ends k : forall d loc sym delim n g, (k <= d)%nat -> (rank n < k)%nat ->
  user_function d (st_functions s) loc sym delim n = Some g -> forall st r, f_eval g st r <> FUEL.
Proof.
  induction k as [|k IH]; intros d loc sym delim n g L RK; [lia|]. destruct d as [|d]; [lia|].
  cbn [user_function]. destruct (m_find n (st_functions s)) as [fd|] eqn:F; [|discriminate]. intros [= <-] st r. cbn [f_eval].
  pose proof (known_fns s HR HK _ _ F) as KF. set (sym' := binding (fd_params fd) st sym).
  rewrite (eval_agree (fd_parser fd) _ (mkC loc sym' (fun m => if (rank m <? k)%nat then user_function d (st_functions s) loc sym' delim m else None) delim) (fd_body fd) r OK KF);
    [|reflexivity|reflexivity|reflexivity|].
  - match goal with |- bind (eval ?p ?c ?b ?x ?e) _ <> _ => destruct (C21_term p c b x e (S (length b)) KF) as [_ T]; [|lia|] end.
    + intros m h. cbn [c_function]. destruct (rank m <? k)%nat eqn:RM; [|discriminate]. apply Nat.ltb_lt in RM. intros U. exact (IH d loc sym' delim m h ltac:(lia) RM U).
    + destruct (eval _ _ _ _ _) as [[[[v e] t] r']| | | |]; cbn [bind]; try discriminate; [|congruence].
      unfold vs_push. destruct (vs_full _); discriminate.
  - intros m O. cbn [c_function]. destruct (m_find m (st_functions s)) as [fm|] eqn:M.
    + assert (rank m < rank n)%nat by (apply (body_rank n fd m F O); congruence). replace (rank m <? k)%nat with true by (symmetry; apply Nat.ltb_lt; lia). apply ofeq_refl.
    + rewrite (no_fn d loc sym' delim m M). destruct (rank m <? k)%nat; exact Logic.I.
Qed.
Lemma C12_ends pl d loc sym delim t rdx e : In pl all_families ->
  (forall n, hasFunction n s = true -> mentioned n t -> (rank n < d)%nat) ->
  eval pl (caller d s loc sym delim) t rdx e <> FUEL /\
  forall d', (d <= d')%nat -> eval pl (caller d' s loc sym delim) t rdx e = eval pl (caller d s loc sym delim) t rdx e.
Proof.
  intros I H.
  assert (forall m, occurs m t -> m_find m (st_functions s) <> None -> (rank m < d)%nat) as H'.
  { intros m O F. apply H; [|exact O]. unfold hasFunction. destruct (m_find m (st_functions s)); [reflexivity|congruence]. }
  split.
  - rewrite (eval_agree pl _ (mkC loc sym (fun m => if (rank m <? d)%nat then user_function d (st_functions s) loc sym delim m else None) delim) t rdx e I);
      [|reflexivity|reflexivity|reflexivity|].
    + apply (C21_term pl _ t rdx e (S (length t)) I); [|lia]. intros m h. cbn [c_function]. destruct (rank m <? d)%nat eqn:RM; [|discriminate]. apply Nat.ltb_lt in RM.
      apply (depth_ends d); [lia|exact RM].
    + intros m O. cbn [c_function]. destruct (m_find m (st_functions s)) as [fm|] eqn:M.
      * cbn [caller c_function]. replace (rank m <? d)%nat with true by (symmetry; apply Nat.ltb_lt, H'; [exact O|congruence]). apply ofeq_refl.
      * cbn [caller c_function]. rewrite (no_fn d loc sym delim m M). destruct (rank m <? d)%nat; exact Logic.I.
  - intros d' L. apply eval_agree; [exact I|reflexivity|reflexivity|reflexivity|]. intros m O. cbn [caller c_function].
    destruct (m_find m (st_functions s)) as [fm|] eqn:M; [|rewrite !no_fn by exact M; exact Logic.I].
    apply (depth_same d); [lia|lia|]. apply H'; [exact O|congruence].
Qed.
End Ranks.
