(** The two stacks of the evaluator are never overrun, for every family but the PDP-11. *)
From Coq Require Import ZArith Lia String List Bool.
From Verif Require Import M_Char M_Error M_Value M_Text M_Number M_Operators M_Parsers M_Expr S_Expr P_Suffix P_Expr.
Import ListNotations.
Local Open Scope Z_scope.

Record safe_pl (pl : plugins) : Prop := {
  s_pre : exists f, p_prefix pl = pure_prefix f /\ nofn f /\ (forall s o t, f s = Some (o, t) -> o_prec o < 254);
  s_inf : forall s o t, p_infix pl s = Some (o, t) -> o_fn o = None /\ o_prec o < 254;
  s_inf_open : forall t, p_infix pl (40 :: t) = None;
  s_eol_open : forall t, p_eol pl (40 :: t) = (false, 40 :: t);
  s_open : forall s t, p_open pl s = Some t <-> s = 40 :: t;
  s_fns : forall n f, p_function pl n = Some f -> safe_functor f
}.
Definition np (f : op_reader) : Prop := forall s o t, f s = Some (o, t) -> o_prec o < 254.
Ltac nf := repeat match goal with |- context [match ?x with _ => _ end] => destruct x end;
  try congruence; try (intros [= <- <-]; reflexivity).
Lemma np_mp : np minus_plus. Proof. intros s o t. unfold minus_plus. nf. Qed.
Lemma np_pc : np readPrefix_cstyle.
Proof. intros s o t. unfold readPrefix_cstyle. destruct (expect_char 126 s); [nf|]. destruct (expect_char 33 s); [|apply np_mp]. destruct (_ =? _); [apply np_mp|nf]. Qed.
Lemma np_ic : np readInfix_cstyle. Proof. intros s o t. unfold readInfix_cstyle. nf. Qed.
Lemma np_word l : (forall n o, In (n, o) l -> o_prec o < 254) -> np (read_word l).
Proof.
  intros L s o t. unfold read_word. destruct (takeWhile is_alnum s) as [w p].
  destruct (find_word w l) eqn:F; [|congruence]. intros [= <- <-]. induction l as [|[n x] l IH]; cbn in F; [congruence|].
  destruct (iequals w n). { injection F as <-. apply (L n x). now left. } apply IH; [|assumption]. intros m y I. apply (L m y). now right.
Qed.
Ltac wordfn := apply np_word; intros ? ? I; cbn in I; repeat (destruct I as [I|I]; [injection I as _ <-; reflexivity|]); contradiction.
Lemma np_or f g : np f -> np g -> np (fun s => match f s with Some r => Some r | None => g s end).
Proof. intros F G s o t. destruct (f s) as [[o' t']|] eqn:E; [intros [= <- <-]; eauto|apply G]. Qed.
Lemma np_ii : np readInfix_intel. Proof. apply np_or; [wordfn|apply np_ic]. Qed.
Lemma np_pi : np readPrefix_intel.
Proof.
  intros s o t. unfold readPrefix_intel. destruct (expect_char 45 s); [nf|]. destruct (expect_char 43 s); [nf|].
  revert s o t. apply np_or; [wordfn|apply np_pc].
Qed.
Lemma np_iz : np readInfix_zilog. Proof. apply np_or; [wordfn|apply np_ic]. Qed.
Lemma np_pz : np readPrefix_zilog. Proof. apply np_or; [wordfn|apply np_pc]. Qed.
Lemma np_ps : np readPrefix_signetics.
Proof. intros s o t. unfold readPrefix_signetics. destruct (expect_char 60 s); [nf|]. destruct (expect_char 62 s); [nf|apply np_pc]. Qed.
Lemma np_pt : np readPrefix_texas.
Proof. intros s o t. unfold readPrefix_texas. destruct (expect_char 35 s); [nf|apply np_pc]. Qed.
Lemma np_it : np readInfix_texas.
Proof.
  intros s o t. unfold readInfix_texas.
  repeat match goal with |- context [match ?x with Some _ => _ | None => _ end] => destruct x; [nf|] end. apply np_ic.
Qed.
Lemma np_i8 : np readInfix_pdp8.
Proof. intros s o t. unfold readInfix_pdp8. destruct (expect_char 33 s); [nf|apply np_ic]. Qed.
Lemma np_im : np readInfix_motorola.
Proof.
  intros s o t. unfold readInfix_motorola. 
  match goal with |- context [match ?m with Some r => Some r | None => _ end] => destruct m as [[o' t']|] eqn:M; [|apply np_ic] end.
  intros [= <- <-]. revert M. clear.
  destruct (expect_char 33 s) as [p|]; [|congruence]. 
  destruct (expect_char 46 p); [nf|]. destruct (expect_char 43 p); [nf|].
  destruct (match expect_char 88 p with Some q => (true, q) | None => (false, p) end) as [x q].
  destruct (x && _); [nf|]. destruct (expect_char 94 q); [nf|]. destruct (expect_char 60 q); [nf|]. destruct (expect_char 62 q); [nf|].
  destruct (match expect_char 76 q with Some q => (true, q) | None => (false, q) end) as [y q'].
  destruct (y && _); nf.
Qed.
Lemma vs_full_false s : vs_full s = false <-> (length s < 8)%nat.
Proof. unfold vs_full, vs_size, CAPACITY. rewrite Z.leb_gt. lia. Qed.
Lemma os_full_false s : os_full s = false <-> (length s < 8)%nat.
Proof. unfold os_full, CAPACITY. rewrite Z.leb_gt. lia. Qed.
Lemma fn1_safe f : safe_functor (fn1 f).
Proof.
  intros s r L. cbn. unfold vs_pop, bind, vs_push. destruct s as [|v s]; cbn [length] in L.
  - cbn. lia.
  - destruct (vs_full s) eqn:F; [|cbn; lia]. apply not_false_iff_true in F. apply F. apply vs_full_false. lia.
Qed.
Lemma open_iff s t : open_default s = Some t <-> s = 40 :: t.
Proof.
  unfold open_default. destruct s as [|c s]; cbn; [split; discriminate|]. destruct (Z.eqb_spec c 40) as [->|N].
  - split; [now intros [= ->]|now intros [= ->]].
  - split; [discriminate|congruence].
Qed.
Ltac safe_tac :=
  constructor; cbn [pl_default pl_intel pl_motorola pl_texas pl_zilog pl_i8080 pl_i8086 pl_z80 pl_z8 pl_z8000 pl_mc68000 pl_mos6502 pl_cdp1802 pl_f3850 pl_ins8060 pl_ins8070 pl_mn1610 pl_ns32000 pl_pdp8 pl_scn2650 pl_tms32010 mkP' p_eol p_number p_letter p_prefix p_infix p_open p_close p_function];
  [ eexists; split; [reflexivity|split; [first [apply nf_pc|apply nf_pi|apply nf_pz|apply nf_ps|apply nf_pt]|
                                first [apply np_pc|apply np_pi|apply np_pz|apply np_ps|apply np_pt]]]
  | intros s o t H; split; revert H; revert s o t; [first [apply nf_ic|apply nf_ii|apply nf_iz|apply nf_im|apply nf_it|apply nf_i8]|
         first [apply np_ic|apply np_ii|apply np_iz|apply np_im|apply np_it|apply np_i8]]
  | reflexivity
  | reflexivity
  | apply open_iff
  | unfold fn_none, fn_rca, fn_ins8060, fn_ins8070; intros ? ? E;
    repeat match type of E with (if ?b then _ else _) = _ => destruct b end; try discriminate E;
    injection E as <-; intros; apply fn1_safe ].
Lemma safe_families pl : In pl families -> safe_pl pl.
Proof. intros I. do 21 (destruct I as [<- | I]; [safe_tac|]). contradiction. Qed.

(* ------------------------------------------------------------ the invariant *)
(* every function on the stack lies just below an open parenthesis *)
Fixpoint paired (prev : bool) (os : list oper) : Prop :=
  match os with
  | [] => True
  | o :: os' => (isFunction o = true -> prev = true /\ isOpenParen o = false) /\ paired (isOpenParen o) os'
  end.
Fixpoint nfun (os : list oper) : Z :=
  match os with [] => 0 | o :: os' => (if isFunction o then 1 else 0) + nfun os' end.
Lemma nfun_nonneg os : 0 <= nfun os <= Z.of_nat (length os).
Proof. induction os as [|o os IH]; cbn [nfun length]; [lia|]. destruct (isFunction o); lia. Qed.
Lemma paired_weak os : paired false os -> paired true os.
Proof. destruct os; cbn; [auto|]. intros [H K]. split; [|exact K]. intros F. destruct (H F). discriminate. Qed.
Definition fsafe (o : oper) : Prop := match o_fn o with Some f => safe_functor f | None => True end.

Definition outs {A} (r : res A) (P : A -> Prop) : Prop := match r with Val a => P a | OOB => False | _ => True end.
Lemma outs_bind {A B} (r : res A) (k : A -> res B) P Q : outs r P -> (forall a, P a -> outs (k a) Q) -> outs (bind r k) Q.
Proof. destruct r; cbn; auto. Qed.
Lemma outs_mono {A} (r : res A) (P Q : A -> Prop) : outs r P -> (forall a, P a -> Q a) -> outs r Q.
Proof. destruct r; cbn; auto. Qed.

Lemma push_outs s v : (length s < 8)%nat -> outs (vs_push s v) (fun s' => s' = v :: s).
Proof. intros L. unfold vs_push. apply vs_full_false in L. now rewrite L. Qed.
Lemma pop_len s v s' : vs_pop s = (v, s') -> (length s <= 8)%nat -> (length s' < 8)%nat.
Proof. destruct s; cbn; intros [= <- <-]; cbn; lia. Qed.
Definition P3 (x : err * vstack * Z) : Prop := let '(_, vs, _) := x in (length vs <= 8)%nat.
Lemma run_op_safe f s r : (length s <= 8)%nat -> outs (run_op f s r) P3.
Proof.
  intros L. unfold run_op.
  assert (forall v s', (length s' < 8)%nat -> outs (bind (vs_push s' v) (fun s => Val (OK, s, r))) P3) as PU.
  { intros v s' L'. eapply outs_bind; [now apply push_outs|]. intros a ->. cbn. lia. }
  assert (forall s' : vstack, (length s' < 8)%nat -> (length s' <= 8)%nat) as LL by (intros; lia).
  destruct f; cbn [pops]; try exact I;
  destruct (vs_pop s) as [v s1] eqn:V1; pose proof (pop_len _ _ _ V1 L) as L1;
  try (destruct (eval1 _ v); cbn [arith bind]; [apply PU; exact L1|exact I]);
  destruct (vs_pop s1) as [w s2] eqn:V2; pose proof (pop_len _ _ _ V2 (LL _ L1)) as L2;
  try (destruct (eval2 _ w v) as [[e x]|]; cbn [arith bind]; [|exact I]; destruct (isOK e); [apply PU; exact L2|cbn; lia]).
  eapply outs_bind; [now apply push_outs|]. intros a ->. cbn. lia.
Qed.
Lemma op_eval_safe o n s r : fsafe o -> (length s <= 8)%nat -> outs (op_eval o n s r) P3.
Proof.
  unfold op_eval, fsafe. intros F L. destruct (o_fn o) as [f|].
  - destruct (_ || _); [|cbn; lia]. specialize (F s r L). unfold bind. destruct (f_eval f s r) as [[e s']| | | |]; cbn; auto.
  - destruct (_ <=? _); [|cbn; lia]. destruct (o_op o); [now apply run_op_safe|exact I].
Qed.

Definition P4 (n : nat) (k : Z) (b : bool) (x : err * list oper * vstack * Z) : Prop :=
  let '(e, os, vs, _) := x in (length os <= n)%nat /\ (length vs <= 8)%nat /\ Forall fsafe os /\
    (isOK e = true -> paired b os /\ nfun os = k).
Lemma paren_not_higher o opr : isOpenParen o = true -> o_prec opr < 254 -> isHigher o opr = false.
Proof. unfold isOpenParen, isHigher. rewrite Z.eqb_eq. intros -> L. rewrite orb_false_iff, andb_false_iff, Z.ltb_ge, Z.eqb_neq. lia. Qed.
Lemma rh_safe opr os : o_prec opr < 254 -> forall vs r, Forall fsafe os -> paired false os -> (length vs <= 8)%nat ->
  outs (reduce_higher opr os vs r) (P4 (length os) (nfun os) false).
Proof.
  intros NP. induction os as [|o os IH]; intros vs r F PR L; cbn [reduce_higher]. { cbn. auto. }
  destruct (isNoneAssoc o opr). { cbn. repeat split; auto; discriminate. }
  destruct (isHigher o opr) eqn:H; cbn [negb]. 2:{ split; [lia|split; [assumption|split; [assumption|intros _; now split]]]. }
  inversion_clear F as [|? ? T F']. destruct PR as [Q PR].
  destruct (isFunction o) eqn:IF; [now destruct (Q eq_refl)|].
  destruct (isOpenParen o) eqn:OP. { rewrite (paren_not_higher _ _ OP NP) in H. discriminate. }
  eapply outs_bind; [now apply op_eval_safe|]. intros [[e v] r'] L'. cbn [P3] in L'. destruct (isOK e) eqn:O.
  - eapply outs_mono; [now apply IH|]. intros [[[e' os'] vs'] r'']. cbn [P4 length nfun]. rewrite IF. intuition lia.
  - cbn. rewrite O. intuition (auto; discriminate).
Qed.
Definition starts_paren (os : list oper) : Prop := match os with [] => True | o :: _ => isOpenParen o = true end.
Lemma rp_safe os : forall vs r, Forall fsafe os -> paired false os -> (length vs <= 8)%nat ->
  outs (reduce_paren os vs r) (fun x => P4 (length os) (nfun os) false x /\ let '(e, os', _, _) := x in isOK e = true -> starts_paren os').
Proof.
  induction os as [|o os IH]; intros vs r F PR L; cbn [reduce_paren]. { cbn. repeat split; auto. }
  destruct (isOpenParen o) eqn:OP. { split; [split; [lia|split; [assumption|split; [assumption|intros _; now split]]]|intros _; exact OP]. }
  inversion_clear F as [|? ? T F']. destruct PR as [Q PR]. rewrite OP in PR.
  destruct (isFunction o) eqn:IF; [now destruct (Q eq_refl)|].
  eapply outs_bind; [now apply op_eval_safe|]. intros [[e v] r'] L'. cbn [P3] in L'. destruct (isOK e) eqn:O.
  - eapply outs_mono; [now apply IH|]. intros [[[e' os'] vs'] r'']. cbn [P4 length nfun]. rewrite IF. intuition lia.
  - cbn. rewrite O. intuition (auto; discriminate).
Qed.
Lemma ra_safe os : forall vs r, Forall fsafe os -> (length vs <= 8)%nat -> outs (reduce_all os vs r) (fun _ => True).
Proof.
  induction os as [|o os IH]; intros vs r F L; cbn [reduce_all]; [cbn; auto|].
  destruct (isOpenParen o); [exact I|].
  inversion_clear F as [|? ? T F'].
  eapply outs_bind; [now apply op_eval_safe|]. intros [[e v] r'] L'. cbn [P3] in L'. destruct (isOK e); [now apply IH|exact I].
Qed.

(* after a function name the text starts with its parenthesis and no operand is expected *)
Definition at_call (s : state) : Prop :=
  s_fnargs s = true /\ s_prefix s = false /\ (exists t, s_scan s = 40 :: t) /\
  match s_os s with
  | o :: os => if os_full (o :: os) then 0 <= s_infn s <= 9 /\ Forall fsafe (o :: os) /\ (length os <= 7)%nat
               else (isFunction o = true /\ isOpenParen o = false) /\ paired false os /\ s_infn s = 1 + nfun os /\ Forall fsafe (o :: os)
  | [] => False
  end.
Definition plain (s : state) : Prop :=
  s_fnargs s = false /\ paired false (s_os s) /\ s_infn s = nfun (s_os s) /\ Forall fsafe (s_os s).
Definition inv (s : state) : Prop :=
  (length (s_vs s) <= 8)%nat /\ (length (s_os s) <= 8)%nat /\ (plain s \/ at_call s).
Definition after (c : ctl) : Prop :=
  match c with
  | Next s => inv s
  | Break s => (length (s_vs s) <= 8)%nat /\ Forall fsafe (s_os s)
  | Return _ _ => True
  end.

Section Safe.
Variable pl : plugins.
Variable cx : context.
Hypothesis G : safe_pl pl.
Hypothesis SF : safe_functions cx.

Lemma push_after s t v e : (length (s_os s) <= 8)%nat -> plain s -> outs (push_value s t v e) after.
Proof.
  intros L (A & B & C & D). unfold push_value. destruct (vs_full _) eqn:F; [exact I|]. apply vs_full_false in F.
  cbn. split; [cbn; lia|]. split; [assumption|]. left. unfold plain. cbn. auto.
Qed.
Lemma operator_after s o : (length (s_vs s) <= 8)%nat -> (length (s_os s) <= 8)%nat -> plain s -> o_fn o = None -> o_prec o < 254 ->
  outs (do_operator s o) after.
Proof.
  intros LV LO (A & B & C & D) N P. unfold do_operator. eapply outs_bind; [now apply rh_safe|].
  intros [[[e os] vs] r] (H1 & H2 & H3 & H4). destruct (isOK e) eqn:O; cbn [negb]; [|exact I]. destruct (H4 eq_refl) as [H5 H6].
  destruct (os_full os) eqn:OF; [exact I|]. cbn [after outs]. pose proof OF as OF'. apply os_full_false in OF'.
  unfold inv, plain. cbn. unfold os_push. rewrite OF. cbn [length paired nfun].
  assert (isFunction o = false) as IF by (unfold isFunction; now rewrite N).
  assert (isOpenParen o = false) as IP by (unfold isOpenParen; rewrite Z.eqb_neq; lia).
  rewrite IF, IP. repeat split; auto; try lia. left. repeat split; auto; try lia. constructor; [unfold fsafe; now rewrite N|assumption].
Qed.
Lemma close_after s : (length (s_vs s) <= 8)%nat -> (length (s_os s) <= 8)%nat -> plain s -> outs (do_close cx s) after.
Proof.
  intros LV LO (A & B & C & D). unfold do_close. eapply outs_bind; [now apply rp_safe|].
  intros [[[e os] vs] r] ((H1 & H2 & H3 & H4) & H7). destruct (isOK e) eqn:O; cbn [negb]; [|exact I].
  destruct (H4 eq_refl) as [H5 H6]. specialize (H7 eq_refl). destruct os as [|o os]; [cbn; auto|]. cbn [starts_paren] in H7.
  inversion_clear H3 as [|? ? T H3']. destruct H5 as [Q PR]. rewrite H7 in PR.
  assert (isFunction o = false) as IF by (destruct (isFunction o); [now destruct (Q eq_refl)|reflexivity]).
  cbn [nfun length] in *. rewrite IF in H6.
  destruct os as [|o' os]. { cbn. unfold inv, plain. cbn. repeat split; auto; try lia. left. repeat split; auto. cbn in H6. lia. }
  cbn [paired nfun length] in *. destruct PR as [Q' PR]. inversion_clear H3' as [|? ? T' H3''].
  destruct (isFunction o') eqn:IF'.
  - eapply outs_bind; [now apply op_eval_safe|]. intros [[e' vs'] r'] L'. cbn [P3] in L'. destruct (isOK e') eqn:O'; [|exact I].
    cbn. unfold inv, plain. cbn. pose proof (nfun_nonneg os). 
    assert (isOpenParen o' = false) as IP'.
    { now destruct (Q' eq_refl). }
    rewrite IP' in PR. repeat split; auto; try lia. left. repeat split; auto. rewrite C, <- H6. rewrite Z.mod_small; lia.
  - cbn. unfold inv, plain. cbn. rewrite IF'. repeat split; auto; try lia. left. repeat split; auto; try congruence; lia.
Qed.
Lemma punct_after expr s : (length (s_vs s) <= 8)%nat -> (length (s_os s) <= 8)%nat -> plain s -> outs (do_punct pl cx expr s) after.
Proof.
  intros LV LO PL. pose proof PL as (A & B & C & D). unfold do_punct.
  destruct (if s_infn s =? 0 then None else expect_char 44 (s_scan s)) as [p|] eqn:E.
  - destruct (Z.eqb_spec (s_infn s) 0) as [|NZ]; [congruence|].
    eapply outs_bind; [now apply rp_safe|]. cbn [set_scan s_os].
    intros [[[e os] vs] r] ((H1 & H2 & H3 & H4) & H7). destruct (isOK e) eqn:O; cbn [negb]; [|exact I].
    destruct (H4 eq_refl) as [H5 H6]. destruct os as [|o os]; [cbn [nfun] in H6; lia|].
    split; [exact H2|]. split; [cbn [set_prefix set_stacks s_os]; lia|]. left. split; [exact A|]. split; [exact H5|].
    split; [|exact H3]. cbn [set_prefix set_stacks set_scan s_os s_infn]. congruence.
  - destruct (p_open pl (s_scan s)) as [p|] eqn:OP.
    + destruct (_ && _); [cbn; auto|]. destruct (os_full _) eqn:OF; [exact I|]. pose proof OF as OF'. apply os_full_false in OF'.
      cbn. unfold inv, plain. cbn. unfold os_push. rewrite OF. cbn. repeat split; auto; try lia. left. repeat split; auto; try discriminate.
      * now apply paired_weak.
      * constructor; [exact I|assumption].
    + destruct (p_close pl (s_scan s)) as [p|]; [|cbn; auto]. apply close_after; assumption.
Qed.
Lemma infix_after expr s : (length (s_vs s) <= 8)%nat -> (length (s_os s) <= 8)%nat -> plain s -> outs (do_infix pl cx expr s) after.
Proof.
  intros LV LO PL. unfold do_infix. destruct (s_prefix s).
  - destruct (s_pre _ G) as (f & EF & NF & NP). rewrite EF. unfold pure_prefix. cbn [bind].
    destruct (f (s_scan s)) as [[o t]|] eqn:E; (destruct (hasError _); [exact I|]).
    + apply operator_after; [assumption|assumption|exact PL|exact (NF _ _ _ E)|exact (NP _ _ _ E)].
    + apply punct_after; assumption.
  - destruct (p_infix pl (s_scan s)) as [[o t]|] eqn:E; (destruct (hasError _); [exact I|]).
    + destruct (s_inf _ G _ _ _ E). apply operator_after; assumption.
    + apply punct_after; assumption.
Qed.
Lemma symbol_after expr s : (length (s_vs s) <= 8)%nat -> (length (s_os s) <= 8)%nat -> plain s -> outs (do_symbol pl cx expr s) after.
Proof.
  intros LV LO PL. unfold do_symbol. destruct (readSymbol _ _) as [[n u]|]; [|now apply infix_after].
  destruct (c_symbol cx n); [destruct (isFloat _); [exact I|]|]; now apply push_after.
Qed.
Lemma constant_out r s : outs (parseConstant pl cx r s) (fun _ => True).
Proof.
  unfold parseConstant. destruct (l_parse _ s) as [[e c] p]. destruct (isOK e); [exact I|]. destruct (negb _); [exact I|].
  destruct (p_number pl s r) as [[e' v] q]. destruct (isFloatNumber _ _ _); [exact I|]. destruct (negb _); [exact I|].
  destruct (y_location _ q); exact I.
Qed.
Lemma operand_after expr s : (length (s_vs s) <= 8)%nat -> (length (s_os s) <= 8)%nat -> plain s -> outs (do_operand pl cx expr s) after.
Proof.
  intros LV LO PL. unfold do_operand. eapply outs_bind; [apply constant_out|]. intros [[e v] u] _.
  destruct (isOK e); [now apply push_after|]. destruct (negb _); [exact I|].
  destruct (readFunctionName _ _) as [[n q]|]; [|now apply symbol_after].
  destruct (lookupFunction pl cx n) as [f|] eqn:L; [|now apply symbol_after].
  destruct (p_open pl (skipSpaces q)) as [u'|] eqn:OP; [|exact I]. apply (s_open _ G) in OP.
  assert (safe_functor f) as SFf.
  { unfold lookupFunction in L. destruct (p_function pl n) eqn:PF; [injection L as <-; exact (s_fns _ G _ _ PF)|exact (SF _ _ L)]. }
  destruct PL as (A & B & C & D). cbn. unfold inv. cbn. split; [assumption|]. unfold os_push.
  pose proof (nfun_nonneg (s_os s)) as NF. destruct (os_full (s_os s)) eqn:OF.
  - split; [assumption|]. right. unfold at_call. cbn. repeat split; auto; [now exists u'|].
    destruct (s_os s) as [|o os]; [discriminate|]. rewrite OF. cbn [length] in *. repeat split; try assumption; try lia.
    + rewrite C. rewrite Z.mod_small; lia.
    + rewrite C. rewrite Z.mod_small; lia.
  - pose proof OF as OF'. apply os_full_false in OF'. split; [cbn; lia|]. right. unfold at_call. cbn [s_fnargs s_prefix s_scan s_os s_infn].
    repeat split; auto; [now exists u'|].
    assert (Forall fsafe (op_function f :: s_os s)) as FS by (constructor; [exact SFf|assumption]).
    destruct (os_full (op_function f :: s_os s)).
    + repeat split; try assumption; try lia; rewrite C; rewrite Z.mod_small; lia.
    + split; [now split|]. split; [assumption|]. split; [|assumption]. rewrite C, Z.mod_small; lia.
Qed.
Lemma step_after s : inv s -> outs (step pl cx s) after.
Proof.
  intros (LV & LO & [PL|AC]).
  - unfold step. destruct (p_eol pl _) as [stop t]. destruct stop; [cbn; split; [assumption|apply PL]|].
    destruct (_ && _); [cbn; split; [assumption|apply PL]|].
    destruct (s_prefix (set_scan s t)); [|apply infix_after; assumption].
    destruct (s_pre _ G) as (f & EF & NF & NP). rewrite EF. unfold pure_prefix. cbn [bind].
    destruct (f t) as [[o t']|] eqn:E; (destruct (hasError _); [exact I|]).
    + apply operator_after; [assumption|assumption|exact PL|exact (NF _ _ _ E)|exact (NP _ _ _ E)].
    + apply operand_after; assumption.
  - destruct AC as (A1 & A2 & [t A3] & A4). unfold step. rewrite A3.
    change (skipSpaces (40 :: t)) with (40 :: t). rewrite (s_eol_open _ G).
    assert (Forall fsafe (s_os s)) as FS.
    { destruct (s_os s) as [|o os]; [contradiction|]. destruct (os_full _); tauto. }
    cbn [set_scan s_vs s_prefix]. destruct (_ && _); [cbn; auto|]. rewrite A2.
    unfold do_infix. cbn [s_prefix set_scan]. rewrite A2. cbn [s_scan set_scan]. rewrite (s_inf_open _ G).
    cbn [s_err]. destruct (hasError _); [exact I|]. unfold do_punct. cbn [set_scan s_scan s_infn s_prefix s_fnargs s_os s_vs].
    assert ((if s_infn s =? 0 then None else expect_char 44 (40 :: t)) = None) as -> by (destruct (_ =? _); reflexivity).
    assert (p_open pl (40 :: t) = Some t) as -> by now apply (s_open _ G). rewrite A1, A2. cbn [negb andb].
    destruct (s_os s) as [|o os] eqn:EO; [contradiction|].
    destruct (os_full (o :: os)) eqn:OF; [exact I|]. pose proof OF as OF'. apply os_full_false in OF'. cbn [length] in OF'.
    destruct A4 as (B1 & B2 & B3 & B4). cbn. unfold inv, plain. cbn [s_vs s_os s_fnargs s_infn]. unfold os_push. rewrite OF. cbn [length].
    destruct B1 as [IF IP].
    split; [assumption|]. split; [lia|]. left. split; [reflexivity|]. split; [|split].
    + cbn. split; [discriminate|]. rewrite IF, IP. split; [auto|assumption].
    + cbn. rewrite IF. lia.
    + constructor; [exact I|assumption].
Qed.
Lemma rounds_safe fuel : forall s, inv s -> rounds fuel pl cx s <> OOB.
Proof.
  induction fuel as [|fuel IH]; intros s I; cbn [rounds]; [discriminate|].
  pose proof (step_after s I) as A. destruct (step pl cx s) as [[s'|s'|v s']| | | |]; cbn [bind]; try discriminate; cbn in A.
  - now apply IH.
  - destruct A as [L F]. unfold finish. pose proof (ra_safe (s_os s') (s_vs s') (s_radix s') F L) as R.
    destruct (reduce_all _ _ _) as [[[e vs] r]| | | |]; cbn [bind]; try discriminate; try contradiction. destruct (isOK e); discriminate.
  - contradiction.
Qed.
End Safe.

Lemma inv_start cx t r e : inv (start cx t r e).
Proof. unfold inv, plain. cbn. split; [lia|]. split; [lia|]. left. repeat split; auto. Qed.
Lemma C19_safe pl cx t rdx e : In pl families -> safe_functions cx -> eval pl cx t rdx e <> OOB.
Proof.
  intros I SF. unfold eval, eval_fuel. apply safe_families in I.
  pose proof (rounds_safe pl cx I SF (S (length t)) (start cx (skipSpaces t) rdx e) (inv_start _ _ _ _)) as R.
  destruct (rounds _ _ _ _) as [[[[v e'] t'] r']| | | |]; cbn; congruence || discriminate.
Qed.
Lemma C19_states pl cx t rdx e s : In pl families -> safe_functions cx -> reached pl cx t rdx e s ->
  (length (s_vs s) <= 8 /\ length (s_os s) <= 8)%nat.
Proof.
  intros I S R. apply safe_families in I. enough (inv s) as (A & B & _) by auto.
  induction R as [|s s' R IH E]; [apply inv_start|]. pose proof (step_after pl cx I S s IH) as A. rewrite E in A. exact A.
Qed.
