(** Evaluation ends, leaves a suffix, and stays inside its stacks. *)
From Coq Require Import ZArith Lia String List Bool.
From Verif Require Import M_Char M_Error M_Value M_Text M_Number M_Operators M_Parsers M_Expr S_Expr P_Suffix.
Import ListNotations.
Local Open Scope Z_scope.

Record good (pl : plugins) : Prop := {
  g_eol : forall s, sfx 0 (snd (p_eol pl s)) s;
  g_num : forall s r, reads (p_number pl s r) s;
  g_letter : forall s, lreads (l_parse (p_letter pl) s) s;
  g_prefix : forall s vs r o t vs' r', p_prefix pl s vs r = Val (Some (o, t), vs', r') -> sfx 1 t s;
  g_prefix_end : forall s vs r, p_prefix pl s vs r <> FUEL;
  g_prefix_fn : forall s vs r o t vs' r', p_prefix pl s vs r = Val (Some (o, t), vs', r') -> o_fn o = None;
  g_infix : oreads (p_infix pl);
  g_infix_fn : forall s o t, p_infix pl s = Some (o, t) -> o_fn o = None;
  g_open : forall s t, p_open pl s = Some t -> sfx 1 t s;
  g_close : forall s t, p_close pl s = Some t -> sfx 1 t s;
  g_fn : forall n f, p_function pl n = Some f -> forall s r, f_eval f s r <> FUEL
}.

Lemma eol_semi_sfx s : sfx 0 (snd (eol_semicolon s)) s. Proof. cbn. auto with sfx. Qed.
Lemma eol_star_sfx s : sfx 0 (snd (eol_star s)) s. Proof. cbn. auto with sfx. Qed.
Lemma eol_sharp_sfx s : sfx 0 (snd (eol_sharp s)) s. Proof. cbn. auto with sfx. Qed.
Lemma eol_pdp8_sfx s : sfx 0 (snd (eol_pdp8 s)) s. Proof. cbn. auto with sfx. Qed.
Lemma pure_sfx f : oreads f -> forall s vs r o t vs' r', pure_prefix f s vs r = Val (Some (o, t), vs', r') -> sfx 1 t s.
Proof. intros F s vs r o t vs' r' [= E _ _]. exact (F _ _ _ E). Qed.
Lemma pure_end f s vs r : pure_prefix f s vs r <> FUEL. Proof. discriminate. Qed.
Definition nofn (f : op_reader) : Prop := forall s o t, f s = Some (o, t) -> o_fn o = None.
Lemma pure_fn f : nofn f -> forall s vs r o t vs' r', pure_prefix f s vs r = Val (Some (o, t), vs', r') -> o_fn o = None.
Proof. intros F s vs r o t vs' r' [= E _ _]. exact (F _ _ _ E). Qed.
Ltac nf := repeat match goal with |- context [match ?x with _ => _ end] => destruct x end;
  try congruence; try (intros [= <- <-]; reflexivity).
Lemma nf_mp : nofn minus_plus. Proof. intros s o t. unfold minus_plus. nf. Qed.
Lemma nf_pc : nofn readPrefix_cstyle.
Proof. intros s o t. unfold readPrefix_cstyle. destruct (expect_char 126 s); [nf|]. destruct (expect_char 33 s); [|apply nf_mp]. destruct (_ =? _); [apply nf_mp|nf]. Qed.
Lemma nf_ic : nofn readInfix_cstyle. Proof. intros s o t. unfold readInfix_cstyle. nf. Qed.
Lemma nf_word l : (forall n o, In (n, o) l -> o_fn o = None) -> nofn (read_word l).
Proof.
  intros L s o t. unfold read_word. destruct (takeWhile is_alnum s) as [w p].
  destruct (find_word w l) eqn:F; [|congruence]. intros [= <- <-]. induction l as [|[n x] l IH]; cbn in F; [congruence|].
  destruct (iequals w n). { injection F as <-. apply (L n x). now left. } apply IH; [|assumption]. intros m y I. apply (L m y). now right.
Qed.
Ltac wordfn := apply nf_word; intros ? ? I; cbn in I; repeat (destruct I as [I|I]; [injection I as _ <-; reflexivity|]); contradiction.
Lemma nf_or f g : nofn f -> nofn g -> nofn (fun s => match f s with Some r => Some r | None => g s end).
Proof. intros F G s o t. destruct (f s) as [[o' t']|] eqn:E; [intros [= <- <-]; eauto|apply G]. Qed.
Lemma nf_ii : nofn readInfix_intel. Proof. apply nf_or; [wordfn|apply nf_ic]. Qed.
Lemma nf_pi : nofn readPrefix_intel.
Proof.
  intros s o t. unfold readPrefix_intel. destruct (expect_char 45 s); [nf|]. destruct (expect_char 43 s); [nf|].
  revert s o t. apply nf_or; [wordfn|apply nf_pc].
Qed.
Lemma nf_iz : nofn readInfix_zilog. Proof. apply nf_or; [wordfn|apply nf_ic]. Qed.
Lemma nf_pz : nofn readPrefix_zilog. Proof. apply nf_or; [wordfn|apply nf_pc]. Qed.
Lemma nf_ps : nofn readPrefix_signetics.
Proof. intros s o t. unfold readPrefix_signetics. destruct (expect_char 60 s); [nf|]. destruct (expect_char 62 s); [nf|apply nf_pc]. Qed.
Lemma nf_pt : nofn readPrefix_texas.
Proof. intros s o t. unfold readPrefix_texas. destruct (expect_char 35 s); [nf|apply nf_pc]. Qed.
Lemma nf_it : nofn readInfix_texas.
Proof.
  intros s o t. unfold readInfix_texas.
  repeat match goal with |- context [match ?x with Some _ => _ | None => _ end] => destruct x; [nf|] end. apply nf_ic.
Qed.
Lemma nf_i8 : nofn readInfix_pdp8.
Proof. intros s o t. unfold readInfix_pdp8. destruct (expect_char 33 s); [nf|apply nf_ic]. Qed.
Lemma nf_i11 : nofn readInfix_pdp11.
Proof. intros s o t. unfold readInfix_pdp11. destruct (_ && _); [congruence|]. destruct (expect_char 33 s); [nf|apply nf_ic]. Qed.
Lemma nf_im : nofn readInfix_motorola.
Proof.
  intros s o t. unfold readInfix_motorola. 
  match goal with |- context [match ?m with Some r => Some r | None => _ end] => destruct m as [[o' t']|] eqn:M; [|apply nf_ic] end.
  intros [= <- <-]. revert M. clear.
  destruct (expect_char 33 s) as [p|]; [|congruence]. 
  destruct (expect_char 46 p); [nf|]. destruct (expect_char 43 p); [nf|].
  destruct (match expect_char 88 p with Some q => (true, q) | None => (false, p) end) as [x q].
  destruct (x && _); [nf|]. destruct (expect_char 94 q); [nf|]. destruct (expect_char 60 q); [nf|]. destruct (expect_char 62 q); [nf|].
  destruct (match expect_char 76 q with Some q => (true, q) | None => (false, q) end) as [y q'].
  destruct (y && _); nf.
Qed.
Lemma fn1_end f s r : f_eval (fn1 f) s r <> FUEL.
Proof. cbn. destruct (vs_pop s) as [v s']. unfold bind, vs_push. destruct (vs_full s'); discriminate. Qed.
Lemma pdp11_prefix_sfx s vs r o t vs' r' : readPrefix_pdp11 s vs r = Val (Some (o, t), vs', r') -> sfx 1 t s /\ o_fn o = None.
Proof.
  unfold readPrefix_pdp11. destruct (_ && _); [congruence|].
  assert (Val (readPrefix_cstyle s, vs, r) = Val (Some (o, t), vs', r') -> sfx 1 t s /\ o_fn o = None) as C.
  { intros [= E _ _]. split; [apply (rp_cstyle _ _ _ E)|apply (nf_pc _ _ _ E)]. }
  destruct (expect_char 94 s) eqn:E; [|exact C]. apply expect_sfx in E.
  destruct (iexpect 68 t0) eqn:F1; [apply iexpect_sfx in F1; unfold bind, vs_push; destruct (vs_full vs); [congruence|intros [= <- <- _ _]; split; [apply (sfx_tr 1 _ t0); eauto with sfx|reflexivity]]|].
  destruct (iexpect 79 t0) eqn:F2; [apply iexpect_sfx in F2; unfold bind, vs_push; destruct (vs_full vs); [congruence|intros [= <- <- _ _]; split; [apply (sfx_tr 1 _ t0); eauto with sfx|reflexivity]]|].
  destruct (iexpect 66 t0) eqn:F3; [apply iexpect_sfx in F3; unfold bind, vs_push; destruct (vs_full vs); [congruence|intros [= <- <- _ _]; split; [apply (sfx_tr 1 _ t0); eauto with sfx|reflexivity]]|].
  destruct (iexpect 67 t0) eqn:F4; [apply iexpect_sfx in F4; intros [= <- <- _ _]; split; [apply (sfx_tr 1 _ t0); eauto with sfx|reflexivity]|].
  destruct (iexpect 70 t0) eqn:F5; [apply iexpect_sfx in F5; intros [= <- <- _ _]; split; [apply (sfx_tr 1 _ t0); eauto with sfx|reflexivity]|].
  exact C.
Qed.
Lemma pdp11_prefix_end s vs r : readPrefix_pdp11 s vs r <> FUEL.
Proof.
  unfold readPrefix_pdp11, bind, vs_push. cbv zeta. destruct (vs_full vs);
  repeat match goal with |- context [match ?x with _ => _ end] => destruct x end; discriminate.
Qed.

Ltac good_tac :=
  constructor; cbn [pl_default pl_intel pl_motorola pl_texas pl_zilog pl_i8080 pl_i8086 pl_z80 pl_z8 pl_z8000 pl_mc68000 pl_mos6502 pl_cdp1802 pl_f3850 pl_ins8060 pl_ins8070 pl_mn1610 pl_ns32000 pl_pdp8 pl_scn2650 pl_tms32010 mkP' p_eol p_number p_letter p_prefix p_infix p_open p_close p_function l_parse lp_default lp_cstyle lp_motorola lp_zilog lp_ibm lp_rca lp_fairchild lp_mostek lp_signetics lp_ns32000 lp_pdp8 lp_tms32010];
  [ intros; first [apply eol_semi_sfx|apply eol_star_sfx|apply eol_sharp_sfx|apply eol_pdp8_sfx]
  | intros; first [apply cstyle_sfx|apply intel_sfx|apply prefix_sfx|apply zilog_sfx|apply rca_sfx|apply ibm_sfx|apply national_sfx|apply fairchild_sfx|apply pdp11_sfx]
  | intros; first [apply lp_motorola_sfx|apply lp_fairchild_sfx|apply lp_pdp8_sfx
      | apply pl_sfx; [intros ? K; first [injection K as <-; auto with sfx | apply iexpect_sfx in K; eauto with sfx]
                      | first [apply rd_default|apply rd_cstyle|apply rd_zilog|apply rd_ns32000]] ]
  | apply pure_sfx; first [apply rp_cstyle|apply rp_intel|apply rp_zilog|apply rp_signetics|apply rp_texas]
  | apply pure_end
  | apply pure_fn; first [apply nf_pc|apply nf_pi|apply nf_pz|apply nf_ps|apply nf_pt]
  | first [apply ri_cstyle|apply ri_intel|apply ri_zilog|apply ri_motorola|apply ri_texas|apply ri_pdp8]
  | first [apply nf_ic|apply nf_ii|apply nf_iz|apply nf_im|apply nf_it|apply nf_i8]
  | intros; now apply expect_sfx with 40
  | intros; now apply expect_sfx with 41
  | unfold fn_none, fn_rca, fn_ins8060, fn_ins8070; intros ? ? E;
    repeat match type of E with (if ?b then _ else _) = _ => destruct b end; try discriminate E;
    injection E as <-; intros; apply fn1_end ].
Lemma good_families pl : In pl families -> good pl.
Proof. intros I. do 21 (destruct I as [<- | I]; [good_tac|]). contradiction. Qed.
Lemma good_pdp11 : good pl_pdp11.
Proof.
  constructor; cbn -[s2l].
  - intros; apply eol_semi_sfx.
  - intros; apply pdp11_sfx.
  - intros; apply lp_motorola_sfx.
  - intros. now apply pdp11_prefix_sfx in H.
  - apply pdp11_prefix_end.
  - intros. now apply pdp11_prefix_sfx in H.
  - apply ri_pdp11.
  - apply nf_i11.
  - unfold open_pdp11. intros s t. destruct (expect_char 40 s) eqn:E; [intros [= <-]; now apply expect_sfx in E|apply expect_sfx].
  - unfold close_pdp11. intros s t. destruct (expect_char 41 s) eqn:E; [intros [= <-]; now apply expect_sfx in E|apply expect_sfx].
  - unfold fn_none. discriminate.
Qed.
Lemma good_all pl : In pl all_families -> good pl.
Proof. unfold all_families. rewrite in_app_iff. intros [H | [<- | []]]; [now apply good_families|apply good_pdp11]. Qed.

(* ------------------------------------------------------------ rounds *)
Definition tot_o (o : oper) : Prop := match o_fn o with Some f => forall s r, f_eval f s r <> FUEL | None => True end.
Lemma run_op_end f s r : run_op f s r <> FUEL.
Proof.
  unfold run_op, bind, vs_push, arith.
  destruct f; cbn [pops];
  repeat match goal with |- context [match ?x with _ => _ end] =>
    lazymatch x with context [match _ with _ => _ end] => fail | _ => destruct x end end; discriminate.
Qed.
Lemma op_eval_end o n s r : tot_o o -> op_eval o n s r <> FUEL.
Proof.
  unfold op_eval, tot_o. destruct (o_fn o) as [f|].
  - intros T. destruct (_ || _); [|discriminate]. unfold bind. specialize (T s r). destruct (f_eval f s r) as [[e s']| | | |]; congruence.
  - intros _. destruct (_ <=? _); [|discriminate]. destruct (o_op o); [apply run_op_end|discriminate].
Qed.
Definition outs {A} (r : res A) (P : A -> Prop) : Prop := match r with Val a => P a | FUEL => False | _ => True end.
Lemma outs_bind {A B} (r : res A) (k : A -> res B) P Q : outs r P -> (forall a, P a -> outs (k a) Q) -> outs (bind r k) Q.
Proof. destruct r; cbn; auto. Qed.
Lemma outs_mono {A} (r : res A) (P Q : A -> Prop) : outs r P -> (forall a, P a -> Q a) -> outs r Q.
Proof. destruct r; cbn; auto. Qed.
Lemma op_eval_outs o n s r : tot_o o -> outs (op_eval o n s r) (fun _ => True).
Proof. intros T. pose proof (op_eval_end o n s r T). destruct (op_eval o n s r); cbn; auto. Qed.
Definition P4 (x : err * list oper * vstack * Z) : Prop := let '(_, os, _, _) := x in Forall tot_o os.
Lemma rh_outs opr os : forall vs r, Forall tot_o os -> outs (reduce_higher opr os vs r) P4.
Proof.
  induction os as [|o os IH]; intros vs r F; cbn [reduce_higher]; [cbn; auto|].
  destruct (isNoneAssoc o opr); [exact F|]. destruct (negb _); [exact F|].
  inversion_clear F as [|? ? T F'].
  eapply outs_bind; [now apply op_eval_outs|]. intros [[e v] r'] _. destruct (isOK e); [now apply IH|exact F'].
Qed.
Lemma rp_outs os : forall vs r, Forall tot_o os -> outs (reduce_paren os vs r) P4.
Proof.
  induction os as [|o os IH]; intros vs r F; cbn [reduce_paren]; [cbn; auto|].
  destruct (isOpenParen o); [exact F|].
  inversion_clear F as [|? ? T F'].
  eapply outs_bind; [now apply op_eval_outs|]. intros [[e v] r'] _. destruct (isOK e); [now apply IH|exact F'].
Qed.
Lemma ra_outs os : forall vs r, Forall tot_o os -> outs (reduce_all os vs r) (fun _ => True).
Proof.
  induction os as [|o os IH]; intros vs r F; cbn [reduce_all]; [cbn; auto|].
  destruct (isOpenParen o); [exact I|].
  inversion_clear F as [|? ? T F'].
  eapply outs_bind; [now apply op_eval_outs|]. intros [[e v] r'] _. destruct (isOK e); [now apply IH|exact I].
Qed.

(* what one round leaves *)
Definition left_ (t : text) (c : ctl) : Prop :=
  match c with
  | Next s => sfx 1 (s_scan s) t /\ Forall tot_o (s_os s)
  | Break s => sfx 0 (s_scan s) t /\ Forall tot_o (s_os s)
  | Return _ s => sfx 0 (s_scan s) t
  end.
Lemma push_tot o os : tot_o o -> Forall tot_o os -> Forall tot_o (os_push o os).
Proof. unfold os_push. destruct (os_full os); auto. Qed.

Section Rounds.
Variable pl : plugins.
Variable cx : context.
Hypothesis G : good pl.
Hypothesis TF : total_functions cx.

Lemma fail_left t s e v : sfx 0 (s_scan s) t -> outs (fail s e v) (left_ t). Proof. intros H. exact H. Qed.
Lemma push_left t s u v e : sfx 1 u t -> Forall tot_o (s_os s) -> outs (push_value s u v e) (left_ t).
Proof. intros U F. unfold push_value. destruct (vs_full _); [apply fail_left; cbn; eauto with sfx|]. split; assumption. Qed.
Lemma operator_left t s o : sfx 1 (s_scan s) t -> Forall tot_o (s_os s) -> o_fn o = None -> outs (do_operator s o) (left_ t).
Proof.
  intros S F N. unfold do_operator. eapply outs_bind; [now apply rh_outs|]. intros [[[e os] vs] r] H. cbn [P4] in H.
  destruct (negb _); [apply fail_left; cbn; eauto with sfx|]. destruct (os_full os); [apply fail_left; cbn; eauto with sfx|].
  split; [exact S|]. cbn. apply push_tot; [|assumption]. unfold tot_o. now rewrite N.
Qed.
Lemma close_left t s : sfx 1 (s_scan s) t -> Forall tot_o (s_os s) -> outs (do_close cx s) (left_ t).
Proof.
  intros S F. unfold do_close. eapply outs_bind; [now apply rp_outs|]. intros [[[e os] vs] r] H. cbn [P4] in H.
  destruct (negb _); [apply fail_left; cbn; eauto with sfx|].
  destruct os as [|o os]; [split; cbn; [eauto with sfx|constructor]|]. inversion_clear H as [|? ? T H'].
  destruct os as [|o' os]; [split; cbn; [exact S|constructor]|].
  destruct (isFunction o'); [|split; cbn; [exact S|exact H']].
  inversion_clear H' as [|? ? T' H''].
  eapply outs_bind; [now apply op_eval_outs|]. intros [[e' vs'] r'] _. destruct (isOK e'); [split; cbn; [exact S|exact H'']|].
  apply fail_left; cbn; eauto with sfx.
Qed.
Lemma punct_left t expr s : sfx 0 expr t -> sfx 0 (s_scan s) t -> Forall tot_o (s_os s) -> outs (do_punct pl cx expr s) (left_ t).
Proof.
  intros X S F. unfold do_punct.
  destruct (if s_infn s =? 0 then None else expect_char 44 (s_scan s)) as [p|] eqn:E.
  - destruct (s_infn s =? 0); [congruence|]. apply expect_sfx in E.
    assert (sfx 1 p t) as P by (apply (sfx_tr1 1 p (s_scan s)); assumption).
    eapply outs_bind; [now apply rp_outs|]. intros [[[e os] vs] r] H. cbn [P4] in H.
    destruct (negb _); [apply fail_left; cbn; eauto with sfx|]. destruct os; [exact I|]. split; assumption.
  - destruct (p_open pl (s_scan s)) as [p|] eqn:O.
    + apply (g_open _ G) in O. assert (sfx 1 p t) as P by (apply (sfx_tr1 1 p (s_scan s)); assumption).
      destruct (_ && _); [split; assumption|]. destruct (os_full _); [apply fail_left; cbn; eauto with sfx|].
      split; [exact P|]. cbn. apply push_tot; [exact I|assumption].
    + destruct (p_close pl (s_scan s)) as [p|] eqn:C; [|split; assumption].
      apply (g_close _ G) in C. assert (sfx 1 p t) as P by (apply (sfx_tr1 1 p (s_scan s)); assumption).
      apply close_left; [exact P|assumption].
Qed.
Lemma infix_left t expr s : sfx 0 expr t -> sfx 0 (s_scan s) t -> Forall tot_o (s_os s) -> outs (do_infix pl cx expr s) (left_ t).
Proof.
  intros X S F. unfold do_infix. destruct (s_prefix s).
  - pose proof (g_prefix _ G (s_scan s) (s_vs s) (s_radix s)) as P. pose proof (g_prefix_end _ G (s_scan s) (s_vs s) (s_radix s)) as E.
    pose proof (g_prefix_fn _ G (s_scan s) (s_vs s) (s_radix s)) as N.
    destruct (p_prefix _ _ _ _) as [[[[[o t']|] vs] r]| | | |]; cbn [bind outs]; try exact I; try congruence.
    + specialize (P _ _ _ _ eq_refl). assert (sfx 1 t' t) as Q by (apply (sfx_tr1 1 _ (s_scan s)); assumption).
      destruct (hasError _); [cbn; eauto with sfx|]. apply operator_left; [exact Q|exact F|now apply (N _ _ _ _ eq_refl)].
    + destruct (hasError _); [exact S|]. apply punct_left; [exact X|exact S|exact F].
  - destruct (p_infix pl (s_scan s)) as [[o t']|] eqn:E.
    + assert (sfx 1 t' t) as Q by (apply (sfx_tr1 1 _ (s_scan s)); [exact (g_infix _ G _ _ _ E)|assumption]).
      destruct (hasError _); [cbn; eauto with sfx|]. apply operator_left; [exact Q|exact F|now apply (g_infix_fn _ G _ _ _ E)].
    + destruct (hasError _); [exact S|]. apply punct_left; assumption.
Qed.
Lemma symbol_left t expr s : sfx 0 expr t -> sfx 0 (s_scan s) t -> Forall tot_o (s_os s) -> outs (do_symbol pl cx expr s) (left_ t).
Proof.
  intros X S F. unfold do_symbol. destruct (readSymbol _ _) as [[n u]|] eqn:E; [|now apply infix_left].
  apply name_sfx1 in E. assert (sfx 1 u t) as Q by (apply (sfx_tr1 1 _ (s_scan s)); assumption).
  destruct (c_symbol cx n); [destruct (isFloat _); [exact I|]|]; now apply push_left.
Qed.
Lemma constant_left r s : outs (parseConstant pl cx r s) (fun '(e, v, t) => (isOK e = true -> sfx 1 t s) /\ sfx 0 t s).
Proof.
  unfold parseConstant. pose proof (g_letter _ G s) as L. unfold lreads in L.
  destruct (l_parse _ s) as [[e c] p]. cbn [fst snd] in L. destruct (isOK e) eqn:O; [cbn; specialize (L eq_refl); eauto with sfx|].
  destruct (negb (err_eqb e _)) eqn:N; [cbn; split; [congruence|auto with sfx]|]. clear L O N e c p.
  pose proof (g_num _ G s r) as L. unfold reads in L. destruct (p_number pl s r) as [[e v] p]. cbn [fst snd] in L.
  destruct (isFloatNumber _ _ _); [exact I|]. destruct (err_eqb e NOT_AN_EXPECTED) eqn:N; cbn [negb].
  - destruct (y_location _ p) eqn:Y; [|cbn; split; [discriminate|auto with sfx]]. apply loc_sfx in Y. cbn.
    assert (sfx 1 t s) by (apply (sfx_tr1 1 t p); assumption). eauto with sfx.
  - cbn. destruct (isOK e); eauto with sfx. split; [discriminate|assumption].
Qed.
Lemma operand_left t expr s : sfx 0 expr t -> sfx 0 (s_scan s) t -> Forall tot_o (s_os s) -> outs (do_operand pl cx expr s) (left_ t).
Proof.
  intros X S F. unfold do_operand. eapply outs_bind; [apply constant_left|]. intros [[e v] u] [H1 H0].
  assert (sfx 0 u t) as U by (apply (sfx_tr 0 _ (s_scan s)); assumption).
  destruct (isOK e). { apply push_left; [|assumption]. apply (sfx_tr1 1 _ (s_scan s)); auto. }
  destruct (negb _); [apply fail_left; exact U|].
  destruct (readFunctionName _ _) as [[n q]|] eqn:R; [|now apply symbol_left]. apply name_sfx1 in R.
  assert (sfx 1 q t) as Q by (apply (sfx_tr1 1 _ (s_scan s)); assumption).
  destruct (lookupFunction pl cx n) as [f|] eqn:L; [|now apply symbol_left].
  assert (sfx 1 (skipSpaces q) t) as K by (apply (sfx_tr 1 _ q); auto with sfx).
  destruct (p_open pl (skipSpaces q)); [|apply fail_left; cbn; eauto with sfx].
  split; [exact K|]. cbn. apply push_tot; [|assumption]. unfold tot_o. cbn. unfold lookupFunction in L.
  destruct (p_function pl n) eqn:PF; [injection L as <-; exact (g_fn _ G _ _ PF)|exact (TF _ _ L)].
Qed.
Lemma step_left s : Forall tot_o (s_os s) -> outs (step pl cx s) (left_ (s_scan s)).
Proof.
  intros F. unfold step. pose proof (g_eol _ G (skipSpaces (s_scan s))) as E.
  destruct (p_eol pl _) as [stop t]. cbn [snd] in E.
  assert (sfx 0 t (s_scan s)) as T by (apply (sfx_tr 0 _ (skipSpaces (s_scan s))); auto with sfx).
  destruct stop; [split; assumption|]. destruct (_ && _); [split; assumption|].
  destruct (s_prefix (set_scan s t)); [|apply infix_left; auto with sfx].
  cbn [set_scan s_vs s_radix].
  pose proof (g_prefix _ G t (s_vs s) (s_radix s)) as P. pose proof (g_prefix_end _ G t (s_vs s) (s_radix s)) as PE.
  pose proof (g_prefix_fn _ G t (s_vs s) (s_radix s)) as N.
  destruct (p_prefix _ _ _ _) as [[[[[o t']|] vs] r]| | | |]; cbn [bind outs]; try exact I; try congruence.
  - specialize (P _ _ _ _ eq_refl). assert (sfx 1 t' (s_scan s)) as Q by (apply (sfx_tr1 1 _ t); assumption).
    destruct (hasError _); [cbn; eauto with sfx|]. apply operator_left; [exact Q|exact F|now apply (N _ _ _ _ eq_refl)].
  - destruct (hasError _); [exact T|]. apply operand_left; [auto with sfx|exact T|exact F].
Qed.
Lemma finish_left s : Forall tot_o (s_os s) -> outs (finish s) (fun '(_, _, t, _) => t = s_scan s).
Proof.
  intros F. unfold finish. eapply outs_bind; [now apply ra_outs|]. intros [[e vs] r] _. destruct (isOK e); reflexivity.
Qed.
Lemma rounds_left fuel : forall s, (length (s_scan s) < fuel)%nat -> Forall tot_o (s_os s) ->
  outs (rounds fuel pl cx s) (fun '(_, _, t, _) => sfx 0 t (s_scan s)).
Proof.
  induction fuel as [|fuel IH]; intros s L F; [lia|]. cbn [rounds].
  eapply outs_bind; [now apply step_left|]. intros [s'|s'|v s']; cbn [left_].
  - intros [S F']. eapply outs_mono; [apply IH; [|assumption]|].
    + apply sfx_len in S. lia.
    + intros [[[v e] t] r] T. apply (sfx_tr 0 _ (s_scan s')); eauto with sfx.
  - intros [S F']. eapply outs_mono; [now apply finish_left|]. now intros [[[v e] t] r] ->.
  - intros S. exact S.
Qed.
Lemma rounds_fuel f1 : forall f2 s, (length (s_scan s) < f1)%nat -> (length (s_scan s) < f2)%nat -> Forall tot_o (s_os s) ->
  rounds f1 pl cx s = rounds f2 pl cx s.
Proof.
  induction f1 as [|f1 IH]; intros f2 s L1 L2 F; [lia|]. destruct f2 as [|f2]; [lia|]. cbn [rounds].
  pose proof (step_left s F) as S. destruct (step pl cx s) as [[s'|s'|v s']| | | |]; cbn [bind]; try reflexivity.
  cbn in S. destruct S as [S F']. apply sfx_len in S. apply IH; [lia|lia|assumption].
Qed.
End Rounds.

Lemma C21_term pl cx t rdx e fuel : In pl all_families -> total_functions cx -> (length t < fuel)%nat ->
  eval_fuel fuel pl cx t rdx e = eval pl cx t rdx e /\ eval pl cx t rdx e <> FUEL.
Proof.
  intros I T L. apply good_all in I. pose proof (sfx_len _ _ _ (skip_sfx t)) as K.
  assert (eval_fuel fuel pl cx t rdx e = eval pl cx t rdx e) as E.
  { unfold eval, eval_fuel. rewrite (rounds_fuel pl cx I T fuel (S (length t))); [reflexivity|cbn; lia|cbn; lia|constructor]. }
  split; [exact E|]. unfold eval, eval_fuel.
  pose proof (rounds_left pl cx I T (S (length t)) (start cx (skipSpaces t) rdx e)) as R. cbn [s_scan start s_os] in R.
  specialize (R ltac:(lia) ltac:(constructor)). destruct (rounds _ _ _ _) as [[[[v e'] t'] r']| | | |]; cbn in *; congruence || contradiction.
Qed.
Lemma eval_sfx pl cx t rdx e v e' t' r' : In pl all_families -> total_functions cx -> eval pl cx t rdx e = Val (v, e', t', r') ->
  sfx 0 t' (skipSpaces t) /\ (length t' = length (skipSpaces t) -> e' <> OK).
Proof.
  intros I T. apply good_all in I. pose proof (sfx_len _ _ _ (skip_sfx t)) as K. unfold eval, eval_fuel.
  pose proof (rounds_left pl cx I T (S (length t)) (start cx (skipSpaces t) rdx e)) as R. cbn [s_scan start s_os] in R.
  specialize (R ltac:(lia) ltac:(constructor)). destruct (rounds _ _ _ _) as [[[[v1 e1] t1] r1]| | | |]; cbn in *; try discriminate.
  intros [= <- E <- <-]. split; [exact R|]. intros H. apply Nat.eqb_eq in H. rewrite H in E. subst e'.
  unfold setErrorIfAt. destruct e1; discriminate.
Qed.
Lemma C21_sfx pl cx t rdx e v e' t' r' : In pl all_families -> total_functions cx -> eval pl cx t rdx e = Val (v, e', t', r') ->
  exists consumed, t = consumed ++ t'.
Proof.
  intros I T E. destruct (eval_sfx _ _ _ _ _ _ _ _ _ I T E) as [S _].
  destruct (sfx_tr 0 _ _ _ S (skip_sfx t)) as (p & -> & _). now exists p.
Qed.
Lemma skip_blanks b t : Forall (fun c => is_space c = true) b -> skipSpaces (b ++ t) = skipSpaces t.
Proof. induction 1 as [|c b C F IH]; [reflexivity|]. unfold skipSpaces in *. cbn. now rewrite C. Qed.
Lemma C21_nothing pl cx b t rdx e v e' r' : In pl all_families -> total_functions cx ->
  Forall (fun c => is_space c = true) b -> eval pl cx (b ++ t) rdx e = Val (v, e', t, r') -> e' <> OK.
Proof.
  intros I T B E. destruct (eval_sfx _ _ _ _ _ _ _ _ _ I T E) as [S N]. apply N. rewrite (skip_blanks b t B) in *.
  apply sfx_len in S. pose proof (sfx_len _ _ _ (skip_sfx t)). lia.
Qed.
