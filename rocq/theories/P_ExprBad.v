(** Malformed expressions are reported: a count of operands and operators. *)
From Coq Require Import ZArith Lia ZifyBool String List Bool.
From Verif Require Import M_Char M_Error M_Value M_Text M_Number M_Operators M_Parsers M_Expr S_Expr S_ExprTree S_ExprBad P_Suffix P_Expr P_ExprRead P_ExprOperand P_ExprTree P_ExprCase.
Import ListNotations.
Open Scope string_scope.
Open Scope list_scope.
Local Open Scope Z_scope.

(* ------------------------------------------------------------ operators *)
Definition unop (o : oper) : Prop := exists g, o_op o = Some g /\ unary g = true /\ o_nargs o = 1 /\ o_fn o = None /\ 0 < o_prec o < 254.
Definition binop (o : oper) : Prop := exists g, o_op o = Some g /\ binary g = true /\ o_nargs o = 2 /\ o_fn o = None /\ 0 < o_prec o < 254.
Definition parop (o : oper) : Prop := isOpenParen o = true /\ o_fn o = None.
Definition plainop (o : oper) : Prop := parop o \/ unop o \/ binop o.

Ltac un_tac := eexists; split; [reflexivity|]; cbn; repeat split; lia.
Definition all_ops (P : oper -> Prop) (f : op_reader) : Prop := forall s o t, f s = Some (o, t) -> P o.
Ltac ao := repeat match goal with |- context [match ?x with _ => _ end] => destruct x end;
  try congruence; try (intros [= <- <-]; un_tac).
Lemma ao_word (P : oper -> Prop) l : (forall n o, In (n, o) l -> P o) -> all_ops P (read_word l).
Proof.
  intros L s o t. unfold read_word. destruct (takeWhile is_alnum s) as [w p].
  destruct (find_word w l) eqn:F; [|congruence]. intros [= <- <-]. induction l as [|[n x] l IH]; cbn in F; [congruence|].
  destruct (iequals w n). { injection F as <-. apply (L n x). now left. } apply IH; [|assumption]. intros m y I. apply (L m y). now right.
Qed.
Ltac wordao := apply ao_word; intros ? ? I; cbn in I; repeat (destruct I as [I|I]; [injection I as _ <-; un_tac|]); contradiction.
Lemma ao_or (P : oper -> Prop) f g : all_ops P f -> all_ops P g -> all_ops P (fun s => match f s with Some r => Some r | None => g s end).
Proof. intros F G s o t. destruct (f s) as [[o' t']|] eqn:E; [intros [= <- <-]; eauto|apply G]. Qed.
Lemma un_mp : all_ops unop minus_plus. Proof. intros s o t. unfold minus_plus. ao. Qed.
Lemma un_pc : all_ops unop readPrefix_cstyle.
Proof. intros s o t. unfold readPrefix_cstyle. destruct (expect_char 126 s); [ao|]. destruct (expect_char 33 s); [|apply un_mp]. destruct (_ =? _); [apply un_mp|ao]. Qed.
Lemma un_pi : all_ops unop readPrefix_intel.
Proof.
  intros s o t. unfold readPrefix_intel. destruct (expect_char 45 s); [ao|]. destruct (expect_char 43 s); [ao|].
  revert s o t. apply ao_or; [wordao|apply un_pc].
Qed.
Lemma un_pz : all_ops unop readPrefix_zilog. Proof. apply ao_or; [wordao|apply un_pc]. Qed.
Lemma un_ps : all_ops unop readPrefix_signetics.
Proof. intros s o t. unfold readPrefix_signetics. destruct (expect_char 60 s); [ao|]. destruct (expect_char 62 s); [ao|apply un_pc]. Qed.
Lemma un_pt : all_ops unop readPrefix_texas.
Proof. intros s o t. unfold readPrefix_texas. destruct (expect_char 35 s); [ao|apply un_pc]. Qed.
Lemma fam_unop f : In f tree_families -> all_ops unop (fam_reader f).
Proof. intros I. fam I; first [exact un_pc|exact un_pi|exact un_pz|exact un_ps|exact un_pt]. Qed.

Lemma bi_ic : all_ops binop readInfix_cstyle. Proof. intros s o t. unfold readInfix_cstyle. ao. Qed.
Lemma bi_it : all_ops binop readInfix_texas.
Proof.
  intros s o t. unfold readInfix_texas.
  repeat match goal with |- context [match ?x with Some _ => _ | None => _ end] => destruct x; [ao|] end. apply bi_ic.
Qed.
Lemma bi_i8 : all_ops binop readInfix_pdp8.
Proof. intros s o t. unfold readInfix_pdp8. destruct (expect_char 33 s); [ao|apply bi_ic]. Qed.
Lemma bi_im : all_ops binop readInfix_motorola.
Proof.
  intros s o t. unfold readInfix_motorola.
  match goal with |- context [match ?m with Some r => Some r | None => _ end] => destruct m as [[o' t']|] eqn:M; [|apply bi_ic] end.
  intros [= <- <-]. revert M. clear.
  destruct (expect_char 33 s) as [p|]; [|congruence].
  destruct (expect_char 46 p); [ao|]. destruct (expect_char 43 p); [ao|].
  destruct (match expect_char 88 p with Some q => (true, q) | None => (false, p) end) as [x q].
  destruct (x && _); [ao|]. destruct (expect_char 94 q); [ao|]. destruct (expect_char 60 q); [ao|]. destruct (expect_char 62 q); [ao|].
  destruct (match expect_char 76 q with Some q => (true, q) | None => (false, q) end) as [y q'].
  destruct (y && _); ao.
Qed.
Lemma first_take s : fst (takeWhile is_alnum s) = first_word s.
Proof. induction s as [|c s IH]; cbn [takeWhile first_word]; [reflexivity|]. destruct (is_alnum c); [|reflexivity]. destruct (takeWhile is_alnum s). cbn in *. now rewrite IH. Qed.
Definition shift_word (s : text) : Prop := In (map to_upper (first_word s)) [s2l "SHR"; s2l "SHL"].
Lemma bi_word l s o t : (forall n o, In (n, o) l -> map to_upper n = n) ->
  (forall n o, In (n, o) l -> ~ In n [s2l "SHR"; s2l "SHL"] -> binop o) -> ~ shift_word s -> read_word l s = Some (o, t) -> binop o.
Proof.
  intros U L S. unfold read_word. pose proof (first_take s) as F. destruct (takeWhile is_alnum s) as [w p]. cbn [fst] in F. subst w.
  destruct (find_word (first_word s) l) eqn:F; [|congruence]. intros [= <- <-]. unfold shift_word in S.
  induction l as [|[n x] l IH]; cbn [find_word] in F; [congruence|].
  destruct (iequals (first_word s) n) eqn:E.
  - injection F as <-. apply (L n x); [now left|]. apply iequals_map in E. rewrite (U n x ltac:(now left)) in E. now rewrite <- E.
  - apply IH; [intros m y I; apply (U m y); now right|intros m y I; apply (L m y); now right|exact F].
Qed.
Lemma fam_binop f : In f tree_families -> forall s o t, ~ shift_word s -> p_infix (fam_pl f) s = Some (o, t) -> binop o.
Proof.
  intros I s o t S.
  assert (forall l, In l [intel_infix_words; zilog_infix_words] -> read_word l s = Some (o, t) -> binop o) as W.
  { intros l J. apply bi_word; [| |exact S]; cbn [In] in J; destruct J as [<-|[<-|[]]]; intros n x K; cbn [In intel_infix_words zilog_infix_words] in K;
      repeat (destruct K as [K|K]; [injection K as <- <-; try reflexivity; intros Z; first [un_tac|exfalso; apply Z; cbn; tauto]|]); contradiction. }
  assert (forall l, In l [intel_infix_words; zilog_infix_words] -> match read_word l s with Some r => Some r | None => readInfix_cstyle s end = Some (o, t) -> binop o) as W'.
  { intros l J. specialize (W l J). destruct (read_word l s) as [[o' t']|]; [exact W|apply bi_ic]. }
  fam I; first [apply bi_ic|apply bi_it|apply bi_i8|apply bi_im|apply (W' intel_infix_words); cbn; tauto|apply (W' zilog_infix_words); cbn; tauto].
Qed.

(* ------------------------------------------------------------ the count *)
Definition weight (o : oper) : Z := if isOpenParen o then 0 else o_nargs o - 1.
Fixpoint weights (os : list oper) : Z := match os with [] => 0 | o :: t => weight o + weights t end.
Definition busy (os : list oper) : Prop := Exists (fun o => isOpenParen o = false) os.
Definition live (vs : vstack) (os : list oper) : Prop := vs <> [] \/ busy os.

Lemma op_count o vs r e vs' r' : unop o \/ binop o -> op_eval o 0 vs r = Val (e, vs', r') -> isOK e = true ->
  vs' <> [] /\ vs_size vs' = vs_size vs - (o_nargs o - 1) /\ r' = r.
Proof.
  unfold op_eval. cbn [Z.eqb]. intros [(g & G & U & N & F & _)|(g & G & U & N & F & _)]; rewrite F, N, G.
  - destruct (Z.leb_spec 1 (vs_size vs)) as [L|L]; [|intros [= <- <- <-]; discriminate]. destruct vs as [|v vs]; [cbn in L; lia|].
    assert (forall x vs2, vs_push vs x = Val vs2 -> vs2 = x :: vs) as P by (intros x vs2; unfold vs_push; destruct (vs_full vs); congruence).
    destruct g; try discriminate U; unfold run_op; cbn [pops vs_pop]; unfold arith;
    match goal with |- context [eval1 ?g v] => destruct (eval1 g v) as [x|]; cbn [bind]; [|discriminate] end;
    destruct (vs_push vs x) eqn:V; cbn [bind]; try discriminate; intros [= <- <- <-] _; apply P in V; subst; (split; [discriminate|]); unfold vs_size; cbn [length]; lia.
  - destruct (Z.leb_spec 2 (vs_size vs)) as [L|L]; [|intros [= <- <- <-]; discriminate]. destruct vs as [|v [|w vs]]; [cbn in L; lia|cbn in L; lia|].
    assert (forall x vs2, vs_push vs x = Val vs2 -> vs2 = x :: vs) as P by (intros x vs2; unfold vs_push; destruct (vs_full vs); congruence).
    destruct g; try discriminate U; unfold run_op; cbn [pops vs_pop]; unfold arith;
    match goal with |- context [eval2 ?g w v] => destruct (eval2 g w v) as [[e1 x]|]; cbn [bind]; [|discriminate] end;
    (destruct (isOK e1) eqn:O1; [|intros [= <- <- <-]; congruence]);
    destruct (vs_push vs x) eqn:V; cbn [bind]; try discriminate; intros [= <- <- <-] _; apply P in V; subst; (split; [discriminate|]); unfold vs_size; cbn [length]; lia.
Qed.
(* reductions keep the count and never leave a stack with no value *)
Definition counts (os : list oper) (vs : vstack) (r : Z) (x : err * list oper * vstack * Z) : Prop :=
  let '(e, os', vs', r') := x in isOK e = true -> r' = r /\
  vs_size vs' - weights os' = vs_size vs - weights os /\ Forall plainop os' /\ (live vs os -> live vs' os') /\ npar os' = npar os.
Lemma plain_cases o : plainop o -> isOpenParen o = true \/ ((unop o \/ binop o) /\ isOpenParen o = false).
Proof.
  intros [[P _]|[U|U]]; [now left|right|right]; (split; [auto|]); destruct U as (g & _ & _ & _ & _ & P); unfold isOpenParen; lia.
Qed.
Lemma rh_counts opr os : o_prec opr < 254 -> forall vs r, Forall plainop os -> match reduce_higher opr os vs r with Val x => counts os vs r x | _ => True end.
Proof.
  intros P. induction os as [|o os IH]; intros vs r F; cbn [reduce_higher]. { intros _. auto. }
  destruct (isNoneAssoc o opr); [discriminate|]. destruct (isHigher o opr) eqn:H; cbn [negb]; [|intros _; auto].
  inversion_clear F as [|? ? T F']. destruct (plain_cases o T) as [OP|[U OP]].
  { unfold isOpenParen in OP. unfold isHigher in H. lia. }
  destruct (op_eval o 0 vs r) as [[[e v] r']| | | |] eqn:E; cbn [bind]; try exact I. destruct (isOK e) eqn:O.
  - destruct (op_count _ _ _ _ _ _ U E O) as (A & B & ->). specialize (IH v r F'). destruct (reduce_higher opr os v r) as [[[[e2 os2] vs2] r2]| | | |]; try exact I.
    intros O2. destruct (IH O2) as (RR & C & D & L & N). cbn [weights npar]. unfold weight. rewrite OP. split; [exact RR|]. split; [lia|]. split; [exact D|]. split; [|lia].
    intros _. apply L. now left.
  - cbn. congruence.
Qed.
Lemma rp_counts os : forall vs r, Forall plainop os -> match reduce_paren os vs r with Val x => counts os vs r x /\ (let '(e, os', _, _) := x in
  isOK e = true -> match os' with [] => True | o :: _ => isOpenParen o = true end) | _ => True end.
Proof.
  induction os as [|o os IH]; intros vs r F; cbn [reduce_paren]. { split; [intros _; auto|auto]. }
  destruct (isOpenParen o) eqn:OP. { split; [intros _; auto|auto]. }
  inversion_clear F as [|? ? T F']. destruct (plain_cases o T) as [X|[U _]]; [congruence|].
  destruct (op_eval o 0 vs r) as [[[e v] r']| | | |] eqn:E; cbn [bind]; try exact I. destruct (isOK e) eqn:O.
  - destruct (op_count _ _ _ _ _ _ U E O) as (A & B & ->). specialize (IH v r F'). destruct (reduce_paren os v r) as [[[[e2 os2] vs2] r2]| | | |]; try exact I.
    destruct IH as [IH IH2]. split; [|exact IH2]. intros O2. destruct (IH O2) as (RR & C & D & L & N). cbn [weights npar]. unfold weight. rewrite OP. split; [exact RR|]. split; [lia|]. split; [exact D|]. split; [|lia].
    intros _. apply L. now left.
  - cbn. split; congruence.
Qed.
Lemma ra_counts os : forall vs r, Forall plainop os -> match reduce_all os vs r with
  | Val (e, vs', _) => isOK e = true -> vs_size vs' = vs_size vs - weights os /\ (live vs os -> vs' <> []) /\ npar os = 0 | _ => True end.
Proof.
  induction os as [|o os IH]; intros vs r F; cbn [reduce_all].
  { intros _. cbn. split; [lia|]. split; [|reflexivity]. intros [L|L]; [exact L|inversion L]. }
  destruct (isOpenParen o) eqn:OP; [discriminate|].
  inversion_clear F as [|? ? T F']. destruct (plain_cases o T) as [X|[U _]]; [congruence|].
  destruct (op_eval o 0 vs r) as [[[e v] r']| | | |] eqn:E; cbn [bind]; try exact I. destruct (isOK e) eqn:O.
  - destruct (op_count _ _ _ _ _ _ U E O) as (A & B & _). specialize (IH v r' F'). destruct (reduce_all os v r') as [[[e2 vs2] r2]| | | |]; try exact I.
    intros O2. destruct (IH O2) as (C & L & N). cbn [weights npar]. unfold weight. rewrite OP. split; [lia|]. split; [|lia]. intros _. apply L. now left.
  - congruence.
Qed.

(* a comma and a closing parenthesis start nothing *)
Lemma stop_facts f c r : In f tree_families -> In c [44; 41; 93] -> (forall cx, parseConstant (fam_pl f) cx 10 (c :: r) = Val (NOT_AN_EXPECTED, v_undef, c :: r)) /\
  fam_reader f (c :: r) = None /\ readFunctionName (p_symbol (fam_pl f)) (c :: r) = None /\ readSymbol (p_symbol (fam_pl f)) (c :: r) = None.
Proof.
  intros I C. cbn [In] in C. split; [|destruct C as [<-|[<-|[<-|[]]]]; fam I; (split; [reflexivity|split; reflexivity])].
  assert (exists x p, l_parse (p_letter (fam_pl f)) (c :: r) = (NOT_AN_EXPECTED, x, p)) as (x & p & L) by (destruct C as [<-|[<-|[<-|[]]]]; fam I; cbn; eauto).
  intros cx. unfold parseConstant. rewrite L. cbn [isOK err_eqb negb].
  assert (p_number (fam_pl f) (c :: r) 10 = not_expected (c :: r)) as -> by (destruct C as [<-|[<-|[<-|[]]]]; fam I; reflexivity).
  assert (isFloatNumber (c :: r) NOT_AN_EXPECTED (c_delim cx) = false) as FN by (destruct C as [<-|[<-|[<-|[]]]]; reflexivity).
  unfold not_expected. rewrite FN. cbn [err_eqb negb].
  assert (y_location (p_symbol (fam_pl f)) (c :: r) = None) as -> by (destruct C as [<-|[<-|[<-|[]]]]; fam I; reflexivity).
  reflexivity.
Qed.

(* ------------------------------------------------------------ rounds *)
Ltac open_st := cbv beta iota zeta delta [bind St set_scan set_stacks s_scan s_vs s_os s_eoe s_paren s_prefix s_fnargs s_infn s_radix s_err isOK err_eqb negb hasError andb].
Section Count.
Variables (f : family) (cx : context) (T : text).
Hypothesis I : In f tree_families.
Hypothesis NC : no_calls f cx T.
Hypothesis NS : no_word_shifts T.
Hypothesis TF : total_functions cx.
Let pl := fam_pl f.

(* [d] operands are missing so far *)
Definition inv (d : Z) (s : state) : Prop :=
  s_fnargs s = false /\ s_infn s = 0 /\ Forall plainop (s_os s) /\ 0 <= d /\
  vs_size (s_vs s) - weights (s_os s) = (if s_prefix s then 0 else 1) - d.
Definition after (d : Z) (l : Prop) (c : ctl) : Prop :=
  match c with
  | Next s | Break s => exists d', d <= d' /\ inv d' s /\ (l -> live (s_vs s) (s_os s))
  | Return _ s => s_err s <> OK
  end.
Definition outs (r : res ctl) (P : ctl -> Prop) : Prop := match r with Val c => P c | _ => True end.
Lemma err_not st e : e <> OK -> setErrorIfAt st e <> OK.
Proof. intros E. unfold setErrorIfAt. destruct (isOK st) eqn:S; cbn [andb]. - destruct e; try contradiction; discriminate. - intros ->. discriminate. Qed.
Lemma fail_after s e v d l : e <> OK -> outs (fail s e v) (after d l).
Proof. intros E. cbn. now apply err_not. Qed.
Lemma isOK_iff e : isOK e = true <-> e = OK. Proof. destruct e; split; (reflexivity || discriminate). Qed.
Lemma notOK e : negb (isOK e) = true -> e <> OK. Proof. intros H ->. discriminate. Qed.
Lemma hard st : hasError st = true -> st <> OK. Proof. intros H ->. discriminate. Qed.
Lemma push_after s t v e d : inv d s -> s_prefix s = true -> outs (push_value s t v e) (after d (live (s_vs s) (s_os s))).
Proof.
  intros (A & B & C & D & E) P. unfold push_value. destruct (vs_full _); [apply fail_after; discriminate|].
  cbn. exists d. split; [lia|]. split; [|intros _; left; discriminate]. unfold inv. cbn [s_fnargs s_infn s_os s_vs s_prefix]. rewrite P in E.
  repeat split; auto. unfold vs_size in *. cbn [length]. lia.
Qed.
Lemma operator_after s o d : inv d s -> (if s_prefix s then unop o else binop o) -> outs (do_operator s o) (after d True).
Proof.
  intros (A & B & C & D & E) U. assert (isOpenParen o = false /\ o_prec o < 254 /\ plainop o /\ o_nargs o - 1 = if s_prefix s then 0 else 1) as (OP & P & PO & N).
  { destruct (s_prefix s); destruct U as (g & U1 & U2 & U3 & U4 & U5); (split; [unfold isOpenParen; lia|]); (split; [lia|]); (split; [|lia]);
      unfold plainop, unop, binop; [right; left|right; right]; exists g; auto. }
  unfold do_operator. pose proof (rh_counts o (s_os s) P (s_vs s) (s_radix s) C) as R.
  destruct (reduce_higher o (s_os s) (s_vs s) (s_radix s)) as [[[[e os] vs] r]| | | |]; cbn [bind]; try exact Logic.I.
  destruct (negb (isOK e)) eqn:O; [now apply fail_after, notOK|]. destruct (isOK e) eqn:O1; [|discriminate]. destruct (R O1) as (R0 & R1 & R2 & R3 & R4).
  destruct (os_full os) eqn:OF; [apply fail_after; discriminate|]. cbn [outs after]. exists d. split; [lia|].
  cbn [set_prefix set_stacks s_vs s_os]. unfold os_push. rewrite OF. split; [|intros _; right; constructor; exact OP].
  unfold inv. cbn [s_fnargs s_infn s_os s_vs s_prefix set_prefix set_stacks]. repeat split; auto.
  cbn [weights]. unfold weight. rewrite OP. destruct (s_prefix s); lia.
Qed.
Lemma live_pop vs o os : isOpenParen o = true -> live vs (o :: os) -> live vs os.
Proof. intros P [L|L]; [now left|]. right. inversion L as [? ? X|]; subst; [congruence|assumption]. Qed.
(* closing where an operand was due loses one *)
Definition due (d : Z) (l : Prop) (c : ctl) : Prop :=
  match c with
  | Next s => inv (d + 1) s /\ (l -> live (s_vs s) (s_os s))
  | Break s => inv d s /\ s_prefix s = true /\ (l -> live (s_vs s) (s_os s))
  | Return _ s => s_err s <> OK
  end.
Lemma close_due s d : inv d s -> outs (do_close cx s) (if s_prefix s then due d (live (s_vs s) (s_os s)) else after d (live (s_vs s) (s_os s))).
Proof.
  intros (A & B & C & D & E). unfold do_close. pose proof (rp_counts (s_os s) (s_vs s) (s_radix s) C) as R.
  destruct (reduce_paren (s_os s) (s_vs s) (s_radix s)) as [[[[e os] vs] r]| | | |]; cbn [bind]; try exact Logic.I.
  destruct (negb (isOK e)) eqn:O; [apply notOK in O; destruct (s_prefix s); now apply err_not|]. destruct (isOK e) eqn:O1; [|discriminate].
  destruct R as [R R5]. destruct (R O1) as (R0 & R1 & R2 & R3 & R4). specialize (R5 eq_refl).
  destruct os as [|p os].
  - cbn [outs]. assert (inv d (set_stacks s vs [] r)) as V.
    { unfold inv. cbn [set_stacks s_fnargs s_infn s_os s_vs s_prefix]. repeat split; auto. lia. }
    destruct (s_prefix s) eqn:P; cbn [due after]; [auto|]. exists d. split; [lia|auto].
  - assert (forall inf, inf = 0 -> (if s_prefix s then due d (live (s_vs s) (s_os s)) else after d (live (s_vs s) (s_os s)))
      (Next (mkSt (s_scan s) vs os (if (s_paren s - 1) mod 256 =? 0 then c_delim cx else s_eoe s) ((s_paren s - 1) mod 256) false (s_fnargs s) inf r (s_err s)))) as K.
    { intros inf Z. assert (inv (if s_prefix s then d + 1 else d) (mkSt (s_scan s) vs os (if (s_paren s - 1) mod 256 =? 0 then c_delim cx else s_eoe s) ((s_paren s - 1) mod 256) false (s_fnargs s) inf r (s_err s))) as V.
      { unfold inv. cbn [s_fnargs s_infn s_os s_vs s_prefix]. inversion_clear R2. repeat split; auto; [destruct (s_prefix s); lia|].
        cbn [weights] in R1. unfold weight in R1. rewrite R5 in R1. destruct (s_prefix s); lia. }
      assert (live (s_vs s) (s_os s) -> live vs os) as LV by (intros L; apply (live_pop _ p); auto).
      destruct (s_prefix s); cbn [due after]; [auto|]. exists d. split; [lia|auto]. }
    cbn [set_stacks s_scan s_paren s_eoe s_fnargs s_infn s_err]. destruct os as [|q os]; [now apply K|].
    assert (isFunction q = false) as ->; [|now apply K]. inversion_clear R2 as [|? ? _ R2']. apply Forall_inv in R2'. unfold isFunction.
    destruct R2' as [[_ ->]|[(g & _ & _ & _ & -> & _)|(g & _ & _ & _ & -> & _)]]; reflexivity.
Qed.
Lemma close_after s d : inv d s -> outs (do_close cx s) (after d (live (s_vs s) (s_os s))).
Proof.
  intros V. pose proof (close_due s d V) as C. destruct (s_prefix s); [|exact C]. destruct (do_close cx s) as [[s'|s'|v s']| | | |]; cbn [outs due after] in *; auto.
  - exists (d + 1). split; [lia|exact C].
  - exists d. split; [lia|tauto].
Qed.
Lemma weak d d' (l l' : Prop) r : d' <= d -> (l' -> l) -> outs r (after d l) -> outs r (after d' l').
Proof. intros L H. destruct r as [c| | | |]; cbn [outs]; auto. destruct c; cbn [after]; auto; intros (x & A & B & C); exists x; (split; [lia|]); auto. Qed.
Lemma punct_after expr s d : inv d s -> outs (do_punct pl cx expr s) (after d (live (s_vs s) (s_os s))).
Proof.
  intros V. pose proof V as (A & B & C & D & E). unfold do_punct. rewrite B. cbn [Z.eqb].
  destruct (p_open pl (s_scan s)) as [p|].
  - rewrite A. cbn [negb]. rewrite andb_true_r. destruct (s_prefix s) eqn:P; cbn [negb].
    + destruct (os_full _) eqn:OF; [apply fail_after; discriminate|]. cbn [outs after]. exists d. split; [lia|]. cbn [s_vs s_os]. unfold os_push. rewrite OF.
      split; [|intros [L|L]; [now left|right; now constructor 2]]. unfold inv. cbn [s_fnargs s_infn s_os s_vs s_prefix]. repeat split; auto.
      constructor; [left; split; reflexivity|exact C].
    + cbn [outs after]. exists d. split; [lia|]. split; [exact V|auto].
  - destruct (p_close pl (s_scan s)) as [p|].
    + apply (close_after (set_scan s p)). exact V.
    + cbn [outs after]. exists d. split; [lia|]. split; [exact V|auto].
Qed.
Definition sub0 (u : text) : Prop := sfx 0 u T.
Definition sub (u : text) : Prop := sub0 (skipSpaces u).
Lemma sub_shift u : sub0 u -> ~ shift_word u.
Proof. intros (p & E & _). exact (NS p u E). Qed.
Lemma infix_after expr s d : inv d s -> sub0 (s_scan s) -> outs (do_infix pl cx expr s) (after d (live (s_vs s) (s_os s))).
Proof.
  intros V S. unfold do_infix. destruct (s_prefix s) eqn:P.
  - unfold pl at 1. rewrite (fam_pure f I). cbn [bind]. destruct (fam_reader f (s_scan s)) as [[o t]|] eqn:E; (destruct (hasError _) eqn:H; [exact (hard _ H)|]).
    + eapply weak; [| |apply operator_after]; [reflexivity|auto|exact V|]. cbn [set_scan set_stacks s_prefix]. rewrite P. exact (fam_unop f I _ _ _ E).
    + apply (punct_after expr (set_stacks s (s_vs s) (s_os s) (s_radix s))). exact V.
  - destruct (p_infix pl (s_scan s)) as [[o t]|] eqn:E; (destruct (hasError _) eqn:H; [exact (hard _ H)|]).
    + eapply weak; [| |apply operator_after]; [reflexivity|auto|exact V|]. cbn [set_scan s_prefix]. rewrite P. exact (fam_binop f I _ _ _ (sub_shift _ S) E).
    + now apply punct_after.
Qed.
Lemma symbol_after expr s d : inv d s -> s_prefix s = true -> sub0 (s_scan s) -> outs (do_symbol pl cx expr s) (after d (live (s_vs s) (s_os s))).
Proof.
  intros V P S. unfold do_symbol. destruct (readSymbol _ _) as [[n u]|]; [|now apply infix_after].
  destruct (c_symbol cx n); [destruct (isFloat _); [exact Logic.I|]|]; now apply push_after.
Qed.
Lemma operand_after expr s d : inv d s -> s_prefix s = true -> sub0 (s_scan s) -> outs (do_operand pl cx expr s) (after d (live (s_vs s) (s_os s))).
Proof.
  intros V P S. unfold do_operand. destruct (parseConstant _ _ _ _) as [[[e v] u]| | | |]; cbn [bind]; try exact Logic.I.
  destruct (isOK e) eqn:O; [now apply push_after|]. destruct (negb _); [apply fail_after; intros ->; discriminate|].
  destruct (readFunctionName _ _) as [[n q]|] eqn:R; [|now apply symbol_after].
  assert (lookupFunction pl cx n = None) as ->; [|now apply symbol_after].
  destruct S as (p & ET & _). unfold readFunctionName, readName in R. destruct (s_scan s) as [|c t]; [discriminate|]. destruct (y_letter _ _ _); [|discriminate].
  destruct (takeWhile _ t) as [a r] eqn:TW. injection R as <- <-. apply take_sfx in TW. subst t.
  unfold lookupFunction, pl. destruct (NC p (c :: a) r ET) as [N1 N]. rewrite N1. exact N.
Qed.
Lemma step_after s d : inv d s -> sub (s_scan s) -> outs (step pl cx s) (after d (live (s_vs s) (s_os s))).
Proof.
  intros V S. unfold step. destruct (p_eol pl _) as [stop t] eqn:EO.
  assert (sub0 t) as St'.
  { pose proof (g_eol _ (good_all _ (tree_all f I)) (skipSpaces (s_scan s))) as E. unfold pl in EO. rewrite EO in E. cbn [snd] in E.
    eapply sfx_tr; [exact E|exact S]. }
  assert (after d (live (s_vs s) (s_os s)) (Break (set_scan s t))) as B by (cbn [after]; exists d; split; [lia|]; split; [exact V|auto]).
  destruct stop; [exact B|]. destruct (_ && _); [exact B|]. cbn [set_scan s_prefix]. destruct (s_prefix s) eqn:P; [|apply (infix_after (s_scan s) (set_scan s t)); [exact V|exact St']].
  unfold pl at 1. rewrite (fam_pure f I). cbn [bind]. destruct (fam_reader f t) as [[o t']|] eqn:E; (destruct (hasError _) eqn:H; [exact (hard _ H)|]).
  - eapply weak; [| |apply operator_after]; [reflexivity|auto|exact V|]. cbn [set_scan set_stacks s_prefix]. rewrite P. exact (fam_unop f I _ _ _ E).
  - apply (operand_after (s_scan s) (set_stacks (set_scan s t) (s_vs (set_scan s t)) (s_os (set_scan s t)) (s_radix (set_scan s t)))); [exact V|exact P|exact St'].
Qed.
Lemma inv_tot d s : inv d s -> Forall tot_o (s_os s).
Proof. intros (_ & _ & C & _). revert C. apply Forall_impl. intros o. unfold tot_o. intros [[_ ->]|[(g & _ & _ & _ & -> & _)|(g & _ & _ & _ & -> & _)]]; exact Logic.I. Qed.

Lemma skip_mono u t : sfx 0 u t -> sfx 0 (skipSpaces u) (skipSpaces t).
Proof.
  intros (p & -> & _). induction p as [|c p IH]; [apply sfx_refl|]. cbn [app]. unfold skipSpaces at 2. cbn [trimStart]. destruct (is_space c) eqn:C.
  - exact IH.
  - apply sfx_tr with (b := u); [apply skip_sfx|]. exists (c :: p). split; [reflexivity|cbn; lia].
Qed.
Lemma step_sub s : Forall tot_o (s_os s) -> sub (s_scan s) -> match step pl cx s with Val (Next s') => sub (s_scan s') | _ => True end.
Proof.
  intros F S. pose proof (step_left pl cx (good_all _ (tree_all f I)) TF s F) as L. destruct (step pl cx s) as [[s'|s'|v s']| | | |]; auto. cbn in L.
  destruct L as [L _]. eapply sfx_tr; [apply skip_mono; apply sfx_0 in L; exact L|exact S].
Qed.
Definition bad (r : res outcome) : Prop := forall v t x, r <> Val (v, OK, t, x).
Lemma finish_bad s d : inv d s -> (live (s_vs s) (s_os s) /\ (1 <= d \/ s_prefix s = true)) \/ npar (s_os s) <> 0 -> bad (finish s).
Proof.
  intros (A & B & C & D & E) H v t x. unfold finish. pose proof (ra_counts (s_os s) (s_vs s) (s_radix s) C) as R.
  destruct (reduce_all _ _ _) as [[[e vs] r]| | | |]; cbn [bind]; try discriminate. destruct (isOK e) eqn:O.
  - destruct (R eq_refl) as (R1 & R2 & R3). destruct H as [[L H]|H]; [|contradiction]. specialize (R2 L). exfalso.
    assert (1 <= vs_size vs) by (destruct vs; [contradiction|unfold vs_size; cbn [length]; lia]). destruct (s_prefix s); lia.
  - intros [= _ X _ _]. revert X. apply err_not. intros ->. discriminate.
Qed.
Lemma rounds_bad fuel : forall s d, inv d s -> sub (s_scan s) -> live (s_vs s) (s_os s) -> 1 <= d -> bad (rounds fuel pl cx s).
Proof.
  induction fuel as [|fuel IH]; intros s d V S L D; cbn [rounds]; [intros v t x; discriminate|].
  pose proof (step_after s d V S) as A. pose proof (step_sub s (inv_tot d s V) S) as B.
  destruct (step pl cx s) as [[s'|s'|v' s']| | | |]; cbn [bind]; try (intros v t x; discriminate); cbn [outs after] in A.
  - destruct A as (d' & D' & V' & L'). apply (IH s' d'); auto. lia.
  - destruct A as (d' & D' & V' & L'). apply (finish_bad s' d'); auto. left. split; [auto|lia].
  - intros v t x [= _ E _ _]. contradiction.
Qed.

(* ------------------------------------------------------------ texts *)
Hypothesis Q : quiet cx.
Lemma below_plain os : Forall plainop os -> match os with [] => True | t :: _ => isOpenParen t = true \/ 0 < o_prec t end.
Proof.
  intros F. destruct os as [|t os]; [exact Logic.I|]. apply Forall_inv in F. destruct F as [[P _]|[U|U]]; [now left|right|right];
  destruct U as (g & _ & _ & _ & _ & P); lia.
Qed.
Lemma plain_nofn os : Forall plainop os -> Forall (fun o => o_fn o = None) os.
Proof. apply Forall_impl. intros o [[_ ->]|[(g & _ & _ & _ & -> & _)|(g & _ & _ & _ & -> & _)]]; reflexivity. Qed.
Lemma plain_top_of os : Forall plainop os -> plain_top os.
Proof. intros F. destruct os as [|o os]; [exact Logic.I|]. exact (Forall_inv (plain_nofn _ F)). Qed.
Lemma plain_ncall os : Forall plainop os -> ncall os = 0.
Proof. intros F. exact (ncall_plain os (plain_nofn os F)). Qed.
Lemma fails_bad k st (val : res (err * value)) : fails f cx k st val -> exists r, halts f cx k st r /\ bad r.
Proof.
  destruct val as [[e v]| | | |]; cbn [fails relabel]; try (intros H; eexists; split; [exact H|]; intros v' t' x; discriminate).
  intros [E [t H]]. eexists. split; [exact H|]. intros v' t' x [= _ -> _ _]. discriminate E.
Qed.
Definition low : oper := op_ 0 LEFT 2 add_.
Lemma primary_reads e s rest vs os b : derives f cx e s rest -> primary e -> well_nested e -> blanks b -> (length os <= 8)%nat -> Forall plainop os ->
  (exists k r, halts f cx k (St cx (b ++ s) vs os true) r /\ bad r) \/
  (exists k v b', blanks b' /\ runs f cx k (St cx (b ++ s) vs os true) (St cx (b' ++ rest) (v :: vs) os false)).
Proof.
  intros De P W B L F. assert (level e = 0) as LE by (destruct e; try reflexivity; contradiction).
  destruct (reads f cx I Q e s rest De W vs os b B L (plain_top_of os F)) as [k sp vs' b' B' R So Ou Ne Lv Kp Le Lo|k t H Kl X|k X Kl].
  - rewrite LE. pose proof (below_plain os F) as BP. assert (right_rooted e) by (destruct e; try exact Logic.I; contradiction). destruct os as [|t os]; [exact Logic.I|]. cbn [below] in *. tauto.
  - assert (sp = []) as ->.
    { destruct sp as [|o sp]; [reflexivity|]. apply Forall_inv in So. destruct So as (_ & _ & So & _). lia. }
    right. specialize (Ou (RH low) (Forall_nil _)). cbn [app] in *.
    assert (forall vs, red (RH low) os vs = Val (OK, os, vs, 10)) as BL.
    { intros vs0. apply blocked; [cbn; lia|]. pose proof (below_plain os F) as BP. destruct os as [|t os]; [exact Logic.I|]. cbn in *. destruct BP as [BP|BP]; [now left|right; left; lia]. }
    rewrite BL in Ou. destruct (val_cases (value_of e)) as [[w V]|[_ [(x & w & EX & V)|V]]].
    + rewrite V in Ou. cbn [outcome_is] in Ou. change (isOK OK) with true in Ou. cbv iota in Ou. rewrite BL in Ou. injection Ou as ->. exists k, w, b'. auto.
    + rewrite V in Ou. cbn [outcome_is] in Ou. rewrite EX in Ou. destruct Ou as (o2 & v2 & Ou). injection Ou as <- _ _. discriminate EX.
    + destruct (value_of e); [contradiction| | | |]; discriminate Ou.
  - left. exists k. eexists. split; [exact H|]. intros v t' x. discriminate.
  - left. exists k. exact (fails_bad _ _ _ X).
Qed.
Lemma operator_shape t vs os p o d : inv d (St cx t vs os p) -> (if p then unop o else binop o) ->
  match do_operator (St cx t vs os p) o with
  | Val (Next s') => exists vs' os', s' = St cx t vs' (o :: os') true /\ (length (o :: os') <= 8)%nat /\ (exists d', inv d' s') /\ npar (o :: os') = npar os
  | Val (Break _) => False
  | Val (Return v s') => s_err s' <> OK
  | _ => True
  end.
Proof.
  intros V U. pose proof (operator_after (St cx t vs os p) o d V U) as A. revert A. destruct V as (_ & _ & C & _).
  assert (isOpenParen o = false /\ o_prec o < 254) as (OP & P).
  { destruct p; destruct U as (g & U1 & U2 & U3 & U4 & U5); (split; [unfold isOpenParen; lia|]); lia. }
  unfold do_operator. cbn [St s_os s_vs s_radix] in *. pose proof (rh_counts o os P vs 10 C) as R.
  destruct (reduce_higher o os vs 10) as [[[[e os'] vs'] r]| | | |]; cbn [bind]; auto.
  destruct (negb (isOK e)) eqn:O; [intros A; exact A|]. destruct (isOK e) eqn:O1; [|discriminate]. destruct (R O1) as (-> & R1 & R2 & R3 & R4).
  destruct (os_full os') eqn:OF; [intros A; exact A|]. intros (d' & D' & V' & _). exists vs', os'.
  assert (set_prefix (set_stacks (set_stacks (St cx t vs os p) vs' os' 10) vs' (os_push o os') 10) true = St cx t vs' (o :: os') true) as E.
  { unfold set_prefix, set_stacks, St, os_push, eoe. cbn [s_scan s_eoe s_paren s_fnargs s_infn s_err]. rewrite OF. cbn [npar ncall]. rewrite OP, R4, (plain_ncall os C), (plain_ncall os' R2).
    replace (isFunction o) with false; [reflexivity|]. unfold isFunction. destruct p; destruct U as (g & _ & _ & _ & U4 & _); rewrite U4; reflexivity. }
  rewrite E in *. split; [reflexivity|]. split; [unfold os_full, CAPACITY in OF; cbn [length]; lia|]. split; [|cbn [npar]; rewrite OP; lia].
  now exists d'.
Qed.
Lemma derives_sfx e s rest : derives f cx e s rest -> sfx 0 rest s.
Proof.
  assert (forall a b : text, sfx 0 b (a ++ b)) as A by (intros a b; exists a; split; [reflexivity|lia]).
  enough ((forall e s rest, derives f cx e s rest -> sfx 0 rest s) /\ (forall a s rest, derives_args f cx a s rest -> sfx 0 rest s)) as K by exact (proj1 K e s rest).
  apply (derives_both f cx (fun _ s rest _ => sfx 0 rest s) (fun _ s rest _ => sfx 0 rest s)).
  - intros. eapply sfx_tr; [|apply A]. apply A.
  - intros. eapply sfx_tr; [|apply A]. apply A.
  - intros c b r _ _ _. apply (A (c :: b)).
  - intros d tok b x u r _ _ _ _ _ IH. eapply sfx_tr; [exact IH|]. eapply sfx_tr; [|apply A]. apply A.
  - intros d tok bl a b s0 u r _ _ _ _ _ IHa _ IHb. eapply sfx_tr; [exact IHb|]. eapply sfx_tr; [|exact IHa]. eapply sfx_tr; [|apply A]. apply A.
  - intros b1 b2 x u r _ _ _ IH. eapply sfx_tr; [|apply (A (40 :: b1))]. eapply sfx_tr; [|exact IH]. apply (A (41 :: b2)).
  - intros t fn g b1 b2 b3 a u r _ _ _ _ _ _ _ _ _ IH. eapply sfx_tr; [|apply A]. eapply sfx_tr; [|apply A]. eapply sfx_tr; [|apply (A (40 :: b2))]. eapply sfx_tr; [|exact IH]. apply (A (41 :: b3)).
  - intros x u r _ IH. exact IH.
  - intros b x a s0 u r _ _ IHe _ IHa. eapply sfx_tr; [exact IHa|]. eapply sfx_tr; [|exact IHe]. apply (A (44 :: b)).
Qed.
Lemma lead_head n m s rest : lead f cx n m s rest -> peek rest <> 61 -> peek s <> 61.
Proof.
  intros L N. induction L as [s|d tok b n m s rest D Sp B S L IH|d tok bl e n m s0 s rest D Sp B S P W De L IH|b n m s rest B L IH].
  - exact N.
  - destruct (prefix_head f d tok I D Sp) as (h & t & -> & Y). exact Y.
  - destruct (derives_head f cx I e s0 _ De) as (h & t & -> & _ & _ & Y). exact Y.
  - cbn. lia.
Qed.
Lemma blank_peek b s : blanks b -> peek s <> 61 -> peek (b ++ s) <> 61.
Proof. intros B P. destruct b as [|c b]; [exact P|]. cbn. apply Forall_inv in B. unfold is_space in B. lia. Qed.
Definition arrives (n m : nat) (st : state) (vs : vstack) (os : list oper) (rest : text) : Prop :=
  exists k vs' os' b d, runs f cx k st (St cx (b ++ rest) vs' os' true) /\ blanks b /\ inv d (St cx (b ++ rest) vs' os' true) /\
    (length os' <= 8)%nat /\ ((0 < n)%nat \/ live vs os -> live vs' os') /\ npar os' = npar os + Z.of_nat m.
Lemma step_halts st : match step pl cx st with Val (Next _) | Val (Break _) => False | Val (Return v s') => s_err s' <> OK | _ => True end ->
  exists r, halts f cx 1 st r /\ bad r.
Proof.
  intros H. destruct (step pl cx st) as [[s'|s'|v s']| | | |] eqn:E; try contradiction.
  - eexists. split; [intros n; cbn [rounds Nat.add]; fold pl; rewrite E; cbn [bind]; reflexivity|]. intros v' t x. cbn [bind]. intros [= _ X _ _]. contradiction.
  - eexists. split; [intros n; cbn [rounds Nat.add]; fold pl; rewrite E; cbn [bind]; reflexivity|]. intros v' t x. discriminate.
  - eexists. split; [intros n; cbn [rounds Nat.add]; fold pl; rewrite E; cbn [bind]; reflexivity|]. intros v' t x. discriminate.
  - eexists. split; [intros n; cbn [rounds Nat.add]; fold pl; rewrite E; cbn [bind]; reflexivity|]. intros v' t x. discriminate.
  - eexists. split; [intros n; cbn [rounds Nat.add]; fold pl; rewrite E; cbn [bind]; reflexivity|]. intros v' t x. discriminate.
Qed.
Lemma inv_text d t t' vs os p : inv d (St cx t vs os p) -> inv d (St cx t' vs os p).
Proof. intros V. exact V. Qed.
Lemma lead_runs n m s rest : lead f cx n m s rest -> peek rest <> 61 -> sfx 0 s T -> forall vs os b d, blanks b -> (length os <= 8)%nat ->
  inv d (St cx (b ++ s) vs os true) ->
  (exists k r, halts f cx k (St cx (b ++ s) vs os true) r /\ bad r) \/ arrives n m (St cx (b ++ s) vs os true) vs os rest.
Proof.
  intros L N. induction L as [s|d0 tok b1 n m s rest D Sp B1 S L IH|d0 tok bl e n m s0 s rest D Sp B1 S P W De L IH|b1 n m s rest B1 L IH]; intros SU vs os b d B LO V.
  - right. exists 0%nat, vs, os, b, d. split; [intros k; reflexivity|]. split; [exact B|]. split; [exact V|]. split; [exact LO|]. split; [intros [X|X]; [lia|exact X]|lia].
  - (* prefix operator *)
    destruct (fam_prefix_reads f I d0 tok (b1 ++ s) D Sp S) as (o & Rd & Im); [apply Z.eqb_neq, blank_peek; [exact B1|exact (lead_head _ _ _ _ L N)]|].
    destruct (op_head f d0 tok I (or_introl D) Sp) as (h & t & -> & Sf & X). cbn [app] in *.
    pose proof (step_head f cx I b h (t ++ b1 ++ s) vs os true B Sf (head_not cx Q h os X)) as S1. rewrite Rd in S1.
    pose proof (operator_shape (b1 ++ s) vs os true o d V (fam_unop f I _ _ _ Rd)) as OS.
    destruct (do_operator (St cx (b1 ++ s) vs os true) o) as [[s'|s'|v s']| | | |] eqn:DO;
      try (left; exists 1%nat; apply step_halts; unfold pl; rewrite S1; exact OS).
    destruct OS as (vs' & os' & -> & LO' & [d' V'] & NP). apply runs_next in S1.
    assert (sfx 0 s T) as SU' by (eapply sfx_tr; [|exact SU]; exists (h :: t ++ b1); split; [cbn; now rewrite <- app_assoc|lia]).
    destruct (IH N SU' vs' (o :: os') b1 d' B1 LO' V') as [(k & r & H & BD)|(k & vs2 & os2 & b2 & d2 & R & B2 & V2 & L2 & LV2 & NP2)].
    + left. exists (1 + k)%nat, r. split; [exact (runs_halts f cx _ _ _ _ _ S1 H)|exact BD].
    + right. exists (1 + k)%nat, vs2, os2, b2, d2. split; [exact (runs_trans f cx _ _ _ _ _ S1 R)|]. split; [exact B2|]. split; [exact V2|]. split; [exact L2|]. split; [|lia].
      intros _. apply LV2. right. right. constructor. destruct (fam_unop f I _ _ _ Rd) as (g & _ & _ & _ & _ & G). unfold isOpenParen. lia.
  - (* operand and infix operator *)
    destruct (primary_reads e s0 _ vs os b De P W B LO) as [H|(k1 & v & b' & B' & R1)]; [apply V|left; exact H|].
    destruct (fam_infix_reads f I d0 tok (bl ++ s) D Sp S) as (o & Rd & Im).
    destruct (op_head f d0 tok I (or_intror D) Sp) as (h & t & -> & Sf & X). cbn [app] in *.
    assert (sfx 0 (h :: t ++ bl ++ s) T) as ST by (eapply sfx_tr; [exact (derives_sfx _ _ _ De)|exact SU]).
    assert (binop o) as BO.
    { apply (fam_binop f I _ _ _) in Rd; [exact Rd|]. apply sub_shift. exact ST. }
    pose proof (infix_head f cx I b' h (t ++ bl ++ s) (v :: vs) os B' Sf (head_not cx Q h os X)) as S1. rewrite Rd in S1.
    assert (inv d (St cx (bl ++ s) (v :: vs) os false)) as V1.
    { destruct V as (A1 & A2 & A3 & A4 & A5). unfold inv. cbn [St s_fnargs s_infn s_os s_vs s_prefix] in *. repeat split; auto. unfold vs_size in *. cbn [length]. lia. }
    pose proof (operator_shape (bl ++ s) (v :: vs) os false o d V1 BO) as OS.
    destruct (do_operator (St cx (bl ++ s) (v :: vs) os false) o) as [[s'|s'|v' s']| | | |] eqn:DO;
      try (left; destruct (step_halts (St cx (b' ++ h :: t ++ bl ++ s) (v :: vs) os false)) as (r & H & BD); [unfold pl; rewrite S1; exact OS|];
           exists (k1 + 1)%nat, r; split; [exact (runs_halts f cx _ _ _ _ _ R1 H)|exact BD]).
    destruct OS as (vs' & os' & -> & LO' & [d' V'] & NP). apply runs_next in S1.
    assert (sfx 0 s T) as SU' by (eapply sfx_tr; [|exact ST]; exists (h :: t ++ bl); split; [cbn; now rewrite <- app_assoc|lia]).
    pose proof (runs_trans f cx _ _ _ _ _ R1 S1) as R2.
    destruct (IH N SU' vs' (o :: os') bl d' B1 LO' V') as [(k & r & H & BD)|(k & vs2 & os2 & b2 & d2 & R & B2 & V2 & L2 & LV2 & NP2)].
    + left. exists (k1 + 1 + k)%nat, r. split; [exact (runs_halts f cx _ _ _ _ _ R2 H)|exact BD].
    + right. exists (k1 + 1 + k)%nat, vs2, os2, b2, d2. split; [exact (runs_trans f cx _ _ _ _ _ R2 R)|]. split; [exact B2|]. split; [exact V2|]. split; [exact L2|]. split; [|lia].
      intros _. apply LV2. right. right. constructor. destruct BO as (g & _ & _ & _ & _ & G). unfold isOpenParen. lia.
  - (* parenthesis *)
    destruct (open_facts f (b1 ++ s) I) as (_ & Rd & _ & _ & Sf).
    pose proof (step_head f cx I b 40 (b1 ++ s) vs os true B Sf (head_not cx Q 40 os ltac:(cbn; lia))) as S1. rewrite Rd in S1.
    rewrite (open_operand f cx I) in S1.
    destruct (os_full os) eqn:OF.
    { left. exists 1%nat. apply step_halts. unfold pl. rewrite S1. cbn. discriminate. }
    apply runs_next in S1. set (par := op_paren (vs_size vs)) in *.
    assert ((length (par :: os) <= 8)%nat) as LO' by (unfold os_full, CAPACITY in OF; cbn [length]; lia).
    assert (npar (par :: os) = npar os + 1) as Np by (cbn [npar]; change (isOpenParen par) with true; cbv iota; lia).
    pose proof (npar_range os) as Nr.
    assert (mkSt (b1 ++ s) vs (par :: os) 0 ((npar os + 1) mod 256) true false (ncall os) 10 OK = St cx (b1 ++ s) vs (par :: os) true) as E.
    { unfold St, eoe. rewrite Np, Z.mod_small by (cbn [length] in LO'; lia). replace (npar os + 1 =? 0) with false by lia. reflexivity. }
    rewrite E in S1.
    assert (inv d (St cx (b1 ++ s) vs (par :: os) true)) as V'.
    { destruct V as (A1 & A2 & A3 & A4 & A5). unfold inv. cbn [St s_fnargs s_infn s_os s_vs s_prefix] in *. repeat split; auto; try lia.
      constructor; [left; split; reflexivity|exact A3]. }
    assert (sfx 0 s T) as SU' by (eapply sfx_tr; [|exact SU]; exists (40 :: b1); split; [reflexivity|lia]).
    destruct (IH N SU' vs (par :: os) b1 d B1 LO' V') as [(k & r & H & BD)|(k & vs2 & os2 & b2 & d2 & R & B2 & V2 & L2 & LV2 & NP2)].
    + left. exists (1 + k)%nat, r. split; [exact (runs_halts f cx _ _ _ _ _ S1 H)|exact BD].
    + right. exists (1 + k)%nat, vs2, os2, b2, d2. split; [exact (runs_trans f cx _ _ _ _ _ S1 R)|]. split; [exact B2|]. split; [exact V2|]. split; [exact L2|]. split; [|lia].
      intros [X|[X|X]]; apply LV2; [now left|right; now left|right; right; now constructor 2].
Qed.
Lemma skip_b b t : blanks b -> skipSpaces (b ++ t) = skipSpaces t.
Proof. exact (skip_blanks b t). Qed.
(* at a place where an operand is due and none follows *)
Lemma due_step b rest vs os d : blanks b -> no_operand_here cx rest -> inv d (St cx (b ++ rest) vs os true) ->
  outs (step pl cx (St cx (b ++ rest) vs os true)) (fun c => due d (live vs os) c /\ (peek rest <> 41 -> match c with Next _ => False | Break s => s_os s = os | _ => True end)).
Proof.
  intros B N V. destruct (match rest with [] => true | c :: _ => c =? 59 end) eqn:ZZ.
  - unfold step. cbn [s_scan St]. rewrite (skip_b b _ B). destruct (fam_eol_end f I (tl rest)) as [E0 E1].
    assert (p_eol pl (skipSpaces rest) = (true, rest)) as ->.
    { destruct rest as [|c t]; [exact E0|]. apply Z.eqb_eq in ZZ. subst c. exact E1. }
    cbn [outs due]. split; [split; [exact V|]; split; [reflexivity|auto]|]. intros _. reflexivity.
  - destruct rest as [|c t]; [discriminate|].
    assert (c = 44 \/ c = 41 \/ c = 93) as C by (destruct N as [N|N]; cbn [ends peek] in N; unfold quiet in Q; cbn in Q; lia).
    assert (eol_safe f c) as Sf by (destruct C as [-> |[-> | ->]]; [now apply eol44|now apply eol41|now apply eol93]).
    unfold step. cbn [s_scan St]. rewrite (skip_head b c t B (proj1 Sf)). unfold pl. rewrite (fam_eol f I c t Sf).
    cbn [set_scan s_eoe St s_prefix s_vs s_os s_radix peek].
    destruct (_ && _). { cbn [outs due]. split; [split; [exact V|]; split; [reflexivity|auto]|]. intros _. reflexivity. }
    rewrite (fam_pure f I). assert (fam_reader f (c :: t) = None) as RN by (apply (stop_facts f c t I); cbn; lia).
    rewrite RN. cbn [bind hasError s_err set_stacks].
    assert (do_operand (fam_pl f) cx (b ++ c :: t) (St cx (c :: t) vs os true) = if c =? 41 then do_close cx (St cx t vs os true) else Val (Break (St cx (b ++ c :: t) vs os true))) as DO.
    { assert (ncall os = 0) as NCL by (destruct V as (_ & _ & V & _); exact (plain_ncall os V)). destruct (stop_facts f c t I) as (Cn & _ & Fn & Sn); [cbn; lia|]. unfold do_operand. open_st. rewrite Cn. open_st. rewrite Fn. unfold do_symbol. open_st. rewrite Sn.
      unfold do_infix. open_st. rewrite (fam_pure f I). open_st. rewrite RN. unfold do_punct. open_st. rewrite NCL. cbn [Z.eqb]. rewrite (fam_open f I), (fam_close f I).
      destruct C as [-> |[-> | ->]]; reflexivity. }
    match goal with |- outs ?x _ => change x with (do_operand (fam_pl f) cx (b ++ c :: t) (St cx (c :: t) vs os true)) end. rewrite DO.
    destruct C as [-> |[-> | ->]]; cbn [Z.eqb Pos.eqb].
    + cbn [outs due]. split; [split; [exact V|]; split; [reflexivity|auto]|]. intros _. reflexivity.
    + pose proof (close_due (St cx t vs os true) d V) as CD. cbn [St s_prefix s_vs s_os] in CD.
      destruct (do_close _ _) as [c| | | |]; auto. cbn [outs] in *. split; [exact CD|]. cbn. lia.
    + cbn [outs due]. split; [split; [exact V|]; split; [reflexivity|auto]|]. intros _. reflexivity.
Qed.
Lemma due_rounds b rest vs os d fuel : blanks b -> no_operand_here cx rest -> sub (b ++ rest) -> inv d (St cx (b ++ rest) vs os true) ->
  live vs os \/ (npar os <> 0 /\ peek rest <> 41) -> bad (rounds fuel pl cx (St cx (b ++ rest) vs os true)).
Proof.
  intros B N S V L. destruct fuel as [|fuel]; cbn [rounds]; [intros v t x; discriminate|].
  pose proof (due_step b rest vs os d B N V) as A. pose proof (step_sub _ (inv_tot _ _ V) S) as SS.
  destruct (step pl cx _) as [[s'|s'|v' s']| | | |]; cbn [bind]; try (intros v t x; discriminate); cbn [outs due] in A.
  - destruct A as [[V' LV] K]. destruct L as [L|[_ L]]; [|now destruct (K L)]. apply (rounds_bad fuel s' (d + 1)); auto. destruct V as (_ & _ & _ & D & _). lia.
  - destruct A as [(V' & P & LV) K]. apply (finish_bad s' d V'). destruct L as [L|[L L']]; [left; auto|right]. now rewrite (K L').
  - destruct A as [A _]. intros v t x [= _ E _ _]. contradiction.
Qed.
Lemma bad_eval b0 s : T = b0 ++ s -> blanks b0 -> is_space (peek s) = false -> s <> [] -> (exists k r, halts f cx k (start cx s 10 OK) r /\ bad r) -> bad (eval pl cx (b0 ++ s) 10 OK).
Proof.
  intros ET B Sp NE (k & r & H & BD) v t x. unfold pl.
  rewrite <- (proj1 (C21_term _ cx (b0 ++ s) 10 OK (k + S (length (b0 ++ s)))%nat (tree_all f I) TF ltac:(lia))).
  unfold eval_fuel. rewrite (skip_b b0 s B). assert (skipSpaces s = s) as -> by (destruct s as [|c s]; [contradiction|]; unfold skipSpaces; cbn [trimStart]; cbn in Sp; now rewrite Sp).
  rewrite H. destruct r as [[[[v1 e1] t1] r1]| | | |]; cbn [bind]; try discriminate.
  intros [= -> E -> ->]. destruct (Nat.eqb _ _); [revert E; apply err_not; discriminate|]. subst e1. exact (BD _ _ _ eq_refl).
Qed.
Lemma lead_start n m s rest : lead f cx n m s rest -> (0 < n + m)%nat -> is_space (peek s) = false /\ s <> [].
Proof.
  intros L N. inversion L; subst; [lia| | |].
  - destruct (op_head f d tok I (or_introl H) H0) as (h & t & -> & [Sf _] & _). split; [exact Sf|discriminate].
  - destruct (derives_head f cx I _ _ _ H5) as (h & t & -> & [Sf _] & _). split; [exact Sf|discriminate].
  - split; [reflexivity|discriminate].
Qed.
Lemma inv_start s : inv 0 (St cx s [] [] true).
Proof. unfold inv. cbn. repeat split; auto; lia. Qed.
Lemma sfx_blank b0 s : T = b0 ++ s -> sfx 0 s T. Proof. intros ->. exists b0. split; [reflexivity|lia]. Qed.
Lemma lead_sfx n m s rest : lead f cx n m s rest -> sfx 0 rest s.
Proof.
  induction 1 as [s|d0 tok b1 n m s rest D Sp B1 S L IH|d0 tok bl e n m s0 s rest D Sp B1 S P W De L IH|b1 n m s rest B1 L IH].
  - apply sfx_refl.
  - eapply sfx_tr; [exact IH|]. exists (tok ++ b1). split; [now rewrite <- app_assoc|lia].
  - eapply sfx_tr; [exact IH|]. eapply sfx_tr; [|exact (derives_sfx _ _ _ De)]. exists (tok ++ bl). split; [now rewrite <- app_assoc|lia].
  - eapply sfx_tr; [exact IH|]. exists (40 :: b1). split; [reflexivity|lia].
Qed.
Lemma no_operand_head rest : no_operand_here cx rest -> peek rest <> 61.
Proof. intros [N|N]; [|lia]. destruct rest as [|c t]; [cbn; lia|]. cbn in N |- *. unfold quiet in Q. cbn in Q. lia. Qed.
Lemma missing_operand n m b0 s rest : T = b0 ++ s -> blanks b0 -> lead f cx n m s rest -> no_operand_here cx rest ->
  (0 < n)%nat \/ ((0 < m)%nat /\ peek rest <> 41) -> bad (eval pl cx (b0 ++ s) 10 OK).
Proof.
  intros ET B L N H. pose proof (sfx_blank _ _ ET) as SU. destruct (lead_start n m s rest L ltac:(lia)) as [S1 S2]. apply (bad_eval b0 s ET B S1 S2).
  change (start cx s 10 OK) with (St cx ([] ++ s) [] [] true).
  destruct (lead_runs n m s rest L (no_operand_head _ N) SU [] [] [] 0 (Forall_nil _) ltac:(cbn; lia) (inv_start _)) as [K|(k & vs & os & b & d & R & B' & V & LO & LV & NP)]; [exact K|].
  assert (sub (b ++ rest)) as SB.
  { unfold sub. rewrite (skip_b b rest B'). eapply sfx_tr; [apply skip_sfx|]. eapply sfx_tr; [exact (lead_sfx _ _ _ _ L)|exact SU]. }
  assert (forall fuel, bad (rounds fuel pl cx (St cx (b ++ rest) vs os true))) as BD.
  { intros fuel. apply (due_rounds b rest vs os d fuel B' N SB V). destruct H as [H|[H1 H2]]; [left; apply LV; now left|right]. split; [cbn in NP; lia|exact H2]. }
  (* the rounds that follow do not depend on the fuel once it is large enough *)
  exists (k + S (length (b ++ rest)))%nat, (rounds (S (length (b ++ rest))) pl cx (St cx (b ++ rest) vs os true)). split; [|apply BD].
  intros fuel. rewrite <- Nat.add_assoc. rewrite (R (S (length (b ++ rest)) + fuel)%nat).
  apply (rounds_fuel pl cx (good_all _ (tree_all f I)) TF); cbn [St s_scan]; [lia|lia|exact (inv_tot _ _ V)].
Qed.
Lemma missing_paren n m b0 s t1 e rest : T = b0 ++ s -> blanks b0 -> lead f cx n m s t1 -> derives f cx e t1 rest -> primary e -> well_nested e ->
  ends cx rest -> peek rest <> 41 -> (0 < m)%nat -> bad (eval pl cx (b0 ++ s) 10 OK).
Proof.
  intros ET B L De P W N NP M. pose proof (sfx_blank _ _ ET) as SU. destruct (lead_start n m s t1 L ltac:(lia)) as [S1 S2]. apply (bad_eval b0 s ET B S1 S2).
  change (start cx s 10 OK) with (St cx ([] ++ s) [] [] true).
  assert (peek t1 <> 61) as N1 by (destruct (derives_head f cx I _ _ _ De) as (h & t & -> & _ & _ & Y); exact Y).
  destruct (lead_runs n m s t1 L N1 SU [] [] [] 0 (Forall_nil _) ltac:(cbn; lia) (inv_start _)) as [K|(k & vs & os & b & d & R & B' & V & LO & LV & NPA)]; [exact K|].
  destruct (primary_reads e t1 rest vs os b De P W B' LO) as [(k2 & r & H & BD)|(k2 & v & b2 & B2 & R2)]; [apply V| |].
  { exists (k + k2)%nat, r. split; [exact (runs_halts f cx _ _ _ _ _ R H)|exact BD]. }
  pose proof (runs_trans f cx _ _ _ _ _ R R2) as R3.
  assert (exists s', step pl cx (St cx (b2 ++ rest) (v :: vs) os false) = Val (Break s') /\ s_os s' = os) as (s' & E & OS).
  { destruct (match rest with [] => true | c :: _ => c =? 59 end) eqn:ZZ.
    - unfold step. cbn [s_scan St]. rewrite (skip_b b2 _ B2). destruct (fam_eol_end f I (tl rest)) as [E0 E1].
      assert (p_eol pl (skipSpaces rest) = (true, rest)) as ->; [|eexists; split; reflexivity].
      destruct rest as [|c t]; [exact E0|]. apply Z.eqb_eq in ZZ. subst c. exact E1.
    - destruct rest as [|c t]; [discriminate|]. assert (c = 44 \/ c = 93) as C by (cbn in N, NP; unfold quiet in Q; cbn in Q; lia).
      assert (eol_safe f c) as Sf by (destruct C as [-> | ->]; [now apply eol44|now apply eol93]).
      assert ((c =? eoe cx os) = false) as EO by (unfold eoe; cbn in NPA; replace (npar os =? 0) with false by lia; destruct C as [-> | ->]; reflexivity).
      pose proof (infix_head f cx I b2 c t (v :: vs) os B2 Sf EO) as IH. unfold pl. rewrite IH. rewrite (fam_infix_none f I c) by (cbn; lia).
      unfold do_punct. open_st. rewrite (plain_ncall os) by apply V. cbn [Z.eqb]. rewrite (fam_open f I), (fam_close f I).
      destruct C as [-> | ->]; eexists; split; reflexivity. }
  exists (k + k2 + 1)%nat, (finish s'). split.
  - eapply runs_halts; [exact R3|]. intros n0. cbn [rounds Nat.add]. unfold pl in E. rewrite E. reflexivity.
  - intros v0 t x. unfold finish. destruct V as (_ & _ & C & _). cbn [St s_os] in C. rewrite <- OS in C. pose proof (ra_counts (s_os s') (s_vs s') (s_radix s') C) as RA.
    destruct (reduce_all _ _ _) as [[[e1 vs1] r1]| | | |]; cbn [bind]; try discriminate. destruct (isOK e1) eqn:O.
    + destruct (RA eq_refl) as (_ & _ & Z). rewrite OS in Z. cbn in NPA. lia.
    + intros [= _ X _ _]. revert X. apply err_not. intros ->. discriminate.
Qed.
(* a comparison of a comparison *)
Lemma rr_bad e s0 st vs os rest : derives f cx e s0 rest -> read_result f cx e s0 st vs os rest -> forall Q : Prop,
  (forall k sp vs' b, blanks b -> runs f cx k st (St cx (b ++ rest) vs' (sp ++ os) false) -> Forall (spine_ok f e) sp ->
    (forall kd, Forall (accept kd) sp -> outcome_is (value_of e) (red kd (sp ++ os) vs') (fun v => red kd os (v :: vs))) -> (length (sp ++ os) <= 8)%nat -> Q) ->
  ((exists k r, halts f cx k st r /\ bad r) -> Q) -> Q.
Proof.
  intros De R G A B. destruct R as [k sp vs' b B' R So Ou Ne Lv Kp Le Lo|k t H Kl X|k X Kl].
  - exact (A k sp vs' b B' R So Ou Lo).
  - apply B. exists k. eexists. split; [exact H|]. intros v t' x. discriminate.
  - apply B. exists k. exact (fails_bad _ _ _ X).
Qed.
Lemma chain_halts s0 vs os b0 : chain f cx s0 -> blanks b0 -> (length os <= 8)%nat -> Forall plainop os -> match os with [] => True | t :: _ => isOpenParen t = true end ->
  exists k r, halts f cx k (St cx (b0 ++ s0) vs os true) r /\ bad r.
Proof.
  intros C B0 LO F TP. destruct C as [d1 d2 a b tok2 bl2 s0 s2 D2 Sp2 B2 Se2 NA LV WN De].
  inversion De as [| | | |? tok1 bl1 ? ? ? s1 ? D1 Sp1 B1 Se1 Da Db| |]; subst. destruct WN as (WA & WB & WNa & WNb). 
  assert (level a < d_level d1) as LA by (destruct WA as [WA|[_ WA]]; [exact WA|congruence]).
  assert (level b < d_level d1) as LB by (destruct WB as [WB|(_ & _ & WB)]; [exact WB|congruence]).
  destruct (proj1 (proj2 (fam_tables f I)) d1 D1) as (_ & Lv1).
  assert (forall p q, below os p q) as FA by (intros p q; destruct os; [exact Logic.I|now left]).
  apply (rr_bad _ _ _ _ _ _ Da (reads f cx I Q a s0 _ Da WNa vs os b0 B0 LO (plain_top_of os F) (FA _ _))); [|auto].
  intros k sp va bx Bx Ru So Ou Lo.
  destruct (fam_infix_reads f I d1 tok1 (bl1 ++ s1) D1 Sp1 Se1) as (o & Rd & Im).
  destruct (op_head f d1 tok1 I (or_intror D1) Sp1) as (h & t & -> & Sf & X).
  assert (o_prec o = d_level d1) as Po by apply Im. assert (isOpenParen o = false) as NP by (unfold isOpenParen; lia).
  assert (o_assoc o = d_assoc d1) as Ao by apply Im.
  assert (forall e o', level e < o_prec o' -> forall sp, Forall (spine_ok f e) sp -> Forall (accept (RH o')) sp) as ACC.
  { intros e o' L' sp'. apply Forall_impl. intros x (A1 & A2 & A3 & A4). cbn [accept]. unfold isNoneAssoc, isHigher. lia. }
  assert (Forall (fun o => isOpenParen o = false) sp) as SPp by (revert So; apply Forall_impl; intros x (_ & A & _); exact A).
  destruct (eoe_plain cx sp os SPp) as [Eo Np]. pose proof (ncall_spine sp os (spine_fn _ _ _ So)) as Nc.
  pose proof (infix_head f cx I bx h (t ++ bl1 ++ s1) va (sp ++ os) Bx Sf (head_not cx Q h _ X)) as St1. cbn [app] in Rd. rewrite Rd in St1.
  cbn [app] in Ru. specialize (Ou (RH o) (ACC a o ltac:(lia) sp So)). cbn [red] in Ou.
  destruct (val_cases (value_of a)) as [[w Va]|[NV _]].
  2: { destruct (do_operator_fails cx o (bl1 ++ s1) va (sp ++ os)) as (G & DG & KG). rewrite DG in St1.
       pose proof (fail_step f cx _ _ _ _ _ St1 Ou NV KG) as FS. destruct (fails_bad _ _ _ (fails_after f cx _ _ _ _ _ Ru FS)) as (r & H & BD). eauto. }
  unfold do_operator in St1. cbn [St s_os s_vs s_radix] in St1. rewrite Va in Ou. cbn [outcome_is] in Ou. change (isOK OK) with true in Ou. cbv iota in Ou.
  pose proof (blocked o os (w :: vs) ltac:(lia) (FA _ _)) as Bk. cbn [red] in Bk. rewrite Bk in Ou. rewrite Ou in St1. cbn [bind isOK negb] in St1.
  unfold os_push in St1. destruct (os_full os) eqn:OF.
  { apply halts_return in St1. eexists _, _. split; [exact (runs_halts f cx _ _ _ _ _ Ru St1)|]. intros v0 t0 x0; cbn; discriminate. }
  apply runs_next in St1.
  assert (set_prefix (set_stacks (set_stacks (St cx (bl1 ++ s1) va (sp ++ os) false) (w :: vs) os 10) (w :: vs) (o :: os) 10) true = St cx (bl1 ++ s1) (w :: vs) (o :: os) true) as ES.
  { unfold set_prefix, set_stacks, St. cbn. rewrite Eo, Np, Nc. unfold eoe. cbn [npar ncall]. unfold isFunction. replace (o_fn o) with (@None functor) by (symmetry; apply Im). rewrite NP. reflexivity. }
  assert ((length (o :: os) <= 8)%nat) as LO' by (unfold os_full, CAPACITY in OF; cbn [length]; lia).
  pose proof (runs_trans f cx _ _ _ _ _ Ru St1) as R1. unfold set_prefix, set_stacks, St in ES, R1. cbn in ES, R1. rewrite ES in R1. clear ES St1 Ru.
  assert (plain_top (o :: os)) as FN by apply Im.
  apply (rr_bad _ _ _ _ _ _ Db (reads f cx I Q b s1 _ Db WNb (w :: vs) (o :: os) bl1 B1 LO' FN ltac:(cbn [below]; right; left; lia))).
  2: { intros (k2 & r & H & BD). exists (k + 1 + k2)%nat, r. split; [exact (runs_halts f cx _ _ _ _ _ R1 H)|exact BD]. }
  intros k2 sp2 vb by_ By Ru2 So2 Ou2 Lo2. pose proof (runs_trans f cx _ _ _ _ _ R1 Ru2) as R2.
  destruct (fam_infix_reads f I d2 tok2 (bl2 ++ s2) D2 Sp2 Se2) as (o2 & Rd2 & Im2).
  destruct (op_head f d2 tok2 I (or_intror D2) Sp2) as (h2 & t2 & -> & Sf2 & X2). cbn [app] in *.
  assert (o_prec o2 = d_level d2) as Po2 by apply Im2.
  pose proof (infix_head f cx I by_ h2 (t2 ++ bl2 ++ s2) vb (sp2 ++ o :: os) By Sf2 (head_not cx Q h2 _ X2)) as St2. rewrite Rd2 in St2.
  specialize (Ou2 (RH o2) (ACC b o2 ltac:(lia) sp2 So2)). cbn [red] in Ou2.
  destruct (val_cases (value_of b)) as [[w2 Vb]|[NV _]].
  2: { destruct (do_operator_fails cx o2 (bl2 ++ s2) vb (sp2 ++ o :: os)) as (G & DG & KG). rewrite DG in St2.
       pose proof (fail_step f cx _ _ _ _ _ St2 Ou2 NV KG) as FS. destruct (fails_bad _ _ _ (fails_after f cx _ _ _ _ _ R2 FS)) as (r & H & BD). eauto. }
  unfold do_operator in St2. cbn [St s_os s_vs s_radix] in St2. rewrite Vb in Ou2. cbn [outcome_is] in Ou2. change (isOK OK) with true in Ou2. cbv iota in Ou2.
  cbn [reduce_higher] in Ou2. assert (isNoneAssoc o o2 = true) as IN by (unfold isNoneAssoc; rewrite Po, Po2, LV, Ao, NA, Z.eqb_refl; reflexivity).
  rewrite IN in Ou2. rewrite Ou2 in St2. apply halts_return in St2. eexists _, _. split; [exact (runs_halts f cx _ _ _ _ _ R2 St2)|]. intros v0 t0 x0; cbn; discriminate.
Qed.
Lemma chain_head s0 : chain f cx s0 -> s0 <> [] /\ peek s0 <> 61 /\ is_space (peek s0) = false.
Proof.
  intros C. destruct C as [d1 d2 a b tok2 bl2 s0 s2 D2 Sp2 B2 Se2 NA LV WN De].
  destruct (derives_head f cx I _ _ _ De) as (h & t & -> & [S _] & _ & Y). split; [discriminate|]. split; [exact Y|exact S].
Qed.
Lemma chain_start b0 s : T = b0 ++ s -> blanks b0 -> chain f cx s -> bad (eval pl cx (b0 ++ s) 10 OK).
Proof.
  intros ET B C. destruct (chain_head s C) as (H1 & H2 & H3). apply (bad_eval b0 s ET B H3 H1).
  change (start cx s 10 OK) with (St cx ([] ++ s) [] [] true). apply chain_halts; auto; try constructor; cbn; lia.
Qed.
Lemma chain_paren n m b0 s b1 s1 : T = b0 ++ s -> blanks b0 -> lead f cx n m s (40 :: b1 ++ s1) -> blanks b1 -> chain f cx s1 -> bad (eval pl cx (b0 ++ s) 10 OK).
Proof.
  intros ET B L B1 C. pose proof (sfx_blank _ _ ET) as SU.
  assert (is_space (peek s) = false /\ s <> []) as [S1 S2].
  { destruct (Nat.eq_dec (n + m) 0) as [E|E]; [|apply (lead_start n m s _ L); lia]. inversion L; subst; try lia. split; [reflexivity|discriminate]. }
  apply (bad_eval b0 s ET B S1 S2). change (start cx s 10 OK) with (St cx ([] ++ s) [] [] true).
  destruct (lead_runs n m s _ L ltac:(cbn; lia) SU [] [] [] 0 (Forall_nil _) ltac:(cbn; lia) (inv_start _)) as [K|(k & vs & os & b & d & R & B' & V & LO & LV & NPA)]; [exact K|].
  destruct (open_facts f (b1 ++ s1) I) as (_ & Rd & _ & _ & Sf).
  pose proof (step_head f cx I b 40 (b1 ++ s1) vs os true B' Sf (head_not cx Q 40 os ltac:(cbn; lia))) as E1. rewrite Rd in E1.
  rewrite (open_operand f cx I) in E1.
  destruct (os_full os) eqn:OF.
  { destruct (step_halts (St cx (b ++ 40 :: b1 ++ s1) vs os true)) as (r & H & BD); [unfold pl; rewrite E1; cbn; discriminate|].
    exists (k + 1)%nat, r. split; [exact (runs_halts f cx _ _ _ _ _ R H)|exact BD]. }
  apply runs_next in E1. set (par := op_paren (vs_size vs)) in *.
  assert ((length (par :: os) <= 8)%nat) as LO' by (unfold os_full, CAPACITY in OF; cbn [length]; lia).
  assert (npar (par :: os) = npar os + 1) as Np by (cbn [npar]; change (isOpenParen par) with true; cbv iota; lia).
  pose proof (npar_range os) as Nr.
  assert (mkSt (b1 ++ s1) vs (par :: os) 0 ((npar os + 1) mod 256) true false (ncall os) 10 OK = St cx (b1 ++ s1) vs (par :: os) true) as E.
  { unfold St, eoe. rewrite Np, Z.mod_small by (cbn [length] in LO'; lia). replace (npar os + 1 =? 0) with false by lia. reflexivity. }
  rewrite E in E1. pose proof (runs_trans f cx _ _ _ _ _ R E1) as R1.
  assert (Forall plainop (par :: os)) as FP by (constructor; [left; split; reflexivity|apply V]).
  destruct (chain_halts s1 vs (par :: os) b1 C B1 LO' FP eq_refl) as (k2 & r & H & BD).
  exists (k + 1 + k2)%nat, r. split; [exact (runs_halts f cx _ _ _ _ _ R1 H)|exact BD].
Qed.
End Count.
