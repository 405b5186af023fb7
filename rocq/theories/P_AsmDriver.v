(** Passes of the assembler, for any set of processors. *)
From Coq Require Import ZArith List Bool Lia ZifyBool.
From Verif Require Import M_Char M_Error M_Value M_Text M_Insn M_Config M_Operators M_Parsers M_Expr M_BinMemory M_Symbols M_Sources M_AsmDriver
  S_Sources S_AsmDriver P_Sources.
Import ListNotations.
Local Open Scope Z_scope.

Lemma ok_eq e : isOK e = true -> e = OK.
Proof. destruct e; (reflexivity || discriminate). Qed.
(* ---------------------------------------------------------------- letters of a line *)
Lemma incl_skip t : incl (skipSpaces t) t.
Proof. unfold skipSpaces. induction t as [|c t IH]; cbn; [apply incl_refl|]. destruct (is_space c); [now apply incl_tl|apply incl_refl]. Qed.
Lemma incl_take p t : incl (fst (takeWhile p t)) t /\ incl (snd (takeWhile p t)) t.
Proof.
  induction t as [|c t (A & B)]; [split; apply incl_refl|]. cbn [takeWhile]. destruct (p c); [|split; [apply incl_nil_l|apply incl_refl]].
  destruct (takeWhile p t) as [a b]. cbn [fst snd] in *. split; [|now apply incl_tl]. apply incl_cons; [now left|now apply incl_tl].
Qed.
Lemma incl_expect c t t' : expect_char c t = Some t' -> incl t' t.
Proof. destruct t as [|d t]; [discriminate|]. cbn. destruct (d =? c); [|discriminate]. intros E. injection E as <-. apply incl_tl, incl_refl. Qed.
Lemma incl_insn y t : incl (snd (insn_letters y t)) t.
Proof.
  induction t as [|c t IH]; cbn [insn_letters]; [apply incl_refl|]. destruct (y_insn_letter y c); [|apply incl_refl].
  destruct (among (y_insn_end y) c); [apply incl_tl, incl_refl|]. destruct (insn_letters y t). now apply incl_tl.
Qed.
Lemma incl_instruction y t n p : readInstruction y t = Some (n, p) -> incl p t.
Proof.
  unfold readInstruction. pose proof (incl_insn y t) as H. destruct (insn_letters y t) as [[|c a] r]; [discriminate|].
  intros E. injection E as <- <-. exact H.
Qed.
Lemma incl_name first rest t n p : readName first rest t = Some (n, p) -> incl p t.
Proof.
  unfold readName. destruct t as [|c t]; [discriminate|]. destruct (first c); [|discriminate]. 
  pose proof (incl_take rest t) as (_ & H). destruct (takeWhile rest t) as [a b]. intros E. injection E as _ <-. now apply incl_tl.
Qed.
Lemma incl_label y t n p : readLabel y t = Some (n, p) -> incl p t.
Proof.
  unfold readLabel, readSymbol. destruct (readName _ _ t) as [[n' p']|] eqn:E; [|discriminate]. intros X. injection X as <- <-.
  apply incl_name in E. intros c H. apply E. unfold opt_char in H. destruct (expect_char (y_label_delim y) p') eqn:X; [|exact H].
  now apply incl_expect in X; apply X.
Qed.
Lemma incl_include t e n p : include_name t = (e, n, p) -> incl n t.
Proof.
  unfold include_name. intros H.
  assert (X : exists q t', (match expect_char DQUOTE t with Some t0 => (DQUOTE, t0)
     | None => match expect_char QUOTE t with Some t0 => (QUOTE, t0) | None => (0, t) end end) = (q, t') /\ incl t' t).
  { destruct (expect_char DQUOTE t) eqn:E1; [eexists _, _; split; [reflexivity|eapply incl_expect; eauto]|].
    destruct (expect_char QUOTE t) eqn:E2; [eexists _, _; split; [reflexivity|eapply incl_expect; eauto]|]. eexists _, _. split; [reflexivity|apply incl_refl]. }
  destruct X as (q & t' & X & I). rewrite X in H. destruct (q =? 0).
  - pose proof (incl_take (fun c => negb (is_space c)) t') as (A & _). destruct (takeWhile _ t') as [a b]. injection H as _ <- _. eapply incl_tran; eauto.
  - pose proof (incl_take (fun c => negb (c =? q)) t') as (A & _). destruct (takeWhile _ t') as [a b].
    destruct (expect_char q b); injection H as _ <- _; eapply incl_tran; eauto.
Qed.
Lemma incl_named {O} (f : ops O) o line name : eol_within f ->
  file_named (op_pl f o) (op_pseudos f o) line = Some name -> incl name line.
Proof.
  intros W. unfold file_named, pseudo_of, statement. destruct (fst (p_line (op_pl f o) line)); [discriminate|].
  set (p0 := match readLabel _ line with Some (_, p) => p | None => line end).
  assert (I0 : incl p0 line) by (unfold p0; destruct (readLabel _ line) as [[? ?]|] eqn:E; [eapply incl_label; eauto|apply incl_refl]).
  pose proof (W o (skipSpaces p0)) as I1. destruct (p_eol (op_pl f o) (skipSpaces p0)) as [[|] scan]; [discriminate|]. cbn [snd] in I1.
  set (r := match readInstruction _ scan with Some r => r | None => ([], scan) end).
  assert (I2 : incl (snd r) scan).
  { unfold r. destruct (readInstruction _ scan) as [[? ?]|] eqn:E; [eapply incl_instruction; eauto|apply incl_refl]. }
  destruct r as [n p]. cbn [snd] in I2. destruct (pseudo_find n _) as [[]|]; try discriminate.
  destruct (include_name (skipSpaces p)) as [[e nm] q] eqn:E. destruct e; try discriminate. intros X. injection X as <-.
  apply incl_include in E. eapply incl_tran; [exact E|]. eapply incl_tran; [apply incl_skip|]. eapply incl_tran; [exact I2|].
  eapply incl_tran; [exact I1|]. eapply incl_tran; [apply incl_skip|exact I0].
Qed.

(* ---------------------------------------------------------------- what a line does to the open files *)
Lemma define_sources {O} (v : env O) pl loc symbol var s s' : defineSymbol v pl loc symbol var s = Val s' -> l_sources s' = l_sources s.
Proof.
  unfold defineSymbol. destruct (_ && _); [intros E; injection E as <-; reflexivity|].
  destruct (eval _ _ _ _ _) as [[[[val e] scan] ?]| | | |]; cbn [bind]; try discriminate.
  destruct (hasError e); [intros E; injection E as <-; reflexivity|]. destruct (_ && _); [intros E; injection E as <-; reflexivity|].
  destruct (internSymbol _ _ _ _) as [e' st']. intros E; injection E as <-. reflexivity.
Qed.
Lemma pseudo_sources {O} (v : env O) pl ps loc name s e s' : processPseudo v pl ps loc name s = Val (e, s') ->
  match pseudo_find name ps with
  | Some P_INCLUDE => (e, s') = includeFile v s
  | _ => l_sources s' = l_sources s
  end.
Proof.
  unfold processPseudo. destruct (pseudo_find name ps) as [[]|]; intros E.
  - injection E as E. unfold switchCpu in E. destruct (takeWhile _ _) as [cpu scan]. cbv zeta in E. destruct (drv_setCpu _ _ _); injection E as _ <-; reflexivity.
  - injection E as E. auto.
  - injection E as _ <-. reflexivity.
  - unfold defineLabel in E. destruct (defineSymbol _ _ _ _ _ _) as [t| | | |] eqn:D; cbn [bind] in E; try discriminate. injection E as _ <-. apply define_sources in D. exact D.
  - unfold defineLabel in E. destruct (defineSymbol _ _ _ _ _ _) as [t| | | |] eqn:D; cbn [bind] in E; try discriminate. injection E as _ <-. apply define_sources in D. exact D.
  - unfold setVariable in E. destruct (negb _); [injection E as _ <-; reflexivity|]. destruct (readSymbol _ _) as [[sy p]|]; [|injection E as _ <-; reflexivity].
    destruct (expect_char _ _) as [p'|]; [|injection E as _ <-; reflexivity].
    destruct (defineSymbol _ _ _ _ _ _) as [t| | | |] eqn:D; cbn [bind] in E; try discriminate. injection E as _ <-. apply define_sources in D. exact D.
  - injection E as E. unfold defineFunction in E. destruct (Nat.eqb _ _); [injection E as _ <-; reflexivity|]. destruct (function_params _ _ _) as [params body]. cbv zeta in E.
    destruct (_ && _); [injection E as _ <-; reflexivity|]. destruct (internFunction _ _ _ _ _) as [e' st']. injection E as _ <-. reflexivity.
  - injection E as _ <-. reflexivity.
Qed.
Definition opened {O} (v : env O) (o : O) (line : text) (src : sources) (n : encoded O) : Prop :=
  match file_named (op_pl (e_ops v) o) (op_pseudos (e_ops v) o) line with
  | None => n_sources n = src
  | Some name => n_sources n = snd (open (e_files v) name src) /\
                 (fst (open (e_files v) name src) <> OK -> n_err n = fst (open (e_files v) name src))
  end.
Lemma keep_first e e' : e <> OK -> setErrorIfAt e e' = e.
Proof. unfold setErrorIfAt. intros N. destruct (isOK e) eqn:X; [|reflexivity]. now apply ok_eq in X. Qed.
Lemma dir_sources {O} (v : env O) k o line i d src n : dir_encode v k o line i d src = Val n -> opened v o line src n /\ n_ret n = n_err n.
Proof.
  unfold dir_encode, opened, file_named, pseudo_of, statement. destruct (fst (p_line _ line)); [intros E; injection E as <-; auto|].
  replace (match readLabel (p_symbol (op_pl (e_ops v) o)) line with Some (_, p) => p | None => line end)
    with (snd (match readLabel (p_symbol (op_pl (e_ops v) o)) line with Some r => r | None => ([], line) end))
    by (destruct (readLabel _ line) as [[? ?]|]; reflexivity).
  destruct (match readLabel _ line with Some r => r | None => ([], line) end) as [label scan0]. cbn [snd].
  destruct (p_eol _ (skipSpaces scan0)) as [eol scan]. cbv zeta. set (s := mkLst OK scan label v_undef d src).
  destruct eol.
  - cbn [bind]. set (s1 := if Nat.eqb _ 0 then s else _). assert (X : l_sources s1 = src) by (unfold s1; destruct (Nat.eqb _ 0); [reflexivity|]; destruct (_ && _); reflexivity).
    change (negb (err_eqb OK UNKNOWN_DIRECTIVE)) with true. cbv iota. intros E. injection E as <-. cbn [n_sources n_ret n_err]. auto.
  - set (r := match readInstruction _ scan with Some r => r | None => ([], scan) end). destruct r as [name p].
    destruct (processPseudo _ _ _ _ _ _) as [[e s1]| | | |] eqn:PP; cbn [bind]; try discriminate. apply pseudo_sources in PP.
    destruct (p_eol _ (l_scan s1)) as [eol2 p2]. cbv zeta. set (s2 := if isOK e && negb eol2 then _ else s1).
    cbn [bind]. set (s3 := if Nat.eqb (length (l_label s2)) 0 then s2 else _).
    assert (X3 : l_sources s3 = l_sources s1).
    { assert (X2 : l_sources s2 = l_sources s1) by (unfold s2; destruct (isOK e && negb eol2); reflexivity).
      rewrite <- X2. clearbody s2. unfold s3. destruct (Nat.eqb _ _); [reflexivity|]. destruct (reportDuplicate v && _); reflexivity. }
    match goal with |- (if _ then _ else ?T) = _ -> _ => set (rest := T) end.
    assert (GEN : l_sources s1 = src -> (if negb (err_eqb e UNKNOWN_DIRECTIVE) then
       Val (mkEnc (l_err s3) (l_err s3) (l_value s3) i (i_addr i) (l_drv s3) (l_sources s3)) else rest) = Val n -> n_sources n = src /\ n_ret n = n_err n).
    { intros S1. destruct (negb (err_eqb e UNKNOWN_DIRECTIVE)); [intros E; injection E as <-; cbn [n_sources n_ret n_err]; split; congruence|].
      unfold rest. destruct (p_eol _ scan) as [eol4 scan4]. destruct eol4; [intros E; injection E as <-; cbn [n_sources n_ret n_err]; split; congruence|].
      destruct (op_encode _ _ _ _ _ _) as [[[i' loc'] o']| | | |]; cbn [bind]; try discriminate.
      cbv zeta. destruct (_ && _); intros E; injection E as <-; cbn [n_sources n_ret n_err]; split; congruence. }
    destruct (pseudo_find name _) as [[]|] eqn:PF; try (intros E; apply GEN in E; [exact E|exact PP]).
    clear GEN. unfold includeFile in PP. cbn [l_scan ls_scan l_sources l_err s] in PP. 
    destruct (include_name (skipSpaces p)) as [[ie nm] q] eqn:IN.
    destruct (isOK ie) eqn:OKE; cbn [negb] in PP.
    2:{ injection PP as -> ->. 
        assert (NE : ie <> OK) by (intros ->; discriminate).
        assert (NU : err_eqb ie UNKNOWN_DIRECTIVE = false).
        { unfold include_name in IN. destruct (expect_char DQUOTE _); [|destruct (expect_char QUOTE _)]; 
          repeat match type of IN with context [if ?b then _ else _] => change b with false in IN || change b with true in IN; cbv iota in IN end;
          destruct (takeWhile _ _); try (injection IN as <- _ _; reflexivity);
          destruct (expect_char _ _); injection IN as <- _ _; reflexivity. }
        rewrite NU. cbn [negb]. intros E. injection E as <-. cbn [n_sources n_ret n_err]. 
        destruct ie; try congruence; (split; [exact X3|reflexivity]). }
    apply ok_eq in OKE. subst ie.
    destruct (open (e_files v) nm src) as [oe os] eqn:OP. injection PP as -> ->. cbn [fst snd].
    assert (NU : err_eqb oe UNKNOWN_DIRECTIVE = false).
    { unfold open in OP. destruct (_ <=? _); [injection OP as <- _; reflexivity|]. destruct (e_files v _); injection OP as <- _; reflexivity. }
    rewrite NU. cbn [negb]. intros E. injection E as <-. cbn [n_sources n_ret n_err]. rewrite X3. cbn [l_sources ls_scan ls_sources ls_err].
    split; [|reflexivity]. split; [reflexivity|]. intros NE.
    assert (E2 : l_err s2 = oe).
    { unfold s2. assert (isOK oe = false) as -> by (destruct (isOK oe) eqn:X; [|reflexivity]; now apply ok_eq in X).
      cbn [andb l_err ls_scan ls_sources ls_err]. unfold setErrorIfAt. cbn. destruct (isOK oe) eqn:X; [now apply ok_eq in X|]. reflexivity. }
    unfold s3. clearbody s2. destruct (Nat.eqb _ _); [exact E2|]. destruct (reportDuplicate v && _); [|exact E2]. cbn [l_err ls_err]. rewrite E2. now apply keep_first.
Qed.

(* ---------------------------------------------------------------- the lines of a pass *)
Lemma line_sources {O} (v : env O) line p e p' : pass_line v line p = Val (e, p') ->
  exists o t, ps_items p' = t :: ps_items p /\ it_line t = line /\ e = it_err t /\
    match file_named (op_pl (e_ops v) o) (op_pseudos (e_ops v) o) line with
    | None => ps_sources p' = ps_sources p
    | Some name => ps_sources p' = snd (open (e_files v) name (ps_sources p)) /\
        (fst (open (e_files v) name (ps_sources p)) <> OK -> it_err t = fst (open (e_files v) name (ps_sources p)))
    end.
Proof.
  unfold pass_line. destruct (nth_error _ _) as [o|]; [|discriminate].
  destruct (dir_encode _ _ _ _ _ _ _) as [n| | | |] eqn:D; cbn [bind]; try discriminate. apply dir_sources in D. destruct D as (D & R).
  destruct (nth_error _ _) as [o'|]; [|discriminate]. intros E. injection E as <- <-. cbn [ps_sources ps_items].
  exists o. eexists. split; [reflexivity|]. cbn [it_line it_err]. split; [reflexivity|]. split; [exact R|].
  exact D.
Qed.
Lemma expand_any fs ls : exists ev, expand_stack fs ls ev.
Proof.
  induction ls as [|(path, l) rest (b & IH)]; [now exists []|]. cbn [expand_stack].
  assert (X : exists a, expands fs (length ((path, l) :: rest)) path l a).
  { generalize (length ((path, l) :: rest)). intros d. induction l as [|x l (a & A)]; [exists []; constructor|]. eexists. apply E_plain. exact A. }
  destruct X as (a & A). exists (a ++ b), a, b. auto.
Qed.
Lemma same_next fs path rest ev : expand_stack fs rest ev -> expand_stack fs ((path, []) :: rest) ev.
Proof. intros E. cbn. exists [], ev. repeat split; [constructor|exact E]. Qed.
(* what a pass over the lines of a stack of files does *)
Definition over {O} (v : env O) (ls : list level) (p : pass O) (r : res (pass O)) : Prop :=
  match r with
  | Val p' => exists ev1 ev2 items, ps_items p' = rev items ++ ps_items p /\ expand_stack (e_files v) ls (ev1 ++ ev2) /\
      Forall2 (listed (e_ops v)) ev1 items /\ (ev2 = [] \/ exists l t, items = l ++ [t] /\ it_err t = END_ASSEMBLE)
  | UB => exists line q, pass_line v line q = UB
  | OOB => exists line q, pass_line v line q = OOB
  | FUEL => exists line q, pass_line v line q = FUEL
  | FLOAT => exists line q, pass_line v line q = FLOAT
  end.
Definition passes_over {O} (v : env O) (ls : list level) : Prop :=
  forall p, stacked (ps_sources p) ls -> exists N, forall fuel, (N <= fuel)%nat -> over v ls p (pass_lines fuel v p).
Lemma pass_nil {O} (v : env O) : passes_over v [].
Proof.
  intros p H. exists 1%nat. intros [|fuel] L; [lia|]. cbn [pass_lines]. pose proof (readLine_next _ _ H) as R. cbn [next_line] in R. rewrite R.
  cbn [bind over]. exists [], [], []. repeat split; auto.
Qed.
Lemma pass_empty {O} (v : env O) path rest : passes_over v rest -> passes_over v ((path, []) :: rest).
Proof.
  intros T p H. 
  inversion H as [|r ? s ? HR F EQ]; subst. symmetry in EQ. destruct HR as (R & _). destruct (reader_end r R) as (r' & E).
  destruct (T (mkPass (ps_drv p) s (ps_memory p) (ps_origin p) (ps_insn p) (ps_items p)) F) as (N & TN). exists N.
  intros fuel L. specialize (TN fuel L).
  assert (X : pass_lines fuel v p = pass_lines fuel v (mkPass (ps_drv p) s (ps_memory p) (ps_origin p) (ps_insn p) (ps_items p))).
  { destruct fuel as [|fuel]; [reflexivity|]. cbn [pass_lines ps_sources ps_drv ps_memory ps_origin ps_insn ps_items]. rewrite EQ. cbn [readLine]. rewrite E. cbn [bind].
    destruct (readLine s) as [[[?|] ?]| | | |]; reflexivity. }
  rewrite X. destruct (pass_lines fuel v _) as [p'| | | |]; try exact TN. cbn [over ps_items] in *.
  destruct TN as (ev1 & ev2 & items & A & B & C). exists ev1, ev2, items. split; [exact A|]. split; [now apply same_next|exact C].
Qed.
Lemma text_nonul l : text_line l -> ~ In 0 l.
Proof. intros T I. unfold text_line in T. rewrite Forall_forall in T. destruct (T _ I). congruence. Qed.
Lemma end_stop e : err_eqb e END_ASSEMBLE = true -> e = END_ASSEMBLE.
Proof. destruct e; (reflexivity || discriminate). Qed.
Lemma pass_push {O} (v : env O) : text_files (e_files v) -> eol_within (e_ops v) ->
  forall k rest, (length rest + k = 4)%nat -> passes_over v rest -> forall path ls, passes_over v ((path, ls) :: rest).
Proof.
  intros TF EW. induction k as [k IHk] using lt_wf_ind. intros rest L T path ls. induction ls as [|l ls IHl]; [now apply pass_empty|].
  intros p H. pose proof (readLine_next _ _ H) as R. cbn [next_line] in R. destruct R as (s' & RL & ST & TL).
  set (p0 := mkPass (ps_drv p) s' (ps_memory p) (ps_origin p) (ps_insn p) (ps_items p)).
  assert (STEP : forall fuel, pass_lines (S fuel) v p = bind (pass_line v l p0) (fun '(e, p) => if err_eqb e END_ASSEMBLE then Val p else pass_lines fuel v p)).
  { intros fuel. cbn [pass_lines]. rewrite RL. reflexivity. }
  destruct (pass_line v l p0) as [[e p1]| | | |] eqn:PL; cbn [bind] in STEP;
    try (exists 1%nat; intros [|fuel] LF; [lia|]; rewrite STEP; cbn [over]; exists l, p0; exact PL).
  apply line_sources in PL. destruct PL as (o & t & IT & LT & -> & SRC). cbn [ps_items ps_sources p0] in IT, SRC.
  (* what follows *)
  assert (FOLLOW : forall levels f, stacked (ps_sources p1) levels -> passes_over v levels -> listed (e_ops v) (l, f) t ->
     (forall ev, expand_stack (e_files v) levels ev -> expand_stack (e_files v) ((path, l :: ls) :: rest) ((l, f) :: ev)) ->
     exists N, forall fuel, (N <= fuel)%nat -> over v ((path, l :: ls) :: rest) p (pass_lines fuel v p)).
  { intros levels f SL PO LI EX. destruct (PO p1 SL) as (N & PN). exists (S N). intros [|fuel] LF; [lia|]. rewrite STEP.
    destruct (err_eqb (it_err t) END_ASSEMBLE) eqn:EA.
    - apply end_stop in EA. cbn [over]. destruct (expand_any (e_files v) levels) as (ev & EV). exists [(l, f)], ev, [t].
      rewrite IT. split; [reflexivity|]. split; [apply EX; exact EV|]. split; [constructor; [exact LI|constructor]|]. right. exists [], t. auto.
    - specialize (PN fuel ltac:(lia)). destruct (pass_lines fuel v p1) as [p2| | | |]; try exact PN. cbn [over] in *.
      destruct PN as (ev1 & ev2 & items & A & B & C & D). exists ((l, f) :: ev1), ev2, (t :: items). rewrite A, IT. split; [cbn [rev]; now rewrite <- app_assoc|].
      split; [apply EX; exact B|]. split; [constructor; assumption|]. destruct D as [D|(i & u & -> & EU)]; [now left|right]. exists (t :: i), u. auto. }
  destruct (file_named _ _ l) as [name|] eqn:FN.
  - assert (NN : ~ In 0 name). { intros I0. apply (incl_named _ _ _ _ EW FN) in I0. now apply text_nonul in I0. }
    destruct SRC as (SRC & ER). destruct (open_named (e_files v) name s' path ls rest TF NN ST) as (q & LD & C).
    destruct C as [(D & OP)|[(D & NF & OP)|(D & content & ls' & tail & s1 & FC & FL & OP & ST1)]]; rewrite OP in SRC, ER; cbn [fst snd] in SRC, ER.
    + apply (FOLLOW ((path, ls) :: rest) (Refused name)); [now rewrite SRC|exact IHl| |].
      * unfold listed. cbn [fst snd]. split; [exact LT|]. split; [now exists o|]. left. apply ER. discriminate.
      * cbn [expand_stack length]. intros ev (a & b & -> & A & B). exists ((l, Refused name) :: a), b. split; [reflexivity|]. split; [|exact B].
        eapply E_refused; [exact LD|left; unfold level in *; cbn [length] in *; lia|exact A].
    + apply (FOLLOW ((path, ls) :: rest) (Refused name)); [now rewrite SRC|exact IHl| |].
      * unfold listed. cbn [fst snd]. split; [exact LT|]. split; [now exists o|]. right. apply ER. discriminate.
      * cbn [expand_stack length]. intros ev (a & b & -> & A & B). exists ((l, Refused name) :: a), b. split; [reflexivity|]. split; [|exact B].
        eapply E_refused; [exact LD|right; exact NF|exact A].
    + apply (FOLLOW ((q, ls') :: (path, ls) :: rest) (Included name)); [now rewrite SRC| | |].
      * unfold level in *. apply (IHk (k - 1)%nat); [lia|cbn [length]; lia|exact IHl].
      * unfold listed. cbn [fst snd]. split; [exact LT|]. now exists o.
      * cbn [expand_stack length]. intros ev (a & b & -> & A & c & d & -> & B & C). exists ((l, Included name) :: a ++ c), d. split; [cbn [app]; now rewrite <- app_assoc|].
        split; [|exact C]. eapply E_include; eauto.
  - apply (FOLLOW ((path, ls) :: rest) Plain); [now rewrite SRC|exact IHl| |].
    + unfold listed. cbn [fst snd]. split; [exact LT|]. now exists o.
    + cbn [expand_stack length]. intros ev (a & b & -> & A & B). exists ((l, Plain) :: a), b. split; [reflexivity|]. split; [|exact B]. now apply E_plain.
Qed.
Lemma pass_reads {O} (v : env O) input content ls tail d : text_files (e_files v) -> eol_within (e_ops v) ->
  ~ In 0 input -> e_files v input = Some content -> file_lines content ls tail ->
  exists src, open (e_files v) input [] = (OK, src) /\ exists N, forall fuel, (N <= fuel)%nat ->
  match assemble fuel v d src with
  | Val p => exists ev1 ev2, expands (e_files v) 1 input ls (ev1 ++ ev2) /\ Forall2 (listed (e_ops v)) ev1 (rev (ps_items p)) /\
      (ev2 = [] \/ exists t ts, ps_items p = t :: ts /\ it_err t = END_ASSEMBLE)
  | UB => exists line q, pass_line v line q = UB
  | OOB => exists line q, pass_line v line q = OOB
  | FUEL => exists line q, pass_line v line q = FUEL
  | FLOAT => exists line q, pass_line v line q = FLOAT
  end.
Proof.
  intros TF EW N E F. destruct (TF _ _ E) as (R & _). destruct (open_first _ _ _ _ _ N E R F) as (s & O1 & ST). exists s. split; [exact O1|].
  destruct (pass_push v TF EW 4%nat [] eq_refl (pass_nil v) input ls (mkPass d s M_BinMemory.empty 0 (new_insn 0) []) ST) as (M & H).
  exists M. intros fuel L. specialize (H fuel L). unfold assemble. destruct (pass_lines fuel v _) as [p| | | |]; try exact H.
  destruct H as (ev1 & ev2 & items & A & B & C & D). cbn [ps_items] in A. rewrite app_nil_r in A. exists ev1, ev2.
  cbn [expand_stack length] in B. destruct B as (a & b & EQ & B & ->). rewrite app_nil_r in EQ. rewrite EQ. split; [exact B|].
  rewrite A, rev_involutive. split; [exact C|]. destruct D as [D|(l & t & -> & ET)]; [now left|right]. exists t, (rev l). rewrite rev_app_distr. auto.
Qed.
