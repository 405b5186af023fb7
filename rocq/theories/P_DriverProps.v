(** The remaining lemmas about lines and passes. *)
From Coq Require Import String ZArith List Bool Lia.
From Verif Require Import M_Char M_Error M_Value M_Text M_Insn M_Config M_Operators M_Parsers M_Expr M_BinMemory M_Symbols M_Sources
  M_HexFile M_AsmDriver M_AsmI8080 M_AsmMn1610 M_I8080 M_I8080Defs S_ByteMap S_Memory S_Insn S_Expr S_Sources S_AsmDriver P_BinMemory P_Insn P_Symbols P_Sources P_AsmDriver
  P_AsmBytes P_AsmPass P_HexProps.
Import ListNotations.
Open Scope string_scope.
Open Scope list_scope.
Local Open Scope Z_scope.

(* ------------------------------------------------------------ comments *)
Lemma incl_nil_l' {A} (l : list A) : incl [] l. Proof. intros x []. Qed.
Lemma families_eol pl t : In pl S_Expr.all_families -> incl (snd (p_eol pl t)) t.
Proof.
  assert (A : forall t, snd (eol_semicolon t) = skipSpaces t) by reflexivity.
  assert (B : forall t, snd (eol_star t) = skipSpaces t) by reflexivity.
  assert (C : forall t, snd (eol_sharp t) = skipSpaces t) by reflexivity.
  assert (D : forall t, snd (eol_pdp8 t) = t) by reflexivity.
  unfold S_Expr.all_families, S_Expr.families. cbn [app In].
  intros H. repeat match goal with H : _ \/ _ |- _ => destruct H as [<-|H] end; try contradiction;
    cbv [mkP' pl_default pl_intel pl_motorola pl_texas pl_zilog pl_i8080 pl_i8086 pl_z80 pl_z8 pl_z8000 pl_mc68000 pl_mos6502 pl_cdp1802 pl_f3850
         pl_ins8060 pl_ins8070 pl_mn1610 pl_ns32000 pl_pdp8 pl_scn2650 pl_tms32010 pl_pdp11 p_eol];
    rewrite ?A, ?B, ?C, ?D; try apply incl_refl; apply incl_skip.
Qed.
Lemma known_eol {O} (f : ops O) : (forall o, In (op_pl f o) S_Expr.all_families) -> eol_within f.
Proof. intros H o t. apply families_eol. apply H. Qed.
Lemma ops_8080_known : forall o, In (op_pl ops_8080 o) S_Expr.all_families.
Proof. intros o. cbn [op_pl ops_8080]. unfold S_Expr.all_families, S_Expr.families. cbn [app In]. tauto. Qed.
Lemma ops_1610_known : forall o, In (op_pl ops_1610 o) S_Expr.all_families.
Proof. intros o. cbn [op_pl ops_1610]. unfold S_Expr.all_families, S_Expr.families. cbn [app In]. tauto. Qed.

(* ------------------------------------------------------------ programs given as a list of lines *)
Definition source (l : list string) : text := file_of (map s2l l) [].
Definition a_asm : text := s2l "a.asm".
Definition only (l : list string) : files := fun n => if key_eqb n a_asm then Some (source l) else None.

(* ------------------------------------------------------------ a program that never settles *)
Definition cycle : list string := [" ORG 100-L"; "L: NOP"].
Definition cyc_drv (v : Z) : drv i8080 := mkDrv [new_i8080] 0 (mkS [(s2l "L", setUnsigned v)] [] []).
Definition cyc_env (r : bool) : env i8080 := mkEnv ops_8080 (only cycle) 10 r.
Definition cyc_src : sources := match open (only cycle) a_asm [] with (_, s) => s end.
Definition cyc_pass (r : bool) (d : drv i8080) : pass i8080 :=
  match assemble 5 (cyc_env r) d cyc_src with Val p => p | _ => mkPass d [] [] 0 (new_insn 0) [] end.
Definition d_first : drv i8080 := mkDrv [new_i8080] 0 empty_store.
Lemma cyc_any r d fuel : (exists p, assemble 5 (cyc_env r) d cyc_src = Val p) ->
  assemble fuel (cyc_env r) d cyc_src = FUEL \/ assemble fuel (cyc_env r) d cyc_src = Val (cyc_pass r d).
Proof. intros (p & E). unfold cyc_pass. rewrite E. eapply assemble_fuel. exact E. Qed.
Lemma cyc_loop passes : forall fuel n prev a b, (a, b) = (100, 0) \/ (a, b) = (0, 100) -> n <> 0%nat ->
  prev = writes [(a, 0)] -> forall r, pass_loop passes fuel (cyc_env false) None a_asm n prev (cyc_drv a) <> Val r.
Proof.
  induction passes as [|passes IH]; intros fuel n prev a b AB N P r; cbn [pass_loop]; [discriminate|].
  change (open (e_files (cyc_env false)) a_asm []) with (OK, cyc_src). cbv iota beta zeta.
  change (e_ops (cyc_env false)) with ops_8080. change (e_files (cyc_env false)) with (only cycle). change (e_depth (cyc_env false)) with 10%nat.
  cbn [select_cpu]. change (mkDrv _ _ _) with (cyc_drv a). destruct n as [|n]; [contradiction|]. cbn [Nat.eqb negb]. change (mkEnv _ _ _ true) with (cyc_env true).
  destruct (cyc_any true (cyc_drv a) fuel) as [E|E].
  - destruct AB as [X|X]; injection X as -> ->; eexists; vm_compute; reflexivity.
  - rewrite E. cbn [bind]. discriminate.
  - rewrite E. cbn [bind]. subst prev. 
    assert (K : ps_errors (cyc_pass true (cyc_drv a)) = false /\ ps_memory (cyc_pass true (cyc_drv a)) = writes [(b, 0)] /\ ps_drv (cyc_pass true (cyc_drv a)) = cyc_drv b /\ mem_eqb (writes [(b, 0)]) (writes [(a, 0)]) = false).
    { destruct AB as [X|X]; injection X as -> ->; repeat split; vm_compute; reflexivity. }
    destruct K as (K1 & K2 & K3 & K4). rewrite K1, K2, K3, K4. cbn [negb andb orb]. apply (IH fuel (S (S n)) (writes [(b, 0)]) b a); auto.
    destruct AB as [X|X]; injection X as -> ->; auto.
Qed.
Lemma cyc_never passes fuel r : run_asm passes fuel 10 ops_8080 (only cycle) None a_asm [new_i8080] <> Val r.
Proof.
  unfold run_asm. cbn [select_cpu]. cbn [dr_objs dr_cur]. change (mkEnv _ _ _ false) with (cyc_env false).
  destruct passes as [|passes]; cbn [pass_loop]; [discriminate|].
  change (open (e_files (cyc_env false)) a_asm []) with (OK, cyc_src). cbv iota beta zeta.
  change (e_ops (cyc_env false)) with ops_8080. change (e_files (cyc_env false)) with (only cycle). change (e_depth (cyc_env false)) with 10%nat.
  cbn [select_cpu]. change (mkDrv _ _ _) with d_first. cbn [Nat.eqb negb]. change (mkEnv _ _ _ false) with (cyc_env false).
  destruct (cyc_any false d_first fuel) as [E|E].
  - eexists. vm_compute. reflexivity.
  - rewrite E. cbn [bind]. discriminate.
  - rewrite E. cbn [bind].
    assert (K : ps_errors (cyc_pass false d_first) = false /\ ps_memory (cyc_pass false d_first) = writes [(0, 0)] /\ ps_drv (cyc_pass false d_first) = cyc_drv 0 /\ mem_eqb (writes [(0, 0)]) M_BinMemory.empty = false) by (repeat split; vm_compute; reflexivity).
    destruct K as (K1 & K2 & K3 & K4). rewrite K1, K2, K3, K4. cbn [negb andb orb]. apply (cyc_loop passes fuel 1 (writes [(0, 0)]) 0 100); auto.
Qed.

(* ------------------------------------------------------------ lines with a pseudo instruction *)
Definition label_step {O} (v : env O) (addr : Z) (s : lst O) : lst O :=
  if Nat.eqb (length (l_label s)) 0 then s
  else if reportDuplicate v && hasSymbol (l_label s) (l_store s) then ls_err (setErrorIfAt (l_err s) DUPLICATE_LABEL) s
  else ls_store (snd (internSymbol (setUnsigned addr) (l_label s) false (l_store s))) s.
Lemma dir_pseudo {O} (v : env O) k o line i d src n h operand : dir_encode v k o line i d src = Val n ->
  pseudo_of (op_pl (e_ops v) o) (op_pseudos (e_ops v) o) line = Some (h, operand) ->
  exists name e s s2, pseudo_find name (op_pseudos (e_ops v) o) = Some h /\
    processPseudo v (op_pl (e_ops v) o) (op_pseudos (e_ops v) o) (i_addr i) name
      (mkLst OK operand (label_of (op_pl (e_ops v) o) line) v_undef d src) = Val (e, s) /\
    s2 = (if isOK e && negb (fst (p_eol (op_pl (e_ops v) o) (l_scan s))) then ls_err GARBAGE_AT_END s else s) /\
    (e <> UNKNOWN_DIRECTIVE -> n_err n = l_err (label_step v (i_addr i) s2) /\ n_ret n = n_err n).
Proof.
  unfold dir_encode, pseudo_of, statement, label_of. destruct (fst (p_line _ line)); [discriminate|].
  destruct (readLabel (p_symbol (op_pl (e_ops v) o)) line) as [[label p0]|].
  - destruct (p_eol _ (skipSpaces p0)) as [eol scan]. destruct eol; [discriminate|]. cbv zeta.
    destruct (match readInstruction _ scan with Some r => r | None => ([], scan) end) as [name p].
    intros E F. destruct (pseudo_find name _) as [h'|] eqn:PF; [|discriminate]. injection F as -> <-.
    unfold ls_scan in E at 1. cbn [l_err l_label l_value l_drv l_sources] in E.
    destruct (processPseudo _ _ _ _ name _) as [[e s]| | | |] eqn:PP; cbn [bind] in E; try discriminate.
    exists name, e, s. eexists. split; [exact PF|]. split; [exact PP|]. split; [reflexivity|]. intros NE.
    destruct (p_eol _ (l_scan s)) as [eol2 p2]. cbn [bind fst] in *.
    assert (X : negb (err_eqb e UNKNOWN_DIRECTIVE) = true) by (destruct e; try reflexivity; contradiction).
    rewrite X in E. injection E as <-. cbn [n_err n_ret]. split; reflexivity.
  - destruct (p_eol _ (skipSpaces line)) as [eol scan]. destruct eol; [discriminate|]. cbv zeta.
    destruct (match readInstruction _ scan with Some r => r | None => ([], scan) end) as [name p].
    intros E F. destruct (pseudo_find name _) as [h'|] eqn:PF; [|discriminate]. injection F as -> <-.
    unfold ls_scan in E at 1. cbn [l_err l_label l_value l_drv l_sources] in E.
    destruct (processPseudo _ _ _ _ name _) as [[e s]| | | |] eqn:PP; cbn [bind] in E; try discriminate.
    exists name, e, s. eexists. split; [exact PF|]. split; [exact PP|]. split; [reflexivity|]. intros NE.
    destruct (p_eol _ (l_scan s)) as [eol2 p2]. cbn [bind fst] in *.
    assert (X : negb (err_eqb e UNKNOWN_DIRECTIVE) = true) by (destruct e; try reflexivity; contradiction).
    rewrite X in E. injection E as <-. cbn [n_err n_ret]. split; reflexivity.
Qed.
Lemma end_ignored {O} (v : env O) k o line i d src n operand : dir_encode v k o line i d src = Val n ->
  pseudo_of (op_pl (e_ops v) o) (op_pseudos (e_ops v) o) line = Some (P_END, operand) -> n_ret n = OK \/ n_ret n = DUPLICATE_LABEL.
Proof.
  intros E F. destruct (dir_pseudo _ _ _ _ _ _ _ _ _ _ E F) as (name & e & s & s2 & PF & PP & S2 & R).
  unfold processPseudo in PP. rewrite PF in PP. injection PP as <- <-. destruct (R ltac:(discriminate)) as (R1 & ->). rewrite R1, S2.
  change (isOK END_ASSEMBLE) with false. cbn [andb]. unfold label_step. cbn [l_label l_store l_drv l_err].
  destruct (Nat.eqb _ 0); [left; reflexivity|]. destruct (reportDuplicate v && _); [right; reflexivity|left; reflexivity].
Qed.
Lemma errif_ne e e' : e' <> OK -> setErrorIfAt e e' <> OK.
Proof. unfold setErrorIfAt, setErrorIf. destruct e, e'; intros H; vm_compute; congruence. Qed.
Lemma label_dup {O} (v : env O) a s : e_report v = false -> l_label s <> [] -> hasSymbol (l_label s) (l_store s) = true -> l_err (label_step v a s) <> OK.
Proof.
  intros R L H. unfold label_step, reportDuplicate. rewrite R, H. destruct (Nat.eqb_spec (length (l_label s)) 0) as [Z0|_].
  - destruct (l_label s); [contradiction|discriminate].
  - cbn [negb andb ls_err l_err]. apply errif_ne. discriminate.
Qed.
Lemma label_keeps {O} (v : env O) a s : l_label s = [] -> label_step v a s = s.
Proof. intros L. unfold label_step. rewrite L. reflexivity. Qed.
Lemma label_err {O} (v : env O) a s : l_err s <> OK -> l_err (label_step v a s) <> OK.
Proof.
  intros L. unfold label_step. destruct (Nat.eqb _ 0); [exact L|]. destruct (_ && _); [|exact L]. cbn [ls_err l_err]. apply errif_ne. discriminate.
Qed.
Lemma include_error t e n p : include_name t = (e, n, p) -> e <> UNKNOWN_DIRECTIVE.
Proof.
  unfold include_name. destruct (match expect_char DQUOTE t with Some t => (DQUOTE, t) | None => _ end) as [quote scan].
  destruct (quote =? 0).
  - destruct (takeWhile _ _). intros E. injection E as <- _ _. discriminate.
  - destruct (takeWhile _ _) as [nm q]. destruct (expect_char quote q); intros E; injection E as <- _ _; [discriminate|].
    unfold missing_closing. destruct (quote =? _); discriminate.
Qed.
Lemma open_error fs n s e s' : open fs n s = (e, s') -> e <> UNKNOWN_DIRECTIVE.
Proof. unfold open. destruct (_ <=? _); [intros E; injection E as <- _; discriminate|]. destruct (fs _); intros E; injection E as <- _; discriminate. Qed.
Lemma dup_pseudo {O} (v : env O) k o line i d src n h operand label : dir_encode v k o line i d src = Val n -> e_report v = false ->
  label_of (op_pl (e_ops v) o) line = label -> label <> [] -> hasSymbol label (dr_store d) = true ->
  pseudo_of (op_pl (e_ops v) o) (op_pseudos (e_ops v) o) line = Some (h, operand) -> (h = P_VARIABLE -> hasValue label false (dr_store d) = true) ->
  n_err n <> OK.
Proof.
  intros E R L N H F V. destruct (dir_pseudo _ _ _ _ _ _ _ _ _ _ E F) as (name & e & s & s2 & PF & PP & S2 & X).
  rewrite L in PP. set (s0 := mkLst OK operand label v_undef d src) in PP.
  assert (PLAIN : l_label s = label -> l_store s = dr_store d -> e <> UNKNOWN_DIRECTIVE -> n_err n <> OK).
  { intros LL LS NE. destruct (X NE) as (-> & _). subst s2. destruct (_ && _).
    - apply label_err. discriminate.
    - apply label_dup; congruence. }
  assert (ERR : l_err s <> OK -> e <> OK -> e <> UNKNOWN_DIRECTIVE -> n_err n <> OK).
  { intros LE EO NE. destruct (X NE) as (-> & _). subst s2. replace (isOK e) with false by (destruct e; try reflexivity; contradiction). cbn [andb]. now apply label_err. }
  unfold processPseudo in PP. rewrite PF in PP. destruct h.
  - injection PP as PP. unfold switchCpu in PP. destruct (takeWhile _ _) as [cpu scan]. destruct (drv_setCpu _ _ _) as [d'|] eqn:DC.
    + injection PP as <- <-. apply PLAIN; [reflexivity| |discriminate]. unfold drv_setCpu in DC. destruct (find_cpu _ _ _ _) as [[m o']|]; [|discriminate].
      injection DC as <-. reflexivity.
    + injection PP as <- <-. apply ERR; discriminate.
  - injection PP as PP. unfold includeFile in PP. destruct (include_name _) as [[e0 nm] p] eqn:IN. destruct (negb (isOK e0)) eqn:NO.
    + injection PP as <- <-. apply PLAIN; try reflexivity. eapply include_error. exact IN.
    + destruct (open _ nm _) as [e1 src1] eqn:OP. injection PP as <- <-. apply PLAIN; try reflexivity. eapply open_error. exact OP.
  - injection PP as <- <-. apply PLAIN; try reflexivity; discriminate.
  - unfold defineLabel, defineSymbol, reportDuplicate in PP. rewrite R in PP. cbn [negb andb] in PP.
    change (l_store s0) with (dr_store d) in PP. change (l_label s0) with label in PP. 
    replace ((hasValue label false (dr_store d) || hasValue label true (dr_store d) || hasFunction label (dr_store d))) with true in PP
      by (symmetry; unfold hasSymbol in H; rewrite H; reflexivity).
    cbn [bind] in PP. injection PP as <- <-. apply ERR; discriminate.
  - unfold defineLabel, defineSymbol, reportDuplicate in PP. rewrite R in PP. cbn [negb andb orb] in PP.
    change (l_store s0) with (dr_store d) in PP. change (l_label s0) with label in PP. rewrite (V eq_refl) in PP. cbn [orb] in PP.
    cbn [bind] in PP. injection PP as <- <-. apply ERR; discriminate.
  - unfold setVariable in PP. change (l_label s0) with label in PP. replace (Nat.eqb (length label) 0) with false in PP by (destruct label; [contradiction|reflexivity]).
    cbn [negb] in PP. injection PP as <- <-. apply ERR; discriminate.
  - injection PP as PP. unfold defineFunction in PP. change (l_label s0) with label in PP. replace (Nat.eqb (length label) 0) with false in PP by (destruct label; [contradiction|reflexivity]).
    destruct (function_params _ _ _) as [ps body]. cbv zeta in PP. change (l_label (ls_scan body s0)) with label in PP. change (l_store (ls_scan body s0)) with (dr_store d) in PP.
    unfold reportDuplicate in PP. rewrite R, H in PP. cbn [negb andb] in PP. injection PP as <- <-. apply ERR; discriminate.
Qed.
Lemma dup_alone {O} (v : env O) k o line i d src n label : dir_encode v k o line i d src = Val n -> e_report v = false ->
  fst (p_line (op_pl (e_ops v) o) line) = false ->
  label_of (op_pl (e_ops v) o) line = label -> label <> [] -> hasSymbol label (dr_store d) = true ->
  statement (op_pl (e_ops v) o) line = None -> n_err n = DUPLICATE_LABEL.
Proof.
  unfold dir_encode, statement, label_of. intros E R C L N H F. rewrite C in *.
  destruct (readLabel (p_symbol (op_pl (e_ops v) o)) line) as [[lb p0]|]; [|congruence]. subst lb.
  destruct (p_eol _ (skipSpaces p0)) as [eol scan]. destruct eol; [|discriminate]. cbv zeta in E. cbn [bind l_label l_store l_drv] in E.
  change (negb (err_eqb OK UNKNOWN_DIRECTIVE)) with true in E. cbv iota in E. injection E as <-. cbn [n_err].
  replace (Nat.eqb (length label) 0) with false by (destruct label; [contradiction|reflexivity]).
  unfold reportDuplicate, l_store. cbn [l_drv]. rewrite R, H. reflexivity.
Qed.
(* what follows a pseudo instruction that was carried out *)
Lemma garbage_pseudo {O} (v : env O) k o line i d src n h operand : dir_encode v k o line i d src = Val n ->
  pseudo_of (op_pl (e_ops v) o) (op_pseudos (e_ops v) o) line = Some (h, operand) ->
  forall name e s, pseudo_find name (op_pseudos (e_ops v) o) = Some h ->
    processPseudo v (op_pl (e_ops v) o) (op_pseudos (e_ops v) o) (i_addr i) name
      (mkLst OK operand (label_of (op_pl (e_ops v) o) line) v_undef d src) = Val (e, s) ->
    e = OK -> fst (p_eol (op_pl (e_ops v) o) (l_scan s)) = false -> n_err n <> OK.
Proof.
  intros E F name e s PF PP EO G. destruct (dir_pseudo _ _ _ _ _ _ _ _ _ _ E F) as (name' & e' & s' & s2 & PF' & PP' & S2 & X).
  unfold processPseudo in PP, PP'. rewrite PF in PP. rewrite PF' in PP'.
  assert (K : Val (e, s) = Val (e', s')) by (rewrite <- PP, <- PP'; reflexivity). injection K as <- <-. subst e.
  destruct (X ltac:(discriminate)) as (-> & _). subst s2. rewrite G. cbn [negb andb isOK]. apply label_err. discriminate.
Qed.
(* every error of the assembler is listed, except an undefined symbol in the first pass *)
Lemma answers_listed {O} (v : env O) k o line i d src n : dir_encode v k o line i d src = Val n -> i_err i = OK ->
  i_err (n_insn n) <> OK -> n_err n = i_err (n_insn n) \/ e_report v = false /\ i_err (n_insn n) = UNDEFINED_SYMBOL.
Proof.
  unfold dir_encode. cbv zeta. intros H I N. revert H. destruct (fst (p_line _ _)); [intros H; injection H as <-; contradiction|].
  destruct (match readLabel _ _ with Some r => r | None => _ end) as [label scan]. destruct (p_eol _ (skipSpaces scan)) as [eol scan2]. step.
  destruct x as [e s]. destruct (negb (err_eqb e UNKNOWN_DIRECTIVE)); [intros H; injection H as <-; contradiction|].
  destruct (p_eol (op_pl (e_ops v) o) scan2) as [eol' scan3]. destruct eol'; [intros H; injection H as <-; contradiction|]. step. destruct x as [[i' loc'] o'].
  intros H. injection H as <-. cbn [n_insn n_err] in *. unfold reportUndefined. destruct (e_report v); [left; reflexivity|]. cbn [negb andb].
  destruct (err_eqb (i_err i') UNDEFINED_SYMBOL) eqn:U; [right|left; reflexivity]. split; [reflexivity|]. destruct (i_err i'); try reflexivity; discriminate U.
Qed.
