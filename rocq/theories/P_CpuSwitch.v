(** Proofs about the statement CPU. *)
From Coq Require Import String ZArith List Bool Lia.
From Verif Require Import M_Char M_Error M_Value M_Text M_Insn M_Config M_Operators M_Parsers M_Expr M_BinMemory M_Symbols M_Sources
  M_AsmDriver S_AsmDriver S_CpuSwitch P_AsmDriver P_DriverProps.
Import ListNotations.
Open Scope string_scope.
Open Scope list_scope.
Local Open Scope Z_scope.

Lemma word_taken name operand : first_word name operand ->
  until_nul (fst (takeWhile (fun c => negb (is_space c)) operand)) = name.
Proof.
  intros (rest & -> & N & R). induction name as [|c name IH]; cbn [app].
  - destruct rest as [|c rest]; [reflexivity|]. cbn [takeWhile]. unfold ends_word in R. destruct (is_space c); [reflexivity|].
    cbn [negb orb] in *. destruct (takeWhile _ rest). cbn [fst until_nul]. rewrite R. reflexivity.
  - cbn [forallb] in N. apply andb_prop in N. destruct N as (N1 & N2). unfold ends_word in N1. 
    destruct (is_space c) eqn:SC; [discriminate|]. cbn [orb negb] in N1. cbn [takeWhile]. rewrite SC. cbn [negb].
    specialize (IH N2). destruct (takeWhile _ (name ++ rest)). cbn [fst] in *. cbn [until_nul]. destruct (c =? 0); [discriminate|]. now rewrite IH.
Qed.
Lemma find_first {O} (f : ops O) name l : forall k n o, find_cpu f name l k = Some (n, o) ->
  exists j, n = (k + j)%nat /\ first_to_know f name l j o.
Proof.
  induction l as [|x l IH]; intros k n o; cbn [find_cpu]; [discriminate|].
  destruct (op_setCpu f name x) as [x'|] eqn:S1.
  - intros E. injection E as <- <-. exists 0%nat. split; [lia|]. split; [exists x; auto|]. intros m o1 M; lia.
  - intros E. destruct (IH _ _ _ E) as (j & -> & (F1 & F2)). exists (S j). split; [lia|]. split; [exact F1|].
    intros [|m] o1 M E1; [cbn in E1; injection E1 as <-; exact S1|]. apply (F2 m); [lia|exact E1].
Qed.
Lemma find_none {O} (f : ops O) name l : forall k, find_cpu f name l k = None -> nobody_knows f name l.
Proof.
  induction l as [|x l IH]; intros k; cbn [find_cpu].
  - intros _ o [].
  - destruct (op_setCpu f name x) eqn:S1; [discriminate|]. intros E o [<-|I1]; [exact S1|]. exact (IH _ E o I1).
Qed.
Lemma first_unique {O} (f : ops O) name l n o n' o' : first_to_know f name l n o -> first_to_know f name l n' o' -> n = n' /\ o = o'.
Proof.
  intros ((x & X1 & X2) & A) ((y & Y1 & Y2) & B).
  assert (n = n') as <-.
  { destruct (Nat.lt_trichotomy n n') as [L|[E|L]]; [|exact E|].
    - rewrite (B n x L X1) in X2. discriminate.
    - rewrite (A n' y L Y1) in Y2. discriminate. }
  split; [reflexivity|]. congruence.
Qed.
Lemma first_found {O} (f : ops O) name l n o : first_to_know f name l n o -> find_cpu f name l 0 = Some (n, o).
Proof.
  intros F. destruct (find_cpu f name l 0) as [[n' o']|] eqn:E.
  - destruct (find_first _ _ _ _ _ _ E) as (j & -> & F'). destruct (first_unique _ _ _ _ _ _ _ F F') as (-> & ->). reflexivity.
  - apply find_none in E. destruct F as ((x & X1 & X2) & _). apply nth_error_In in X1. rewrite (E x X1) in X2. discriminate.
Qed.
Lemma none_found {O} (f : ops O) name l : nobody_knows f name l -> find_cpu f name l 0 = None.
Proof.
  intros N. destruct (find_cpu f name l 0) as [[n' o']|] eqn:E; [|reflexivity].
  destruct (find_first _ _ _ _ _ _ E) as (j & -> & ((x & X1 & X2) & _)). apply nth_error_In in X1. rewrite (N x X1) in X2. discriminate.
Qed.
Lemma obj_set_same {O} n (o : O) l : (n < length l)%nat -> nth_error (obj_set n o l) n = Some o.
Proof. revert n. induction l as [|x l IH]; intros [|n] L; cbn in *; try lia; auto. apply IH. lia. Qed.
Lemma obj_set_other {O} n (o : O) l m : m <> n -> nth_error (obj_set n o l) m = nth_error l m.
Proof. revert n m. induction l as [|x l IH]; intros [|n] [|m] N; cbn; auto; try contradiction. Qed.
Lemma obj_set_len {O} n (o : O) l : length (obj_set n o l) = length l.
Proof. revert n. induction l as [|x l IH]; intros [|n]; cbn; auto. Qed.

(* what a line with CPU does *)
Lemma dir_cpu {O} (v : env O) k o line i d src n operand : dir_encode v k o line i d src = Val n ->
  pseudo_of (op_pl (e_ops v) o) (op_pseudos (e_ops v) o) line = Some (P_CPU, operand) ->
  n_insn n = i /\ n_loc n = i_addr i /\ n_sources n = src /\
  let name := until_nul (fst (takeWhile (fun c => negb (is_space c)) operand)) in
  match find_cpu (e_ops v) name (dr_objs d) 0 with
  | None => dr_objs (n_drv n) = dr_objs d /\ dr_cur (n_drv n) = dr_cur d /\ n_err n = UNSUPPORTED_CPU
  | Some (m, o') =>
    let l := obj_set m o' (dr_objs d) in
    let o' := match nth_error l (dr_cur d) with Some prev => op_setListRadix (e_ops v) (op_listRadix (e_ops v) prev) o' | None => o' end in
    dr_objs (n_drv n) = obj_set m o' l /\ dr_cur (n_drv n) = m
  end.
Proof.
  unfold dir_encode, pseudo_of, statement. destruct (fst (p_line _ line)); [discriminate|].
  destruct (match readLabel (p_symbol (op_pl (e_ops v) o)) line with Some r => r | None => ([], line) end) as [label p0] eqn:RL.
  replace (match readLabel (p_symbol (op_pl (e_ops v) o)) line with Some (_, p) => p | None => line end) with p0
    by (destruct (readLabel _ line) as [[? ?]|]; congruence).
  destruct (p_eol _ (skipSpaces p0)) as [eol scan]. destruct eol; [discriminate|]. cbv zeta.
  destruct (match readInstruction _ scan with Some r => r | None => ([], scan) end) as [nm p].
  intros E F. destruct (pseudo_find nm _) as [h'|] eqn:PF; [|discriminate]. injection F as -> <-.
  unfold processPseudo in E. rewrite PF in E. cbn [bind] in E. unfold switchCpu in E. cbn [ls_scan l_scan] in E.
  destruct (takeWhile _ (skipSpaces p)) as [cpu rest]. cbn [fst]. cbv zeta in E. unfold drv_setCpu in E. 
  cbn [ls_scan l_drv] in E. destruct (find_cpu (e_ops v) (until_nul cpu) (dr_objs d) 0) as [[m o']|].
  - cbn [bind] in E. destruct (p_eol _ _) as [eol2 p2]. cbn [isOK andb] in E. change (negb (err_eqb OK UNKNOWN_DIRECTIVE)) with true in E. cbn [bind] in E.
    destruct eol2; cbn [negb] in E;
    injection E as <-; cbn [n_insn n_loc n_drv n_err n_sources];
    (destruct (Nat.eqb _ 0); [|destruct (_ && _)]); cbn; repeat split; reflexivity.
  - cbn [bind] in E. destruct (p_eol _ _) as [eol2 p2]. cbn [isOK andb] in E. change (negb (err_eqb UNSUPPORTED_CPU UNKNOWN_DIRECTIVE)) with true in E. cbn [bind] in E.
    injection E as <-. cbn [n_insn n_loc n_drv n_err n_sources].
    (destruct (Nat.eqb _ 0); [|destruct (_ && _)]); cbn; repeat split; reflexivity.
Qed.

Lemma no_bytes (i : insn) : i_len (i_reset (i_addr i) 0 i) = 0. Proof. reflexivity. Qed.
Lemma reset_code a i : i_code (i_reset a 0 i) = []. Proof. reflexivity. Qed.
Lemma reset_addr a i : i_addr (i_reset a 0 i) = a. Proof. reflexivity. Qed.
Lemma pass_cpu {O} (v : env O) line p e p' o operand name : pass_line v line p = Val (e, p') -> current (ps_drv p) = Some o ->
  pseudo_of (op_pl (e_ops v) o) (op_pseudos (e_ops v) o) line = Some (P_CPU, operand) -> first_word name operand ->
  no_code p p' /\
  let d := ps_drv p in
  match find_cpu (e_ops v) name (dr_objs d) 0 with
  | None => dr_objs (ps_drv p') = dr_objs d /\ dr_cur (ps_drv p') = dr_cur d /\ exists t, ps_items p' = t :: ps_items p /\ it_err t = UNSUPPORTED_CPU
  | Some (m, o') =>
    let l := obj_set m o' (dr_objs d) in
    let o' := match nth_error l (dr_cur d) with Some prev => op_setListRadix (e_ops v) (op_listRadix (e_ops v) prev) o' | None => o' end in
    dr_objs (ps_drv p') = obj_set m o' l /\ dr_cur (ps_drv p') = m
  end.
Proof.
  intros E C F W. unfold pass_line in E. unfold current in C. rewrite C in E.
  destruct (dir_encode _ _ _ _ _ _ _) as [n| | | |] eqn:D; cbn [bind] in E; try discriminate.
  destruct (dir_cpu _ _ _ _ _ _ _ _ _ D F) as (NI & NL & NS & R). cbv zeta in R. rewrite (word_taken _ _ W) in R.
  destruct (nth_error (dr_objs (n_drv n)) (dr_cur (ps_drv p))) as [o2|]; [|discriminate]. cbv zeta in E. rewrite NI in E.
  rewrite reset_code in E. injection E as <- <-.
  split.
  - split; [reflexivity|]. cbn [ps_origin ps_items]. split; [|eexists; split; reflexivity].
    change (i_len _) with 0. rewrite NL. reflexivity.
  - cbv zeta. cbn [ps_drv ps_items]. destruct (find_cpu _ _ _ _) as [[m o']|].
    + exact R.
    + destruct R as (R1 & R2 & R3). split; [exact R1|]. split; [exact R2|]. eexists. split; [reflexivity|]. exact R3.
Qed.
Lemma cpu_switches {O} (v : env O) line p e p' o operand name n o' : pass_line v line p = Val (e, p') -> current (ps_drv p) = Some o ->
  pseudo_of (op_pl (e_ops v) o) (op_pseudos (e_ops v) o) line = Some (P_CPU, operand) -> first_word name operand ->
  first_to_know (e_ops v) name (dr_objs (ps_drv p)) n o' ->
  current (ps_drv p') = Some (op_setListRadix (e_ops v) (op_listRadix (e_ops v) (if Nat.eqb n (dr_cur (ps_drv p)) then o' else o)) o') /\
  dr_cur (ps_drv p') = n /\
  (forall m, m <> n -> nth_error (dr_objs (ps_drv p')) m = nth_error (dr_objs (ps_drv p)) m) /\ no_code p p'.
Proof.
  intros E C F W FK. destruct (pass_cpu _ _ _ _ _ _ _ _ E C F W) as (NC & R). cbv zeta in R. rewrite (first_found _ _ _ _ _ FK) in R.
  destruct R as (R1 & R2). destruct FK as ((x & X1 & X2) & _). 
  assert (L : (n < length (dr_objs (ps_drv p)))%nat) by (apply nth_error_Some; congruence).
  split; [|split; [exact R2|split; [|exact NC]]].
  - unfold current. rewrite R2, R1. rewrite obj_set_same by (rewrite obj_set_len; exact L). f_equal.
    destruct (Nat.eqb_spec n (dr_cur (ps_drv p))) as [<-|NE].
    + rewrite obj_set_same by exact L. reflexivity.
    + rewrite obj_set_other by auto. unfold current in C. rewrite C. reflexivity.
  - intros m M. rewrite R1. rewrite !obj_set_other by exact M. reflexivity.
Qed.
Lemma cpu_unknown {O} (v : env O) line p e p' o operand name : pass_line v line p = Val (e, p') -> current (ps_drv p) = Some o ->
  pseudo_of (op_pl (e_ops v) o) (op_pseudos (e_ops v) o) line = Some (P_CPU, operand) -> first_word name operand ->
  nobody_knows (e_ops v) name (dr_objs (ps_drv p)) ->
  dr_objs (ps_drv p') = dr_objs (ps_drv p) /\ current (ps_drv p') = Some o /\ no_code p p' /\
  exists t, ps_items p' = t :: ps_items p /\ it_err t = UNSUPPORTED_CPU.
Proof.
  intros E C F W FK. destruct (pass_cpu _ _ _ _ _ _ _ _ E C F W) as (NC & R). cbv zeta in R. rewrite (none_found _ _ _ FK) in R.
  destruct R as (R1 & R2 & R3). split; [exact R1|]. split; [unfold current in *; rewrite R1, R2; exact C|]. auto.
Qed.

(* ------------------------------------------------------------ other lines *)
Lemma skip_twice t : skipSpaces (skipSpaces t) = skipSpaces t.
Proof.
  unfold skipSpaces. induction t as [|c t IH]; [reflexivity|]. destruct (is_space c) eqn:SC.
  - cbn [M_Text.trimStart]. rewrite SC. exact IH.
  - cbn [M_Text.trimStart]. rewrite SC. cbn [M_Text.trimStart]. rewrite SC. reflexivity.
Qed.
Lemma skip_peek t : peek (skipSpaces t) =? 32 = false.
Proof.
  unfold skipSpaces. induction t as [|c t IH]; [reflexivity|]. cbn [M_Text.trimStart]. destruct (is_space c) eqn:SC; [exact IH|].
  cbn [peek]. destruct (Z.eqb_spec c 32) as [->|]; [discriminate|reflexivity].
Qed.
Lemma semi_twice t t' : eol_semicolon t = (false, t') -> eol_semicolon t' = (false, t').
Proof. unfold eol_semicolon. cbv zeta. intros E. injection E as E <-. rewrite skip_twice, E. reflexivity. Qed.
Lemma sharp_twice t t' : eol_sharp t = (false, t') -> eol_sharp t' = (false, t').
Proof. unfold eol_sharp, eol_semicolon. cbv zeta beta iota. intros E. injection E as E <-. rewrite skip_twice, E. reflexivity. Qed.
Lemma star_twice t t' : eol_star t = (false, t') -> eol_star t' = (false, t').
Proof.
  unfold eol_star. cbv zeta beta iota. intros E. injection E as E <-. rewrite skip_twice, skip_peek. apply orb_false_elim in E. destruct E as (_ & E).
  rewrite E. apply orb_false_elim in E. destruct E as (-> & _). reflexivity.
Qed.
Lemma pdp8_twice t t' : eol_pdp8 t = (false, t') -> eol_pdp8 t' = (false, t').
Proof. unfold eol_pdp8. intros E. injection E as E <-. rewrite E. reflexivity. Qed.
Lemma eol_twice pl t t' : In pl S_Expr.all_families -> p_eol pl t = (false, t') -> p_eol pl t' = (false, t').
Proof.
  unfold S_Expr.all_families, S_Expr.families. cbn [app In].
  intros H. repeat match goal with H : _ \/ _ |- _ => destruct H as [<-|H] end; try contradiction;
    cbv [mkP' pl_default pl_intel pl_motorola pl_texas pl_zilog pl_i8080 pl_i8086 pl_z80 pl_z8 pl_z8000 pl_mc68000 pl_mos6502 pl_cdp1802 pl_f3850
         pl_ins8060 pl_ins8070 pl_mn1610 pl_ns32000 pl_pdp8 pl_scn2650 pl_tms32010 pl_pdp11 p_eol];
    first [exact (semi_twice t t')|exact (sharp_twice t t')|exact (star_twice t t')|exact (pdp8_twice t t')|idtac].
Qed.
(* what a line without a pseudo instruction does *)
Lemma dir_insn {O} (v : env O) k o line i d src n scan : dir_encode v k o line i d src = Val n -> In (op_pl (e_ops v) o) S_Expr.all_families ->
  statement (op_pl (e_ops v) o) line = Some scan -> pseudo_of (op_pl (e_ops v) o) (op_pseudos (e_ops v) o) line = None ->
  exists i' loc' o', let st := dr_store (n_drv n) in
    op_encode (e_ops v) o (symbols_of st) (functions_of (e_depth v) st (i_addr i) 0) (i_addr i) scan i = Val (i', loc', o') /\
    n_insn n = i' /\ n_loc n = loc' /\ dr_objs (n_drv n) = obj_set k o' (dr_objs d) /\ dr_cur (n_drv n) = dr_cur d.
Proof.
  unfold dir_encode, pseudo_of, statement. intros E FM. revert E. destruct (fst (p_line _ line)); [discriminate|].
  destruct (match readLabel (p_symbol (op_pl (e_ops v) o)) line with Some r => r | None => ([], line) end) as [label p0] eqn:RL.
  replace (match readLabel (p_symbol (op_pl (e_ops v) o)) line with Some (_, p) => p | None => line end) with p0
    by (destruct (readLabel _ line) as [[? ?]|]; congruence).
  destruct (p_eol _ (skipSpaces p0)) as [eol sc] eqn:EO. destruct eol; [discriminate|]. cbv zeta. intros E F G. injection F as <-. revert E G.
  destruct (match readInstruction _ sc with Some r => r | None => ([], sc) end) as [nm p].
  intros E G. destruct (pseudo_find nm _) as [h'|] eqn:PF; [discriminate|]. 
  unfold processPseudo in E. rewrite PF in E. cbn [bind] in E. destruct (p_eol _ (l_scan _)) as [eol2 p2]. cbn [isOK andb bind] in E.
  change (negb (err_eqb UNKNOWN_DIRECTIVE UNKNOWN_DIRECTIVE)) with false in E. cbn iota in E.
  rewrite (eol_twice _ _ _ FM EO) in E.
  match type of E with bind (op_encode _ _ (symbols_of (l_store ?s)) _ _ _ _) _ = _ => set (s2 := s) in E end.
  destruct (op_encode _ _ _ _ _ _ _) as [[[i' loc'] o']| | | |] eqn:OE; cbn [bind] in E; try discriminate. injection E as <-.
  exists i', loc', o'. cbn [n_drv dr_store n_insn n_loc dr_objs dr_cur]. unfold l_store in OE. split; [exact OE|].
  split; [reflexivity|]. split; [reflexivity|]. unfold s2. cbn [l_label ls_scan]. 
  destruct (Nat.eqb _ 0); [|destruct (_ && _)]; cbn; split; reflexivity.
Qed.
Lemma pass_insn {O} (v : env O) line p e p' o scan : pass_line v line p = Val (e, p') -> current (ps_drv p) = Some o ->
  In (op_pl (e_ops v) o) S_Expr.all_families ->
  statement (op_pl (e_ops v) o) line = Some scan -> pseudo_of (op_pl (e_ops v) o) (op_pseudos (e_ops v) o) line = None ->
  exists i' loc' o' t, let st := dr_store (ps_drv p') in let a := ps_origin p in
    op_encode (e_ops v) o (symbols_of st) (functions_of (e_depth v) st a 0) a scan (i_reset a 0 (ps_insn p)) = Val (i', loc', o') /\
    current (ps_drv p') = Some o' /\ dr_cur (ps_drv p') = dr_cur (ps_drv p) /\
    ps_items p' = t :: ps_items p /\ it_addr t = i_addr i' /\ it_bytes t = i_code i'.
Proof.
  intros E C FM S1 PS. unfold pass_line in E. unfold current in C. rewrite C in E.
  destruct (dir_encode _ _ _ _ _ _ _) as [n| | | |] eqn:D; cbn [bind] in E; try discriminate.
  destruct (dir_insn _ _ _ _ _ _ _ _ _ D FM S1 PS) as (i' & loc' & o' & OE & NI & NL & NO & NC).
  destruct (nth_error (dr_objs (n_drv n)) (dr_cur (ps_drv p))) as [o2|] eqn:O2; [|discriminate]. cbv zeta in E. injection E as <- <-.
  rewrite reset_addr in OE. cbv zeta in OE |- *. exists i', loc', o'. eexists. cbn [ps_drv ps_items]. split; [exact OE|].
  assert (L : (dr_cur (ps_drv p) < length (dr_objs (ps_drv p)))%nat) by (apply nth_error_Some; congruence).
  split; [unfold current; rewrite NC, NO; apply obj_set_same; exact L|]. split; [exact NC|]. split; [reflexivity|].
  cbn [it_addr it_bytes]. rewrite NI. split; reflexivity.
Qed.
(* all other lines leave the choice alone *)
Definition same_objs {O} (d d' : drv O) : Prop := dr_objs d' = dr_objs d /\ dr_cur d' = dr_cur d.
Lemma same_define {O} (v : env O) pl loc sym var s s' : defineSymbol v pl loc sym var s = Val s' -> same_objs (l_drv s) (l_drv s').
Proof.
  unfold defineSymbol. destruct (_ && _); [intros E; injection E as <-; split; reflexivity|].
  destruct (eval _ _ _ _ _) as [[[[val e] scan] x]| | | |]; cbn [bind]; try discriminate.
  destruct (hasError e); [intros E; injection E as <-; split; reflexivity|]. destruct (_ && _); [intros E; injection E as <-; split; reflexivity|].
  destruct (internSymbol _ _ _ _) as [e1 st]. intros E; injection E as <-; split; reflexivity.
Qed.
Lemma same_pseudo {O} (v : env O) pl ps loc name s e s' : processPseudo v pl ps loc name s = Val (e, s') -> pseudo_find name ps <> Some P_CPU ->
  same_objs (l_drv s) (l_drv s').
Proof.
  unfold processPseudo. intros E N. destruct (pseudo_find name ps) as [[]|]; try contradiction.
  - injection E as E. unfold includeFile in E. destruct (include_name _) as [[e0 nm] p]. destruct (negb _); [injection E as <- <-; split; reflexivity|].
    destruct (open _ _ _) as [e1 src]. injection E as <- <-. split; reflexivity.
  - injection E as <- <-. split; reflexivity.
  - unfold defineLabel in E. destruct (defineSymbol _ _ _ _ _ _) as [s1| | | |] eqn:D; cbn [bind] in E; try discriminate. injection E as <- <-. exact (same_define _ _ _ _ _ _ _ D).
  - unfold defineLabel in E. destruct (defineSymbol _ _ _ _ _ _) as [s1| | | |] eqn:D; cbn [bind] in E; try discriminate. injection E as <- <-. exact (same_define _ _ _ _ _ _ _ D).
  - unfold setVariable in E. destruct (negb _); [injection E as <- <-; split; reflexivity|].
    destruct (readSymbol _ _) as [[sym p]|]; [|injection E as <- <-; split; reflexivity].
    destruct (expect_char _ _) as [p1|]; [|injection E as <- <-; split; reflexivity].
    destruct (defineSymbol _ _ _ _ _ _) as [s1| | | |] eqn:D; cbn [bind] in E; try discriminate. injection E as <- <-. exact (same_define _ _ _ _ _ _ _ D).
  - injection E as E. unfold defineFunction in E. destruct (Nat.eqb _ 0); [injection E as <- <-; split; reflexivity|].
    destruct (function_params _ _ _) as [ps1 body]. cbv zeta in E. destruct (_ && _); [injection E as <- <-; split; reflexivity|].
    destruct (internFunction _ _ _ _ _) as [e1 st]. injection E as <- <-. split; reflexivity.
  - injection E as <- <-. split; reflexivity.
Qed.
Lemma dir_other {O} (v : env O) k o line i d src n : dir_encode v k o line i d src = Val n ->
  (forall operand, pseudo_of (op_pl (e_ops v) o) (op_pseudos (e_ops v) o) line <> Some (P_CPU, operand)) ->
  dr_cur (n_drv n) = dr_cur d /\ exists o', dr_objs (n_drv n) = dr_objs d \/ dr_objs (n_drv n) = obj_set k o' (dr_objs d).
Proof.
  unfold dir_encode, pseudo_of, statement. destruct (fst (p_line _ line)); [intros E _; injection E as <-; cbn; split; [reflexivity|exists o; auto]|].
  destruct (match readLabel (p_symbol (op_pl (e_ops v) o)) line with Some r => r | None => ([], line) end) as [label p0] eqn:RL.
  replace (match readLabel (p_symbol (op_pl (e_ops v) o)) line with Some (_, p) => p | None => line end) with p0
    by (destruct (readLabel _ line) as [[? ?]|]; congruence).
  destruct (p_eol _ (skipSpaces p0)) as [eol sc] eqn:EO. cbv zeta.
  assert (K : forall e (s : lst O), same_objs d (l_drv s) ->
    (let s := if Nat.eqb (length (l_label s)) 0 then s
      else if reportDuplicate v && hasSymbol (l_label s) (l_store s) then ls_err (setErrorIfAt (l_err s) DUPLICATE_LABEL) s
      else ls_store (snd (internSymbol (setUnsigned (i_addr i)) (l_label s) false (l_store s))) s in
     if negb (err_eqb e UNKNOWN_DIRECTIVE) then
          Val (mkEnc (l_err s) (l_err s) (l_value s) i (i_addr i) (l_drv s) (l_sources s))
        else
          let '(eol, scan) := p_eol (op_pl (e_ops v) o) sc in
          if eol then Val (mkEnc OK OK (l_value s) i (i_addr i) (l_drv s) (l_sources s))
          else
            let st := l_store s in
            bind (op_encode (e_ops v) o (symbols_of st) (functions_of (e_depth v) st (i_addr i) 0) (i_addr i) scan i) (fun '(i, loc, o) =>
              let e := i_err i in
              let e := if negb (reportUndefined v) && err_eqb e UNDEFINED_SYMBOL then OK else e in
              let d := mkDrv (obj_set k o (dr_objs (l_drv s))) (dr_cur (l_drv s)) (dr_store (l_drv s)) in
              Val (mkEnc e e (l_value s) i loc d (l_sources s)))) = Val n ->
    dr_cur (n_drv n) = dr_cur d /\ exists o', dr_objs (n_drv n) = dr_objs d \/ dr_objs (n_drv n) = obj_set k o' (dr_objs d)).
  { intros e s SO. cbv zeta.
    match goal with |- context [l_err ?s2] => match s2 with if _ then _ else _ => assert (SO2 : same_objs d (l_drv s2)) by
      (destruct (Nat.eqb _ 0); [exact SO|]; destruct (_ && _); exact SO); set (s3 := s2) in *; clearbody s3 end end.
    destruct SO2 as (S1 & S2).
    destruct (negb _); [intros E; injection E as <-; cbn [n_drv]; rewrite S1, S2; split; [reflexivity|exists o; auto]|].
    destruct (p_eol _ sc) as [e2 sc2]. destruct e2; [intros E; injection E as <-; cbn [n_drv]; rewrite S1, S2; split; [reflexivity|exists o; auto]|].
    destruct (op_encode _ _ _ _ _ _ _) as [[[i' loc'] o']| | | |]; cbn [bind]; try discriminate. intros E. injection E as <-. cbn [n_drv dr_cur dr_objs].
    rewrite S1, S2. split; [reflexivity|]. exists o'. auto. }
  destruct eol.
  - cbn [bind]. intros E _. eapply (K OK); [|exact E]. split; reflexivity.
  - destruct (match readInstruction _ sc with Some r => r | None => ([], sc) end) as [nm p].
    intros E G. destruct (processPseudo _ _ _ _ nm _) as [[e s]| | | |] eqn:PP; cbn [bind] in E; try discriminate.
    destruct (p_eol _ (l_scan s)) as [eol2 p2]. cbn [bind] in E. revert E. apply K.
    apply same_pseudo in PP. 2: { intros P. rewrite P in G. exact (G _ eq_refl). }
    destruct (_ && _); exact PP.
Qed.
Lemma pass_other {O} (v : env O) line p e p' o : pass_line v line p = Val (e, p') -> current (ps_drv p) = Some o ->
  (forall operand, pseudo_of (op_pl (e_ops v) o) (op_pseudos (e_ops v) o) line <> Some (P_CPU, operand)) ->
  dr_cur (ps_drv p') = dr_cur (ps_drv p) /\
  forall m, m <> dr_cur (ps_drv p) -> nth_error (dr_objs (ps_drv p')) m = nth_error (dr_objs (ps_drv p)) m.
Proof.
  intros E C N. unfold pass_line in E. unfold current in C. rewrite C in E.
  destruct (dir_encode _ _ _ _ _ _ _) as [n| | | |] eqn:D; cbn [bind] in E; try discriminate.
  destruct (dir_other _ _ _ _ _ _ _ _ D N) as (NC & o' & NO).
  destruct (nth_error (dr_objs (n_drv n)) (dr_cur (ps_drv p))) as [o2|] eqn:O2; [|discriminate]. cbv zeta in E. injection E as <- <-.
  cbn [ps_drv]. split; [exact NC|]. intros m M. destruct NO as [->| ->]; [reflexivity|]. apply obj_set_other. exact M.
Qed.
