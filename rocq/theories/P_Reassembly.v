(** The lines of a disassembly, assembled one after the other (8080 family). *)
From Coq Require Import String ZArith List Bool Lia ZifyBool.
From Verif Require Import M_Char M_Error M_Value M_Text M_StrBuffer M_Format M_Number M_Insn M_Config M_Operators
  M_Parsers M_Expr M_Directive M_Table T_Tables M_Asm M_Dis M_I8080Defs T_I8080 M_I8080 M_BinMemory M_Symbols M_Sources M_AsmLine M_AsmDriver M_AsmI8080
  M_Listing M_DisDriver M_DisI8080 S_Value S_Number S_Expr S_ExprTree S_Table S_ByteMap S_Memory S_Insn S_Sources S_AsmDriver S_DisDriver P_StrBuffer P_Room
  P_Number P_NumberRead P_ExprRead P_ExprTree P_ExprCase P_Table P_Insn P_Value P_BinMemory P_Symbols P_AsmText P_CpuShape P_I8080
  P_Config P_Sources P_AsmBytes P_AsmPass P_DisDriver P_HexRound P_Reassemble.
Import ListNotations.
Open Scope string_scope.
Open Scope list_scope.
Local Open Scope Z_scope.

(* ------------------------------------------------------------ the line that selects the processor *)
Section Lines.
Variable zl : bool.
Variable v : env i8080.
Hypothesis EO : e_ops v = ops_8080.
Definition with_src (src : sources) (p : pass i8080) : pass i8080 :=
  mkPass (ps_drv p) src (ps_memory p) (ps_origin p) (ps_insn p) (ps_items p).
Definition does (l : text) (p p' : pass i8080) : Prop := forall src, pass_line v l (with_src src p) = Val (OK, with_src src p').
Definition ready (ty a : Z) (ws : list (Z * Z)) (p : pass i8080) : Prop :=
  ps_drv p = the8080 zl ty /\ ps_origin p = a /\ i_ub (ps_insn p) = false /\ ps_errors p = false /\ ps_memory p = writes ws.
Definition line_ok (l : text) : Prop := text_line l /\ (length l <= 255)%nat.
Lemma printable_line l : Forall printable l -> text_line l.
Proof. apply Forall_impl. unfold printable. lia. Qed.

Definition cpu_words (ty : Z) (uc : bool) : text * text := (case_text uc (s2l "CPU"), case_text uc (i8080_cpu_name ty)).
Lemma cpu_step ty0 ty uh uc oc rel cs ih cur msg a ws p : In ty [I8080; I8085; V30EMU] -> ready ty0 a ws p ->
  let l := cpu_line (dis_8080 ty zl uh uc oc rel cs ih cur msg) in
  line_ok l /\ exists p', does l p p' /\ ready ty a ws p'.
Proof.
  intros T (PD & PO & PU & PE & PM) l.
  assert (L : exists nm z, l = repeat 32 6 ++ nm ++ z /\ insn_word sp nm = true /\ is_space (peek nm) = false /\ nm <> [] /\ y_insn_letter sp (peek z) = false /\
    pseudo_find nm intel_pseudos = Some P_CPU /\
    exists c, takeWhile (fun c => negb (is_space c)) (skipSpaces z) = (c, []) /\ cpu_8080 (until_nul c) = Some ty /\ Forall printable (nm ++ z) /\ (length (nm ++ z) <= 249)%nat).
  { subst l. exists (fst (cpu_words ty uc)), (repeat 32 3 ++ snd (cpu_words ty uc)). cbn in T. destruct T as [<-|[<-|[<-|[]]]], uc; (split; [vm_compute; reflexivity|]);
      (split; [|split; [|split; [|split; [|split]]]]); try (vm_compute; reflexivity); try discriminate;
      (eexists; split; [vm_compute; reflexivity|]; split; [vm_compute; reflexivity|]; split; [apply printable_text; vm_compute; reflexivity|cbn; lia]). }
  clearbody l. destruct L as (nm & z & -> & W & H & N & YL & PF & c & TW & CP & PP & LL).
  split.
  { split; [apply printable_line, Forall_app; split; [apply printable_text; reflexivity|exact PP]|]. rewrite app_length, repeat_length. lia. }
  exists (mkPass (the8080 zl ty) (ps_sources p) (ps_memory p) a (new_insn a) (mkItem (repeat 32 6 ++ nm ++ z) OK v_undef a [] 1 :: ps_items p)).
  split; [|repeat split; auto].
  intros src. unfold pass_line. cbn [with_src ps_drv ps_origin ps_insn ps_sources ps_memory ps_items]. rewrite PD. cbn [the8080 dr_objs dr_cur nth_error].
  rewrite PO, reset_fresh by exact PU. rewrite dir_line by assumption. unfold processPseudo. rewrite PF.
  unfold switchCpu. cbn [l_scan]. rewrite TW. unfold ls_scan at 1. cbn [l_err l_label l_value l_drv l_sources]. rewrite EO.
  unfold drv_setCpu. cbn [dr_objs find_cpu ops_8080 op_setCpu l_drv ls_scan the8080].
  rewrite CP. cbn [option_map obj_set dr_cur nth_error op_setListRadix op_listRadix x_cpu x_zilog x_list x_smart Z.eqb Pos.eqb dr_store ls_drv ls_err l_scan l_label l_value l_sources l_drv l_err bind eol_semicolon].
  change (eol_semicolon []) with (true, @nil Z). reflexivity.
Qed.

(* ------------------------------------------------------------ the line that sets the origin *)
Lemma org_encode ty uc t a a0 k fn : numeral np_intel t a -> 0 <= a < 2^16 -> (1 <= k)%nat ->
  (forall n, fn n = None) ->
  encode_8080 (mk8080 ty zl 16 false) (symbols_of empty_store) fn a0 (case_text uc (s2l "ORG") ++ repeat 32 k ++ t) (new_insn a0) =
  Val (new_insn a, a, mk8080 ty zl 16 false).
Proof.
  intros N A K FN. unfold encode_8080, encode_line. cbv beta zeta. change (i_seterr OK (new_insn a0)) with (new_insn a0).
  set (nm := case_text uc (s2l "ORG")).
  assert (NF : insn_word sp nm = true /\ is_space (peek nm) = false /\ nm <> []) by (destruct uc; repeat split; discriminate).
  destruct NF as (W & H & NN).
  assert (YL : y_insn_letter sp (peek (repeat 32 k ++ t)) = false) by (destruct k; [lia|reflexivity]).
  destruct (word_start nm (repeat 32 k ++ t) W H NN) as (EL & SK).
  assert (AE : asm_encode (i8080_asm (symbols_of empty_store) fn 10) i8080_specials i8080_directives
    (i8080_encodeImpl ty zl (i8080_asm (symbols_of empty_store) fn 10) a0) (nm ++ repeat 32 k ++ t) (new_insn a0) = Val (L_directive 1 2 t)).
  { unfold asm_encode. rewrite SK. change (p_line (a_pl (i8080_asm (symbols_of empty_store) fn 10))) with eol_semicolon. rewrite EL.
    assert (RI : readInstruction (p_symbol (a_pl (i8080_asm (symbols_of empty_store) fn 10))) (nm ++ repeat 32 k ++ t) = Some (nm, repeat 32 k ++ t)).
    { unfold readInstruction. change (p_symbol _) with sp. rewrite insn_letters_app by assumption. destruct nm; [congruence|reflexivity]. }
    rewrite RI. rewrite skip_blanks by apply blanks_repeat. pose proof (numeral_digit _ _ N) as D.
    assert (ST : skipSpaces t = t).
    { destruct t as [|c t]; [reflexivity|]. apply skip_none. cbn [peek] in D. unfold is_digit in D. unfold is_space. lia. }
    rewrite ST. subst nm. clear. destruct uc; vm_compute; reflexivity. }
  change (i_addr (new_insn a0)) with a0. cbn [x_cpu x_zilog]. rewrite AE. cbn [bind].
  change (directive_at i8080_directives 1 2) with (Some D_ORG). unfold run_directive, defineOrigin.
  assert (PE : exists b', blanks b' /\ parseExpr (i8080_asm (symbols_of empty_store) fn 10) (mkDS a0 t (new_insn a0)) 0 = Val (mkV V_UNSIGNED a, OK, b')).
  { destruct (parse_number (i8080_asm (symbols_of empty_store) fn 10) a0 0 [] t a [] []) as (b' & B & E); auto; try constructor; auto.
    { intros n g G. cbn [a_function i8080_asm] in G. rewrite FN in G. discriminate. }
    exists b'. split; [exact B|]. cbn [app] in E. rewrite !app_nil_r in E. exact E. }
  destruct PE as (b' & _ & ->). cbn [bind]. change (isOK OK) with true. cbn [negb]. rewrite unsigned_get by lia.
  unfold setCurrentLocation. cbn [a_aw i8080_asm]. rewrite checkAddr_false by lia. replace (2^16 <=? a) with false by lia. cbn [andb].
  reflexivity.
Qed.
Lemma org_step ty uh uc oc rel cs ih cur msg a0 ws a l p : ready ty a0 ws p -> 0 <= a < 2^16 ->
  org_line (dis_8080 ty zl uh uc oc rel cs ih cur msg) a = Val l ->
  line_ok l /\ exists p', does l p p' /\ ready ty a ws p'.
Proof.
  intros (PD & PO & PU & PE & PM) A. unfold org_line. set (o := dis_8080 ty zl uh uc oc rel cs ih cur msg).
  set (d := i8080_dis uh uc oc rel cs ih cur None). change (do_dis o) with d. change (da_aw d) with 16. rewrite checkAddr_false by lia.
  replace (2^16 <=? a) with false by lia. cbn [andb isOK err_eqb negb]. change (isOK OK) with true. cbn [negb].
  destruct (outAbsAddr d a 0 (mkB [] 127 OK None)) as [b| | | |] eqn:D; try discriminate. cbn [bind].
  change (da_uppercase d) with uc. set (nm := case_text uc (s2l "ORG")). set (line := insn_line o nm (b_txt b)). intros E.
  assert (line = l) as <- by congruence. unfold line. clear E line.
  destruct (abs_adds d a _ b (i8080_limits uh uc oc rel cs ih cur) ltac:(lia) D) as (_ & _ & MK & _ & (s & TX & PS) & NE).
  cbn [b_mark b_max b_txt b_err length] in MK, TX, NE. specialize (NE eq_refl ltac:(unfold b_mark; cbn; lia)).
  destruct (i8080_reads uh uc oc rel cs ih cur) as (SY & RA & _).
  destruct (outAbs_numeral d np_intel a 0 _ b SY RA ltac:(lia) ltac:(cbn; lia) D NE) as (_ & t & EB & N).
  change (0 =? 0) with true in N. cbv iota in N. change (da_aw d) with 16 in N. rewrite Z.mod_small in N by lia.
  assert (TT : b_txt b = t) by (rewrite EB; reflexivity). rewrite TT in *. cbn [app] in TX. subst s.
  assert (LT : (length t <= 127)%nat) by (unfold b_mark in MK; rewrite TT in MK; cbn in MK; lia).
  destruct (insn_line_text o nm t) as (k & K & LL); [destruct uc; discriminate|cbn; lia|destruct uc; cbn; lia|exact LT|].
  assert (NT : t <> []) by (intros ->; apply numeral_digit in N; discriminate).
  assert (SP : spaced t k = repeat 32 k ++ t) by (unfold spaced; destruct t; [congruence|reflexivity]). rewrite SP in LL.
  rewrite LL. split.
  { split.
    - apply printable_line. rewrite !Forall_app. split; [apply printable_text; reflexivity|]. split; [destruct uc; apply printable_text; reflexivity|].
      split; [|exact PS]. apply Forall_forall. intros c I. apply repeat_spec in I. subst c. unfold printable. lia.
    - rewrite !app_length, !repeat_length. assert (length nm = 3%nat) by (destruct uc; reflexivity). lia. }
  exists (mkPass (the8080 zl ty) (ps_sources p) (ps_memory p) a (new_insn a) (mkItem (repeat 32 6 ++ nm ++ repeat 32 k ++ t) OK v_undef a [] 1 :: ps_items p)).
  split; [|repeat split; auto].
  intros src. unfold pass_line. cbn [with_src ps_drv ps_origin ps_insn ps_sources ps_memory ps_items]. rewrite PD. cbn [the8080 dr_objs dr_cur nth_error].
  rewrite PO, reset_fresh by exact PU.
  assert (NF : insn_word sp nm = true /\ is_space (peek nm) = false /\ nm <> [] /\ pseudo_find nm intel_pseudos = None) by (destruct uc; repeat split; discriminate).
  destruct NF as (W & H & NN & PF).
  assert (YL : y_insn_letter sp (peek (repeat 32 k ++ t)) = false) by (destruct k; [lia|reflexivity]).
  rewrite dir_line by assumption. unfold processPseudo. rewrite PF. cbn [bind l_scan].
  destruct (eol_semicolon _) as [eol pp]. cbn [isOK err_eqb err_code Z.eqb andb bind l_label length Nat.eqb negb].
  change (l_store _) with empty_store. change (i_addr (new_insn a0)) with a0.
  rewrite (org_encode ty uc t a a0 k _ N A ltac:(lia)) by (intros n; apply empty_functions). cbn [bind Pos.eqb negb].
  change (i_err (new_insn a)) with OK. change (err_eqb OK UNDEFINED_SYMBOL) with false. rewrite andb_false_r. rewrite EO. reflexivity.
Qed.

(* ------------------------------------------------------------ the pieces of a block *)
Inductive chain : list text -> pass i8080 -> pass i8080 -> Prop :=
| C_nil p : chain [] p p
| C_cons l ls p q r : does l p q -> chain ls q r -> chain (l :: ls) p r.
Lemma chain_app ls ls' p q r : chain ls p q -> chain ls' q r -> chain (ls ++ ls') p r.
Proof. induction 1; intros; cbn [app]; [assumption|]. econstructor; eauto. Qed.
Lemma placed_app a x y : placed a (x ++ y) = placed a x ++ placed (a + Z.of_nat (length x)) y.
Proof.
  revert a. induction x as [|c x IH]; intros a; cbn [app placed length]; [now rewrite Z.add_0_r|].
  rewrite IH. replace (a + Z.of_nat (S (length x))) with (a + 1 + Z.of_nat (length x)) by lia. reflexivity.
Qed.
Section Options.
Variables (ty : Z) (uh uc oc rel cs ih : bool) (cur : Z) (msg : err -> text).
Hypothesis T : In ty [I8080; I8085; V30EMU].
Notation o := (dis_8080 ty zl uh uc oc rel cs ih cur msg).
Definition good_piece (q : piece) : Prop := i_err (r_insn (pc_dec q)) = OK.

Lemma piece_step ws q ts p : decoded_by o (2^16) q -> good_piece q -> piece_lines o q = Val ts -> ready ty (pc_addr q) ws p ->
  Forall line_ok ts /\ length ts = 1%nat /\ exists p', chain ts p p' /\
    ready ty (pc_addr q + Z.of_nat (length (piece_bytes q))) (ws ++ placed (pc_addr q) (piece_bytes q)) p'.
Proof.
  intros (mem & rest & FM & NE & A & D) G PL RD. unfold good_piece in G. unfold piece_lines in PL. rewrite G in PL. change (isOK OK) with true in PL. cbv iota in PL.
  set (a := pc_addr q) in *. set (r := pc_dec q) in *. set (t := insn_line o (M_Dis.r_name r) (r_operands r)) in *.
  assert (ts = [t]) as -> by congruence. clear PL. unfold do_decode in D. cbn [dis_8080 do_dis do_impl] in D.
  pose proof (decode_piece zl _ ty mem a operands_capacity r rest (i8080_reads uh uc oc rel cs ih cur) FM NE A D G) as DP.
  destruct (operands_fit _ ty zl mem a operands_capacity r rest (i8080_limits uh uc oc rel cs ih cur) FM ltac:(unfold operands_capacity; lia) D) as (OL & OP).
  pose proof RD as (PD & PO & PU & PE & PM).
  assert (LEN : (length (r_operands r) <= 127)%nat) by (unfold operands_capacity in OL; lia).
  change (da_uppercase _) with uc in DP.
  assert (NMF : (1 <= length (M_Dis.r_name r) <= 11)%nat /\ Forall printable (M_Dis.r_name r)).
  { destruct (insn_step zl v ty uc mem a r rest 1 p EO T ltac:(lia) DP A PD PO PU _ eq_refl) as (bs & _ & _ & _ & NP & NL & _). auto. }
  destruct NMF as (NL & NP).
  destruct (insn_line_text o (M_Dis.r_name r) (r_operands r)) as (k & K & LL); [intros X; rewrite X in NL; cbn in NL; lia|cbn; lia|lia|exact LEN|]. fold t in LL.
  destruct (insn_step zl v ty uc mem a r rest k p EO T ltac:(lia) DP A PD PO PU t LL) as (bs & RI & MM & LB & _ & _ & _).
  assert (PB : piece_bytes q = bs) by (unfold piece_bytes; fold r; rewrite RI; apply canon_code).
  split; [|split; [reflexivity|]].
  { constructor; [|constructor]. split.
    - rewrite LL. apply printable_line. rewrite !Forall_app. split; [apply printable_text; reflexivity|]. split; [exact NP|].
      unfold spaced. destruct (r_operands r) eqn:RO; [constructor|]. rewrite <- RO in OP |- *. apply Forall_app. split; [|exact OP].
      apply Forall_forall. intros c I. apply repeat_spec in I. subst c. unfold printable. lia.
    - rewrite LL, !app_length, repeat_length. unfold spaced. destruct (r_operands r) eqn:RO; cbn [length]; [lia|]. rewrite app_length, repeat_length. cbn [length] in *. lia. }
  exists (mkPass (the8080 zl ty) (ps_sources p) (write_bytes a bs (ps_memory p)) (a + Z.of_nat (length bs)) (canon a bs) (mkItem t OK v_undef a bs 1 :: ps_items p)).
  split; [eapply C_cons; [|apply C_nil]|].
  { intros src. destruct (insn_step zl v ty uc mem a r rest k (with_src src p) EO T ltac:(lia) DP A PD PO PU t LL) as (bs' & RI' & _ & _ & _ & _ & PL).
    assert (bs' = bs) as -> by (rewrite <- (canon_code a bs'), <- (canon_code a bs); congruence).
    rewrite PL. reflexivity. }
  rewrite PB. split; [reflexivity|]. split; [reflexivity|]. split; [reflexivity|]. split.
  { unfold ps_errors in *. cbn [ps_items existsb]. rewrite PE. reflexivity. }
  cbn [ps_memory]. rewrite PM, writes_app. apply write_bytes_placed. lia.
Qed.

Lemma pieces_chain qs : forall a bs ws ts p, partition 1 a bs qs -> Forall (decoded_by o (2^16)) qs -> Forall good_piece qs ->
  all_lines (piece_lines o) qs = Val ts -> ready ty a ws p ->
  Forall line_ok ts /\ (length ts <= length bs)%nat /\ exists p', chain ts p p' /\ ready ty (a + Z.of_nat (length bs)) (ws ++ placed a bs) p'.
Proof.
  induction qs as [|q qs IH]; intros a bs ws ts p PT DB GP AL RD.
  { cbn in PT, AL. injection AL as <-. subst bs. split; [constructor|]. split; [cbn; lia|]. exists p. split; [constructor|].
    cbn [placed length]. rewrite Z.add_0_r, app_nil_r. exact RD. }
  cbn [partition] in PT. rewrite Z.div_1_r in PT. destruct PT as (NB & PA & _ & rest & -> & PT).
  inversion DB as [|? ? D1 D2]; subst. inversion GP as [|? ? G1 G2]; subst.
  cbn [all_lines] in AL. destruct (piece_lines o q) as [t1| | | |] eqn:P1; try discriminate. cbn [bind] in AL.
  destruct (all_lines (piece_lines o) qs) as [t2| | | |] eqn:P2; try discriminate. cbn [bind] in AL. injection AL as <-.
  destruct (piece_step ws q t1 p D1 G1 P1 RD) as (L1 & N1 & p1 & C1 & R1).
  destruct (IH _ _ _ _ p1 PT D2 G2 eq_refl R1) as (L2 & N2 & p2 & C2 & R2).
  split; [now apply Forall_app|]. split.
  { rewrite !app_length. assert (0 < length (piece_bytes q))%nat by (destruct (piece_bytes q); [congruence|cbn; lia]). lia. }
  exists p2. split; [eapply chain_app; eauto|]. rewrite placed_app, app_length, app_assoc. 
  replace (pc_addr q + Z.of_nat (length (piece_bytes q) + length rest)) with (pc_addr q + Z.of_nat (length (piece_bytes q)) + Z.of_nat (length rest)) by lia. exact R2.
Qed.

(* ------------------------------------------------------------ the blocks *)
Definition total_size (bl : list block) : nat := fold_right (fun b k => (length (b_data b) + k)%nat) O bl.
Lemma blocks_chain bl l : covers 1 bl l -> Forall (block_in (2^16)) bl -> Forall (fun b => b_data b <> []) bl ->
  Forall (fun sp => Forall (decoded_by o (2^16)) (snd sp)) l -> Forall (fun sp => Forall good_piece (snd sp)) l ->
  forall a ws ts p, blocks_lines o l = Val ts -> ready ty a ws p ->
  Forall line_ok ts /\ (length ts <= 2 * total_size bl)%nat /\
  exists p' a', chain ts p p' /\ ready ty a' (ws ++ cells_all (map block_seg bl)) p'.
Proof.
  unfold covers. induction 1 as [|b [start qs] bl l (ST & PT) _ IH]; intros BI NE DB GP a ws ts p BL RD.
  { cbn in BL. injection BL as <-. split; [constructor|]. split; [cbn; lia|]. exists p, a. split; [constructor|]. cbn. now rewrite app_nil_r. }
  inversion BI as [|? ? (B0 & BY & BT) B2]; subst. inversion NE as [|? ? N1 N2]; subst. inversion DB as [|? ? D1 D2]; subst. inversion GP as [|? ? G1 G2]; subst.
  cbn [fst snd] in *. rewrite Z.div_1_r in ST. subst start.
  assert (LB : (0 < length (b_data b))%nat) by (destruct (b_data b); [congruence|cbn; lia]).
  cbn [blocks_lines] in BL. destruct (org_line o (b_base b)) as [t0| | | |] eqn:P0; try discriminate. cbn [bind] in BL.
  destruct (all_lines (piece_lines o) qs) as [t1| | | |] eqn:P1; try discriminate. cbn [bind] in BL.
  destruct (blocks_lines o l) as [t2| | | |] eqn:P2; try discriminate. cbn [bind] in BL.
  assert (ts = t0 :: t1 ++ t2) as -> by congruence. clear BL.
  destruct (org_step ty uh uc oc rel cs ih cur msg a ws (b_base b) t0 p RD ltac:(unfold dsize in BT; lia) P0) as (L0 & p0 & C0 & R0).
  destruct (pieces_chain qs _ _ _ _ p0 PT D1 G1 P1 R0) as (L1 & K1 & p1 & C1 & R1).
  destruct (IH B2 N2 D2 G2 _ _ _ p1 eq_refl R1) as (L2 & K2 & p2 & a' & C2 & R2).
  split; [constructor; [exact L0|now apply Forall_app]|]. split.
  { cbn [length total_size fold_right]. rewrite app_length. fold (total_size bl). lia. }
  exists p2, a'. split; [econstructor; [exact C0|eapply chain_app; eauto]|].
  unfold cells_all. cbn [map flat_map block_seg fst snd]. fold (cells_all (map block_seg bl)).
  change (cells (b_base b) (b_data b)) with (placed (b_base b) (b_data b)). rewrite app_assoc. exact R2.
Qed.
End Options.

(* ------------------------------------------------------------ reading the lines *)
Lemma chain_lines ls p q : chain ls p q -> forall s input fuel, stacked s [(input, ls)] -> (length ls < fuel)%nat ->
  pass_lines fuel v (with_src s p) = Val (with_src [] q).
Proof.
  induction 1 as [p|l ls p q r D C IH]; intros s input fuel ST F; (destruct fuel as [|fuel]; [cbn in F; lia|]); cbn [pass_lines]; cbn [with_src ps_sources].
  - pose proof (readLine_next _ _ ST) as R. cbn [next_line] in R. rewrite R. reflexivity.
  - pose proof (readLine_next _ _ ST) as R. cbn [next_line] in R. destruct R as (s' & R & ST' & _). rewrite R. cbn [bind]. cbv zeta.
    change (mkPass (ps_drv _) s' _ _ _ _) with (with_src s' p). rewrite (D s'). cbn [bind].
    change (err_eqb OK END_ASSEMBLE) with false. cbv iota. eapply IH; [exact ST'|]. cbn in F. lia.
Qed.
End Lines.

(* ------------------------------------------------------------ the image *)
Lemma sep_wf bl : forall lo, separated (map block_seg bl) -> Forall (block_in (2^16)) bl ->
  match bl with [] => True | b :: _ => lo <= b_base b end -> wf lo (map block_seg bl).
Proof.
  induction bl as [|b bl IH]; intros lo SEP BI LO; [exact Logic.I|]. inversion BI as [|? ? (B0 & BY & BT) B2]; subst.
  cbn [map block_seg separated wf] in *. destruct SEP as (N & LT & SEP). split; [exact LO|]. split; [exact N|]. split; [lia|].
  apply IH; auto. destruct bl as [|b2 bl]; [exact Logic.I|]. cbn [map block_seg] in LT. unfold dsize. lia.
Qed.
Lemma sep_total bl : forall lo, 0 <= lo -> wf lo (map block_seg bl) -> Forall (block_in (2^16)) bl -> bl = [] \/ Z.of_nat (total_size bl) <= 2^16 - lo.
Proof.
  induction bl as [|b bl IH]; intros lo L0 W BI; [now left|]. right. inversion BI as [|? ? (B0 & BY & BT) B2]; subst.
  cbn [map block_seg wf] in W. destruct W as (LO & N & LT & W). cbn [total_size fold_right]. fold (total_size bl).
  destruct (IH (b_base b + dsize (b_data b) + 1) ltac:(unfold dsize; lia) W B2) as [->|Q]; [change (total_size []) with 0%nat; unfold dsize in *; lia|]. unfold dsize in *. lia.
Qed.
Lemma wf_nonempty bl : forall lo, wf lo (map block_seg bl) -> Forall (fun b => b_data b <> []) bl.
Proof. induction bl as [|b bl IH]; intros lo W; [constructor|]. cbn [map block_seg wf] in W. destruct W as (_ & N & _ & W). constructor; eauto. Qed.
Lemma file_size ls : Forall line_ok ls -> Z.of_nat (length (file_of ls [])) <= 256 * Z.of_nat (length ls).
Proof.
  unfold file_of. rewrite app_nil_r. induction 1 as [|l ls (_ & L) F IH]; [cbn; lia|]. cbn [flat_map]. rewrite !app_length. cbn [length]. lia.
Qed.
Lemma pieces_agree fuel fuel' o m l l' : dis_pieces fuel o m = Val l -> dis_pieces fuel' o m = Val l' -> l = l'.
Proof.
  unfold dis_pieces. destruct (mem_blocks m) as [bl|]; [|discriminate]. intros H H'.
  apply (blocks_fuel _ (Nat.max fuel fuel')) in H; [|lia]. apply (blocks_fuel _ (Nat.max fuel fuel')) in H'; [|lia]. congruence.
Qed.

Lemma reassembles zl ty uh uc oc rel cs ih cur msg ws fuel0 l lines fs input : let o := dis_8080 ty zl uh uc oc rel cs ih cur msg in
  In ty [I8080; I8085; V30EMU] -> Forall is_write ws -> (forall a v, In (a, v) ws -> a < 2^16) ->
  dis_pieces fuel0 o (writes ws) = Val l -> Forall (fun sp => Forall good_piece (snd sp)) l ->
  disassemble fuel0 o (writes ws) = Val lines -> ~ In 0 input -> fs input = Some (file_of lines []) ->
  forall passes fuel depth, (2 <= passes)%nat -> (length lines < fuel)%nat ->
  exists n p, run_asm passes fuel depth ops_8080 fs None input [mk8080 I8080 zl 16 false] = Val (R_done n p) /\
    ps_errors p = false /\ same_image (ps_memory p) (writes ws).
Proof.
  intros o T F LIM DP GP DL IN FS passes fuel depth PS FU.
  destruct (i8080_disassembles ty zl uh uc oc rel cs ih cur msg ws T F LIM) as (bl & n & l' & ts & E & R & C & BI & DB).
  fold o in R, DB. assert (l' = l) as -> by (eapply pieces_agree; [apply (R n); lia|exact DP]). clear R ts.
  destruct (image_blocks ws (2^16) F LIM) as (bl' & E' & SEP & AT & _). assert (bl' = bl) as -> by congruence.
  assert (W : wf 0 (map block_seg bl)).
  { apply sep_wf; auto. destruct bl as [|b bl]; [trivial|]. inversion BI as [|? ? (B0 & _) _]; subst. exact B0. }
  pose proof (wf_nonempty _ _ W) as NE.
  unfold disassemble in DL. rewrite DP in DL. cbn [bind] in DL.
  destruct (blocks_lines o l) as [ts| | | |] eqn:BL; try discriminate. cbn [bind] in DL.
  assert (lines = cpu_line o :: ts) as -> by congruence. clear DL.
  set (ls := cpu_line o :: ts) in *.
  assert (CH : forall v ty0 src, e_ops v = ops_8080 -> 
     let p0 := mkPass (the8080 zl ty0) src M_BinMemory.empty 0 (new_insn 0) [] in
     Forall line_ok ls /\ (length ls <= 1 + 2 * total_size bl)%nat /\ exists p' a', chain v ls p0 p' /\ ready zl ty a' (cells_all (map block_seg bl)) p').
  { intros v ty0 src EO p0. assert (R0 : ready zl ty0 0 [] p0) by (repeat split).
    destruct (cpu_step zl v EO ty0 ty uh uc oc rel cs ih cur msg 0 [] p0 T R0) as (L0 & p1 & D1 & R1).
    destruct (blocks_chain zl v EO ty uh uc oc rel cs ih cur msg T bl l C BI NE DB GP 0 [] ts p1 BL R1) as (L2 & K2 & p2 & a' & C2 & R2).
    split; [constructor; assumption|]. split; [cbn; lia|]. exists p2, a'. split; [econstructor; eassumption|exact R2]. }
  assert (LK : Forall line_ok ls /\ (length ls <= 1 + 2 * total_size bl)%nat).
  { destruct (CH (mkEnv ops_8080 fs depth false) I8080 [] eq_refl) as (L1 & L2 & _). auto. }
  destruct LK as (LO & LN).
  assert (TS : Z.of_nat (total_size bl) <= 2^16) by (destruct (sep_total bl 0 ltac:(lia) W BI) as [->|Q]; [cbn; lia|lia]).
  assert (RB : readable (file_of ls [])) by (unfold readable; pose proof (file_size ls LO); lia).
  assert (FL : file_lines (file_of ls []) ls []).
  { split; [reflexivity|]. split; [|constructor]. eapply Forall_impl; [|exact LO]. intros x (X & _). exact X. }
  destruct (open_first fs input _ ls [] IN FS RB FL) as (s & OP & ST).
  assert (PASS : forall report ty0, exists p, assemble fuel (mkEnv ops_8080 fs depth report) (the8080 zl ty0) s = Val p /\
     ps_drv p = the8080 zl ty /\ ps_errors p = false /\ ps_memory p = writes (cells_all (map block_seg bl))).
  { intros report ty0. destruct (CH (mkEnv ops_8080 fs depth report) ty0 s eq_refl) as (_ & _ & p' & a' & CC & (PD & _ & _ & PE & PM)).
    exists (with_src [] p'). split; [|auto]. unfold assemble.
    exact (chain_lines _ _ _ _ CC s input fuel ST FU). }
  assert (FC : Forall is_write (cells_all (map block_seg bl))).
  { eapply cells_all_write; [|exact W|]; [lia|]. apply Forall_forall. intros x X. apply in_map_iff in X. destruct X as (b & <- & IB).
    rewrite Forall_forall in BI. destruct (BI b IB) as (_ & BY & _). exact BY. }
  assert (EQ : mem_eqb (writes (cells_all (map block_seg bl))) (writes ws) = true).
  { apply writes_eq; auto. intros a. rewrite (last_write_cells_all 0) by (auto; lia). apply AT. }
  assert (SI : same_image (writes (cells_all (map block_seg bl))) (writes ws)) by (apply same_images; auto).
  assert (SELF : mem_eqb (writes (cells_all (map block_seg bl))) (writes (cells_all (map block_seg bl))) = true) by (apply writes_eq; auto).
  unfold run_asm. cbn [select_cpu]. cbn [dr_objs dr_cur]. change (mkDrv [mk8080 I8080 zl 16 false] 0 empty_store) with (the8080 zl I8080).
  destruct passes as [|passes]; [lia|]. cbn [pass_loop e_files e_ops e_depth]. rewrite OP. cbv zeta. cbn [select_cpu].
  destruct (PASS (negb (Nat.eqb 0 0)) I8080) as (p1 & A1 & D1 & E1 & M1).
  change (mkDrv (dr_objs (the8080 zl I8080)) (dr_cur (the8080 zl I8080)) (clearFunctions (dr_store (the8080 zl I8080)))) with (the8080 zl I8080).
  rewrite A1. cbn [bind]. destruct (_ && _) eqn:CND.
  - destruct passes as [|passes]; [lia|]. cbn [pass_loop e_files e_ops e_depth]. rewrite OP. cbv zeta. cbn [select_cpu]. rewrite D1.
    change (mkDrv (dr_objs (the8080 zl ty)) (dr_cur (the8080 zl ty)) (clearFunctions (dr_store (the8080 zl ty)))) with (the8080 zl ty).
    destruct (PASS (negb (Nat.eqb 1 0)) ty) as (p2 & A2 & D2 & E2 & M2). rewrite A2. cbn [bind]. rewrite E2, D2, M1, M2, SELF.
    change (store_eqb (copy_store (dr_store (the8080 zl ty))) (dr_store (the8080 zl ty))) with true. cbn [negb orb andb].
    exists 2%nat, p2. split; [reflexivity|]. split; [exact E2|]. rewrite M2. exact SI.
  - exists 1%nat, p1. split; [reflexivity|]. split; [exact E1|]. rewrite M1. exact SI.
Qed.
