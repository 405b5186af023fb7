(** The image of a pass, and what it means when the passes end. *)
From Coq Require Import String ZArith List Bool Lia.
From Verif Require Import M_Char M_Error M_Value M_Text M_Insn M_Config M_Operators M_Parsers M_Expr M_BinMemory M_Symbols M_Sources
  M_AsmDriver S_ByteMap S_Memory S_Insn S_Sources S_AsmDriver P_BinMemory P_Insn P_Symbols P_AsmBytes.
Import ListNotations.
Local Open Scope Z_scope.

Ltac step := match goal with
  | |- bind ?r _ = Val _ -> _ => destruct r as [?x| | | |] eqn:?; cbn [bind]; try discriminate
  end.

(* ------------------------------------------------------------ the image *)
Lemma placed_mod a bs : placed (a mod 2^32) bs = placed a bs.
Proof.
  revert a. induction bs as [|b bs IH]; intros a; cbn [placed]; [reflexivity|].
  rewrite Zmod_mod. rewrite <- (IH (a mod 2^32 + 1)), <- (IH (a + 1)), Zplus_mod_idemp_l. reflexivity.
Qed.
Lemma write_bytes_placed bs : forall a m, 0 <= a < 2^32 ->
  write_bytes a bs m = fold_left (fun m w => writeByte m (fst w) (snd w)) (placed a bs) m.
Proof.
  induction bs as [|b bs IH]; intros a m H; cbn [write_bytes placed fold_left]; [reflexivity|].
  cbn [fst snd]. rewrite (Z.mod_small a) by exact H. unfold u32. rewrite IH by (apply Z.mod_pos_bound; lia).
  now rewrite placed_mod.
Qed.
Lemma writes_app ws ws' : writes (ws ++ ws') = fold_left (fun m w => writeByte m (fst w) (snd w)) ws' (writes ws).
Proof. unfold writes. apply fold_left_app. Qed.
Lemma placed_write a bs : Forall (fun b => 0 <= b < 256) bs -> Forall is_write (placed a bs).
Proof.
  intros H. revert a. induction H as [|b bs Hb _ IH]; intros a; cbn [placed]; constructor; [|apply IH].
  split; cbn; [apply Z.mod_pos_bound; lia|exact Hb].
Qed.
Lemma code_bytes i : sound i -> Forall (fun b => 0 <= b < 256) (i_code i).
Proof.
  intros (_ & _ & _ & H). unfold i_code. revert H. generalize (Z.to_nat (i_len i)) (i_bytes i). clear.
  intros n l H. revert n. induction H; intros [|n]; cbn [firstn]; constructor; auto.
Qed.
Lemma dir_insn {O} (v : env O) k o line i d src n : emits_sound (e_ops v) -> dir_encode v k o line i d src = Val n ->
  sound i -> sound (n_insn n).
Proof.
  intros E. unfold dir_encode. cbv zeta. destruct (fst (p_line _ _)); [intros H; injection H as <-; auto|].
  destruct (match readLabel _ _ with Some r => r | None => _ end) as [label scan]. destruct (p_eol _ (skipSpaces scan)) as [eol scan2]. step.
  destruct x as [e s].
  destruct (negb (err_eqb e UNKNOWN_DIRECTIVE)); [intros H; injection H as <-; auto|].
  destruct (p_eol (op_pl (e_ops v) o) scan2) as [eol' scan3]. destruct eol'; [intros H; injection H as <-; auto|]. step. destruct x as [[i' loc'] o'].
  intros H. injection H as <-. cbn [n_insn]. eapply E. eassumption.
Qed.
Definition imaged {O} (p : pass O) : Prop :=
  ps_memory p = writes (image_of (rev (ps_items p))) /\ sound (ps_insn p) /\ Forall (fun t => Forall (fun b => 0 <= b < 256) (it_bytes t)) (ps_items p).
Lemma image_snoc ts t : image_of (ts ++ [t]) = image_of ts ++ placed (it_addr t * it_unit t) (it_bytes t).
Proof. unfold image_of. rewrite flat_map_app. cbn [flat_map]. now rewrite app_nil_r. Qed.
Lemma line_imaged {O} (v : env O) line p e p' : emits_sound (e_ops v) -> imaged p -> pass_line v line p = Val (e, p') -> imaged p'.
Proof.
  intros E (M & I & B). unfold pass_line. cbv zeta. destruct (nth_error (dr_objs (ps_drv p)) _) as [o|]; [|discriminate]. step.
  apply dir_insn in Heqr; [|exact E|now apply sound_reset].
  destruct (nth_error (dr_objs (n_drv x)) _) as [o'|]; [|discriminate]. intros H. injection H as _ <-.
  split; [|split; [exact Heqr|constructor; [cbn; now apply code_bytes|exact B]]].
  cbn [ps_memory ps_items rev]. rewrite image_snoc, writes_app, <- M. cbn [it_addr it_unit it_bytes].
  unfold u32. rewrite write_bytes_placed by (apply Z.mod_pos_bound; lia). now rewrite placed_mod.
Qed.
Lemma lines_imaged {O} fuel : forall (v : env O) p p', emits_sound (e_ops v) -> imaged p -> pass_lines fuel v p = Val p' -> imaged p'.
Proof.
  induction fuel as [|fuel IH]; intros v p p' E H; cbn [pass_lines]; [discriminate|]. step. destruct x as [[line|] src].
  - cbv zeta. step. destruct x as [e q]. apply line_imaged in Heqr0; [|exact E|exact H].
    destruct (err_eqb e END_ASSEMBLE); [intros X; injection X as <-; exact Heqr0|]. intros X. eapply IH; eauto.
  - intros X. injection X as <-. exact H.
Qed.
Lemma pass_image {O} fuel (v : env O) d src p : emits_sound (e_ops v) -> assemble fuel v d src = Val p ->
  ps_memory p = writes (image_of (rev (ps_items p))) /\ Forall is_write (image_of (rev (ps_items p))).
Proof.
  intros E H. assert (I : imaged p).
  { eapply lines_imaged; [exact E| |exact H]. split; [reflexivity|]. split; [apply sound_new|constructor]. }
  destruct I as (M & _ & B). split; [exact M|]. apply Forall_forall. intros w W. apply in_flat_map in W. destruct W as (t & T & W).
  apply in_rev in T. rewrite Forall_forall in B. specialize (B t T). pose proof (placed_write (it_addr t * it_unit t) _ B) as F.
  rewrite Forall_forall in F. auto.
Qed.

(* ------------------------------------------------------------ the passes *)
Lemma meqb_find {A} (eqv : A -> A -> bool) k : forall m m', m_eqb eqv m m' = true ->
  match M_Symbols.m_find k m, M_Symbols.m_find k m' with None, None => True | Some a, Some b => eqv a b = true | _, _ => False end.
Proof.
  induction m as [|[k1 a] m IH]; intros [|[k2 b] m'] H; cbn [m_eqb] in H; try discriminate; cbn [M_Symbols.m_find]; [trivial|].
  apply andb_prop in H. destruct H as [H H3]. apply andb_prop in H. destruct H as [H1 H2].
  destruct (key_eqb_spec k1 k2); [|discriminate]. subst k2. destruct (key_eqb k k1); [exact H2|]. now apply IH.
Qed.
Lemma find_copy_fold {A} k (m : smap A) : forall acc,
  M_Symbols.m_find k (fold_left (fun m '(k, v) => m_emplace k v m) m acc) =
  match M_Symbols.m_find k acc with Some v => Some v | None => M_Symbols.m_find k m end.
Proof.
  induction m as [|[k' v] m IH]; intros acc; cbn [fold_left M_Symbols.m_find].
  - destruct (M_Symbols.m_find k acc); reflexivity.
  - rewrite IH, find_emplace. destruct (key_eqb_spec k k') as [->|]; destruct (M_Symbols.m_find k' acc); reflexivity.
Qed.
Lemma find_copy {A} k (m : smap A) : M_Symbols.m_find k (m_copy m) = M_Symbols.m_find k m.
Proof. unfold m_copy. rewrite find_copy_fold. reflexivity. Qed.
Lemma v_eqb_bits a b : v_eqb a b = true -> v_bits a = v_bits b.
Proof. unfold v_eqb. destruct (_ && _); [apply Z.eqb_eq|discriminate]. Qed.
Lemma store_same s s' : store_eqb (copy_store s) s' = true -> same_symbols s s'.
Proof.
  unfold store_eqb. intros H. apply andb_prop in H. destruct H as [H _]. apply andb_prop in H. destruct H as [H1 H2].
  intros name. pose proof (meqb_find v_eqb name _ _ H1) as A. pose proof (meqb_find v_eqb name _ _ H2) as B.
  cbn [copy_store st_symbols st_variables] in A, B. rewrite find_copy in A, B. unfold lookupSymbol.
  destruct (M_Symbols.m_find name (st_symbols s)), (M_Symbols.m_find name (st_symbols s')); try contradiction.
  - now apply v_eqb_bits.
  - destruct (M_Symbols.m_find name (st_variables s)), (M_Symbols.m_find name (st_variables s')); try contradiction; [now apply v_eqb_bits|exact Logic.I].
Qed.
Lemma same_images ws ws' : Forall is_write ws -> Forall is_write ws' -> mem_eqb (writes ws) (writes ws') = true -> same_image (writes ws) (writes ws').
Proof.
  intros F F' E. rewrite (writes_eq ws ws' F F') in E. intros a. rewrite !writes_readByte by assumption. rewrite E. split; [|reflexivity].
  apply eq_true_iff_eq. rewrite !writes_hasByte by assumption.
  assert (K : forall w, (exists v, In (a, v) w) <-> last_write w a <> None).
  { intros w. unfold last_write. assert (G : forall acc, (fold_left (fun acc w => if fst w =? a then Some (snd w) else acc) w acc <> None <-> acc <> None \/ exists v : Z, In (a, v) w)).
    { induction w as [|[x y] w IH]; intros acc; cbn [fold_left fst snd].
      - split; [intros H; left; exact H|]. intros [H|(? & [])]. exact H.
      - rewrite IH. destruct (Z.eqb_spec x a) as [->|N].
        + split; [intros _; right; exists y; left; reflexivity|intros _; left; discriminate].
        + split; (intros [H|(v & H)]; [left; exact H|]).
          * right. exists v. right. exact H.
          * destruct H as [H|H]; [injection H as H1 _; contradiction|right; exists v; exact H]. }
    rewrite G. split; [intros H; right; exact H|intros [H|H]; [contradiction|exact H]]. }
  rewrite !K, E. reflexivity.
Qed.
(* what the loop has seen before: nothing, or a pass *)
Definition before {O} fuel depth (f : ops O) fs cpu input d0 (n : nat) (prev : memory) (d : drv O) : Prop :=
  n = 0%nat /\ prev = M_BinMemory.empty /\ d = d0 \/
  (n <> 0%nat) /\ exists q, nth_pass fuel depth f fs cpu input d0 n q /\ prev = ps_memory q /\ d = ps_drv q.
(* the last pass changed nothing *)
Definition settled {O} fuel depth (f : ops O) fs cpu input (d0 : drv O) (n : nat) (p : pass O) : Prop :=
  n = 1%nat /\ (forall a, hasByte (ps_memory p) a = false) /\ same_symbols (dr_store d0) (dr_store (ps_drv p)) \/
  exists m q, n = S m /\ nth_pass fuel depth f fs cpu input d0 m q /\
    same_image (ps_memory q) (ps_memory p) /\ same_symbols (dr_store (ps_drv q)) (dr_store (ps_drv p)).
Lemma at_start_select {O} (f : ops O) cpu d :
  at_start f cpu d (match select_cpu f cpu (mkDrv (dr_objs d) (dr_cur d) (clearFunctions (dr_store d))) with
                    | Some d => d | None => mkDrv (dr_objs d) (dr_cur d) (clearFunctions (dr_store d)) end).
Proof. eexists. split; [reflexivity|]. destruct (select_cpu _ _ _); auto. Qed.
Lemma one_pass_image {O} fuel depth (f : ops O) fs cpu input r d p : emits_sound f -> one_pass fuel depth f fs cpu input r d p ->
  exists ws, ps_memory p = writes ws /\ Forall is_write ws.
Proof. intros E (src & d' & _ & _ & A). eexists. eapply pass_image; [|exact A]. exact E. Qed.
Lemma nth_pass_image {O} fuel depth (f : ops O) fs cpu input d0 n p : emits_sound f -> nth_pass fuel depth f fs cpu input d0 n p ->
  exists ws, ps_memory p = writes ws /\ Forall is_write ws.
Proof. intros E H. destruct H; eapply one_pass_image; eauto. Qed.
Lemma loop_ends {O} (f : ops O) depth fs cpu input fuel d0 : emits_sound f -> forall passes n prev d k p,
  before fuel depth f fs cpu input d0 n prev d ->
  pass_loop passes fuel (mkEnv f fs depth false) cpu input n prev d = Val (R_done k p) ->
  nth_pass fuel depth f fs cpu input d0 k p /\ (ps_errors p = false -> settled fuel depth f fs cpu input d0 k p).
Proof.
  intros E. induction passes as [|passes IH]; intros n prev d k p Bf; cbn [pass_loop e_ops e_files e_depth]; [discriminate|].
  destruct (open fs input []) as [oe src] eqn:OP. destruct oe; try discriminate. cbv zeta. step.
  assert (P : one_pass fuel depth f fs cpu input (negb (Nat.eqb n 0)) d x).
  { exists src. eexists. split; [exact OP|]. split; [apply at_start_select|exact Heqr]. }
  assert (NP : nth_pass fuel depth f fs cpu input d0 (S n) x).
  { destruct Bf as [(-> & _ & ->)|(N & q & Q & _ & ->)]; [apply NP_first; exact P|].
    eapply NP_next; [exact Q|]. destruct n; [contradiction|exact P]. }
  destruct (_ && _) eqn:C.
  - intros L. eapply IH; [|exact L]. right. split; [discriminate|]. exists x. auto.
  - intros L. injection L as <- <-. split; [exact NP|]. intros NE. rewrite NE in C. cbn [negb andb] in C.
    apply orb_false_elim in C. destruct C as [C1 C2]. apply negb_false_iff in C1, C2.
    apply store_same in C2. destruct (one_pass_image _ _ _ _ _ _ _ _ _ E P) as (ws & W & F).
    destruct Bf as [(-> & -> & ->)|(N & q & Q & -> & ->)].
    + left. split; [reflexivity|]. split; [|exact C2]. change M_BinMemory.empty with (writes []) in C1. rewrite W in C1 |- *.
      intros a. pose proof (same_images ws [] F ltac:(constructor) C1 a) as [HB _]. rewrite HB. reflexivity.
    + right. exists n, q. split; [reflexivity|]. split; [exact Q|]. split; [|exact C2].
      destruct (nth_pass_image _ _ _ _ _ _ _ _ _ E Q) as (ws' & W' & F'). rewrite W, W' in *.
      pose proof (same_images ws ws' F F' C1) as S1. intros a. specialize (S1 a). intuition congruence.
Qed.
Lemma run_ends {O} passes fuel depth (f : ops O) fs cpu input objs k p : emits_sound f ->
  run_asm passes fuel depth f fs cpu input objs = Val (R_done k p) ->
  exists d0, select_cpu f cpu (mkDrv objs 0 empty_store) = Some d0 /\
    nth_pass fuel depth f fs cpu input (mkDrv (dr_objs d0) (dr_cur d0) empty_store) k p /\
    (ps_errors p = false -> settled fuel depth f fs cpu input (mkDrv (dr_objs d0) (dr_cur d0) empty_store) k p).
Proof.
  intros E. unfold run_asm. destruct (select_cpu f cpu _) as [d0|] eqn:S0; [|discriminate]. intros H. exists d0. split; [reflexivity|].
  eapply loop_ends; [exact E| |exact H]. left. auto.
Qed.
(* reading more lines than needed changes nothing *)
Lemma lines_more {O} (v : env O) : forall fuel p, pass_lines fuel v p = FUEL \/ forall more, (fuel <= more)%nat -> pass_lines more v p = pass_lines fuel v p.
Proof.
  induction fuel as [|fuel IH]; intros p; [left; reflexivity|]. cbn [pass_lines].
  destruct (readLine (ps_sources p)) as [[[line|] src]| | | |] eqn:R; cbn [bind]; try (right; intros [|more] L; [lia|]; cbn [pass_lines]; rewrite R; reflexivity).
  cbv zeta. destruct (pass_line v line _) as [[e q]| | | |] eqn:PL; cbn [bind];
    try (right; intros [|more] L; [lia|]; cbn [pass_lines]; rewrite R; cbn [bind]; cbv zeta; rewrite PL; reflexivity).
  destruct (err_eqb e END_ASSEMBLE) eqn:EE.
  - right. intros [|more] L; [lia|]. cbn [pass_lines]. rewrite R. cbn [bind]. cbv zeta. rewrite PL. cbn [bind]. now rewrite EE.
  - destruct (IH q) as [F|F]; [left; exact F|]. right. intros [|more] L; [lia|]. cbn [pass_lines]. rewrite R. cbn [bind]. cbv zeta. rewrite PL. cbn [bind].
    rewrite EE. apply F. lia.
Qed.
Lemma assemble_fuel {O} (v : env O) d src fuel fuel' p : assemble fuel v d src = Val p -> assemble fuel' v d src = FUEL \/ assemble fuel' v d src = Val p.
Proof.
  unfold assemble. intros H. destruct (Nat.le_gt_cases fuel fuel') as [L|L].
  - destruct (lines_more v fuel (mkPass d src M_BinMemory.empty 0 (new_insn 0) [])) as [F|F]; [congruence|]. right. rewrite F by exact L. exact H.
  - destruct (lines_more v fuel' (mkPass d src M_BinMemory.empty 0 (new_insn 0) [])) as [F|F]; [left; exact F|]. right. rewrite <- (F fuel) by lia. exact H.
Qed.
