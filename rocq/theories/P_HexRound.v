(** Records partition the image; object file round trips. *)
From Coq Require Import String ZArith List Bool Lia ZifyBool.
From Verif Require Import M_Char M_Map M_BinMemory M_HexFile S_ByteMap S_Memory P_BinMemory P_HexFile.
Import ListNotations.
Local Open Scope string_scope.
Local Open Scope list_scope.
Local Open Scope Z_scope.
Ltac Zify.zify_post_hook ::= Z.div_mod_to_equations.

(* ---- records of one block ---- *)
Fixpoint contig (a : Z) (rs : list (Z * list Z)) : Prop :=
  match rs with [] => True | (x, d) :: t => x = a /\ contig (a + dsize d) t end.

Lemma dsize_skipn n (d : list Z) : 0 <= n -> dsize (skipn (Z.to_nat n) d) = Z.max 0 (dsize d - n).
Proof. intros. unfold dsize. rewrite skipn_length. lia. Qed.
Lemma dsize_firstn n (d : list Z) : 0 <= n -> dsize (firstn (Z.to_nat n) d) = Z.min n (dsize d).
Proof. intros. unfold dsize. rewrite firstn_length. lia. Qed.

Lemma block_records_ok rs base i rest : 1 <= rs -> 0 <= base + i -> base + i + dsize rest <= 2^32 ->
  exists recs, (forall fuel, (length rest <= fuel)%nat -> block_records fuel rs base i rest = Some recs) /\
    contig (base + i) recs /\ concat (map snd recs) = rest /\
    Forall (fun r => 0 < dsize (snd r) <= rs /\ exists k, 0 <= k /\ fst r = base + i + k * rs /\
                     fst r + dsize (snd r) <= base + i + dsize rest) recs.
Proof.
  intros Hrs. remember (length rest) as n eqn:En. revert i rest En.
  induction n as [n IH] using lt_wf_ind; intros i rest En H0 H1.
  destruct rest as [|x t].
  { exists []. repeat split; auto. intros fuel _. destruct fuel; reflexivity. }
  set (rest := x :: t) in *.
  assert (Hp : 0 < dsize rest) by (unfold dsize, rest; cbn [length]; lia).
  set (size := if dsize rest <=? rs then dsize rest else rs).
  destruct (Z.leb_spec (dsize rest) rs) as [Hle|Hgt].
  - (* last record *)
    exists [((base + i), rest)]. split; [|split; [|split]].
    + intros fuel Hf. destruct fuel as [|f]; [subst n rest; cbn in Hf; lia|].
      cbn [block_records]. fold rest.
      assert (E : dsize rest <=? rs = true) by lia. rewrite E.
      rewrite firstn_dsize. rewrite Z.mod_small by lia.
      replace (skipn (Z.to_nat rs) rest) with (@nil Z).
      * destruct f; reflexivity.
      * symmetry. apply skipn_all2. unfold dsize in *. lia.
    + cbn. auto.
    + cbn [map concat snd]. apply app_nil_r.
    + constructor; [|constructor]. cbn [fst snd]. split; [lia|]. exists 0. lia.
  - destruct (IH (length (skipn (Z.to_nat rs) rest))) with (i := i + rs) (rest := skipn (Z.to_nat rs) rest)
      as (recs & F & C & K & A).
    + subst n. rewrite skipn_length. unfold dsize in *. lia.
    + reflexivity.
    + lia.
    + rewrite dsize_skipn by lia. lia.
    + exists ((base + i, firstn (Z.to_nat rs) rest) :: recs). split; [|split; [|split]].
      * intros fuel Hf. destruct fuel as [|f]; [subst n rest; cbn in Hf; lia|].
        cbn [block_records]. fold rest.
        assert (E : dsize rest <=? rs = false) by lia. rewrite E.
        rewrite F; [|rewrite skipn_length; unfold dsize in *; lia].
        cbn. rewrite Z.mod_small by lia. reflexivity.
      * cbn [contig]. split; [reflexivity|]. rewrite dsize_firstn by lia.
        replace (base + i + Z.min rs (dsize rest)) with (base + (i + rs)) by lia. exact C.
      * cbn [map concat snd]. rewrite K. apply firstn_skipn.
      * constructor.
        { cbn [fst snd]. rewrite dsize_firstn by lia. split; [lia|]. exists 0. lia. }
        eapply Forall_impl; [|exact A]. cbn beta. intros [a d] (S1 & k & Hk & E1 & E2).
        cbn [fst snd] in *. split; [exact S1|]. exists (k + 1).
        rewrite dsize_skipn in E2 by lia. lia.
Qed.

(* ---- cells ---- *)
Fixpoint cells (b : Z) (d : list Z) : list (Z * Z) :=
  match d with [] => [] | x :: t => (b mod 2^32, x) :: cells (b + 1) t end.
Definition cells_all (p : list (Z * list Z)) : list (Z * Z) := flat_map (fun s => cells (fst s) (snd s)) p.

Definition wfold (ws : list (Z * Z)) (m : memory) : memory :=
  fold_left (fun m w => writeByte m (fst w) (snd w)) ws m.

Lemma wr_cells d m b : wr m b d = wfold (cells b d) m.
Proof. revert m b; induction d; intros; cbn; auto. Qed.
Lemma wr_all_cells p m : wr_all m p = wfold (cells_all p) m.
Proof.
  revert m; induction p as [|[b d] t IH]; intros; [reflexivity|].
  cbn [wr_all cells_all flat_map fst snd]. unfold wfold. rewrite fold_left_app.
  rewrite IH, wr_cells. reflexivity.
Qed.

Lemma cells_app b d1 d2 : cells b (d1 ++ d2) = cells b d1 ++ cells (b + dsize d1) d2.
Proof.
  revert b; induction d1 as [|x d1 IH]; intros b.
  - cbn. f_equal. unfold dsize; cbn. lia.
  - cbn [app cells]. rewrite IH. f_equal. f_equal. f_equal. unfold dsize. cbn [length]. lia.
Qed.
Lemma contig_cells b recs : contig b recs -> cells_all recs = cells b (concat (map snd recs)).
Proof.
  revert b; induction recs as [|[a d] t IH]; intros b C; [reflexivity|].
  cbn in C. destruct C as [-> C]. cbn [cells_all flat_map map concat fst snd].
  rewrite cells_app. f_equal. apply (IH _ C).
Qed.

(* ---- all records of an image ---- *)
Lemma all_records_ok lo rs p : 1 <= rs -> 0 <= lo -> wf lo p ->
  exists N recs, (forall fuel, (N <= fuel)%nat -> all_records fuel rs (to_blocks p) = Some recs) /\
    cells_all recs = cells_all p /\
    Forall (fun r => 0 < dsize (snd r) <= rs /\ exists b d k, In (b, d) p /\ 0 <= k /\
        fst r = b + k * rs /\ fst r + dsize (snd r) <= b + dsize d) recs /\
    (forall x d t, recs = (x, d) :: t -> lo <= x) /\
    (forall l1 a1 d1 a2 d2 l2, recs = l1 ++ (a1, d1) :: (a2, d2) :: l2 -> a1 + dsize d1 <= a2) /\
    (forall l1 a1 d1, recs = l1 ++ [(a1, d1)] -> a1 + dsize d1 <= ub lo p).
Proof.
  intros Hrs. revert lo; induction p as [|[b d] t IH]; intros lo Hlo W.
  { exists O, []. repeat split; auto; try discriminate.
    all: intros l1; intros; destruct l1; discriminate. }
  cbn in W. destruct W as (? & Hd & Hle & W). pose proof (dsize_pos _ Hd) as Hp.
  destruct (IH (b + dsize d + 1)) as (N & recs & F & C & A & L & S & U); [lia|exact W|].
  destruct (block_records_ok rs b 0 d) as (r1 & F1 & C1 & K1 & A1); try lia.
  rewrite Z.add_0_r in *.
  assert (Hne : r1 <> []).
  { intros ->. cbn in K1. congruence. }
  exists (Nat.max N (length d)), (r1 ++ recs).
  assert (CS : forall q z, contig z q -> (forall l1 a1 d1 a2 d2 l2, q = l1 ++ (a1, d1) :: (a2, d2) :: l2 -> a1 + dsize d1 = a2)).
  { clear. induction q as [|[a d] t IH]; intros z C l1; intros; [destruct l1; discriminate|].
    cbn in C. destruct C as [-> C]. destruct l1 as [|e l1]; cbn in H; inversion H; subst.
    - cbn in C. destruct C as [-> _]. reflexivity.
    - eapply IH; eauto. }
  assert (CL : forall q z, contig z q -> forall l1 a1 d1, q = l1 ++ [(a1, d1)] ->
               a1 + dsize d1 = z + dsize (concat (map snd q))).
  { clear. induction q as [|[a d] t IH]; intros z C l1; intros; [destruct l1; discriminate|].
    cbn in C. destruct C as [-> C]. cbn [map concat snd]. rewrite dsize_app.
    destruct l1 as [|e l1]; cbn in H; inversion H; subst.
    - cbn [map concat]. change (dsize []) with 0. lia.
    - erewrite (IH _ C l1 a1 d1 eq_refl). lia. }
  split; [|split; [|split; [|split; [|split]]]].
  - intros fuel Hf. cbn [to_blocks link map snd all_records b_base b_data].
    rewrite F1 by lia. fold (to_blocks t). rewrite F by lia. reflexivity.
  - unfold cells_all in *. rewrite flat_map_app. fold (cells_all r1). rewrite (contig_cells b) by exact C1.
    rewrite K1. rewrite C. reflexivity.
  - apply Forall_app. split.
    + eapply Forall_impl; [|exact A1]. cbn beta. intros [x y] (S1 & k & Hk & E1 & E2). cbn [fst snd] in *.
      split; [exact S1|]. exists b, d, k. repeat split; auto. left; reflexivity.
    + eapply Forall_impl; [|exact A]. cbn beta. intros [x y] (S1 & b2 & d2 & k & Hin & Hk & E1 & E2). cbn [fst snd] in *.
      split; [exact S1|]. exists b2, d2, k. repeat split; auto. right; exact Hin.
  - intros x y z E. destruct r1 as [|[a1 d1] r1]; [congruence|].
    cbn in C1. destruct C1 as [E1 _]. cbn in E. injection E as E2 _ _. lia.
  - intros l1 a1 d1 a2 d2 l2 E.
    (* where does the pair fall *)
    destruct (Nat.le_gt_cases (length r1) (length l1)) as [G|G].
    + assert (exists m, l1 = r1 ++ m /\ recs = m ++ (a1, d1) :: (a2, d2) :: l2) as (m & -> & E2).
      { clear - E G. revert l1 E G. induction r1 as [|e r1 IH]; intros l1 E G; [exists l1; auto|].
        destruct l1 as [|e1 l1]; [cbn in G; lia|]. cbn in E. inversion E; subst.
        destruct (IH l1) as (m & -> & ->); [assumption|cbn in G; lia|]. exists m. auto. }
      eapply S; eauto.
    + destruct (Nat.eq_dec (length r1) (length l1 + 1)) as [Gq|Gq].
      * assert (r1 = l1 ++ [(a1, d1)] /\ recs = (a2, d2) :: l2) as [E1 E2].
        { clear - E Gq. revert l1 E Gq. induction r1 as [|e r1 IH]; intros l1 E Gq; [cbn in Gq; lia|].
          destruct l1 as [|e1 l1]; cbn in E; inversion E; subst.
          - destruct r1; [|cbn in Gq; lia]. cbn in *. split; congruence.
          - destruct (IH l1) as [-> ->]; [assumption|cbn in Gq; lia|]. split; reflexivity. }
        rewrite (CL _ _ C1 _ _ _ E1). rewrite K1. specialize (L _ _ _ E2). lia.
      * assert (exists m, r1 = l1 ++ (a1, d1) :: (a2, d2) :: m) as (m & E1).
        { clear - E G Gq. revert l1 E G Gq. induction r1 as [|e r1 IH]; intros l1 E G Gq; [cbn in G; lia|].
          destruct l1 as [|e1 l1]; cbn in E; inversion E; subst.
          - destruct r1; [cbn in Gq; lia|]. cbn in *. inversion H1; subst. eexists; reflexivity.
          - destruct (IH l1) as (m & ->); [assumption|cbn in G; lia|cbn in Gq; lia|]. eexists; reflexivity. }
        rewrite (CS _ _ C1 _ _ _ _ _ _ E1). lia.
  - intros l1 a1 d1 E. cbn [ub].
    destruct (split_last recs) as [->|(q & b3 & d3 & ->)].
    + rewrite app_nil_r in E. rewrite (CL _ _ C1 _ _ _ E), K1.
      pose proof (wf_ub_mono _ _ W). lia.
    + rewrite app_assoc in E. apply app_inj_tail in E as [_ E]. inversion E; subst. eapply U; eauto.
Qed.

(* ---- histories: reading cells back ---- *)
Lemma last_write_app l1 l2 a : last_write (l1 ++ l2) a =
  match last_write l2 a with Some v => Some v | None => last_write l1 a end.
Proof.
  revert l1; induction l2 as [|w l2 IH] using rev_ind; intros l1.
  - rewrite app_nil_r. reflexivity.
  - rewrite app_assoc. unfold last_write in *. rewrite !fold_left_snoc.
    destruct (fst w =? a); auto.
Qed.

Lemma last_write_cells b d a : 0 <= b -> b + dsize d <= 2^32 ->
  last_write (cells b d) a = seg_at (b, d) a.
Proof.
  revert b; induction d as [|x d IH]; intros b Hb Hl.
  - cbn. unfold seg_at; cbn. destruct (a <? b); [reflexivity|]. destruct (Z.to_nat (a - b)); reflexivity.
  - assert (Hs : dsize (x :: d) = 1 + dsize d) by (unfold dsize; cbn [length]; lia).
    pose proof (dsize_nonneg d).
    change (cells b (x :: d)) with ([(b mod 2^32, x)] ++ cells (b + 1) d).
    rewrite last_write_app, IH by lia. rewrite Z.mod_small by lia.
    rewrite !seg_at_spec. rewrite Hs. cbn [last_write fold_left fst snd].
    destruct (Z.leb_spec (b + 1) a); destruct (Z.leb_spec b a);
    destruct (Z.ltb_spec a (b + 1 + dsize d)); destruct (Z.ltb_spec a (b + (1 + dsize d))); try lia; cbn [andb];
    destruct (Z.eqb_spec b a); try lia; auto.
    + replace (Z.to_nat (a - b)) with (S (Z.to_nat (a - (b + 1)))) by lia. reflexivity.
    + subst. rewrite Z.sub_diag. reflexivity.
Qed.

Lemma last_write_cells_all lo p a : 0 <= lo -> wf lo p -> last_write (cells_all p) a = segs_at p a.
Proof.
  revert lo; induction p as [|[b d] t IH]; intros lo Hlo W; [reflexivity|].
  cbn in W. destruct W as (? & Hd & ? & W). pose proof (dsize_pos _ Hd).
  unfold cells_all. cbn [flat_map]. rewrite last_write_app. fold (cells_all t).
  rewrite (IH (b + dsize d + 1)) by (auto; lia). cbn [fst snd].
  rewrite last_write_cells by lia. cbn [segs_at].
  destruct (segs_at t a) eqn:E.
  - rewrite seg_at_spec. destruct (Z.ltb_spec a (b + dsize d)); [|rewrite andb_false_r; reflexivity].
    rewrite (segs_at_below _ _ _ W) in E by lia. discriminate.
  - destruct (seg_at (b, d) a); reflexivity.
Qed.

Lemma cells_all_write lo p : 0 <= lo -> wf lo p -> Forall (fun s => bytes (snd s)) p -> Forall is_write (cells_all p).
Proof.
  intros Hlo W B. revert lo Hlo W. induction B as [|[b d] t Bd _ IH]; intros lo Hlo W; [constructor|].
  cbn in W. destruct W as (? & Hd & ? & W). pose proof (dsize_pos _ Hd).
  unfold cells_all; cbn [flat_map fst snd]. apply Forall_app. split; [|eapply IH; [|exact W]; lia].
  cbn in Bd. clear - Bd H0. revert b H0. induction Bd; intros b Hl; [constructor|].
  cbn [cells]. assert (dsize (x :: l) = 1 + dsize l) by (unfold dsize; cbn [length]; lia).
  constructor; [|apply IHBd; lia]. split; [|exact H]. unfold is_addr. cbn [fst]. lia.
Qed.

Lemma segs_in_at lo p b d i : wf lo p -> In (b, d) p -> (i < length d)%nat ->
  segs_at p (b + Z.of_nat i) = Some (nth i d 0).
Proof.
  revert lo; induction p as [|[b2 d2] t IH]; intros lo W Hin Hi; [contradiction|].
  cbn in W. destruct W as (? & Hd & ? & W). pose proof (dsize_pos _ Hd).
  cbn [segs_at]. rewrite seg_at_spec. destruct Hin as [Hin|Hin].
  - inversion Hin; subst. unfold dsize in *.
    destruct (Z.leb_spec b (b + Z.of_nat i)); [|lia].
    destruct (Z.ltb_spec (b + Z.of_nat i) (b + Z.of_nat (length d))); [|lia]. cbn [andb].
    f_equal. f_equal. lia.
  - assert (b2 + dsize d2 < b).
    { assert (LT : b2 + dsize d2 < b2 + dsize d2 + 1) by lia.
      pose proof (wf_keys_gt _ _ _ W LT) as G. unfold keys_gt in G.
      rewrite Forall_forall in G. apply G in Hin. exact Hin. }
    destruct (Z.ltb_spec (b + Z.of_nat i) (b2 + dsize d2)); [lia|].
    rewrite andb_false_r. eapply IH; eauto.
Qed.

Lemma segs_in_range lo p b d : 0 <= lo -> wf lo p -> In (b, d) p -> 0 <= b /\ d <> [] /\ b + dsize d <= 2^32.
Proof.
  revert lo; induction p as [|[b2 d2] t IH]; intros lo Hlo W Hin; [contradiction|].
  cbn in W. destruct W as (? & Hd & ? & W). pose proof (dsize_pos _ Hd).
  destruct Hin as [Hin|Hin]; [inversion Hin; subst; repeat split; auto; lia|].
  eapply (IH (b2 + dsize d2 + 1)); eauto. lia.
Qed.

Lemma pwrites_bytes ws : Forall is_write ws -> Forall (fun s => bytes (snd s)) (pwrites ws).
Proof.
  intros F. destruct (writes_spec ws F) as (W & _ & S).
  apply Forall_forall. intros [b d] Hin. cbn [snd]. apply Forall_forall. intros x Hx.
  destruct (In_nth _ _ 0 Hx) as (i & Hi & E).
  pose proof (segs_in_at 0 _ b d i W Hin Hi) as A. rewrite S, E in A.
  apply last_write_in in A. rewrite Forall_forall in F. apply F in A. apply A.
Qed.

(* bytes of records come from the image *)
Lemma cells_bytes b d : Forall is_write (cells b d) -> bytes d.
Proof.
  revert b; induction d; intros b F; [constructor|]. inversion F as [|? ? [_ H]]; subst.
  constructor; [exact H|]. eapply IHd; eauto.
Qed.

Lemma mem_records_ok ws rs : Forall is_write ws -> 1 <= rs ->
  exists N recs, (forall fuel, (N <= fuel)%nat -> mem_records fuel rs (writes ws) = Some recs) /\
    mem_eqb (wr_all empty recs) (writes ws) = true /\
    (forall a, last_write (cells_all recs) a = last_write ws a) /\
    Forall (fun r => bytes (snd r) /\ 0 < dsize (snd r) <= rs /\ 0 <= fst r /\
        exists b d k, In (b, d) (pwrites ws) /\ 0 <= k /\
        fst r = b + k * rs /\ fst r + dsize (snd r) <= b + dsize d) recs /\
    (forall l1 a1 d1 a2 d2 l2, recs = l1 ++ (a1, d1) :: (a2, d2) :: l2 -> a1 + dsize d1 <= a2).
Proof.
  intros F Hrs. destruct (writes_spec ws F) as (W & E & S).
  destruct (all_records_ok 0 rs (pwrites ws)) as (N & recs & R & C & A & _ & D & _); auto; try lia.
  exists N, recs.
  assert (IW : Forall is_write (cells_all recs)).
  { rewrite C. apply (cells_all_write 0); auto; [lia|]. apply pwrites_bytes; auto. }
  assert (LW : forall a, last_write (cells_all recs) a = last_write ws a).
  { intros a. rewrite C. rewrite (last_write_cells_all 0) by (auto; lia). apply S. }
  split; [|split; [|split; [|split]]]; auto.
  - intros fuel Hf. unfold mem_records. rewrite E, (mem_blocks_link 0) by auto. auto.
  - rewrite wr_all_cells. change (wfold (cells_all recs) empty) with (writes (cells_all recs)).
    apply writes_eq; auto.
  - apply Forall_forall. intros [a d] Hin. rewrite Forall_forall in A. pose proof (A _ Hin) as (S1 & b & dd & k & Hb & Hk & E1 & E2).
    cbn [fst snd] in *. split.
    + apply (cells_bytes a). rewrite Forall_forall in *. intros w Hw. apply IW.
      unfold cells_all. apply in_flat_map. exists (a, d). auto.
    + split; [exact S1|]. destruct (segs_in_range 0 _ b dd ltac:(lia) W Hb) as (? & ? & ?).
      split; [nia|]. exists b, dd, k. auto.
Qed.

(* C07: partition *)
Lemma rec_segs_at recs a : 
  (forall l1 a1 d1 a2 d2 l2, recs = l1 ++ (a1, d1) :: (a2, d2) :: l2 -> a1 + dsize d1 <= a2) ->
  Forall (fun r => 0 < dsize (snd r) /\ 0 <= fst r /\ fst r + dsize (snd r) <= 2^32) recs ->
  last_write (cells_all recs) a = segs_at recs a.
Proof.
  induction recs as [|[b d] t IH]; intros D F; [reflexivity|].
  inversion F as [|? ? (F1 & F2 & F3) Ft]; subst. cbn [fst snd] in *.
  unfold cells_all. cbn [flat_map fst snd]. rewrite last_write_app. fold (cells_all t).
  rewrite IH; auto.
  2:{ intros l1; intros. apply (D ((b, d) :: l1) a1 d1 a2 d2 l2). cbn. congruence. }
  rewrite last_write_cells by lia. cbn [segs_at].
  destruct (segs_at t a) eqn:E; [|destruct (seg_at (b, d) a); reflexivity].
  (* all later segments start at or after b + dsize d *)
  assert (G : forall t b d, (forall l1 a1 d1 a2 d2 l2, (b, d) :: t = l1 ++ (a1, d1) :: (a2, d2) :: l2 -> a1 + dsize d1 <= a2) ->
     Forall (fun r => 0 < dsize (snd r) /\ 0 <= fst r /\ fst r + dsize (snd r) <= 2^32) t ->
     forall x, segs_at t x <> None -> b + dsize d <= x).
  { clear. induction t as [|[b2 d2] t IH]; intros b d D F x Hx; [cbn in Hx; congruence|].
    inversion F as [|? ? (F1 & F2 & F3) Ft]; subst. cbn [fst snd] in *.
    assert (b + dsize d <= b2) by (apply (D [] b d b2 d2 t); reflexivity).
    cbn [segs_at] in Hx. rewrite seg_at_spec in Hx.
    destruct (Z.leb_spec b2 x); [lia|]. cbn [andb] in Hx.
    assert (b2 + dsize d2 <= x); [|lia].
    apply (IH b2 d2); auto. intros l1; intros. apply (D ((b, d) :: l1) a1 d1 a2 d0 l2). cbn. congruence. }
  assert (b + dsize d <= a) by (eapply G; eauto; congruence).
  rewrite seg_at_spec. destruct (Z.ltb_spec a (b + dsize d)); [lia|]. rewrite andb_false_r. reflexivity.
Qed.
