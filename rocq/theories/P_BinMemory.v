(** Proofs about [M_BinMemory]: the block map refines a pure segment list. *)
From Coq Require Import ZArith List Bool Lia ZifyBool.
From Verif Require Import M_Map M_BinMemory S_ByteMap S_Memory.
Import ListNotations.
Local Open Scope Z_scope.

Definition segs := list (Z * list Z).

Definition head_key (p : segs) : option Z :=
  match p with [] => None | (b, _) :: _ => Some b end.

Fixpoint link (p : segs) : memory :=
  match p with
  | [] => []
  | (b, d) :: t => (b, mkBlock b d (head_key t)) :: link t
  end.

(* well-formed above [lo] *)
Fixpoint wf (lo : Z) (p : segs) : Prop :=
  match p with
  | [] => True
  | (b, d) :: t => lo <= b /\ d <> [] /\ b + dsize d <= 2^32 /\ wf (b + dsize d + 1) t
  end.

Fixpoint pwrite (p : segs) (a v : Z) : segs :=
  match p with
  | [] => [(a, [v])]
  | (b, d) :: t =>
    if a + 1 <? b then (a, [v]) :: (b, d) :: t
    else if a + 1 =? b then (a, v :: d) :: t
    else if a <? b + dsize d then (b, list_set d (Z.to_nat (a - b)) v) :: t
    else if a =? b + dsize d then
      match t with
      | (b2, d2) :: t2 => if a + 1 =? b2 then (b, (d ++ [v]) ++ d2) :: t2
                          else (b, d ++ [v]) :: t
      | [] => (b, d ++ [v]) :: t
      end
    else (b, d) :: pwrite t a v
  end.

(* ---- link and map operations ---- *)

Definition keys_lt (p : segs) (a : Z) := Forall (fun s => fst s < a) p.
Definition keys_gt (p : segs) (a : Z) := Forall (fun s => a < fst s) p.

(* link with an explicit tail pointer for the last block *)
Fixpoint linkp (p : segs) (n : option Z) : memory :=
  match p with
  | [] => []
  | (b, d) :: t => (b, mkBlock b d (match head_key t with Some k => Some k | None => n end))
                     :: linkp t n
  end.

Lemma link_linkp p : link p = linkp p None.
Proof.
  induction p as [|[b d] t IH]; cbn; [reflexivity|].
  rewrite IH. destruct t as [|[? ?] ?]; reflexivity.
Qed.

Lemma linkp_app p q n :
  linkp (p ++ q) n = linkp p (match head_key q with Some k => Some k | None => n end) ++ linkp q n.
Proof.
  induction p as [|[b d] t IH]; [reflexivity|].
  cbn [linkp app]. rewrite IH.
  destruct t as [|[? ?] ?]; cbn; reflexivity.
Qed.

Lemma link_app p q : link (p ++ q) = linkp p (head_key q) ++ link q.
Proof.
  rewrite !link_linkp, linkp_app. destruct (head_key q); reflexivity.
Qed.

Lemma m_find_skip p n r a : keys_lt p a -> @m_find block (linkp p n ++ r) a = m_find r a.
Proof.
  induction p as [|[b d] t IH]; intros H; [reflexivity|].
  inversion H; subst; cbn in *.
  destruct (Z.eqb_spec b a); [lia|]. auto.
Qed.

Lemma m_update_skip p n r a f : keys_lt p a ->
  @m_update block (linkp p n ++ r) a f = linkp p n ++ m_update r a f.
Proof.
  induction p as [|[b d] t IH]; intros H; [reflexivity|].
  inversion H; subst; cbn in *.
  destruct (Z.eqb_spec b a); [lia|]. rewrite IH; auto.
Qed.

Lemma m_erase_skip p n r a : keys_lt p a ->
  @m_erase block (linkp p n ++ r) a = linkp p n ++ m_erase r a.
Proof.
  induction p as [|[b d] t IH]; intros H; [reflexivity|].
  inversion H; subst; cbn in *.
  destruct (Z.eqb_spec b a); [lia|]. rewrite IH; auto.
Qed.

Lemma m_next_skip p n r a : keys_lt p a -> @m_next block (linkp p n ++ r) a = m_next r a.
Proof.
  induction p as [|[b d] t IH]; intros H; [reflexivity|].
  inversion H; subst; cbn in *.
  destruct (Z.eqb_spec b a); [lia|]. auto.
Qed.

Lemma m_lower_bound_skip p n r a : keys_lt p a ->
  @m_lower_bound block (linkp p n ++ r) a = m_lower_bound r a.
Proof.
  induction p as [|[b d] t IH]; intros H; [reflexivity|].
  inversion H; subst; cbn in *.
  destruct (Z.leb_spec a b); [lia|]. auto.
Qed.

Lemma m_emplace_skip p n r a (v : block) : keys_lt p a ->
  m_emplace (linkp p n ++ r) a v = linkp p n ++ m_emplace r a v.
Proof.
  induction p as [|[b d] t IH]; intros H; [reflexivity|].
  inversion H; subst; cbn in *.
  destruct (Z.ltb_spec a b); [lia|].
  destruct (Z.eqb_spec a b); [lia|]. rewrite IH; auto.
Qed.

(* predecessor of the first node of [r] is the last of [p] *)
Lemma m_prev_skip p pb pd n r a (w : block) : keys_lt (p ++ [(pb, pd)]) a ->
  m_prev (linkp (p ++ [(pb, pd)]) n ++ (a, w) :: r) (Some a) = Some pb.
Proof.
  induction p as [|[b d] t IH]; intros H.
  - cbn. rewrite Z.eqb_refl. reflexivity.
  - inversion H; subst. cbn [app linkp m_prev].
    destruct t as [|[b2 d2] t2].
    + cbn [app linkp]. inversion H3; subst. cbn in H4.
      destruct (Z.eqb_spec pb a); [lia|]. apply (IH H3).
    + cbn [app linkp] in *. inversion H3; subst. cbn in H4.
      destruct (Z.eqb_spec b2 a); [lia|]. apply (IH H3).
Qed.

Lemma m_prev_end p pb pd n :
  @m_prev block (linkp (p ++ [(pb, pd)]) n) None = Some pb.
Proof.
  induction p as [|[b d] t IH]; [reflexivity|].
  cbn [app linkp m_prev].
  destruct t as [|[b2 d2] t2]; exact IH.
Qed.

Lemma head_key_app p q : head_key (p ++ q) = match head_key p with Some k => Some k | None => head_key q end.
Proof. destruct p as [|[? ?] ?]; reflexivity. Qed.

Lemma m_begin_linkp p n r : @m_begin block (linkp p n ++ r) =
  match head_key p with Some k => Some k | None => m_begin r end.
Proof. destruct p as [|[? ?] ?]; reflexivity. Qed.

Lemma m_begin_link p : @m_begin block (link p) = head_key p.
Proof. destruct p as [|[? ?] ?]; reflexivity. Qed.

(* ---- wf facts ---- *)
Lemma dsize_nonneg d : 0 <= dsize d. Proof. unfold dsize; lia. Qed.
Lemma dsize_pos d : d <> [] -> 0 < dsize d.
Proof. destruct d; [congruence|]. unfold dsize; cbn; lia. Qed.
Lemma dsize_app a b : dsize (a ++ b) = dsize a + dsize b.
Proof. unfold dsize. rewrite app_length. lia. Qed.
Lemma list_set_length l n v : length (list_set l n v) = length l.
Proof. revert n; induction l; destruct n; cbn; auto. Qed.

Lemma wf_weaken lo lo' p : lo' <= lo -> wf lo p -> wf lo' p.
Proof. destruct p as [|[b d] t]; cbn; auto. intros ? [? ?]. split; [lia|tauto]. Qed.

Lemma wf_keys_gt p lo a : wf lo p -> a < lo -> keys_gt p a.
Proof.
  revert lo; induction p as [|[b d] t IH]; intros lo H Hl; constructor.
  - cbn in *; lia.
  - cbn in H. destruct H as (? & ? & ? & ?).
    pose proof (dsize_nonneg d). eapply IH; eauto. lia.
Qed.

Fixpoint ub (lo : Z) (p : segs) : Z :=   (* end (exclusive) +1 of the last segment *)
  match p with [] => lo | (b, d) :: t => ub (b + dsize d + 1) t end.

Lemma wf_app lo p q : wf lo (p ++ q) <-> wf lo p /\ wf (ub lo p) q.
Proof.
  revert lo; induction p as [|[b d] t IH]; intros lo; cbn; [tauto|].
  rewrite IH. tauto.
Qed.

Lemma wf_keys_lt lo p a : wf lo p -> ub lo p <= a -> keys_lt p a.
Proof.
  revert lo; induction p as [|[b d] t IH]; intros lo H Hu; constructor; cbn in *.
  - destruct H as (? & ? & ? & ?).
    assert (forall t lo, wf lo t -> lo <= ub lo t) as M.
    { clear. induction t as [|[b d] t IH]; cbn; intros; [lia|].
      destruct H as (? & ? & ? & ?). pose proof (dsize_nonneg d). apply IH in H2. lia. }
    apply M in H2. pose proof (dsize_pos d H0). lia.
  - destruct H as (? & ? & ? & ?). eapply IH; eauto.
Qed.

Lemma wf_ub_mono lo p : wf lo p -> lo <= ub lo p.
Proof.
  revert lo. induction p as [|[b d] t IH]; cbn; intros; [lia|].
  destruct H as (? & ? & ? & ?). pose proof (dsize_nonneg d). apply IH in H2. lia.
Qed.

(* ---- find ---- *)
Lemma find_none p a lo : wf lo p -> keys_gt p a -> find (link p) a = None.
Proof.
  intros W H. destruct p as [|[b d] t]; [reflexivity|].
  inversion H; subst; cbn [fst] in *.
  unfold find; cbn [link m_lower_bound m_begin].
  assert (E : a <=? b = true) by lia; rewrite E.
  cbn [m_find]. rewrite !Z.eqb_refl. cbn [b_base].
  assert (E2 : a <? b = true) by lia; rewrite E2. reflexivity.
Qed.

Lemma split_last (p : segs) : p = [] \/ exists q b d, p = q ++ [(b, d)].
Proof.
  destruct p as [|x t]; [auto|right].
  destruct (exists_last (l := x :: t)) as (q & [b d] & E); [congruence|eauto].
Qed.

Lemma find_some lo l1 b d l2 a : wf lo (l1 ++ (b, d) :: l2) ->
  b <= a -> keys_gt l2 a ->
  find (link (l1 ++ (b, d) :: l2)) a = Some b.
Proof.
  intros W Hb Hg.
  apply wf_app in W as [W1 W2]. cbn in W2. destruct W2 as (? & Hd & ? & W2).
  pose proof (dsize_pos _ Hd) as Hp.
  assert (K1 : keys_lt l1 b) by (eapply wf_keys_lt; eauto).
  rewrite link_app.
  assert (K1a : keys_lt l1 a).
  { eapply Forall_impl; [|exact K1]. cbn; intros; lia. }
  assert (E : find (linkp l1 (head_key ((b, d) :: l2)) ++ link ((b, d) :: l2)) a =
    let m := linkp l1 (head_key ((b, d) :: l2)) ++ link ((b, d) :: l2) in
    let it := m_lower_bound m a in
    match it, m_begin m with
    | Some k, Some k0 =>
      match m_find m k with
      | Some b =>
        if k =? k0 then
          if a <? b_base b then None else it
        else if a <? b_base b then m_prev m it else it
      | None => None
      end
    | None, _ => m_prev m None
    | Some _, None => None
    end).
  { unfold find. destruct l1 as [|[? ?] ?]; reflexivity. }
  rewrite E; clear E. cbv zeta.
  rewrite m_lower_bound_skip by exact K1a.
  rewrite m_begin_linkp.
  set (NK := head_key ((b, d) :: l2)).
  cbn [link m_lower_bound].
  destruct (Z.leb_spec a b) as [Hab|Hab].
  - assert (a = b) by lia; subst a.
    rewrite m_find_skip by exact K1. cbn [m_find m_begin]. rewrite Z.eqb_refl. cbn [b_base].
    rewrite Z.ltb_irrefl.
    destruct l1 as [|[b1 d1] t1]; cbn [head_key].
    + rewrite Z.eqb_refl. reflexivity.
    + destruct (Z.eqb_spec b b1); reflexivity.
  - destruct l2 as [|[b2 d2] l2].
    + cbn [link m_lower_bound].
      replace (linkp l1 NK ++ [(b, mkBlock b d (head_key []))])
        with (linkp (l1 ++ [(b, d)]) None).
      * apply m_prev_end.
      * rewrite linkp_app. reflexivity.
    + inversion Hg; subst. cbn [fst] in *.
      cbn [link m_lower_bound].
      destruct (Z.leb_spec a b2); [|lia].
      replace (linkp l1 NK ++ (b, mkBlock b d (head_key ((b2, d2) :: l2))) :: (b2, mkBlock b2 d2 (head_key l2)) :: link l2)
        with (linkp (l1 ++ [(b, d)]) (Some b2) ++ (b2, mkBlock b2 d2 (head_key l2)) :: link l2)
        by (rewrite linkp_app, <- app_assoc; reflexivity).
      assert (K2 : keys_lt (l1 ++ [(b, d)]) b2).
      { apply Forall_app; split.
        - eapply Forall_impl; [|exact K1]. cbn; intros; lia.
        - constructor; [cbn; lia|constructor]. }
      rewrite m_find_skip by exact K2. cbn [m_find]. rewrite Z.eqb_refl. cbn [b_base].
      assert (Hlt : a <? b2 = true) by lia. rewrite Hlt.
      rewrite m_prev_skip by exact K2.
      destruct l1 as [|[b1 d1] t1]; cbn [head_key app linkp m_begin].
      * destruct (Z.eqb_spec b2 b); [lia|reflexivity].
      * inversion K1; subst; cbn [fst] in *.
        destruct (Z.eqb_spec b2 b1); [lia|reflexivity].
Qed.

(* Every well-formed list splits around an address. *)
Lemma split_at p lo a : wf lo p ->
  keys_gt p a \/ exists l1 b d l2, p = l1 ++ (b, d) :: l2 /\ b <= a /\ keys_gt l2 a.
Proof.
  revert lo; induction p as [|[b d] t IH]; intros lo W.
  - left; constructor.
  - cbn in W. destruct W as (? & ? & ? & W).
    destruct (Z.le_gt_cases b a).
    + right. destruct (IH _ W) as [G|(l1 & b' & d' & l2 & E & ? & ?)].
      * exists [], b, d, t. auto.
      * exists ((b, d) :: l1), b', d', l2. subst; auto.
    + left. constructor; [cbn; lia|]. eapply wf_keys_gt; eauto.
      pose proof (dsize_nonneg d). lia.
Qed.

(* ---- aggregate: block [b] in the middle; next, then prev ---- *)
Definition join_next (b : Z) (d : list Z) (l2 : segs) : list Z * segs :=
  match l2 with
  | (b2, d2) :: t2 => if b2 =? b + dsize d then (d ++ d2, t2) else (d, l2)
  | [] => (d, [])
  end.

Definition last_seg (l1 : segs) : option (segs * Z * list Z) :=
  match rev l1 with [] => None | (b, d) :: t => Some (rev t, b, d) end.

Lemma last_seg_snoc q b d : last_seg (q ++ [(b, d)]) = Some (q, b, d).
Proof. unfold last_seg. rewrite rev_app_distr. cbn. rewrite rev_involutive. reflexivity. Qed.

Definition join_prev (l1 : segs) (b : Z) (d : list Z) (l2 : segs) : segs :=
  match last_seg l1 with
  | Some (q, pb, pd) => if b =? pb + dsize pd then q ++ (pb, pd ++ d) :: l2
                        else l1 ++ (b, d) :: l2
  | None => (b, d) :: l2
  end.

Lemma aggregate_link lo l1 b d l2 :
  wf lo l1 -> keys_lt l1 b -> keys_gt l2 b ->
  aggregate (link (l1 ++ (b, d) :: l2)) b =
  link (let '(d', l2') := join_next b d l2 in join_prev l1 b d' l2').
Proof.
  intros W1 K1 K2.
  unfold aggregate.
  rewrite link_app. cbn [head_key].
  rewrite m_find_skip by exact K1.
  cbn [link m_find]. rewrite Z.eqb_refl.
  rewrite m_next_skip by exact K1.
  cbn [m_next]. rewrite Z.eqb_refl. rewrite m_begin_link.
  (* normal form after the next step *)
  set (M1 := match head_key l2 with Some _ => _ | None => _ end).
  assert (E1 : M1 = let '(d', l2') := join_next b d l2 in
      linkp l1 (Some b) ++ link ((b, d') :: l2')).
  { subst M1. destruct l2 as [|[b2 d2] t2]; cbn [head_key join_next]; [reflexivity|].
    inversion K2; subst; cbn [fst] in *.
    assert (K1' : keys_lt l1 b2) by (eapply Forall_impl; [|exact K1]; cbn; intros; lia).
    rewrite m_find_skip by exact K1'. cbn [link m_find].
    destruct (Z.eqb_spec b b2); [lia|]. rewrite Z.eqb_refl.
    unfold atEnd; cbn [b_base b_data].
    destruct (Z.eqb_spec b2 (b + dsize d)); [|reflexivity].
    rewrite m_update_skip by exact K1. cbn [m_update]. rewrite Z.eqb_refl.
    rewrite m_erase_skip by exact K1'. cbn [m_erase].
    destruct (Z.eqb_spec b b2); [lia|]. rewrite Z.eqb_refl. reflexivity. }
  rewrite E1; clear E1 M1.
  destruct (join_next b d l2) as [d' l2'].
  destruct (split_last l1) as [->|(q & pb & pd & ->)].
  - cbn [linkp app link m_begin]. rewrite Z.eqb_refl. reflexivity.
  - unfold join_prev; rewrite last_seg_snoc.
    rewrite m_begin_linkp.
    assert (Hpb : pb < b).
    { apply Forall_app in K1 as [_ K]. inversion K; subst; auto. }
    apply wf_app in W1 as [Wq Wp].
    assert (Kq : keys_lt q pb).
    { eapply wf_keys_lt; eauto. cbn in Wp. tauto. }
    assert (exists k0, head_key (q ++ [(pb, pd)]) = Some k0 /\ k0 < b) as (k0 & Ek & Hk).
    { destruct q as [|[k dd] q']; cbn; eexists; split; eauto.
      inversion K1; auto. }
    rewrite Ek. destruct (Z.eqb_spec b k0); [lia|].
    cbn [link].
    rewrite m_prev_skip by exact K1.
    rewrite (m_find_skip (q ++ [(pb, pd)]) _ _ b) by exact K1.
    cbn [m_find]. rewrite Z.eqb_refl.
    rewrite linkp_app. cbn [head_key linkp]. rewrite <- !app_assoc. cbn [app].
    rewrite m_find_skip by exact Kq. cbn [m_find]. rewrite Z.eqb_refl.
    unfold atEnd; cbn [b_base b_data].
    assert (Kqb : keys_lt q b) by (eapply Forall_impl; [|exact Kq]; cbn; intros; lia).
    destruct (Z.eqb_spec b (pb + dsize pd)).
    + rewrite m_update_skip by exact Kq. cbn [m_update]. rewrite Z.eqb_refl.
      rewrite m_erase_skip by exact Kqb. cbn [m_erase].
      destruct (Z.eqb_spec pb b); [lia|]. rewrite Z.eqb_refl.
      rewrite link_app. reflexivity.
    + rewrite !link_app. cbn [head_key link app]. reflexivity.
Qed.

Lemma m_update_last q pb pd n r f lo : wf lo (q ++ [(pb, pd)]) ->
  m_update (linkp (q ++ [(pb, pd)]) n ++ r) pb f
  = linkp q (Some pb) ++ (pb, f (mkBlock pb pd n)) :: r.
Proof.
  intros W. apply wf_app in W as [Wq Wp].
  assert (Kq : keys_lt q pb) by (eapply wf_keys_lt; eauto; cbn in Wp; tauto).
  rewrite linkp_app. cbn [head_key linkp]. rewrite <- app_assoc. cbn [app].
  rewrite m_update_skip by exact Kq. cbn [m_update]. rewrite Z.eqb_refl. reflexivity.
Qed.

Lemma createBlock_link lo l1 l2 a v :
  wf lo l1 -> keys_lt l1 a -> keys_gt l2 a ->
  createBlock (link (l1 ++ l2)) a v =
  link (let '(d', l2') := join_next a [v] l2 in join_prev l1 a d' l2').
Proof.
  intros W1 K1 K2. rewrite <- (aggregate_link lo) by assumption.
  unfold createBlock.
  rewrite link_app.
  rewrite m_emplace_skip by exact K1.
  assert (E : m_emplace (link l2) a (mkBlock a [] None) = (a, mkBlock a [] None) :: link l2).
  { destruct l2 as [|[b d] t]; [reflexivity|]. inversion K2; subst; cbn [fst] in *.
    cbn [link m_emplace]. destruct (Z.ltb_spec a b); [reflexivity|lia]. }
  rewrite E; clear E.
  rewrite m_next_skip by exact K1. cbn [m_next]. rewrite Z.eqb_refl, m_begin_link.
  set (N := head_key l2).
  match goal with |- context[m_begin ?X] => set (M2 := X) end.
  assert (E2 : M2 = linkp l1 N ++ (a, mkBlock a [] N) :: link l2).
  { subst M2. destruct N.
    - rewrite m_update_skip by exact K1. cbn [m_update]. rewrite Z.eqb_refl. reflexivity.
    - reflexivity. }
  rewrite E2; clear E2 M2.
  match goal with |- context[m_update ?X a (b_append v)] => set (M3 := X) end.
  assert (E3 : M3 = linkp l1 (Some a) ++ (a, mkBlock a [] N) :: link l2).
  { subst M3. destruct (split_last l1) as [->|(q & pb & pd & ->)].
    - cbn [linkp app m_begin]. rewrite Z.eqb_refl. reflexivity.
    - rewrite m_begin_linkp.
      assert (exists k0, head_key (q ++ [(pb, pd)]) = Some k0 /\ k0 < a) as (k0 & Ek & Hk).
      { destruct q as [|[k dd] q']; cbn; eexists; split; eauto.
        inversion K1; auto. inversion K1; auto. }
      rewrite Ek. destruct (Z.eqb_spec a k0); [lia|].
      rewrite m_prev_skip by exact K1.
      erewrite m_update_last by exact W1.
      cbn [b_connect b_base b_data].
      rewrite linkp_app, <- app_assoc. reflexivity. }
  rewrite E3; clear E3 M3.
  rewrite m_update_skip by exact K1. cbn [m_update]. rewrite Z.eqb_refl.
  rewrite m_find_skip by exact K1. cbn [m_find]. rewrite Z.eqb_refl.
  cbn [b_append b_base b_data app].
  rewrite link_app. reflexivity.
Qed.

Lemma pwrite_skip l1 a v r lo : wf lo l1 ->
  ub lo l1 <= a -> pwrite (l1 ++ r) a v = l1 ++ pwrite r a v.
Proof.
  revert lo; induction l1 as [|[b d] t IH]; intros lo W Hu; [reflexivity|].
  cbn [app pwrite]. cbn in W, Hu. destruct W as (? & Hd & ? & W).
  pose proof (wf_ub_mono _ _ W). pose proof (dsize_pos _ Hd).
  destruct (Z.ltb_spec (a + 1) b); [lia|].
  destruct (Z.eqb_spec (a + 1) b); [lia|].
  destruct (Z.ltb_spec a (b + dsize d)); [lia|].
  destruct (Z.eqb_spec a (b + dsize d)); [lia|].
  f_equal. eapply IH; eauto.
Qed.

Lemma writeByte_link lo p a v : wf lo p ->
  writeByte (link p) a v = link (pwrite p a v).
Proof.
  intros W. unfold writeByte.
  destruct (split_at p lo a W) as [G|(l1 & b & d & l2 & -> & Hb & G)].
  - rewrite (find_none p a lo) by auto.
    pose proof (createBlock_link lo [] p a v) as C. cbn [app] in C.
    rewrite C; [|exact I|constructor|exact G].
    destruct p as [|[b d] t]; [reflexivity|].
    inversion G; subst; cbn [fst] in *.
    cbn [join_next pwrite]. change (dsize [v]) with 1.
    destruct (Z.ltb_spec (a + 1) b); destruct (Z.eqb_spec b (a + 1));
      destruct (Z.eqb_spec (a + 1) b); try lia; reflexivity.
  - rewrite (find_some lo) by auto.
    pose proof W as W0.
    apply wf_app in W as [W1 W2]. cbn in W2. destruct W2 as (HU & Hd & Hle & W2).
    pose proof (dsize_pos _ Hd) as Hp.
    assert (K1 : keys_lt l1 b) by (eapply wf_keys_lt; eauto).
    rewrite link_app at 1.
    rewrite m_find_skip by exact K1. cbn [link m_find]. rewrite Z.eqb_refl.
    unfold inside, atEnd; cbn [b_base b_data].
    rewrite (pwrite_skip _ _ _ _ lo) by (auto; lia).
    cbn [pwrite].
    destruct (Z.ltb_spec (a + 1) b); [lia|].
    destruct (Z.eqb_spec (a + 1) b); [lia|].
    destruct (Z.leb_spec b a); [|lia]. cbn [andb].
    destruct (Z.ltb_spec a (b + dsize d)).
    + rewrite link_app. rewrite m_update_skip by exact K1.
      cbn [link m_update]. rewrite Z.eqb_refl. cbn [head_key].
      rewrite link_app. reflexivity.
    + destruct (Z.eqb_spec a (b + dsize d)) as [Ea|Ea].
      * rewrite link_app. rewrite m_update_skip by exact K1.
        cbn [link m_update head_key]. rewrite Z.eqb_refl. cbn [b_append b_base b_data].
        replace (linkp l1 (Some b) ++ (b, b_append v (mkBlock b d (head_key l2))) :: link l2)
          with (link (l1 ++ (b, d ++ [v]) :: l2)) by (rewrite link_app; reflexivity).
        rewrite (aggregate_link lo).
        -- assert (JP : forall d' l2', join_prev l1 b d' l2' = l1 ++ (b, d') :: l2').
           { intros. unfold join_prev. destruct (split_last l1) as [->|(q & pb & pd & ->)]; [reflexivity|].
             rewrite last_seg_snoc.
             destruct (Z.eqb_spec b (pb + dsize pd)); [|reflexivity].
             exfalso. assert (X : forall lo, ub lo (q ++ [(pb, pd)]) = pb + dsize pd + 1).
             { clear. induction q as [|[? ?] ? IH]; cbn; auto. }
             rewrite X in HU. lia. }
           destruct l2 as [|[b2 d2] t2].
           ++ cbn [join_next]. rewrite JP. reflexivity.
           ++ unfold join_next. rewrite dsize_app. change (dsize [v]) with 1.
              destruct (Z.eqb_spec b2 (b + (dsize d + 1)));
              destruct (Z.eqb_spec (a + 1) b2); try lia; rewrite JP; reflexivity.
        -- exact W1.
        -- exact K1.
        -- eapply Forall_impl; [|exact G]. cbn; intros; lia.
      * assert (W1b : wf lo (l1 ++ [(b, d)])).
        { apply wf_app. split; auto. cbn. repeat split; auto. }
        replace (l1 ++ (b, d) :: l2) with ((l1 ++ [(b, d)]) ++ l2)
          by (rewrite <- app_assoc; reflexivity).
        rewrite (createBlock_link lo).
        -- assert (JP : forall d' l2', join_prev (l1 ++ [(b, d)]) a d' l2' = l1 ++ (b, d) :: (a, d') :: l2').
           { intros. unfold join_prev. rewrite last_seg_snoc.
             destruct (Z.eqb_spec a (b + dsize d)); [lia|].
             rewrite <- app_assoc. reflexivity. }
           destruct l2 as [|[b2 d2] t2].
           ++ cbn [join_next pwrite]. rewrite JP. reflexivity.
           ++ inversion G; subst; cbn [fst] in *.
              unfold join_next. cbn [pwrite]. change (dsize [v]) with 1.
              destruct (Z.ltb_spec (a + 1) b2);
              destruct (Z.eqb_spec (a + 1) b2);
              destruct (Z.eqb_spec b2 (a + 1)); try lia; rewrite JP; reflexivity.
        -- exact W1b.
        -- apply Forall_app. split.
           ++ eapply Forall_impl; [|exact K1]. cbn; intros; lia.
           ++ constructor; [cbn; lia|constructor].
        -- exact G.
Qed.

(* ---- pwrite preserves wf and implements map update ---- *)
Lemma pwrite_wf lo p a v : wf lo p -> lo <= a < 2^32 -> wf lo (pwrite p a v).
Proof.
  revert lo; induction p as [|[b d] t IH]; intros lo W Ha; cbn [pwrite].
  - cbn [wf]. change (dsize [v]) with 1. repeat split; try congruence; lia.
  - cbn in W. destruct W as (? & Hd & ? & W). pose proof (dsize_pos _ Hd).
    destruct (Z.ltb_spec (a + 1) b).
    { cbn [wf]. change (dsize [v]) with 1. repeat split; try congruence; try lia; auto. }
    destruct (Z.eqb_spec (a + 1) b).
    { cbn [wf]. replace (dsize (v :: d)) with (1 + dsize d) by (unfold dsize; cbn [length]; lia).
      replace (a + (1 + dsize d) + 1) with (b + dsize d + 1) by lia.
      repeat split; try congruence; try lia; auto. }
    destruct (Z.ltb_spec a (b + dsize d)).
    { cbn [wf]. unfold dsize in *. rewrite list_set_length. repeat split; auto.
      intros E. apply (f_equal (@length Z)) in E. rewrite list_set_length in E.
      destruct d; [congruence|]. discriminate E. }
    destruct (Z.eqb_spec a (b + dsize d)).
    { assert (N : forall x, d ++ x <> []) by (destruct d; cbn; congruence).
      destruct t as [|[b2 d2] t2].
      - cbn [wf]. rewrite dsize_app. change (dsize [v]) with 1. repeat split; auto; try lia.
      - cbn in W. destruct W as (? & ? & ? & W).
        destruct (Z.eqb_spec (a + 1) b2); cbn [wf]; rewrite !dsize_app; change (dsize [v]) with 1.
        + rewrite <- app_assoc. repeat split; auto; try lia.
          eapply wf_weaken; [|exact W]. lia.
        + repeat split; auto; try lia. }
    cbn [wf]. repeat split; auto. apply IH; auto. lia.
Qed.

Lemma seg_at_spec b d a : seg_at (b, d) a =
  if (b <=? a) && (a <? b + dsize d) then Some (nth (Z.to_nat (a - b)) d 0) else None.
Proof.
  unfold seg_at, dsize; cbn [fst snd].
  destruct (Z.ltb_spec a b); destruct (Z.leb_spec b a); try lia; cbn [andb]; [reflexivity|].
  destruct (Z.ltb_spec a (b + Z.of_nat (length d))).
  - apply nth_error_nth'. lia.
  - apply nth_error_None. lia.
Qed.

Lemma segs_at_below lo p a : wf lo p -> a < lo -> segs_at p a = None.
Proof.
  revert lo; induction p as [|[b d] t IH]; intros lo W H; [reflexivity|].
  cbn in W. destruct W as (? & Hd & ? & W). pose proof (dsize_pos _ Hd).
  cbn [segs_at]. rewrite seg_at_spec.
  destruct (Z.leb_spec b a); [lia|]. cbn [andb].
  eapply IH; eauto. lia.
Qed.

Lemma nth_list_set_eq d n v : (n < length d)%nat -> nth n (list_set d n v) 0 = v.
Proof. revert n; induction d; destruct n; cbn; intros; try lia; auto. apply IHd; lia. Qed.
Lemma nth_list_set_neq d n m v : n <> m -> nth m (list_set d n v) 0 = nth m d 0.
Proof.
  revert n m; induction d; destruct n, m; cbn; intros; try lia; try congruence; auto.
Qed.

Lemma pwrite_at lo p a v x : wf lo p ->
  segs_at (pwrite p a v) x = if x =? a then Some v else segs_at p x.
Proof.
  revert lo; induction p as [|[b d] t IH]; intros lo W; cbn [pwrite].
  - cbn [segs_at]. rewrite seg_at_spec. change (dsize [v]) with 1.
    destruct (Z.eqb_spec x a).
    + subst. replace (a - a) with 0 by lia. cbn.
      destruct (Z.leb_spec a a); [|lia]. destruct (Z.ltb_spec a (a + 1)); [|lia]. reflexivity.
    + destruct (Z.leb_spec a x); destruct (Z.ltb_spec x (a + 1)); try lia; reflexivity.
  - cbn in W. destruct W as (? & Hd & ? & W). pose proof (dsize_pos _ Hd).
    destruct (Z.ltb_spec (a + 1) b).
    { cbn [segs_at]. rewrite (seg_at_spec a). change (dsize [v]) with 1.
      destruct (Z.eqb_spec x a).
      - subst. replace (a - a) with 0 by lia. cbn.
        destruct (Z.leb_spec a a); [|lia]. destruct (Z.ltb_spec a (a + 1)); [|lia]. reflexivity.
      - destruct (Z.leb_spec a x); destruct (Z.ltb_spec x (a + 1)); try lia; reflexivity. }
    destruct (Z.eqb_spec (a + 1) b).
    { cbn [segs_at]. rewrite !seg_at_spec.
      replace (dsize (v :: d)) with (1 + dsize d) by (unfold dsize; cbn [length]; lia).
      destruct (Z.eqb_spec x a).
      - subst. replace (a - a) with 0 by lia. cbn [nth Z.to_nat].
        destruct (Z.leb_spec a a); [|lia]. destruct (Z.ltb_spec a (a + (1 + dsize d))); [|lia]. reflexivity.
      - destruct (Z.leb_spec a x); destruct (Z.leb_spec b x);
        destruct (Z.ltb_spec x (a + (1 + dsize d))); destruct (Z.ltb_spec x (b + dsize d)); try lia; cbn [andb]; auto.
        replace (Z.to_nat (x - a)) with (S (Z.to_nat (x - b))) by lia. reflexivity. }
    destruct (Z.ltb_spec a (b + dsize d)).
    { cbn [segs_at]. rewrite !seg_at_spec.
      replace (dsize (list_set d (Z.to_nat (a - b)) v)) with (dsize d)
        by (unfold dsize; rewrite list_set_length; reflexivity).
      destruct (Z.eqb_spec x a).
      - subst. destruct (Z.leb_spec b a); [|lia]. destruct (Z.ltb_spec a (b + dsize d)); [|lia].
        cbn [andb]. rewrite nth_list_set_eq; [reflexivity|]. unfold dsize in *. lia.
      - destruct (Z.leb_spec b x); destruct (Z.ltb_spec x (b + dsize d)); cbn [andb]; auto.
        rewrite nth_list_set_neq; [reflexivity|]. lia. }
    destruct (Z.eqb_spec a (b + dsize d)) as [Ea|Ea].
    { assert (Happ : forall y, seg_at (b, (d ++ [v]) ++ y) x =
         if x =? a then Some v else
         match seg_at (b, d) x with Some w => Some w | None => seg_at (a + 1, y) x end).
      { intros y. rewrite !seg_at_spec. rewrite !dsize_app. change (dsize [v]) with 1.
        destruct (Z.eqb_spec x a).
        - subst x. destruct (Z.leb_spec b a); [|lia].
          pose proof (dsize_nonneg y).
          destruct (Z.ltb_spec a (b + (dsize d + 1 + dsize y))); [|lia].
          cbn [andb]. rewrite <- app_assoc. rewrite app_nth2 by (unfold dsize in *; lia).
          replace (Z.to_nat (a - b) - length d)%nat with O by (unfold dsize in *; lia). reflexivity.
        - pose proof (dsize_nonneg y).
          destruct (Z.leb_spec b x); cbn [andb].
          + destruct (Z.ltb_spec x (b + dsize d)).
            * destruct (Z.ltb_spec x (b + (dsize d + 1 + dsize y))); [|lia].
              rewrite <- app_assoc. rewrite app_nth1 by (unfold dsize in *; lia). reflexivity.
            * destruct (Z.leb_spec (a + 1) x); [|lia]. cbn [andb].
              destruct (Z.ltb_spec x (b + (dsize d + 1 + dsize y)));
              destruct (Z.ltb_spec x (a + 1 + dsize y)); try lia; [|reflexivity].
              rewrite app_nth2 by (rewrite app_length; cbn [length]; unfold dsize in *; lia).
              f_equal. f_equal. rewrite app_length; cbn [length]. unfold dsize in *. lia.
          + destruct (Z.leb_spec (a + 1) x); [lia|]. reflexivity. }
      assert (Hnil : segs_at t a = None).
      { eapply segs_at_below; eauto. lia. }
      destruct t as [|[b2 d2] t2].
      - cbn [segs_at]. specialize (Happ []). rewrite app_nil_r in Happ. rewrite Happ.
        replace (seg_at (a + 1, []) x) with (@None Z).
        + destruct (x =? a); auto. destruct (seg_at (b, d) x); auto.
        + rewrite seg_at_spec. change (dsize []) with 0.
          destruct (Z.leb_spec (a+1) x); destruct (Z.ltb_spec x (a+1+0)); try lia; reflexivity.
      - destruct (Z.eqb_spec (a + 1) b2).
        + subst b2. cbn [segs_at]. rewrite Happ.
          destruct (x =? a); auto. destruct (seg_at (b, d) x); auto.
        + cbn [segs_at]. specialize (Happ []). rewrite app_nil_r in Happ. rewrite Happ.
          replace (seg_at (a + 1, []) x) with (@None Z).
          * destruct (x =? a); auto. destruct (seg_at (b, d) x); auto.
          * rewrite seg_at_spec. change (dsize []) with 0.
            destruct (Z.leb_spec (a+1) x); destruct (Z.ltb_spec x (a+1+0)); try lia; reflexivity. }
    cbn [segs_at]. erewrite IH by eauto.
    destruct (Z.eqb_spec x a); auto. subst. rewrite seg_at_spec.
    destruct (Z.ltb_spec a (b + dsize d)); [lia|]. rewrite andb_false_r. reflexivity.
Qed.

(* ---- reading: any map whose blocks lie at or after their keys ---- *)
Fixpoint mem_at (m : memory) (a : Z) : option Z :=
  match m with
  | [] => None
  | (_, b) :: t => if inside b a then Some (b_read b a) else mem_at t a
  end.

Fixpoint kwf (lo : Z) (m : memory) : Prop :=
  match m with
  | [] => True
  | (k, b) :: t => lo <= k /\ k <= b_base b /\ b_data b <> [] /\
                   kwf (b_base b + dsize (b_data b)) t
  end.

Fixpoint kub (lo : Z) (m : memory) : Z :=
  match m with [] => lo | (_, b) :: t => kub (b_base b + dsize (b_data b)) t end.

Lemma kwf_app lo p q : kwf lo (p ++ q) <-> kwf lo p /\ kwf (kub lo p) q.
Proof.
  revert lo; induction p as [|[k b] t IH]; intros lo; cbn; [tauto|].
  rewrite IH. tauto.
Qed.

Lemma kwf_kub lo m : kwf lo m -> lo <= kub lo m.
Proof.
  revert lo; induction m as [|[k b] t IH]; cbn; intros lo H; [lia|].
  destruct H as (? & ? & Hd & W). pose proof (dsize_pos _ Hd). apply IH in W. lia.
Qed.

Lemma mem_at_below lo m a : kwf lo m -> a < lo -> mem_at m a = None.
Proof.
  revert lo; induction m as [|[k b] t IH]; cbn; intros lo H Ha; [reflexivity|].
  destruct H as (? & ? & Hd & W). pose proof (dsize_pos _ Hd).
  unfold inside. destruct (Z.leb_spec (b_base b) a); [lia|]. cbn.
  eapply IH; eauto. lia.
Qed.

Lemma mem_at_above lo m r a : kwf lo m -> kub lo m <= a -> mem_at (m ++ r) a = mem_at r a.
Proof.
  revert lo; induction m as [|[k b] t IH]; cbn; intros lo H Ha; [reflexivity|].
  destruct H as (? & ? & Hd & W). pose proof (kwf_kub _ _ W).
  unfold inside. destruct (Z.ltb_spec a (b_base b + dsize (b_data b))); [lia|].
  rewrite andb_false_r. eapply IH; eauto.
Qed.

Lemma ksplit lo m a : kwf lo m -> exists l1 l2, m = l1 ++ l2 /\
  Forall (fun e => fst e < a) l1 /\ Forall (fun e => a <= fst e) l2.
Proof.
  revert lo; induction m as [|[k b] t IH]; intros lo W.
  - exists [], []. repeat split; constructor.
  - cbn in W. destruct W as (? & ? & Hd & W).
    destruct (Z.lt_ge_cases k a).
    + destruct (IH _ W) as (l1 & l2 & -> & ? & ?).
      exists ((k, b) :: l1), l2. repeat split; auto.
    + exists [], ((k, b) :: t). repeat split; auto. constructor; [auto|].
      pose proof (dsize_pos _ Hd).
      assert (G : forall t lo, kwf lo t -> a <= lo -> Forall (fun e => a <= fst e) t).
      { clear. induction t as [|[k b] t IH]; cbn; intros lo W H; constructor.
        - cbn; lia.
        - destruct W as (? & ? & Hd & W). pose proof (dsize_pos _ Hd). eapply IH; eauto. lia. }
      eapply G; eauto. lia.
Qed.

Lemma g_find_skip (l1 r : memory) a : Forall (fun e => fst e < a) l1 ->
  m_find (l1 ++ r) a = m_find r a.
Proof.
  induction 1 as [|[k b] t Hk _ IH]; [reflexivity|]. cbn in *.
  destruct (Z.eqb_spec k a); [lia|auto].
Qed.
Lemma g_lb_skip (l1 r : memory) a : Forall (fun e => fst e < a) l1 ->
  m_lower_bound (l1 ++ r) a = m_lower_bound r a.
Proof.
  induction 1 as [|[k b] t Hk _ IH]; [reflexivity|]. cbn in *.
  destruct (Z.leb_spec a k); [lia|auto].
Qed.
Lemma g_prev (q : memory) kp bp k (b : block) r :
  Forall (fun e => fst e < k) (q ++ [(kp, bp)]) ->
  m_prev ((q ++ [(kp, bp)]) ++ (k, b) :: r) (Some k) = Some kp.
Proof.
  induction q as [|[k1 b1] q IH]; intros H.
  - cbn. rewrite Z.eqb_refl. reflexivity.
  - inversion H; subst. cbn [app m_prev].
    destruct q as [|[k2 b2] q]; cbn [app] in *.
    + inversion H3; subst; cbn [fst] in *. destruct (Z.eqb_spec kp k); [lia|]. apply IH; auto.
    + inversion H3; subst; cbn [fst] in *. destruct (Z.eqb_spec k2 k); [lia|]. apply IH; auto.
Qed.
Lemma g_prev_end (q : memory) kp (bp : block) : m_prev (q ++ [(kp, bp)]) None = Some kp.
Proof.
  induction q as [|[k1 b1] q IH]; [reflexivity|].
  cbn [app m_prev]. destruct q as [|[k2 b2] q]; exact IH.
Qed.

Lemma kwf_lt lo q kp bp : kwf lo (q ++ [(kp, bp)]) -> Forall (fun e => fst e < kp) q /\ kub lo q <= kp.
Proof.
  intros W. apply kwf_app in W as [W1 W2]. cbn in W2. destruct W2 as (H & _). split; [|exact H].
  revert lo W1 H. clear. induction q as [|[k b] t IH]; intros lo W H; constructor; cbn in *.
  - destruct W as (? & ? & Hd & W). pose proof (kwf_kub _ _ W). pose proof (dsize_pos _ Hd). lia.
  - destruct W as (? & ? & Hd & W). eapply IH; eauto.
Qed.

Lemma find_spec lo m a : kwf lo m ->
  match find m a with
  | None => mem_at m a = None
  | Some k => exists b, m_find m k = Some b /\
                mem_at m a = if inside b a then Some (b_read b a) else None
  end.
Proof.
  intros W. destruct (ksplit lo m a W) as (l1 & l2 & -> & F1 & F2).
  destruct l1 as [|e l1'].
  - cbn [app] in *. destruct l2 as [|[k b] t]; [reflexivity|].
    inversion F2; subst; cbn [fst] in *.
    unfold find. cbn [m_lower_bound m_begin].
    destruct (Z.leb_spec a k); [|lia]. cbn [m_find]. rewrite !Z.eqb_refl.
    cbn in W. destruct W as (? & ? & Hd & W). pose proof (dsize_pos _ Hd).
    destruct (Z.ltb_spec a (b_base b)).
    + cbn [mem_at]. unfold inside. destruct (Z.leb_spec (b_base b) a); [lia|]. cbn [andb].
      eapply mem_at_below; eauto. lia.
    + exists b. rewrite Z.eqb_refl. split; [reflexivity|].
      cbn [mem_at]. destruct (inside b a); [reflexivity|].
      eapply mem_at_below; eauto. lia.
  - assert (exists q kp bp, e :: l1' = q ++ [(kp, bp)]) as (q & kp & bp & Eq).
    { destruct (exists_last (l := e :: l1')) as (q & [b d] & E); [congruence|eauto]. }
    assert (EB : exists k0, m_begin ((e :: l1') ++ l2) = Some k0 /\ k0 < a).
    { destruct e as [k0 b0]. exists k0. split; [reflexivity|]. inversion F1; auto. }
    destruct EB as (k0 & EB & Hk0).
    assert (ND : (e :: l1') ++ l2 <> []) by (cbn; congruence).
    rewrite Eq in *. clear Eq e l1'.
    unfold find. destruct ((q ++ [(kp, bp)]) ++ l2) eqn:Em; [congruence|].
    rewrite <- Em in *. clear ND Em.
    rewrite g_lb_skip by exact F1. rewrite EB.
    pose proof W as W0. apply kwf_app in W as [W1 W2].
    pose proof (kwf_lt _ _ _ _ W1) as [Fq Hq].
    assert (Hkp : kp < a) by (apply Forall_app in F1 as [_ F]; inversion F; auto).
    assert (Afp : forall r, m_find ((q ++ [(kp, bp)]) ++ r) kp = Some bp).
    { intros r. rewrite <- app_assoc. rewrite g_find_skip by exact Fq. cbn. rewrite Z.eqb_refl. reflexivity. }
    apply kwf_app in W1 as [Wq _].
    assert (Am : forall r, mem_at ((q ++ [(kp, bp)]) ++ r) a =
                           if inside bp a then Some (b_read bp a) else mem_at r a).
    { intros r. rewrite <- app_assoc. erewrite mem_at_above by (eauto; lia). reflexivity. }
    destruct l2 as [|[k b] t].
    + cbn [m_lower_bound]. rewrite app_nil_r, g_prev_end.
      exists bp. rewrite <- (app_nil_r (q ++ [(kp, bp)])). split; [apply Afp|]. rewrite Am. reflexivity.
    + inversion F2; subst; cbn [fst] in *. cbn [m_lower_bound].
      destruct (Z.leb_spec a k); [|lia].
      assert (F1k : Forall (fun e => fst e < k) (q ++ [(kp, bp)]))
        by (eapply Forall_impl; [|exact F1]; cbn; intros; lia).
      rewrite g_find_skip by exact F1k. cbn [m_find]. rewrite Z.eqb_refl.
      destruct (Z.eqb_spec k k0); [lia|].
      cbn in W2. destruct W2 as (Hub & ? & Hd & W2). pose proof (dsize_pos _ Hd).
      destruct (Z.ltb_spec a (b_base b)).
      * rewrite g_prev by exact F1k. exists bp. split; [apply Afp|]. rewrite Am.
        destruct (inside bp a); [reflexivity|]. cbn [mem_at]. unfold inside.
        destruct (Z.leb_spec (b_base b) a); [lia|]. cbn [andb]. eapply mem_at_below; eauto. lia.
      * exists b. split.
        { rewrite g_find_skip by exact F1k. cbn. rewrite Z.eqb_refl. reflexivity. }
        erewrite mem_at_above; [|apply kwf_app in W0 as [W1 _]; exact W1| lia].
        cbn [mem_at]. destruct (inside b a); [reflexivity|]. eapply mem_at_below; eauto. lia.
Qed.

Lemma hasByte_mem_at lo m a : kwf lo m ->
  hasByte m a = match mem_at m a with Some _ => true | None => false end.
Proof.
  intros W. pose proof (find_spec lo m a W) as F. unfold hasByte.
  destruct (find m a); [|rewrite F; reflexivity].
  destruct F as (b & -> & ->). destruct (inside b a); reflexivity.
Qed.
Lemma readByte_mem_at lo m a : kwf lo m ->
  readByte m a = match mem_at m a with Some v => v | None => 0 end.
Proof.
  intros W. pose proof (find_spec lo m a W) as F. unfold readByte.
  destruct (find m a); [|rewrite F; reflexivity].
  destruct F as (b & -> & ->). destruct (inside b a); reflexivity.
Qed.

Lemma link_kwf lo p : wf lo p -> kwf lo (link p).
Proof.
  revert lo; induction p as [|[b d] t IH]; cbn; intros lo W; [exact I|].
  destruct W as (? & ? & ? & W). repeat split; auto; try lia.
  apply IH. eapply wf_weaken; [|exact W]. lia.
Qed.
Lemma link_mem_at p a : mem_at (link p) a = segs_at p a.
Proof.
  induction p as [|[b d] t IH]; [reflexivity|].
  cbn [link mem_at segs_at]. rewrite seg_at_spec. unfold inside, b_read. cbn [b_base b_data].
  destruct ((b <=? a) && (a <? b + dsize d)); auto.
Qed.

(* ---- histories ---- *)
Definition pwrites (ws : list (Z * Z)) : segs :=
  fold_left (fun p w => pwrite p (fst w) (snd w)) ws [].

Lemma fold_left_snoc {A B} (f : A -> B -> A) l x i : fold_left f (l ++ [x]) i = f (fold_left f l i) x.
Proof. rewrite fold_left_app. reflexivity. Qed.

Lemma writes_spec ws : Forall is_write ws ->
  wf 0 (pwrites ws) /\ writes ws = link (pwrites ws) /\
  (forall a, segs_at (pwrites ws) a = last_write ws a).
Proof.
  induction ws as [|w ws IH] using rev_ind; intros F.
  - repeat split.
  - apply Forall_app in F as [F Fw]. inversion Fw as [|? ? [Ha Hv]]; subst.
    destruct (IH F) as (W & E & S).
    unfold writes, pwrites, last_write in *. rewrite !fold_left_snoc.
    split; [|split].
    + apply pwrite_wf; auto.
    + rewrite E. eapply writeByte_link; eauto.
    + intros a. erewrite pwrite_at by eauto. rewrite S, fold_left_snoc.
      rewrite Z.eqb_sym. reflexivity.
Qed.

Lemma last_write_in ws a v : last_write ws a = Some v -> In (a, v) ws.
Proof.
  induction ws as [|w ws IH] using rev_ind; [discriminate|].
  unfold last_write in *. rewrite fold_left_snoc. intros H. apply in_or_app.
  destruct (Z.eqb_spec (fst w) a).
  - right. left. destruct w; cbn in *; congruence.
  - left. auto.
Qed.
Lemma in_last_write ws a v : In (a, v) ws -> exists u, last_write ws a = Some u.
Proof.
  induction ws as [|w ws IH] using rev_ind; [contradiction|].
  unfold last_write in *. rewrite fold_left_snoc. intros H.
  destruct (Z.eqb_spec (fst w) a); [eauto|].
  apply in_app_or in H as [H|[H|[]]]; [auto|]. subst; cbn in *; congruence.
Qed.

Lemma writes_hasByte ws a : Forall is_write ws ->
  (hasByte (writes ws) a = true <-> exists v, In (a, v) ws).
Proof.
  intros F. destruct (writes_spec ws F) as (W & E & S).
  rewrite E, (hasByte_mem_at 0) by (apply link_kwf; auto).
  rewrite link_mem_at, S. split.
  - destruct (last_write ws a) eqn:L; [|discriminate]. intros _. eauto using last_write_in.
  - intros [v H]. destruct (in_last_write _ _ _ H) as [u ->]. reflexivity.
Qed.
Lemma writes_readByte ws a : Forall is_write ws ->
  readByte (writes ws) a = match last_write ws a with Some v => v | None => 0 end.
Proof.
  intros F. destruct (writes_spec ws F) as (W & E & S).
  rewrite E, (readByte_mem_at 0) by (apply link_kwf; auto).
  rewrite link_mem_at, S. reflexivity.
Qed.

(* ---- blocks by next pointers ---- *)
Definition to_blocks (p : segs) : list block := map snd (link p).

Lemma walk_link lo l1 p f : wf lo (l1 ++ p) -> (length p <= f)%nat ->
  walk f (link (l1 ++ p)) (head_key p) = Some (to_blocks p).
Proof.
  revert l1 f; induction p as [|[b d] t IH]; intros l1 f W Hf.
  - destruct f; reflexivity.
  - destruct f as [|f]; [cbn in Hf; lia|].
    cbn [walk head_key].
    assert (K : keys_lt l1 b).
    { pose proof W as W'. apply wf_app in W' as [W1 W2]. eapply wf_keys_lt; eauto. cbn in W2; tauto. }
    rewrite link_app at 1. rewrite m_find_skip by exact K. cbn [link m_find]. rewrite Z.eqb_refl.
    cbn [b_next].
    replace (l1 ++ (b, d) :: t) with ((l1 ++ [(b, d)]) ++ t) in * by (rewrite <- app_assoc; reflexivity).
    rewrite IH; auto. cbn in Hf; lia.
Qed.

Lemma link_length p : length (link p) = length p.
Proof. induction p as [|[? ?] ? IH]; cbn; auto. Qed.

Lemma mem_blocks_link lo p : wf lo p -> mem_blocks (link p) = Some (to_blocks p).
Proof.
  intros W. unfold mem_blocks. rewrite m_begin_link.
  apply (walk_link lo [] p); [exact W|]. rewrite link_length. lia.
Qed.

Lemma to_blocks_seg p : map block_seg (to_blocks p) = p.
Proof.
  unfold to_blocks. induction p as [|[b d] t IH]; cbn; [reflexivity|].
  rewrite IH. reflexivity.
Qed.

Lemma wf_separated lo p : wf lo p -> separated p.
Proof.
  revert lo; induction p as [|[b d] t IH]; cbn; intros lo W; [exact I|].
  destruct W as (? & ? & ? & W). repeat split; auto.
  - destruct t as [|[b2 d2] t2]; [exact I|]. cbn in W. unfold dsize in *. lia.
  - eapply IH; eauto.
Qed.

Lemma writes_blocks ws : Forall is_write ws ->
  exists bl, mem_blocks (writes ws) = Some bl /\
    separated (map block_seg bl) /\
    (forall a, segs_at (map block_seg bl) a = last_write ws a).
Proof.
  intros F. destruct (writes_spec ws F) as (W & E & S).
  exists (to_blocks (pwrites ws)). rewrite E, to_blocks_seg.
  split; [eapply mem_blocks_link; eauto|]. split; [eapply wf_separated; eauto|]. auto.
Qed.

(* ---- canonicity ---- *)
Lemma list_eqb_eq a b : list_eqb a b = true <-> a = b.
Proof.
  revert b; induction a as [|x a IH]; destruct b as [|y b]; cbn; split; try congruence; intros H.
  - apply andb_true_iff in H as [H1 H2]. apply Z.eqb_eq in H1. apply IH in H2. congruence.
  - inversion H; subst. rewrite Z.eqb_refl. cbn. apply IH. reflexivity.
Qed.

Lemma mem_eqb_link p q : mem_eqb (link p) (link q) = true <-> p = q.
Proof.
  revert q; induction p as [|[b d] t IH]; destruct q as [|[b2 d2] t2]; cbn; split; try congruence; intros H.
  - apply andb_true_iff in H as [H1 H2]. apply andb_true_iff in H1 as [H0 H1].
    unfold block_eqb in H1. cbn in H1. apply andb_true_iff in H1 as [_ H1].
    apply Z.eqb_eq in H0. apply list_eqb_eq in H1. apply IH in H2. congruence.
  - inversion H; subst. rewrite Z.eqb_refl. unfold block_eqb; cbn. rewrite Z.eqb_refl. cbn.
    apply andb_true_iff. split; [apply list_eqb_eq; reflexivity|]. apply IH; reflexivity.
Qed.

Lemma segs_canonical lo p q : wf lo p -> wf lo q ->
  (forall a, segs_at p a = segs_at q a) -> p = q.
Proof.
  revert lo q; induction p as [|[b d] t IH]; intros lo q Wp Wq H.
  - destruct q as [|[b d] t]; [reflexivity|].
    cbn in Wq. destruct Wq as (? & Hd & ? & W). pose proof (dsize_pos _ Hd).
    specialize (H b). cbn [segs_at] in H. rewrite seg_at_spec in H.
    destruct (Z.leb_spec b b); [|lia]. destruct (Z.ltb_spec b (b + dsize d)); [|lia]. discriminate.
  - destruct q as [|[b2 d2] t2].
    { cbn in Wp. destruct Wp as (? & Hd & ? & W). pose proof (dsize_pos _ Hd).
      specialize (H b). cbn [segs_at] in H. rewrite seg_at_spec in H.
      destruct (Z.leb_spec b b); [|lia]. destruct (Z.ltb_spec b (b + dsize d)); [|lia]. discriminate. }
    cbn in Wp, Wq. destruct Wp as (? & Hd & ? & Wp). destruct Wq as (? & Hd2 & ? & Wq).
    pose proof (dsize_pos _ Hd). pose proof (dsize_pos _ Hd2).
    assert (At : forall b d t a, d <> [] -> wf (b + dsize d + 1) t ->
       segs_at ((b, d) :: t) a = if a <? b then None else if a <? b + dsize d then Some (nth (Z.to_nat (a - b)) d 0)
          else if a =? b + dsize d then None else segs_at t a).
    { clear. intros b d t a Hd W. cbn [segs_at]. rewrite seg_at_spec. pose proof (dsize_pos _ Hd).
      destruct (Z.ltb_spec a b); destruct (Z.leb_spec b a); try lia; cbn [andb].
      - eapply segs_at_below; eauto. lia.
      - destruct (Z.ltb_spec a (b + dsize d)); auto.
        destruct (Z.eqb_spec a (b + dsize d)); auto.
        eapply segs_at_below; eauto. lia. }
    assert (b = b2).
    { destruct (Z.lt_trichotomy b b2) as [L|[E|L]]; auto; exfalso.
      - specialize (H b). rewrite !At in H by auto.
        destruct (Z.ltb_spec b b); [lia|]. destruct (Z.ltb_spec b (b + dsize d)); [|lia].
        destruct (Z.ltb_spec b b2); [|lia]. discriminate.
      - specialize (H b2). rewrite !At in H by auto.
        destruct (Z.ltb_spec b2 b2); [lia|]. destruct (Z.ltb_spec b2 (b2 + dsize d2)); [|lia].
        destruct (Z.ltb_spec b2 b); [|lia]. discriminate. }
    subst b2.
    assert (Hs : dsize d = dsize d2).
    { destruct (Z.lt_trichotomy (dsize d) (dsize d2)) as [L|[E|L]]; auto; exfalso.
      - specialize (H (b + dsize d)). rewrite !At in H by auto.
        destruct (Z.ltb_spec (b + dsize d) b); [lia|].
        destruct (Z.ltb_spec (b + dsize d) (b + dsize d)); [lia|]. rewrite Z.eqb_refl in H.
        destruct (Z.ltb_spec (b + dsize d) (b + dsize d2)); [|lia]. discriminate.
      - specialize (H (b + dsize d2)). rewrite !At in H by auto.
        destruct (Z.ltb_spec (b + dsize d2) b); [lia|].
        destruct (Z.ltb_spec (b + dsize d2) (b + dsize d2)); [lia|]. rewrite Z.eqb_refl in H.
        destruct (Z.ltb_spec (b + dsize d2) (b + dsize d)); [|lia]. discriminate. }
    assert (d = d2).
    { apply (nth_ext d d2 0 0); [unfold dsize in Hs; lia|].
      intros n Hn. specialize (H (b + Z.of_nat n)). rewrite !At in H by auto. unfold dsize in *.
      destruct (Z.ltb_spec (b + Z.of_nat n) b); [lia|].
      destruct (Z.ltb_spec (b + Z.of_nat n) (b + Z.of_nat (length d))); [|lia].
      destruct (Z.ltb_spec (b + Z.of_nat n) (b + Z.of_nat (length d2))); [|lia].
      replace (Z.to_nat (b + Z.of_nat n - b)) with n in H by lia. congruence. }
    subst d2. f_equal. eapply IH; eauto.
    intros a. destruct (Z.lt_ge_cases a (b + dsize d + 1)).
    + rewrite !(segs_at_below _ _ _ Wp), !(segs_at_below _ _ _ Wq) by lia. reflexivity.
    + specialize (H a). rewrite !At in H by auto.
      destruct (Z.ltb_spec a b); [lia|]. destruct (Z.ltb_spec a (b + dsize d)); [lia|].
      destruct (Z.eqb_spec a (b + dsize d)); [lia|]. exact H.
Qed.

Lemma writes_eq ws1 ws2 : Forall is_write ws1 -> Forall is_write ws2 ->
  (mem_eqb (writes ws1) (writes ws2) = true <-> forall a, last_write ws1 a = last_write ws2 a).
Proof.
  intros F1 F2. destruct (writes_spec _ F1) as (W1 & E1 & S1). destruct (writes_spec _ F2) as (W2 & E2 & S2).
  rewrite E1, E2, mem_eqb_link. split.
  - intros E a. rewrite <- S1, <- S2, E. reflexivity.
  - intros H. eapply segs_canonical; eauto. intros a. rewrite S1, S2. auto.
Qed.
