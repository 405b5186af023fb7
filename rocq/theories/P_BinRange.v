(** Proofs about [setRange]. *)
From Coq Require Import ZArith List Bool Lia ZifyBool.
From Verif Require Import M_Map M_BinMemory S_ByteMap S_Memory P_BinMemory.
Import ListNotations.
Local Open Scope Z_scope.

(* the block kept for one node *)
Definition cut (start end_ : Z) (b : block) : block :=
  let s := b_base b in
  let e := (b_base b + dsize (b_data b) - 1) mod 2^32 in
  let b1 := if (s <? start) && (start <=? e) then trimStart start b else b in
  if (s <? end_) && (end_ <=? e) then trimEnd end_ b1 else b1.

Lemma range_loop_cons k b t start end_ :
  range_loop ((k, b) :: t) start end_ =
  if (((b_base b + dsize (b_data b) - 1) mod 2^32) <? start) || (end_ <? b_base b)
  then range_loop t start end_ else (k, cut start end_ b) :: range_loop t start end_.
Proof. reflexivity. Qed.

(* what survives of one block *)
Lemma cut_spec start end_ b d n :
  0 <= b -> d <> [] -> b + dsize d <= 2^32 -> 0 <= start <= end_ -> end_ < 2^32 ->
  start <= b + dsize d - 1 -> b <= end_ ->
  let c := cut start end_ (mkBlock b d n) in
  b_base c = Z.max b start /\ b_data c <> [] /\ b_next c = n /\
  b_base c + dsize (b_data c) <= b + dsize d /\
  (forall a, (if inside c a then Some (b_read c a) else None) =
     if (start <=? a) && ((a <=? end_) || (b =? end_))
     then seg_at (b, d) a else None).
Proof.
  intros Hb Hd Hle Hs He H1 H2. pose proof (dsize_pos _ Hd) as Hp.
  unfold cut; cbn [b_base b_data].
  rewrite Z.mod_small by lia.
  set (n0 := Z.to_nat (start - b)).
  assert (Sk : dsize (skipn n0 d) = dsize d - Z.max 0 (start - b)).
  { unfold dsize. rewrite skipn_length. subst n0. unfold dsize in *. lia. }
  assert (Nsk : forall i, nth i (skipn n0 d) 0 = nth (n0 + i) d 0).
  { clear. intros i. revert d. induction n0; intros d; cbn; [reflexivity|].
    destruct d; cbn; [destruct i; reflexivity|]. apply IHn0. }
  assert (Nf : forall (l : list Z) m i, (i < m)%nat -> nth i (firstn m l) 0 = nth i l 0).
  { clear. induction l; intros m i H; destruct m; cbn; try lia; try (destruct i; reflexivity).
    destruct i; [reflexivity|]. apply IHl. lia. }
  assert (NE : forall (l : list Z), 0 < dsize l -> l <> []).
  { intros l. destruct l; cbn; [unfold dsize; cbn; lia|congruence]. }
  set (b1 := if (b <? start) && (start <=? b + dsize d - 1) then trimStart start (mkBlock b d n) else mkBlock b d n).
  assert (B1 : b_base b1 = Z.max b start /\ dsize (b_data b1) = b + dsize d - Z.max b start /\ b_next b1 = n
     /\ forall a, b_base b1 <= a -> nth (Z.to_nat (a - b_base b1)) (b_data b1) 0 = nth (Z.to_nat (a - b)) d 0).
  { subst b1. destruct (Z.ltb_spec b start); destruct (Z.leb_spec start (b + dsize d - 1)); try lia; cbn [andb].
    - unfold trimStart; cbn [b_base b_data b_next]. fold n0. rewrite Sk.
      repeat split; try lia. intros a Ha. rewrite Nsk. f_equal. subst n0. lia.
    - cbn [b_base b_data b_next]. repeat split; lia. }
  destruct B1 as (B1 & S1 & Nx & R1). clearbody b1. clear Sk Nsk.
  set (c := if (b <? end_) && (end_ <=? b + dsize d - 1) then trimEnd end_ b1 else b1).
  assert (C : b_base c = Z.max b start /\ b_next c = n /\
     dsize (b_data c) = (if (b <? end_) && (end_ <=? b + dsize d - 1) then end_ + 1 - Z.max b start else b + dsize d - Z.max b start)
     /\ forall a, b_base c <= a < b_base c + dsize (b_data c) -> nth (Z.to_nat (a - b_base c)) (b_data c) 0 = nth (Z.to_nat (a - b)) d 0).
  { subst c. destruct (Z.ltb_spec b end_); destruct (Z.leb_spec end_ (b + dsize d - 1)); cbn [andb];
    try (repeat split; auto; intros; apply R1; lia).
    unfold trimEnd; cbn [b_base b_data b_next]. split; [auto|split;[auto|]].
    assert (L : dsize (firstn (length (b_data b1) - Z.to_nat (b_base b1 + dsize (b_data b1) - 1 - end_)) (b_data b1))
            = end_ + 1 - Z.max b start).
    { unfold dsize at 1. rewrite firstn_length. unfold dsize in *. lia. }
    split; [exact L|]. rewrite L. intros a Ha.
    rewrite Nf; [apply R1; lia|]. unfold dsize in *. lia. }
  destruct C as (CB & CN & CS & CR).
  clearbody c.
  assert (CP : 0 < dsize (b_data c)).
  { rewrite CS. destruct (Z.ltb_spec b end_); destruct (Z.leb_spec end_ (b + dsize d - 1)); cbn [andb]; lia. }
  split; [exact CB|]. split; [auto|]. split; [exact CN|]. split.
  { rewrite CB, CS. destruct (Z.ltb_spec b end_); destruct (Z.leb_spec end_ (b + dsize d - 1)); cbn [andb]; lia. }
  intros a. rewrite seg_at_spec. unfold inside, b_read.
  destruct (Z.leb_spec (b_base c) a) as [G1|G1].
  - destruct (Z.ltb_spec a (b_base c + dsize (b_data c))) as [G2|G2].
    + cbn [andb]. rewrite CR by lia. rewrite CB, CS in *.
      assert (T1 : start <=? a = true) by lia. rewrite T1.
      assert (T2 : (a <=? end_) || (b =? end_) = true).
      { destruct (Z.ltb_spec b end_); destruct (Z.leb_spec end_ (b + dsize d - 1)); cbn [andb] in *; lia. }
      rewrite T2. cbn [andb].
      assert (T3 : (b <=? a) && (a <? b + dsize d) = true).
      { destruct (Z.ltb_spec b end_); destruct (Z.leb_spec end_ (b + dsize d - 1)); cbn [andb] in *; lia. }
      rewrite T3. reflexivity.
    + cbn [andb]. rewrite CB, CS in *.
      destruct ((start <=? a) && ((a <=? end_) || (b =? end_))) eqn:T; [|reflexivity].
      assert (T3 : (b <=? a) && (a <? b + dsize d) = false).
      { destruct (Z.ltb_spec b end_); destruct (Z.leb_spec end_ (b + dsize d - 1)); cbn [andb] in *; lia. }
      rewrite T3. reflexivity.
  - cbn [andb]. rewrite CB in *.
    destruct ((start <=? a) && ((a <=? end_) || (b =? end_))) eqn:T; [|reflexivity].
    assert (T3 : (b <=? a) && (a <? b + dsize d) = false) by lia.
    rewrite T3. reflexivity.
Qed.

Lemma range_loop_drop lo p start end_ : wf lo p -> end_ < lo -> range_loop (link p) start end_ = [].
Proof.
  revert lo; induction p as [|[b d] t IH]; intros lo W H; [reflexivity|].
  cbn in W. destruct W as (? & Hd & ? & W). cbn [link]. rewrite range_loop_cons. cbn [b_base b_data].
  assert (E : end_ <? b = true) by lia. rewrite E, orb_true_r. eapply IH; eauto.
  pose proof (dsize_pos _ Hd). lia.
Qed.

Lemma kwf_weaken lo lo' m : lo' <= lo -> kwf lo m -> kwf lo' m.
Proof. destruct m as [|[b d] t]; cbn; auto. intros ? [? ?]. split; [lia|tauto]. Qed.

Lemma range_loop_kwf lo p start end_ : 0 <= lo -> wf lo p -> 0 <= start <= end_ -> end_ < 2^32 ->
  kwf lo (range_loop (link p) start end_).
Proof.
  revert lo; induction p as [|[b d] t IH]; intros lo Hlo W Hs He; [exact I|].
  cbn in W. destruct W as (? & Hd & ? & W). pose proof (dsize_pos _ Hd).
  cbn [link]. rewrite range_loop_cons. cbn [b_base b_data].
  rewrite Z.mod_small by lia.
  destruct (Z.ltb_spec (b + dsize d - 1) start); [|destruct (Z.ltb_spec end_ b)]; cbn [orb].
  - eapply kwf_weaken; [|eapply (IH _ _ W); lia]. lia.
  - eapply kwf_weaken; [|eapply (IH _ _ W); lia]. lia.
  - pose proof (cut_spec start end_ b d (head_key t)) as C.
    cbv zeta in C. destruct C as (C1 & C2 & C3 & C4 & _); try lia; auto.
    cbn [kwf]. rewrite C1 in *. repeat split; auto; try lia.
    eapply kwf_weaken; [|eapply (IH _ _ W); lia]. lia.
  Unshelve. all: lia.
Qed.

Lemma range_loop_at lo p start end_ a : 0 <= lo -> wf lo p -> 0 <= start <= end_ -> end_ < 2^32 ->
  mem_at (range_loop (link p) start end_) a =
  if (start <=? a) && ((a <=? end_) || existsb (fun s => (fst s =? end_) && (a <? fst s + dsize (snd s))) p)
  then segs_at p a else None.
Proof.
  revert lo; induction p as [|[b d] t IH]; intros lo Hlo W Hs He.
  { cbn. destruct ((start <=? a) && _); reflexivity. }
  cbn in W. destruct W as (? & Hd & ? & W). pose proof (dsize_pos _ Hd).
  cbn [link]. rewrite range_loop_cons. cbn [b_base b_data].
  rewrite Z.mod_small by lia.
  assert (Hlo2 : 0 <= b + dsize d + 1) by lia.
  pose proof (IH _ Hlo2 W Hs He) as IH'.
  cbn [existsb segs_at fst snd]. rewrite (seg_at_spec b d a).
  destruct (Z.ltb_spec (b + dsize d - 1) start); [|destruct (Z.ltb_spec end_ b)]; cbn [orb].
  - rewrite IH'. assert (E : b =? end_ = false) by lia. rewrite E. cbn [andb orb].
    destruct (Z.leb_spec start a); cbn [andb]; [|reflexivity].
    destruct (Z.leb_spec b a); destruct (Z.ltb_spec a (b + dsize d)); try lia; reflexivity.
  - rewrite (range_loop_drop _ _ _ _ W) by lia. cbn.
    assert (E : b =? end_ = false) by lia. rewrite E. cbn [andb orb].
    destruct (Z.leb_spec start a); cbn [andb]; [|reflexivity].
    destruct (Z.leb_spec a end_); cbn [orb].
    + destruct (Z.leb_spec b a); [lia|]. cbn [andb].
      rewrite (segs_at_below _ _ _ W) by lia. reflexivity.
    + assert (X : existsb (fun s => (fst s =? end_) && (a <? fst s + dsize (snd s))) t = false).
      { pose proof (wf_keys_gt _ _ end_ W) as G. assert (L : end_ < b + dsize d + 1) by lia. apply G in L.
        clear - L. induction L as [|[? ?] t Hk _ IH]; [reflexivity|]. cbn in *. rewrite IH.
        assert (E : z =? end_ = false) by lia. rewrite E. reflexivity. }
      rewrite X. reflexivity.
  - pose proof (cut_spec start end_ b d (head_key t)) as C.
    cbv zeta in C. destruct C as (C1 & C2 & C3 & C4 & C5); try lia; auto.
    cbn [mem_at]. specialize (C5 a). rewrite seg_at_spec in C5.
    set (c := cut start end_ (mkBlock b d (head_key t))) in *.
    rewrite IH'.
    assert (NT : b + dsize d <= a \/ segs_at t a = None).
    { destruct (Z.lt_ge_cases a (b + dsize d)); [right|left; lia]. eapply segs_at_below; eauto. lia. }
    destruct (Z.leb_spec start a); cbn [andb] in *.
    2:{ destruct (inside c a); [discriminate C5|reflexivity]. }
    destruct (Z.leb_spec b a); destruct (Z.ltb_spec a (b + dsize d)); cbn [andb] in *;
      try (destruct NT as [NT|NT]; [lia|rewrite NT in *]).
    + (* inside the segment *)
      destruct (Z.leb_spec a end_); cbn [orb] in *.
      * destruct (inside c a); [exact C5|discriminate C5].
      * rewrite andb_true_r. destruct (Z.eqb_spec b end_); cbn [orb] in *.
        -- destruct (inside c a); [exact C5|discriminate C5].
        -- destruct (inside c a); [discriminate C5|]. destruct (existsb _ t) eqn:X; [|reflexivity].
           exfalso. apply existsb_exists in X as ([b2 d2] & Hin & X). cbn in X.
           pose proof (wf_keys_gt _ _ (b + dsize d) W ltac:(lia)) as G.
           unfold keys_gt in G. rewrite Forall_forall in G. apply G in Hin. cbn in Hin. lia.
    + (* after the segment *)
      rewrite andb_false_r. cbn [orb].
      destruct (inside c a); [|reflexivity].
      destruct ((a <=? end_) || (b =? end_)); discriminate C5.
    + (* before *)
      destruct (inside c a); [destruct ((a <=? end_) || (b =? end_)); discriminate C5|].
      repeat match goal with |- context[if ?X then None else None] => destruct X end; reflexivity.
    + lia.
Qed.

Lemma disconnect_last_mem_at m a : mem_at (disconnect_last m) a = mem_at m a.
Proof.
  induction m as [|[k b] t IH]; [reflexivity|].
  destruct t as [|e t]; [reflexivity|].
  change (disconnect_last ((k, b) :: e :: t)) with ((k, b) :: disconnect_last (e :: t)).
  cbn [mem_at]. rewrite IH. reflexivity.
Qed.
Lemma disconnect_last_kwf lo m : kwf lo m -> kwf lo (disconnect_last m).
Proof.
  revert lo; induction m as [|[k b] t IH]; intros lo H; [exact I|].
  destruct t as [|e t]; [exact H|].
  change (disconnect_last ((k, b) :: e :: t)) with ((k, b) :: disconnect_last (e :: t)).
  cbn [kwf] in *. destruct H as (? & ? & ? & W). repeat split; auto.
Qed.

(* ---- next pointers after setRange ---- *)
Fixpoint chain (m : memory) : Prop :=
  match m with
  | [] => True
  | (k, b) :: t => b_next b = m_begin t /\ chain t
  end.

Lemma setRange_chain lo p start end_ : 0 <= lo -> wf lo p -> 0 <= start <= end_ -> end_ < 2^32 ->
  chain (disconnect_last (range_loop (link p) start end_)).
Proof.
  revert lo; induction p as [|[b d] t IH]; intros lo Hlo W Hs He; [exact I|].
  cbn in W. destruct W as (? & Hd & ? & W). pose proof (dsize_pos _ Hd).
  cbn [link]. rewrite range_loop_cons. cbn [b_base b_data].
  rewrite Z.mod_small by lia.
  assert (Hlo2 : 0 <= b + dsize d + 1) by lia.
  pose proof (IH _ Hlo2 W Hs He) as IH'.
  destruct (Z.ltb_spec (b + dsize d - 1) start); [|destruct (Z.ltb_spec end_ b)]; cbn [orb]; auto.
  pose proof (cut_spec start end_ b d (head_key t)) as C.
  cbv zeta in C. destruct C as (C1 & C2 & C3 & C4 & C5); try lia; auto.
  set (c := cut start end_ (mkBlock b d (head_key t))) in *.
  destruct (range_loop (link t) start end_) as [|[k2 b2] t2] eqn:E.
  - cbn. auto.
  - change (disconnect_last ((b, c) :: (k2, b2) :: t2)) with ((b, c) :: disconnect_last ((k2, b2) :: t2)).
    cbn [chain]. split; [|exact IH'].
    rewrite C3.
    assert (m_begin (disconnect_last ((k2, b2) :: t2)) = Some k2) as -> by (destruct t2; reflexivity).
    destruct t as [|[b3 d3] t3]; [discriminate E|]. cbn [head_key].
    cbn in W. destruct W as (? & Hd3 & ? & W). pose proof (dsize_pos _ Hd3).
    cbn [link] in E. rewrite range_loop_cons in E. cbn [b_base b_data] in E.
    rewrite Z.mod_small in E by lia.
    destruct (Z.ltb_spec (b3 + dsize d3 - 1) start); [lia|].
    destruct (Z.ltb_spec end_ b3); cbn [orb] in E.
    + rewrite (range_loop_drop _ _ _ _ W) in E by lia. discriminate E.
    + inversion E; subst. reflexivity.
Qed.

Lemma walk_chain lo l1 m f : kwf lo (l1 ++ m) -> chain m -> (length m <= f)%nat ->
  walk f (l1 ++ m) (m_begin m) = Some (map snd m).
Proof.
  revert l1 f; induction m as [|[k b] t IH]; intros l1 f W C Hf.
  - destruct f; reflexivity.
  - destruct f as [|f]; [cbn in Hf; lia|]. cbn [walk m_begin].
    assert (K : Forall (fun e => fst e < k) l1).
    { apply (kwf_lt lo l1 k b). apply kwf_app in W as [W1 W2]. apply kwf_app. split; auto.
      cbn in *. tauto. }
    rewrite g_find_skip by exact K. cbn [m_find]. rewrite Z.eqb_refl.
    cbn [chain] in C. destruct C as [-> C].
    replace (l1 ++ (k, b) :: t) with ((l1 ++ [(k, b)]) ++ t) in * by (rewrite <- app_assoc; reflexivity).
    rewrite IH; auto. cbn in Hf; lia.
Qed.

Lemma kwf_segs_at lo m a : kwf lo m -> segs_at (map block_seg (map snd m)) a = mem_at m a.
Proof.
  revert lo; induction m as [|[k b] t IH]; intros lo W; [reflexivity|].
  cbn [map segs_at mem_at snd]. unfold block_seg at 1. rewrite seg_at_spec.
  unfold inside, b_read. cbn in W. destruct W as (? & ? & ? & W). erewrite IH by eauto.
  destruct (_ && _); reflexivity.
Qed.

(* ---- setRange on histories ---- *)
Lemma setRange_history ws start end_ : Forall is_write ws ->
  0 <= start <= end_ -> end_ < 2^32 ->
  (last_write ws (end_ - 1) <> None \/ last_write ws end_ = None \/ last_write ws (end_ + 1) = None) ->
  (forall a, mem_at (setRange (writes ws) start end_) a =
     if (start <=? a) && (a <=? end_) then last_write ws a else None) /\
  kwf 0 (setRange (writes ws) start end_) /\
  mem_blocks (setRange (writes ws) start end_) = Some (map snd (setRange (writes ws) start end_)).
Proof.
  intros F Hs He Hc. destruct (writes_spec ws F) as (W & E & S).
  rewrite E. unfold setRange. destruct (Z.ltb_spec end_ start); [lia|].
  assert (K : kwf 0 (disconnect_last (range_loop (link (pwrites ws)) start end_))).
  { apply disconnect_last_kwf. apply range_loop_kwf; auto; lia. }
  split; [|split]; [|exact K|].
  - intros a. rewrite disconnect_last_mem_at. rewrite (range_loop_at 0) by (auto; lia).
    rewrite S. destruct (Z.leb_spec start a); cbn [andb]; [|reflexivity].
    destruct (Z.leb_spec a end_); cbn [orb]; [reflexivity|].
    destruct (existsb _ (pwrites ws)) eqn:X; [|reflexivity].
    apply existsb_exists in X as ([b d] & Hin & X). cbn in X.
    assert (b = end_) by lia. subst b.
    (* the segment starting at end_ *)
    assert (G : forall p lo, wf lo p -> In (end_, d) p ->
        segs_at p (end_ - 1) = None /\
        forall x, end_ <= x < end_ + dsize d -> segs_at p x <> None).
    { clear. induction p as [|[b dd] t IH]; intros lo W Hin; [contradiction|].
      cbn in W. destruct W as (? & Hd & ? & W). pose proof (dsize_pos _ Hd).
      destruct Hin as [Hin|Hin].
      - inversion Hin; subst. split.
        + cbn [segs_at]. rewrite seg_at_spec. destruct (Z.leb_spec end_ (end_ - 1)); [lia|]. cbn [andb].
          eapply segs_at_below; eauto. lia.
        + intros x Hx. cbn [segs_at]. rewrite seg_at_spec.
          destruct (Z.leb_spec end_ x); [|lia]. destruct (Z.ltb_spec x (end_ + dsize d)); [|lia]. cbn. congruence.
      - destruct (IH _ W Hin) as [I1 I2].
        assert (b + dsize dd < end_).
        { assert (LT : b + dsize dd < b + dsize dd + 1) by lia.
          pose proof (wf_keys_gt _ _ _ W LT) as G.
          unfold keys_gt in G. rewrite Forall_forall in G. apply G in Hin. exact Hin. }
        split.
        + cbn [segs_at]. rewrite seg_at_spec. destruct (Z.ltb_spec (end_ - 1) (b + dsize dd)); [lia|].
          rewrite andb_false_r. exact I1.
        + intros x Hx. cbn [segs_at]. rewrite seg_at_spec. destruct (Z.ltb_spec x (b + dsize dd)); [lia|].
          rewrite andb_false_r. auto. }
    destruct (G _ _ W Hin) as [G1 G2].
    assert (Q1 := G2 end_ ltac:(lia)). assert (Q2 := G2 (end_ + 1) ltac:(lia)).
    rewrite S in G1, Q1, Q2. tauto.
  - unfold mem_blocks. apply (walk_chain 0 []); auto.
    apply (setRange_chain 0); auto; lia.
Qed.

Lemma setRange_bytes ws start end_ : Forall is_write ws ->
  0 <= start <= end_ -> end_ < 2^32 ->
  (last_write ws (end_ - 1) <> None \/ last_write ws end_ = None \/ last_write ws (end_ + 1) = None) ->
  (forall a, hasByte (setRange (writes ws) start end_) a = true <->
             start <= a <= end_ /\ exists v, In (a, v) ws) /\
  (forall a, start <= a <= end_ -> readByte (setRange (writes ws) start end_) a = readByte (writes ws) a) /\
  exists bl, mem_blocks (setRange (writes ws) start end_) = Some bl /\
    forall a, segs_at (map block_seg bl) a = if (start <=? a) && (a <=? end_) then last_write ws a else None.
Proof.
  intros F Hs He Hc. destruct (setRange_history ws start end_ F Hs He Hc) as (A & K & B).
  split; [|split].
  - intros a. rewrite (hasByte_mem_at 0) by exact K. rewrite A.
    split.
    + destruct (Z.leb_spec start a); destruct (Z.leb_spec a end_); cbn [andb]; try discriminate.
      destruct (last_write ws a) eqn:L; [|discriminate]. intros _. split; [lia|].
      eauto using last_write_in.
    + intros [Ha [v Hv]]. destruct (Z.leb_spec start a); destruct (Z.leb_spec a end_); try lia; cbn [andb].
      destruct (in_last_write _ _ _ Hv) as [u ->]. reflexivity.
  - intros a Ha. rewrite (readByte_mem_at 0) by exact K. rewrite A, writes_readByte by auto.
    destruct (Z.leb_spec start a); destruct (Z.leb_spec a end_); try lia; reflexivity.
  - eexists. split; [exact B|]. intros a. rewrite (kwf_segs_at 0) by exact K. apply A.
Qed.
