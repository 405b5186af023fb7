(** Object file properties. *)
From Coq Require Import String ZArith List Bool Lia ZifyBool.
From Verif Require Import M_Char M_Map M_BinMemory M_HexFile S_ByteMap S_Memory S_HexFile P_BinMemory P_HexFile P_HexRound.
Import ListNotations.
Local Open Scope string_scope.
Local Open Scope list_scope.
Local Open Scope Z_scope.
Ltac Zify.zify_post_hook ::= Z.div_mod_to_equations.

Lemma rec_total_nonneg rs : 0 <= rec_total rs.
Proof. induction rs as [|r t IH]; cbn; [lia|]. pose proof (dsize_nonneg (snd r)). fold (rec_total t). lia. Qed.

(* every address of a segment is written *)
Lemma seg_written ws b d x : Forall is_write ws -> In (b, d) (pwrites ws) -> b <= x < b + dsize d ->
  exists v, last_write ws x = Some v /\ In (x, v) ws.
Proof.
  intros F Hin Hx. destruct (writes_spec ws F) as (W & _ & S).
  pose proof (segs_in_at 0 _ b d (Z.to_nat (x - b)) W Hin) as A.
  unfold dsize in *. replace (b + Z.of_nat (Z.to_nat (x - b))) with x in A by lia.
  rewrite S in A. eexists. split; [apply A; lia|]. apply last_write_in. apply A. lia.
Qed.

Lemma seg_start ws b d : Forall is_write ws -> In (b, d) (pwrites ws) -> last_write ws (b - 1) = None.
Proof.
  intros F Hin. destruct (writes_spec ws F) as (W & _ & S). rewrite <- S.
  clear S F. revert W Hin. generalize 0 as lo. generalize (pwrites ws) as p.
  induction p as [|[b2 d2] t IH]; intros lo W Hin; [contradiction|].
  cbn in W. destruct W as (? & Hd & ? & W). pose proof (dsize_pos _ Hd).
  cbn [segs_at]. rewrite seg_at_spec. destruct Hin as [Hin|Hin].
  - inversion Hin; subst. destruct (Z.leb_spec b (b - 1)); [lia|]. cbn [andb].
    eapply segs_at_below; eauto. lia.
  - assert (b2 + dsize d2 < b).
    { assert (LT : b2 + dsize d2 < b2 + dsize d2 + 1) by lia.
      pose proof (wf_keys_gt _ _ _ W LT) as G. unfold keys_gt in G.
      rewrite Forall_forall in G. apply G in Hin. exact Hin. }
    destruct (Z.ltb_spec (b - 1) (b2 + dsize d2)); [lia|].
    rewrite andb_false_r. eapply IH; eauto.
Qed.

Lemma ela_sum_checksum e : ela_sum e = ela_checksum e.
Proof. unfold ela_sum, ela_checksum, ih_getSum, addSum16, addSum8. lia. Qed.

Lemma ih_round ws aw rs : Forall is_write ws -> 1 <= rs <= 255 ->
  (if aw <=? 16 then forall a v, In (a, v) ws -> a < 65536
   else (forall a v, In (a, v) ws -> 16 <= ela_checksum (a / 65536)) /\ no_straddle ws rs) ->
  exists N file, (forall fuel, (N <= fuel)%nat -> ih_file fuel aw rs (writes ws) = Some file) /\
    exists n m', decode_file file empty = (n, m') /\ 0 <= n /\ mem_eqb m' (writes ws) = true.
Proof.
  intros F Hrs HA. destruct (mem_records_ok ws rs F ltac:(lia)) as (N & recs & R & E & LW & A & _).
  exists N, (ih_lines aw ih_reset recs ++ [s2l ":00000001FF"]). split.
  - intros fuel Hf. unfold ih_file. rewrite R by exact Hf. reflexivity.
  - exists (rec_total recs), (wr_all empty recs). split; [|split; [apply rec_total_nonneg|exact E]].
    apply ih_file_decode. eapply Forall_impl; [|exact A].
    intros [a d] (B & S1 & H0 & b & dd & k & Hin & Hk & E1 & E2). cbn [fst snd] in *.
    destruct (writes_spec ws F) as (W & _ & _).
    destruct (segs_in_range 0 _ b dd ltac:(lia) W Hin) as (? & ? & ?).
    assert (Hba : b <= a) by nia.
    unfold ih_rec_ok; cbn [fst snd]. split; [lia|]. split; [exact B|]. split; [lia|].
    destruct (aw <=? 16).
    + destruct (seg_written ws b dd (a + dsize d - 1) F Hin ltac:(lia)) as (v & _ & Hv).
      apply HA in Hv. lia.
    + destruct HA as [HA1 HA2]. split.
      * (* no 64 KiB boundary strictly inside *)
        destruct (Z.le_gt_cases (a mod 65536 + dsize d) 65536) as [|G]; [assumption|exfalso].
        set (bnd := (a / 65536 + 1) * 65536).
        assert (M : (bnd - b) mod rs = 0).
        { apply HA2; [subst bnd; lia|subst bnd; lia|apply (seg_start ws b dd F Hin)|].
          intros x Hx. destruct (seg_written ws b dd x F Hin) as (v & -> & _); [subst bnd; lia|congruence]. }
        assert (M2 : (bnd - a) mod rs = 0).
        { replace (bnd - a) with (bnd - b + (- k) * rs) by lia. rewrite Z.mod_add by lia. exact M. }
        assert (0 < bnd - a < rs) by (subst bnd; lia).
        rewrite Z.mod_small in M2 by lia. lia.
      * destruct (seg_written ws b dd a F Hin ltac:(lia)) as (v & _ & Hv).
        rewrite ela_sum_checksum. apply (HA1 _ _ Hv).
Qed.

Lemma sr_round ws aw rs : Forall is_write ws -> 1 <= rs -> addressSize aw + rs + 1 <= 255 ->
  (forall a v, In (a, v) ws -> a < 2^(8 * addressSize aw)) ->
  exists N file, (forall fuel, (N <= fuel)%nat -> sr_file fuel aw rs (writes ws) = Some file) /\
    exists n m', decode_file file empty = (n, m') /\ 0 <= n /\ mem_eqb m' (writes ws) = true.
Proof.
  intros F Hrs Hl HA. destruct (mem_records_ok ws rs F ltac:(lia)) as (N & recs & R & E & LW & A & _).
  eexists N, _. split.
  - intros fuel Hf. unfold sr_file. rewrite R by exact Hf. reflexivity.
  - exists (rec_total recs), (wr_all empty recs). split; [|split; [apply rec_total_nonneg|exact E]].
    apply sr_file_decode. eapply Forall_impl; [|exact A].
    intros [a d] (B & S1 & H0 & b & dd & k & Hin & Hk & E1 & E2). cbn [fst snd] in *.
    unfold sr_rec_ok; cbn [fst snd]. split; [|split; [exact B|lia]].
    split; [exact H0|].
    destruct (seg_written ws b dd a F Hin) as (v & _ & Hv); [nia|]. apply (HA _ _ Hv).
Qed.

(* C07 *)
Lemma records_partition ws rs : Forall is_write ws -> 1 <= rs ->
  exists N recs, (forall fuel, (N <= fuel)%nat -> mem_records fuel rs (writes ws) = Some recs) /\
    Forall (fun r => 1 <= Z.of_nat (length (snd r)) <= rs) recs /\
    (forall l1 a1 d1 a2 d2 l2, recs = l1 ++ (a1, d1) :: (a2, d2) :: l2 -> a1 + Z.of_nat (length d1) <= a2) /\
    (forall a, segs_at recs a = last_write ws a).
Proof.
  intros F Hrs. destruct (mem_records_ok ws rs F Hrs) as (N & recs & R & E & LW & A & D).
  exists N, recs. split; [exact R|]. split; [|split; [exact D|]].
  - eapply Forall_impl; [|exact A]. intros r (_ & H & _). unfold dsize in H. lia.
  - intros a. rewrite <- LW. symmetry. apply rec_segs_at; [exact D|].
    eapply Forall_impl; [|exact A]. intros [x d] (B & S1 & H0 & b & dd & k & Hin & Hk & E1 & E2). cbn [fst snd] in *.
    destruct (writes_spec ws F) as (W & _ & _).
    destruct (segs_in_range 0 _ b dd ltac:(lia) W Hin) as (? & ? & ?). lia.
Qed.

Lemma block_records_zero fuel base i d : d <> [] -> block_records fuel 0 base i d = None.
Proof.
  intros Hd. revert i; induction fuel as [|f IH]; intros i; destruct d as [|x t]; try congruence; [reflexivity|].
  cbn [block_records]. change (Z.to_nat 0) with O. cbn [skipn]. rewrite IH. reflexivity.
Qed.

Lemma records_zero ws fuel : Forall is_write ws -> ws <> [] -> mem_records fuel 0 (writes ws) = None.
Proof.
  intros F Hne. destruct (writes_spec ws F) as (W & E & S).
  unfold mem_records. rewrite E, (mem_blocks_link 0) by auto.
  destruct (pwrites ws) as [|[b d] t] eqn:Ep.
  - exfalso. destruct ws as [|[a v] ws']; [congruence|].
    destruct (in_last_write ((a, v) :: ws') a v) as [u Hu]; [left; reflexivity|].
    rewrite <- S in Hu. discriminate.
  - cbn [to_blocks link map all_records snd b_base b_data]. cbn in W.
    rewrite block_records_zero by tauto. reflexivity.
Qed.

(* ---- damage ---- *)
Inductive enc : text -> list Z -> Prop :=
| enc_nil : enc [] []
| enc_cons c1 c2 t B : is_xdigit c1 = true -> is_xdigit c2 = true -> enc t B ->
    enc (c1 :: c2 :: t) (parseHex c1 * 16 + parseHex c2 :: B).

Lemma parseHex_range c : is_xdigit c = true -> 0 <= parseHex c < 16.
Proof.
  unfold is_xdigit, parseHex, to_upper, is_digit, is_lower. intros H.
  destruct ((48 <=? c) && (c <=? 57)) eqn:E; [lia|].
  destruct ((97 <=? c) && (c <=? 122)) eqn:E2; lia.
Qed.

Lemma parseByte_enc c1 c2 t : is_xdigit c1 = true -> is_xdigit c2 = true ->
  parseByte (c1 :: c2 :: t) = Some (parseHex c1 * 16 + parseHex c2, t).
Proof.
  intros H1 H2. unfold parseByte. cbn [expect]. rewrite H1. cbn [expect]. rewrite H2.
  pose proof (parseHex_range _ H1). pose proof (parseHex_range _ H2).
  rewrite Z.mod_small by lia. change 16 with (2^4) at 1. rewrite (lor_add _ _ 4) by lia. reflexivity.
Qed.

Lemma enc_hexn d r B : bytes d -> enc r B -> enc (flat_map (hexn 2) d ++ r) (d ++ B).
Proof.
  induction 1 as [|x d Hx _ IH]; intros Hr; [exact Hr|].
  cbn [flat_map app]. rewrite <- app_assoc, hexn_2. cbn [app].
  destruct (hexd_ok (x / 16 mod 16)) as [X1 P1]; [lia|].
  destruct (hexd_ok (x mod 16)) as [X2 P2]; [lia|].
  replace x with (parseHex (hexd (x / 16 mod 16)) * 16 + parseHex (hexd (x mod 16))) at 3.
  - constructor; auto.
  - rewrite P1, P2. unfold is_byte in Hx. lia.
Qed.

Lemma enc_set t B i c : enc t B -> (i < length t)%nat -> is_xdigit c = true ->
  parseHex c <> parseHex (nth i t 0) ->
  exists b', enc (list_set t i c) (list_set B (i / 2) b') /\ (i / 2 < length B)%nat /\
    0 <= b' < 256 /\ 0 <= nth (i / 2) B 0 < 256 /\ b' <> nth (i / 2) B 0.
Proof.
  intros E. revert i. induction E as [|c1 c2 t B H1 H2 E IH]; intros i Hi Hc Hn; [cbn in Hi; lia|].
  pose proof (parseHex_range _ H1). pose proof (parseHex_range _ H2). pose proof (parseHex_range _ Hc).
  destruct i as [|[|i]].
  - exists (parseHex c * 16 + parseHex c2). cbn. cbn in Hn. split; [constructor; auto|]. split; lia.
  - exists (parseHex c1 * 16 + parseHex c). cbn. cbn in Hn. split; [constructor; auto|]. split; lia.
  - destruct (IH i) as (b' & E' & L & R1 & R2 & N); [cbn in Hi; lia|auto|exact Hn|].
    assert (D : (S (S i) / 2 = S (i / 2))%nat).
    { replace (S (S i)) with (i + 1 * 2)%nat by lia. rewrite Nat.div_add by lia. lia. }
    exists b'. rewrite D. cbn [list_set nth length]. split; [constructor; auto|]. split; [lia|]. auto.
Qed.

(* decoders on encoded bytes: the verdict only depends on the sum *)
Lemma decode_data_enc d : forall t B addr i s m, enc t (d ++ B) -> exists t' m',
  decode_data (length d) addr i t s m = (Some (t', fold_left addSum8 d s), m') /\ enc t' B.
Proof.
  induction d as [|x d IH]; intros t B addr i s m E.
  - cbn. eauto.
  - cbn [app] in E. inversion E as [|c1 c2 t1 B1 H1 H2 E1]; subst.
    cbn [length decode_data]. rewrite parseByte_enc by auto.
    destruct (IH t1 B addr (i + 1) (addSum8 s (parseHex c1 * 16 + parseHex c2))
       (writeByte m ((addr + i) mod 2 ^ 32) (parseHex c1 * 16 + parseHex c2)) E1) as (t' & m' & -> & E2).
    eauto.
Qed.

Definition zsum (l : list Z) : Z := fold_right Z.add 0 l.
Lemma fold_sum d s : fold_left addSum8 d s mod 256 = (s + zsum d) mod 256.
Proof.
  revert s; induction d as [|x d IH]; intros s; cbn; [f_equal; lia|].
  rewrite IH. fold (zsum d). unfold addSum8. lia.
Qed.

Lemma ih_decode_enc next t len ah al d cs m :
  enc t (len :: ah :: al :: 0 :: d ++ [cs]) -> length d = Z.to_nat len -> 0 <= len ->
  zsum (len :: ah :: al :: 0 :: d ++ [cs]) mod 256 <> 0 ->
  fst (fst (ih_decode next (58 :: t) m)) = -1.
Proof.
  intros E L Hl Hs.
  inversion E as [|c1 c2 t1 B1 X1 Y1 E1 EQ1 EQ2]; subst. clear E.
  inversion E1 as [|c3 c4 t2 B2 X2 Y2 E2 EQ3 EQ4]; subst. clear E1.
  inversion E2 as [|c5 c6 t3 B3 X3 Y3 E3 EQ5 EQ6]; subst. clear E2.
  inversion E3 as [|c7 c8 t4 B4 X4 Y4 E4 EQ7 EQ8]; subst. clear E3.
  pose proof (parseHex_range _ X1). pose proof (parseHex_range _ Y1).
  pose proof (parseHex_range _ X2). pose proof (parseHex_range _ Y2).
  pose proof (parseHex_range _ X3). pose proof (parseHex_range _ Y3).
  pose proof (parseHex_range _ X4). pose proof (parseHex_range _ Y4).
  unfold ih_decode. cbn [expect Z.eqb Pos.eqb].
  rewrite parseByte_enc by auto. unfold parseUint16. rewrite !parseByte_enc by auto.
  rewrite EQ8. change (0 =? 4) with false. change (negb (0 =? 0)) with false. cbv iota.
  set (len := parseHex c1 * 16 + parseHex c2) in *.
  change 256 with (2^8). rewrite !(lor_add _ _ 8) by lia. change (2^8) with 256.
  set (addr := (parseHex c3 * 16 + parseHex c4) * 256 + (parseHex c5 * 16 + parseHex c6)).
  rewrite <- L.
  set (s0 := addSum8 (addSum16 (addSum8 0 len) addr) 0).
  destruct (decode_data_enc d t4 [cs] (Z.lor next addr) 0 s0 m E4) as (t' & m' & -> & E5).
  inversion E5 as [|c9 c10 t5 B5 X5 Y5 E6 EQ9 EQ10]; subst.
  rewrite parseByte_enc by auto.
  match goal with |- context[if ?c =? 0 then _ else _] => destruct (Z.eqb_spec c 0) as [Z0|Z0] end; [|reflexivity].
  exfalso. apply Hs. clear Hs.
  pose proof (fold_sum d s0) as FS. set (FF := fold_left addSum8 d s0) in *. unfold addSum8 in Z0.
  assert (ZS : forall l x, zsum (l ++ [x]) = zsum l + x).
  { clear. induction l; intros; cbn; [lia|]. fold (zsum (l ++ [x])). rewrite IHl. unfold zsum. lia. }
  cbn [zsum fold_right]. fold (zsum (d ++ [parseHex c9 * 16 + parseHex c10])). rewrite ZS.
  assert (S0 : s0 mod 256 = (len + (parseHex c3 * 16 + parseHex c4) + (parseHex c5 * 16 + parseHex c6)) mod 256).
  { subst s0 addr. unfold addSum16, addSum8. lia. }
  pose proof (parseHex_range _ X5). pose proof (parseHex_range _ Y5).
  lia.
Qed.

Lemma list_set_app1 (a b : list Z) n v : (n < length a)%nat -> list_set (a ++ b) n v = list_set a n v ++ b.
Proof. revert n; induction a; intros n H; cbn in *; [lia|]. destruct n; cbn; [reflexivity|]. rewrite IHa; [reflexivity|lia]. Qed.
Lemma list_set_app2 (a b : list Z) n v : (length a <= n)%nat -> list_set (a ++ b) n v = a ++ list_set b (n - length a) v.
Proof. revert n; induction a; intros n H; cbn in *; [rewrite Nat.sub_0_r; reflexivity|]. destruct n; cbn; [lia|]. rewrite IHa; [reflexivity|lia]. Qed.
Lemma zsum_app a b : zsum (a ++ b) = zsum a + zsum b.
Proof. induction a as [|x a IH]; cbn; [reflexivity|]. fold (zsum (a ++ b)) (zsum a). lia. Qed.
Lemma zsum_set l n v : (n < length l)%nat -> zsum (list_set l n v) = zsum l - nth n l 0 + v.
Proof.
  revert n; induction l; intros n H; cbn in H; [lia|]. destruct n; cbn.
  - fold (zsum l). lia.
  - fold (zsum (list_set l n v)) (zsum l). rewrite IHl by lia. lia.
Qed.

Lemma list_set_snoc (d : list Z) x n v : exists d' x', list_set (d ++ [x]) n v = d' ++ [x'] /\ length d' = length d.
Proof.
  destruct (Nat.lt_ge_cases n (length d)).
  - exists (list_set d n v), x. rewrite list_set_app1 by auto. split; auto. apply list_set_length.
  - rewrite list_set_app2 by auto. destruct (n - length d)%nat; cbn; eauto.
Qed.

(* a data record as the encoder writes it, as encoded bytes *)
Lemma encodeLine_enc addr d : 0 <= addr < 65536 -> bytes d -> dsize d <= 255 ->
  exists t cs, encodeLine addr d (dsize d) = 58 :: t /\
    enc t (dsize d :: addr / 256 :: addr mod 256 :: 0 :: d ++ [cs]) /\
    zsum (dsize d :: addr / 256 :: addr mod 256 :: 0 :: d ++ [cs]) mod 256 = 0.
Proof.
  intros Ha B L. unfold encodeLine. rewrite firstn_dsize. pose proof (dsize_nonneg d).
  rewrite Z.mod_small by lia.
  set (s := fold_left addSum8 d _). 
  eexists _, (ih_getSum s). split; [reflexivity|]. split.
  - assert (Bs : bytes [ih_getSum s]) by (constructor; [unfold is_byte, ih_getSum; lia|constructor]).
    assert (Eh : enc (hexn 2 (ih_getSum s)) [ih_getSum s]).
    { pose proof (enc_hexn [ih_getSum s] [] [] Bs enc_nil) as X. cbn [flat_map] in X.
      rewrite !app_nil_r in X. exact X. }
    pose proof (enc_hexn d _ _ B Eh) as X1.
    assert (Bh : bytes [dsize d; addr / 256; addr mod 256; 0]).
    { repeat constructor; unfold is_byte; lia. }
    pose proof (enc_hexn _ _ _ Bh X1) as X2. cbn [flat_map app] in X2.
    rewrite <- !app_assoc in X2. rewrite app_nil_l in X2.
    rewrite hexn_4. rewrite <- (hexn_mod addr). rewrite <- !app_assoc. exact X2.
  - assert (ZS : forall l x, zsum (l ++ [x]) = zsum l + x).
    { intros. rewrite zsum_app. cbn. lia. }
    cbn [zsum fold_right]. fold (zsum (d ++ [ih_getSum s])). rewrite ZS.
    pose proof (fold_sum d (addSum8 (addSum16 (addSum8 0 (dsize d)) addr) 0)) as FS. fold s in FS.
    unfold ih_getSum. unfold addSum16, addSum8 in FS. lia.
Qed.

Lemma ih_damage next addr d m i c : 0 <= addr < 65536 -> bytes d -> dsize d <= 255 ->
  let line := encodeLine addr d (dsize d) in
  (3 <= i < 7 \/ 9 <= i)%nat -> (i < length line)%nat ->
  is_xdigit c = true -> parseHex c <> parseHex (nth i line 0) ->
  fst (fst (ih_decode next (list_set line i c) m)) = -1.
Proof.
  intros Ha B L line Hi Hl Hc Hn. pose proof (dsize_nonneg d).
  destruct (encodeLine_enc addr d Ha B L) as (t & cs & E & EN & ZS).
  subst line. rewrite E in *. destruct i as [|i]; [lia|]. cbn [list_set nth length] in *.
  destruct (enc_set _ _ i c EN ltac:(lia) Hc Hn) as (b' & EN' & LB & R1 & R2 & NE).
  set (j := (i / 2)%nat) in *.
  assert (J : (j = 1 \/ j = 2 \/ 4 <= j)%nat).
  { subst j. destruct Hi as [Hi|Hi].
    - assert (i = 2 \/ i = 3 \/ i = 4 \/ i = 5)%nat as [-> | [-> | [-> | ->]]] by lia; cbn; lia.
    - right. right. apply Nat.div_le_lower_bound; lia. }
  assert (ZS' : zsum (list_set (dsize d :: addr / 256 :: addr mod 256 :: 0 :: d ++ [cs]) j b') mod 256 <> 0).
  { rewrite zsum_set by exact LB. lia. }
  destruct J as [J|[J|J]].
  - rewrite J in *. cbn [list_set] in *. eapply ih_decode_enc; eauto. unfold dsize; lia.
  - rewrite J in *. cbn [list_set] in *. eapply ih_decode_enc; eauto. unfold dsize; lia.
  - destruct j as [|[|[|[|j]]]]; try lia. cbn [list_set] in *.
    destruct (list_set_snoc d cs j b') as (d' & x' & Ed & Ld). rewrite Ed in *.
    eapply ih_decode_enc; eauto. rewrite Ld. unfold dsize; lia.
Qed.

(* S-records *)
Lemma sr_tail_enc addr d cs t s m : enc t (d ++ [cs]) -> 0 <= s < 256 ->
  (s + zsum d + cs) mod 256 <> 255 -> 
  fst (sr_decode_tail addr (dsize d + 1) t s m) = -1.
Proof.
  intros E Hs NE. unfold sr_decode_tail. pose proof (dsize_nonneg d).
  destruct (Z.ltb_spec (dsize d + 1) 1); [lia|].
  replace (Z.to_nat (dsize d + 1 - 1)) with (length d) by (unfold dsize; lia).
  destruct (decode_data_enc d t [cs] addr 0 s m E) as (t' & m' & -> & E5).
  inversion E5 as [|c9 c10 t5 B5 X5 Y5 E6 EQ9 EQ10]; subst.
  rewrite parseByte_enc by auto.
  match goal with |- context[if ?c then _ else _] => destruct c eqn:Z0 end; [|reflexivity].
  exfalso. apply NE. apply Z.eqb_eq in Z0. rewrite Z0. unfold sr_getSum.
  pose proof (fold_sum d s). pose proof (fold_sum_range d s Hs). lia.
Qed.

Definition sr_addr_bytes (aw addr : Z) : list Z :=
  if addressSize aw =? 2 then [addr / 256; addr mod 256]
  else if addressSize aw =? 3 then [addr / 65536; addr / 256 mod 256; addr mod 256]
  else [addr / 16777216; addr / 65536 mod 256; addr / 256 mod 256; addr mod 256].

Definition sr_type (aw : Z) : Z :=
  if addressSize aw =? 2 then 49 else if addressSize aw =? 3 then 50 else 51.

Lemma addressSize_cases aw : addressSize aw = 2 \/ addressSize aw = 3 \/ addressSize aw = 4.
Proof. unfold addressSize. destruct (aw <=? 16); auto. destruct (aw <=? 24); auto. Qed.

Lemma sr_encode_enc aw a d : sr_rec_ok aw (a, d) ->
  exists t cs, sr_encode aw a d (dsize d) = 83 :: sr_type aw :: t /\
    enc t ((addressSize aw + dsize d + 1) :: sr_addr_bytes aw a ++ d ++ [cs]) /\
    zsum ((addressSize aw + dsize d + 1) :: sr_addr_bytes aw a ++ d ++ [cs]) mod 256 = 255.
Proof.
  intros (Ha & B & L). cbn [fst snd] in *. pose proof (dsize_nonneg d).
  unfold sr_encode, sr_type, sr_addr_bytes. rewrite firstn_dsize.
  destruct (addressSize_cases aw) as [E|[E|E]]; rewrite E in *; cbn [Z.eqb Pos.eqb]; cbv beta iota zeta;
  rewrite (Z.mod_small (_ + dsize d + 1)) by lia.
  - set (s0 := addSum16 _ a). set (s := fold_left addSum8 d s0).
    assert (Rs : 0 <= s < 256) by (apply fold_sum_range; apply addSum8_range).
    exists (hexn 2 (2 + dsize d + 1) ++ hexn 4 (a mod 65536) ++ flat_map (hexn 2) d ++ hexn 2 (sr_getSum s)), (sr_getSum s).
    split; [rewrite <- !app_assoc; reflexivity|].
    assert (Bh : bytes ((2 + dsize d + 1) :: [a / 256; a mod 256] ++ d ++ [sr_getSum s])).
    { constructor; [unfold is_byte; lia|]. apply Forall_app; split; [repeat constructor; unfold is_byte; lia|].
      apply Forall_app; split; [exact B|]. constructor; [unfold is_byte, sr_getSum; lia|constructor]. }
    split.
    + pose proof (enc_hexn _ _ _ Bh enc_nil) as X. cbn [flat_map app] in X.
      rewrite flat_map_app in X. cbn [flat_map] in X. rewrite !app_nil_r in X.
      rewrite hexn_mod in X. rewrite hexn_4. 
      replace (a mod 65536 / 256) with (a / 256) by lia.
      rewrite <- (hexn_mod (a mod 65536)). replace ((a mod 65536) mod 256) with (a mod 256) by lia. rewrite hexn_mod.
      rewrite <- !app_assoc in *. exact X.
    + cbn [zsum fold_right app]. fold (zsum (d ++ [sr_getSum s])). rewrite zsum_app. cbn [zsum fold_right].
      fold (zsum d). pose proof (fold_sum d s0) as FS. fold s in FS. subst s0. unfold sr_getSum.
      unfold addSum16, addSum8 in FS. lia.
  - set (s0 := addSum24 _ a). set (s := fold_left addSum8 d s0).
    assert (Rs : 0 <= s < 256) by (apply fold_sum_range; apply addSum8_range).
    exists (hexn 2 (3 + dsize d + 1) ++ hexn 2 (a / 65536 mod 256) ++ hexn 4 (a mod 65536) ++ flat_map (hexn 2) d ++ hexn 2 (sr_getSum s)), (sr_getSum s).
    split; [rewrite <- !app_assoc; reflexivity|].
    assert (Bh : bytes ((3 + dsize d + 1) :: [a / 65536; a / 256 mod 256; a mod 256] ++ d ++ [sr_getSum s])).
    { constructor; [unfold is_byte; lia|]. apply Forall_app; split; [repeat constructor; unfold is_byte; lia|].
      apply Forall_app; split; [exact B|]. constructor; [unfold is_byte, sr_getSum; lia|constructor]. }
    split.
    + pose proof (enc_hexn _ _ _ Bh enc_nil) as X. cbn [flat_map app] in X.
      rewrite flat_map_app in X. cbn [flat_map] in X. rewrite !app_nil_r in X.
      rewrite !hexn_mod in X. rewrite hexn_4, hexn_mod.
      rewrite <- (hexn_mod (a mod 65536 / 256)). replace ((a mod 65536 / 256) mod 256) with ((a / 256) mod 256) by lia.
      rewrite <- (hexn_mod (a mod 65536)). replace ((a mod 65536) mod 256) with (a mod 256) by lia. rewrite !hexn_mod.
      rewrite <- !app_assoc in *. exact X.
    + cbn [zsum fold_right app]. fold (zsum (d ++ [sr_getSum s])). rewrite zsum_app. cbn [zsum fold_right].
      fold (zsum d). pose proof (fold_sum d s0) as FS. fold s in FS. subst s0. unfold sr_getSum.
      unfold addSum24, addSum16, addSum8 in FS. lia.
  - set (s0 := addSum32 _ a). set (s := fold_left addSum8 d s0).
    assert (Rs : 0 <= s < 256) by (apply fold_sum_range; apply addSum8_range).
    exists (hexn 2 (4 + dsize d + 1) ++ hexn 8 a ++ flat_map (hexn 2) d ++ hexn 2 (sr_getSum s)), (sr_getSum s).
    split; [rewrite <- !app_assoc; reflexivity|].
    assert (Bh : bytes ((4 + dsize d + 1) :: [a / 16777216; a / 65536 mod 256; a / 256 mod 256; a mod 256] ++ d ++ [sr_getSum s])).
    { constructor; [unfold is_byte; lia|]. apply Forall_app; split; [repeat constructor; unfold is_byte; lia|].
      apply Forall_app; split; [exact B|]. constructor; [unfold is_byte, sr_getSum; lia|constructor]. }
    split.
    + pose proof (enc_hexn _ _ _ Bh enc_nil) as X. cbn [flat_map app] in X.
      rewrite flat_map_app in X. cbn [flat_map] in X. rewrite !app_nil_r in X.
      rewrite !hexn_mod in X. rewrite hexn_8, !hexn_4.
      replace (a / 65536 / 256) with (a / 16777216) by lia.
      rewrite <- !app_assoc in *. exact X.
    + cbn [zsum fold_right app]. fold (zsum (d ++ [sr_getSum s])). rewrite zsum_app. cbn [zsum fold_right].
      fold (zsum d). pose proof (fold_sum d s0) as FS. fold s in FS. subst s0. unfold sr_getSum.
      unfold addSum32, addSum16, addSum8 in FS. lia.
Qed.

Lemma list_set_two (A d : list Z) x n v : (n < length (A ++ d ++ [x]))%nat -> exists A' d' x',
  list_set (A ++ d ++ [x]) n v = A' ++ d' ++ [x'] /\ length A' = length A /\ length d' = length d.
Proof.
  intros H. destruct (Nat.lt_ge_cases n (length A)).
  - exists (list_set A n v), d, x. rewrite list_set_app1 by auto. split; auto. split; auto. apply list_set_length.
  - rewrite list_set_app2 by auto. destruct (list_set_snoc d x (n - length A) v) as (d' & x' & -> & L).
    exists A, d', x'. auto.
Qed.

Lemma addSum16_bytes s h l : 0 <= h < 256 -> 0 <= l < 256 -> addSum16 s (h * 256 + l) = (s + h + l) mod 256.
Proof. intros. unfold addSum16, addSum8. lia. Qed.
Lemma addSum24_bytes s g x : 0 <= g < 256 -> 0 <= x < 65536 -> addSum24 s (g * 65536 + x) = (s + g + x / 256 + x mod 256) mod 256.
Proof.
  intros. unfold addSum24. replace (addSum16 (addSum8 s ((g * 65536 + x) / 65536)) (g * 65536 + x))
   with (addSum16 (addSum8 s g) x).
  - unfold addSum16, addSum8. lia.
  - replace ((g * 65536 + x) / 65536) with g by lia. rewrite <- (addSum16_mod _ (g * 65536 + x)). f_equal. lia.
Qed.
Lemma addSum32_bytes s y x : 0 <= y < 65536 -> 0 <= x < 65536 ->
  addSum32 s (y * 65536 + x) = (s + (y / 256 + y mod 256) + x / 256 + x mod 256) mod 256.
Proof.
  intros. unfold addSum32. replace ((y * 65536 + x) / 65536) with y by lia.
  rewrite <- (addSum16_mod _ (y * 65536 + x)). replace ((y * 65536 + x) mod 65536) with x by lia.
  unfold addSum16, addSum8. lia.
Qed.

Lemma byte_div h l : 0 <= h < 256 -> 0 <= l < 256 -> (h * 256 + l) / 256 = h /\ (h * 256 + l) mod 256 = l.
Proof. lia. Qed.
Lemma sum_ne n x s t : s = (n + x) mod 256 -> (n + (x + t)) mod 256 <> 255 -> (s + t) mod 256 <> 255.
Proof. lia. Qed.

Lemma sr_decode_enc aw t n A d cs m :
  enc t (n :: A ++ d ++ [cs]) -> n = addressSize aw + dsize d + 1 ->
  Z.of_nat (length A) = addressSize aw -> zsum (n :: A ++ d ++ [cs]) mod 256 <> 255 ->
  fst (sr_decode (83 :: sr_type aw :: t) m) = -1.
Proof.
  intros E Hn LA NE. pose proof (dsize_nonneg d). unfold sr_decode, sr_type. cbn [expect]. change (83 =? 83) with true.
  cbv beta iota.
  inversion E as [|c1 c2 t1 B1 X1 Y1 E1 EQ1 EQ2]. subst B1 t. clear E.
  destruct (addressSize_cases aw) as [S|[S|S]]; rewrite S in *; cbn [Z.eqb Pos.eqb]; cbn [peek hd tl Z.eqb Pos.eqb orb negb andb];
   rewrite parseByte_enc by auto; rewrite EQ2.
  - destruct A as [|a1 [|a2 [|]]]; cbn [length] in LA; try lia. cbn [app] in E1.
    inversion E1 as [|c3 c4 t2 B2 X2 Y2 E2 EQ3 EQ4]. subst a1 B2 t1. clear E1.
    inversion E2 as [|c5 c6 t3 B3 X3 Y3 E3 EQ5 EQ6]. subst a2 B3 t2. clear E2.
    pose proof (parseHex_range _ X2). pose proof (parseHex_range _ Y2).
    pose proof (parseHex_range _ X3). pose proof (parseHex_range _ Y3).
    destruct (Z.ltb_spec n 2); [lia|].
    unfold parseUint16. rewrite !parseByte_enc by auto.
    change 256 with (2^8). rewrite !(lor_add _ _ 8) by lia. change (2^8) with 256.
    replace (n - 2) with (dsize d + 1) by lia.
    apply sr_tail_enc with (cs := cs); [exact E3|apply addSum8_range|].
    cbn [zsum fold_right app] in NE. fold (zsum (d ++ [cs])) in NE. rewrite zsum_app in NE. cbn [zsum fold_right] in NE.
    fold (zsum d) in NE. rewrite addSum16_bytes by lia.
    clear - NE. unfold addSum8. revert NE. generalize (zsum d). intros.
    lia.
  - destruct A as [|a1 [|a2 [|a3 [|]]]]; cbn [length] in LA; try lia. cbn [app] in E1.
    inversion E1 as [|c3 c4 t2 B2 X2 Y2 E2 EQ3 EQ4]. subst a1 B2 t1. clear E1.
    inversion E2 as [|c5 c6 t3 B3 X3 Y3 E3 EQ5 EQ6]. subst a2 B3 t2. clear E2.
    inversion E3 as [|c7 c8 t4 B4 X4 Y4 E4 EQ7 EQ8]. subst a3 B4 t3. clear E3.
    pose proof (parseHex_range _ X2). pose proof (parseHex_range _ Y2).
    pose proof (parseHex_range _ X3). pose proof (parseHex_range _ Y3).
    pose proof (parseHex_range _ X4). pose proof (parseHex_range _ Y4).
    destruct (Z.ltb_spec n 3); [lia|].
    unfold parseUint24, parseUint16. rewrite !parseByte_enc by auto.
    change 256 with (2^8). rewrite !(lor_add _ _ 8) by lia. change (2^8) with 256.
    change 65536 with (2^16). rewrite !(lor_add _ _ 16) by lia. change (2^16) with 65536.
    replace (n - 3) with (dsize d + 1) by lia.
    apply sr_tail_enc with (cs := cs); [exact E4|apply addSum8_range|].
    cbn [zsum fold_right app] in NE. fold (zsum (d ++ [cs])) in NE. rewrite zsum_app in NE. cbn [zsum fold_right] in NE.
    fold (zsum d) in NE. rewrite addSum24_bytes by lia. match goal with |- context[(?h * 256 + ?l) / 256] => destruct (byte_div h l) as [-> ->]; [lia|lia|] end.
    clear - NE. unfold addSum8. revert NE. generalize (zsum d). intros.
    lia.
  - destruct A as [|a1 [|a2 [|a3 [|a4 [|]]]]]; cbn [length] in LA; try lia. cbn [app] in E1.
    inversion E1 as [|c3 c4 t2 B2 X2 Y2 E2 EQ3 EQ4]. subst a1 B2 t1. clear E1.
    inversion E2 as [|c5 c6 t3 B3 X3 Y3 E3 EQ5 EQ6]. subst a2 B3 t2. clear E2.
    inversion E3 as [|c7 c8 t4 B4 X4 Y4 E4 EQ7 EQ8]. subst a3 B4 t3. clear E3.
    inversion E4 as [|c9 c10 t5 B5 X5 Y5 E5 EQ9 EQ10]. subst a4 B5 t4. clear E4.
    pose proof (parseHex_range _ X2). pose proof (parseHex_range _ Y2).
    pose proof (parseHex_range _ X3). pose proof (parseHex_range _ Y3).
    pose proof (parseHex_range _ X4). pose proof (parseHex_range _ Y4).
    pose proof (parseHex_range _ X5). pose proof (parseHex_range _ Y5).
    destruct (Z.ltb_spec n 4); [lia|].
    unfold parseUint32, parseUint16. rewrite !parseByte_enc by auto.
    change 256 with (2^8). rewrite !(lor_add _ _ 8) by lia. change (2^8) with 256.
    change 65536 with (2^16). rewrite !(lor_add _ _ 16) by lia. change (2^16) with 65536.
    replace (n - 4) with (dsize d + 1) by lia.
    apply sr_tail_enc with (cs := cs); [exact E5|apply addSum8_range|].
    cbn [zsum fold_right app] in NE. fold (zsum (d ++ [cs])) in NE. rewrite zsum_app in NE. cbn [zsum fold_right] in NE.
    fold (zsum d) in NE. rewrite addSum32_bytes by lia. repeat match goal with |- context[(?h * 256 + ?l) / 256] => destruct (byte_div h l) as [-> ->]; [lia|lia|] end.
    clear - NE. unfold addSum8. revert NE. generalize (zsum d). intros.
    lia.
Qed.

Lemma sr_addr_bytes_length aw a : Z.of_nat (length (sr_addr_bytes aw a)) = addressSize aw.
Proof.
  unfold sr_addr_bytes. destruct (addressSize_cases aw) as [S|[S|S]]; rewrite S; reflexivity.
Qed.

Lemma sr_damage aw a d m i c : sr_rec_ok aw (a, d) ->
  let line := sr_encode aw a d (dsize d) in
  (4 <= i < length line)%nat -> is_xdigit c = true -> parseHex c <> parseHex (nth i line 0) ->
  fst (sr_decode (list_set line i c) m) = -1.
Proof.
  intros Hok line Hi Hc Hn. destruct (sr_encode_enc aw a d Hok) as (t & cs & E & EN & ZS).
  subst line. rewrite E in *. destruct i as [|[|i]]; [lia|lia|]. cbn [list_set nth length] in *.
  destruct (enc_set _ _ i c EN ltac:(lia) Hc Hn) as (b' & EN' & LB & R1 & R2 & NE).
  assert (J : (1 <= i / 2)%nat) by (apply Nat.div_le_lower_bound; lia).
  set (j := (i / 2)%nat) in *.
  assert (ZS' : zsum (list_set (addressSize aw + dsize d + 1 :: sr_addr_bytes aw a ++ d ++ [cs]) j b') mod 256 <> 255).
  { rewrite zsum_set by exact LB. lia. }
  destruct j as [|j]; [lia|]. cbn [list_set] in *.
  destruct (list_set_two (sr_addr_bytes aw a) d cs j b') as (A' & d' & x' & Ed & LA & Ld); [cbn [length] in LB; lia|].
  rewrite Ed in *. eapply sr_decode_enc; eauto.
  - unfold dsize. rewrite Ld. reflexivity.
  - rewrite LA. apply sr_addr_bytes_length.
Qed.

Lemma list_set_replace l i c : (i < length l)%nat -> list_set l i c = replace_at l i c.
Proof.
  revert i; induction l as [|x l IH]; intros i H; cbn in H; [lia|].
  destruct i as [|i]; [reflexivity|]. cbn [list_set]. rewrite IH by lia. reflexivity.
Qed.

Lemma hex_char_ok c : hex_char c -> is_xdigit c = true /\ parseHex c = digit_value c.
Proof.
  unfold hex_char, is_xdigit, is_digit, parseHex, to_upper, is_lower, is_digit, digit_value. intros H. split; [lia|].
  destruct ((48 <=? c) && (c <=? 57)) eqn:E.
  - replace (c <=? 57) with true by lia. reflexivity.
  - replace (c <=? 57) with false by lia.
    destruct ((97 <=? c) && (c <=? 122)) eqn:E2.
    + replace (c <=? 70) with false by lia. lia.
    + replace (c <=? 70) with true by lia. lia.
Qed.

Lemma enc_chars t B i : enc t B -> (i < length t)%nat -> is_xdigit (nth i t 0) = true.
Proof.
  intros E. revert i. induction E; intros i Hi; [cbn in Hi; lia|].
  destruct i as [|[|i]]; cbn; auto. apply IHE. cbn in Hi; lia.
Qed.

Lemma xdigit_value c : is_xdigit c = true -> parseHex c = digit_value c.
Proof.
  intros H. apply hex_char_ok. unfold is_xdigit, is_digit, hex_char in *. lia.
Qed.

Lemma ih_damage_replace next addr d m i c : 0 <= addr < 65536 -> bytes d -> dsize d <= 255 ->
  let line := encodeLine addr d (dsize d) in
  (3 <= i < 7 \/ 9 <= i)%nat -> (i < length line)%nat ->
  hex_char c -> digit_value c <> digit_value (nth i line 0) ->
  fst (fst (ih_decode next (replace_at line i c) m)) = -1.
Proof.
  intros Ha B L line Hi Hl Hc Hn. rewrite <- list_set_replace by exact Hl.
  destruct (hex_char_ok _ Hc) as [X P]. apply ih_damage; auto. fold line. rewrite P.
  rewrite xdigit_value; [exact Hn|].
  destruct (encodeLine_enc addr d Ha B L) as (t & cs & E & EN & _). subst line. rewrite E in *.
  destruct i as [|i]; [lia|]. cbn [nth length] in *. eapply enc_chars; eauto. lia.
Qed.

Lemma sr_damage_replace aw a d m i c : sr_rec_ok aw (a, d) ->
  let line := sr_encode aw a d (dsize d) in
  (4 <= i < length line)%nat -> hex_char c -> digit_value c <> digit_value (nth i line 0) ->
  fst (sr_decode (replace_at line i c) m) = -1.
Proof.
  intros Hok line Hi Hc Hn. rewrite <- list_set_replace by apply Hi.
  destruct (hex_char_ok _ Hc) as [X P]. apply sr_damage; auto. fold line. rewrite P.
  rewrite xdigit_value; [exact Hn|].
  destruct (sr_encode_enc aw a d Hok) as (t & cs & E & EN & _). subst line. rewrite E in *.
  destruct i as [|[|i]]; [lia|lia|]. cbn [nth length] in *. eapply enc_chars; eauto. lia.
Qed.
