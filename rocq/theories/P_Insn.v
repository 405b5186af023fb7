From Coq Require Import ZArith List Bool Lia ZifyBool.
From Verif Require Import M_Char M_Error M_Insn S_Insn P_Value.
Import ListNotations.
Local Open Scope Z_scope.
Ltac Zify.zify_post_hook ::= Z.div_mod_to_equations.

Lemma set_at_length n v l : length (set_at n v l) = length l.
Proof. revert n. induction l as [|x l IH]; intros [|n]; cbn; auto. Qed.
Lemma set_at_nth n v l m d : (n < length l)%nat -> nth m (set_at n v l) d = if Nat.eqb m n then v else nth m l d.
Proof.
  revert n m. induction l as [|x l IH]; intros n m H; [cbn in H; lia|].
  destruct n as [|n], m as [|m]; cbn [set_at nth Nat.eqb]; auto. apply IH. cbn in H. lia.
Qed.

Lemma set_at_forall (P : Z -> Prop) n v l : P v -> Forall P l -> Forall P (set_at n v l).
Proof. intros V F. revert n. induction F as [|x l X F IH]; intros [|n]; cbn; constructor; auto. Qed.

(* one byte *)
Lemma emitByte_at_in v p i : sound i -> 0 <= p < 64 -> 0 <= v < 256 ->
  emitByte_at v p i = (OK, mkI (i_addr i) (Z.max (i_len i) (p + 1)) (set_at (Z.to_nat p) v (i_bytes i)) (i_err i) false).
Proof.
  intros (L & U & R) P V. unfold emitByte_at, MAX_CODE. change (2^8) with 256. rewrite !(Z.mod_small v), !(Z.mod_small p) by lia.
  destruct (Z.leb_spec 64 p); [lia|]. unfold store_byte. rewrite L. rewrite (Z.mod_small (p + 1)) by lia.
  replace ((0 <=? p) && (p <? Z.of_nat 64)) with true by lia. cbn [i_len]. rewrite U.
  destruct (Z.ltb_spec (i_len i) (p + 1)); unfold i_setlen; cbn; f_equal; f_equal; lia.
Qed.
Lemma emitByte_at_out v p i : 64 <= p < 256 ->
  emitByte_at v p i = (setErrorIf (i_err i) NO_MEMORY, i_seterr (setErrorIf (i_err i) NO_MEMORY) i).
Proof.
  intros P. unfold emitByte_at, MAX_CODE. change (2^8) with 256. rewrite !(Z.mod_small p) by lia.
  destruct (Z.leb_spec 64 p); [reflexivity|lia].
Qed.

Lemma isOK_e e : isOK e = true <-> e = OK.
Proof. apply isOK_spec. Qed.
Lemma setErrorIf_ne st e : e <> OK -> setErrorIf st e <> OK.
Proof.
  unfold setErrorIf, setError. destruct (isOK st) eqn:E; auto. intros _ ->. discriminate E.
Qed.

Lemma emitByte_emitted v p i : sound i -> 0 <= p < 256 -> 0 <= v < 256 ->
  let '(e, i') := emitByte_at v p i in sound i' /\ emitted [v] p i e i'.
Proof.
  intros S P V. destruct (Z.lt_ge_cases p 64) as [C|C].
  - rewrite emitByte_at_in by (auto; lia). destruct S as (L & U & R).
    assert (S' : sound (mkI (i_addr i) (Z.max (i_len i) (p + 1)) (set_at (Z.to_nat p) v (i_bytes i)) (i_err i) false)).
    { split; [|split; [|split]]; cbn; auto; [now rewrite set_at_length|lia|]. apply set_at_forall; [lia|apply R]. }
    split; [exact S'|]. unfold emitted. cbn [length i_len i_err i_addr]. split; [|split; [|split; [|split]]].
    + intros q Q. unfold byte_at. cbn [i_bytes]. rewrite set_at_nth by lia.
      destruct (Nat.eqb_spec (Z.to_nat q) (Z.to_nat p)) as [E|E].
      * replace q with p by lia. replace ((p <=? p) && (p <? p + Z.of_nat 1)) with true by lia. rewrite Z.sub_diag. reflexivity.
      * replace ((p <=? q) && (q <? p + Z.of_nat 1)) with false by lia. reflexivity.
    + replace (p <? 64) with true by lia. lia.
    + split; intros; [lia|reflexivity].
    + replace (p + Z.of_nat 1 <=? 64) with true by lia. reflexivity.
    + reflexivity.
  - rewrite emitByte_at_out by lia. split; [exact S|]. unfold emitted. cbn [length]. split; [|split; [|split; [|split]]].
    + intros q Q. replace ((p <=? q) && (q <? p + Z.of_nat 1)) with false by lia. reflexivity.
    + replace (p <? 64) with false by lia. reflexivity.
    + split; [|lia]. intros E. exfalso. revert E. apply setErrorIf_ne. discriminate.
    + replace (p + Z.of_nat 1 <=? 64) with false by lia. unfold i_seterr. cbn [i_err]. reflexivity.
    + reflexivity.
Qed.

(* sequential composition *)
Lemma emitted_app b1 b2 p i e1 i1 e2 i2 : b2 <> [] -> 0 <= p ->
  emitted b1 p i e1 i1 -> emitted b2 (p + Z.of_nat (length b1)) i1 e2 i2 -> emitted (b1 ++ b2) p i e2 i2.
Proof.
  intros N P (B1 & L1 & E1 & R1 & A1) (B2 & L2 & E2 & R2 & A2).
  assert (0 < Z.of_nat (length b2)) by (destruct b2; [contradiction|cbn; lia]).
  unfold emitted. rewrite app_length, Nat2Z.inj_add. set (n1 := Z.of_nat (length b1)) in *. set (n2 := Z.of_nat (length b2)) in *.
  assert (0 <= n1) by lia.
  split; [|split; [|split; [|split]]].
  - intros q Q. rewrite B2 by auto. destruct ((p + n1 <=? q) && (q <? p + n1 + n2)) eqn:C.
    + replace ((p <=? q) && (q <? p + (n1 + n2))) with true by lia. rewrite app_nth2 by lia. f_equal. lia.
    + rewrite B1 by auto. destruct ((p <=? q) && (q <? p + n1)) eqn:D.
      * replace ((p <=? q) && (q <? p + (n1 + n2))) with true by lia. rewrite app_nth1 by lia. reflexivity.
      * replace ((p <=? q) && (q <? p + (n1 + n2))) with false by lia. reflexivity.
  - rewrite L2, L1. destruct (Z.ltb_spec p 64), (Z.ltb_spec (p + n1) 64); try lia.
  - rewrite E2. lia.
  - rewrite R2, R1. destruct (Z.leb_spec (p + n1) 64), (Z.leb_spec (p + n1 + n2) 64), (Z.leb_spec (p + (n1 + n2)) 64); try lia; auto.
    destruct (isOK (i_err i)) eqn:K; [reflexivity|]. now rewrite K.
  - congruence.
Qed.

Lemma P_firstn_nth n m (l : list Z) d : (m < n)%nat -> nth m (firstn n l) d = nth m l d.
Proof. revert n l. induction m as [|m IH]; intros [|n] [|x l] H; cbn; auto; try lia. apply IH. lia. Qed.

Definition em_ok (f : Z -> insn -> err * insn) (bs : list Z) : Prop := bs <> [] /\
  forall p i, sound i -> 0 <= p -> p + Z.of_nat (length bs) <= 256 ->
  let '(e, i') := f p i in sound i' /\ emitted bs p i e i'.
Lemma em_ok_seq f1 f2 b1 b2 : em_ok f1 b1 -> em_ok f2 b2 ->
  em_ok (fun p i => let '(_, i) := f1 (p + 0) i in f2 (p + Z.of_nat (length b1)) i) (b1 ++ b2).
Proof.
  intros (N1 & H1) (N2 & H2). split; [destruct b1; [contradiction|discriminate]|]. intros p i S P L.
  rewrite app_length in L. rewrite Z.add_0_r. specialize (H1 p i S P ltac:(lia)). destruct (f1 p i) as [e1 i1].
  destruct H1 as (S1 & M1). specialize (H2 (p + Z.of_nat (length b1)) i1 S1 ltac:(lia) ltac:(lia)).
  destruct (f2 _ i1) as [e2 i2]. destruct H2 as (S2 & M2). split; auto. eapply emitted_app; eauto.
Qed.
Lemma em_byte v : em_ok (emitByte_at v) [v mod 256].
Proof.
  split; [discriminate|]. intros p i S P L. cbn in L.
  assert (emitByte_at v p i = emitByte_at (v mod 256) p i) as ->.
  { unfold emitByte_at. change (2^8) with 256. rewrite Z.mod_mod by lia. reflexivity. }
  apply emitByte_emitted; auto; lia.
Qed.
Lemma shr_div v n : 0 <= n -> Z.shiftr v n = v / 2^n.
Proof. intros. now apply Z.shiftr_div_pow2. Qed.

Lemma em16 v (b : bool) : em_ok (if b then emitUint16Be_at v else emitUint16Le_at v)
  (if b then [v / 256 mod 256; v mod 256] else [v mod 256; v / 256 mod 256]).
Proof.
  assert (H : em_ok (emitByte_at (Z.shiftr v 8)) [v / 256 mod 256]).
  { pose proof (em_byte (Z.shiftr v 8)) as H. rewrite (shr_div v 8) in H at 2 by lia. exact H. }
  assert (L : em_ok (emitByte_at (Z.shiftr v 0)) [v mod 256]).
  { rewrite Z.shiftr_0_r. apply em_byte. }
  destruct b; unfold emitUint16Be_at, emitUint16Le_at.
  - exact (em_ok_seq _ _ _ _ H L).
  - exact (em_ok_seq _ _ _ _ L H).
Qed.
Lemma em_ok_eq f (b b' : list Z) : b = b' -> em_ok f b -> em_ok f b'.
Proof. now intros ->. Qed.
Lemma div_mod_w v a b : 0 < a -> 0 < b -> (v mod (a * b)) / a = (v / a) mod b.
Proof.
  intros A B. rewrite Z.rem_mul_r by lia. rewrite Z.add_comm, Z.mul_comm, Z.div_add_l by lia.
  rewrite (Z.div_small (v mod a) a) by (apply Z.mod_pos_bound; lia). lia.
Qed.
Lemma mod_mod_w v a b : 0 < a -> 0 < b -> (v mod (a * b)) mod a = v mod a.
Proof.
  intros A B. rewrite Z.rem_mul_r by lia. rewrite Z.add_comm, Z.mul_comm, Z.add_comm, Z.mod_add by lia. now apply Z.mod_mod; lia.
Qed.
Lemma w16_lo v : v mod 2^16 mod 256 = v mod 256.
Proof. change (2^16) with (256*256). now apply mod_mod_w. Qed.
Lemma w16_hi v : v mod 2^16 / 256 mod 256 = v / 256 mod 256.
Proof. change (2^16) with (256*256). rewrite div_mod_w by lia. now apply Z.mod_mod; lia. Qed.

Lemma em32 v (b : bool) : em_ok (if b then emitUint32Be_at v else emitUint32Le_at v) (data_bytes b S32 v).
Proof.
  pose proof (em16 (Z.shiftr v 16 mod 2^16) b) as H. pose proof (em16 (Z.shiftr v 0 mod 2^16) b) as L.
  destruct b; unfold emitUint32Be_at, emitUint32Le_at.
  - pose proof (em_ok_seq _ _ _ _ H L) as Q. eapply em_ok_eq; [|exact Q].
    rewrite !w16_lo, !w16_hi, Z.shiftr_0_r, shr_div by lia. change (2^16) with (256*256).
    unfold data_bytes. cbn [nbytes]. change (Z.to_nat 4) with 4%nat. cbn [le_bytes rev app]. rewrite !Z.div_div by lia. reflexivity.
  - pose proof (em_ok_seq _ _ _ _ L H) as Q. eapply em_ok_eq; [|exact Q].
    rewrite !w16_lo, !w16_hi, Z.shiftr_0_r, shr_div by lia. change (2^16) with (256*256).
    unfold data_bytes. cbn [nbytes]. change (Z.to_nat 4) with 4%nat. cbn [le_bytes rev app]. rewrite !Z.div_div by lia. reflexivity.
Qed.
Lemma le_bytes_mod n : forall m v, (n <= m)%nat -> le_bytes n (v mod 256 ^ Z.of_nat m) = le_bytes n v.
Proof.
  induction n as [|n IH]; intros m v L; [reflexivity|]. destruct m as [|m]; [lia|].
  rewrite Nat2Z.inj_succ, Z.pow_succ_r by lia. cbn [le_bytes]. rewrite mod_mod_w by lia. f_equal.
  rewrite div_mod_w by lia. apply IH. lia.
Qed.
Lemma le_bytes_split a : forall b v, le_bytes (a + b) v = le_bytes a v ++ le_bytes b (v / 256 ^ Z.of_nat a).
Proof.
  induction a as [|a IH]; intros b v; [cbn; now rewrite Z.div_1_r|].
  cbn [Nat.add le_bytes app]. rewrite IH. do 3 f_equal. rewrite Nat2Z.inj_succ, Z.pow_succ_r by lia.
  now rewrite Z.div_div by lia.
Qed.
Lemma em64 v (b : bool) : em_ok (if b then emitUint64Be_at v else emitUint64Le_at v) (data_bytes b S64 v).
Proof.
  pose proof (em32 (Z.shiftr v 32 mod 2^32) b) as H. pose proof (em32 (Z.shiftr v 0 mod 2^32) b) as L.
  assert (X : le_bytes 8 v = le_bytes 4 (v mod 256 ^ Z.of_nat 4) ++ le_bytes 4 ((v / 2^32) mod 256 ^ Z.of_nat 4)).
  { rewrite !le_bytes_mod by lia. exact (le_bytes_split 4 4 v). }
  change (256 ^ Z.of_nat 4) with (2^32) in X.
  unfold data_bytes in *. cbn [nbytes] in *. change (Z.to_nat 8) with 8%nat. change (Z.to_nat 4) with 4%nat in *.
  rewrite Z.shiftr_0_r in L. rewrite shr_div in H by lia.
  destruct b; unfold emitUint64Be_at, emitUint64Le_at.
  - pose proof (em_ok_seq _ _ _ _ H L) as Q. rewrite <- rev_app_distr, <- X in Q. rewrite Z.shiftr_0_r, shr_div by lia. exact Q.
  - pose proof (em_ok_seq _ _ _ _ L H) as Q. rewrite <- X in Q. rewrite Z.shiftr_0_r, shr_div by lia. exact Q.
Qed.

Lemma data_bytes_length b s v : Z.of_nat (length (data_bytes b s v)) = nbytes s.
Proof. destruct b, s; reflexivity. Qed.
Lemma emit_at_ok s b v : em_ok (emit_at s b v) (data_bytes b s v).
Proof.
  destruct s.
  - pose proof (em_byte v). destruct b; exact H.
  - pose proof (em16 v b). destruct b; exact H.
  - pose proof (em32 v b). destruct b; exact H.
  - pose proof (em64 v b). destruct b; exact H.
Qed.
Lemma emit_emit_at s b v i : emit s b v i = emit_at s b v (i_len i) i.
Proof. destruct s, b; reflexivity. Qed.

Lemma C25_exact s b v pos i e i' : sound i -> 0 <= pos -> pos + nbytes s <= 256 ->
  emit_at s b v pos i = (e, i') -> sound i' /\ emitted (data_bytes b s v) pos i e i'.
Proof.
  intros S P L E. destruct (emit_at_ok s b v) as (_ & H). specialize (H pos i S P).
  rewrite data_bytes_length in H. specialize (H L). now rewrite E in H.
Qed.
Lemma C25_append s b v i e i' : sound i -> emit s b v i = (e, i') ->
  sound i' /\ emitted (data_bytes b s v) (i_len i) i e i' /\
  i_code i' = firstn 64 (i_code i ++ data_bytes b s v).
Proof.
  intros S E. rewrite emit_emit_at in E. pose proof S as (L & U & R).
  assert (NB : 1 <= nbytes s <= 8) by (destruct s; cbn; lia).
  destruct (C25_exact s b v (i_len i) i e i' S ltac:(lia) ltac:(lia) E) as (S' & M). split; [auto|]. split; [auto|].
  destruct M as (B & LN & _). destruct S' as (L' & _ & R'). rewrite data_bytes_length in *.
  apply nth_ext with (d := 0) (d' := 0).
  - unfold i_code. rewrite !firstn_length, app_length, firstn_length, L, L'.
    pose proof (data_bytes_length b s v). destruct (Z.ltb_spec (i_len i) 64); lia.
  - intros n Hn. unfold i_code in Hn. rewrite firstn_length, L' in Hn. unfold i_code.
    assert (n < 64)%nat by lia.
    rewrite P_firstn_nth by lia. rewrite P_firstn_nth by lia.
    specialize (B (Z.of_nat n) ltac:(lia)). unfold byte_at in B. rewrite Nat2Z.id in B. rewrite B.
    destruct ((i_len i <=? Z.of_nat n) && (Z.of_nat n <? i_len i + nbytes s)) eqn:C.
    + rewrite app_nth2; rewrite firstn_length, L; [|lia]. f_equal. lia.
    + assert (Z.of_nat n < i_len i). { destruct (Z.ltb_spec (i_len i) 64); lia. }
      rewrite app_nth1 by (rewrite firstn_length, L; lia). now rewrite P_firstn_nth by lia.
Qed.

(* ---------------------------------------------------------------- safety *)
Lemma sound_emitByte v p i : sound i -> sound (snd (emitByte_at v p i)).
Proof.
  intros S. unfold emitByte_at. change (2^8) with 256. assert (P : 0 <= p mod 256 < 256) by lia.
  pose proof (emitByte_emitted (v mod 256) (p mod 256) i S P ltac:(lia)) as H. unfold emitByte_at in H.
  change (2^8) with 256 in H. rewrite !Z.mod_mod in H by lia.
  destruct (if MAX_CODE <=? p mod 256 then _ else _) as [e i']. apply H.
Qed.
Ltac snd_step f :=
  match goal with |- context [f ?a ?b ?i] => 
    let E := fresh in destruct (f a b i) as [? ?] eqn:E; apply (f_equal snd) in E; cbn [snd] in E; subst end.
Lemma sound16b v p i : sound i -> sound (snd (emitUint16Be_at v p i)).
Proof.
  intros S. unfold emitUint16Be_at. destruct (emitByte_at (Z.shiftr v 8) (p + 0) i) as [e i1] eqn:E.
  apply sound_emitByte. apply (f_equal snd) in E. cbn in E. rewrite <- E. now apply sound_emitByte.
Qed.
Lemma sound16l v p i : sound i -> sound (snd (emitUint16Le_at v p i)).
Proof.
  intros S. unfold emitUint16Le_at. destruct (emitByte_at (Z.shiftr v 0) (p + 0) i) as [e i1] eqn:E.
  apply sound_emitByte. apply (f_equal snd) in E. cbn in E. rewrite <- E. now apply sound_emitByte.
Qed.
Lemma sound32b v p i : sound i -> sound (snd (emitUint32Be_at v p i)).
Proof.
  intros S. unfold emitUint32Be_at. destruct (emitUint16Be_at (Z.shiftr v 16 mod 2^16) (p + 0) i) as [e i1] eqn:E.
  apply sound16b. apply (f_equal snd) in E. cbn [snd] in E. rewrite <- E. now apply sound16b.
Qed.
Lemma sound32l v p i : sound i -> sound (snd (emitUint32Le_at v p i)).
Proof.
  intros S. unfold emitUint32Le_at. destruct (emitUint16Le_at (Z.shiftr v 0 mod 2^16) (p + 0) i) as [e i1] eqn:E.
  apply sound16l. apply (f_equal snd) in E. cbn [snd] in E. rewrite <- E. now apply sound16l.
Qed.
Lemma sound64b v p i : sound i -> sound (snd (emitUint64Be_at v p i)).
Proof.
  intros S. unfold emitUint64Be_at. destruct (emitUint32Be_at (Z.shiftr v 32 mod 2^32) (p + 0) i) as [e i1] eqn:E.
  apply sound32b. apply (f_equal snd) in E. cbn [snd] in E. rewrite <- E. now apply sound32b.
Qed.
Lemma sound64l v p i : sound i -> sound (snd (emitUint64Le_at v p i)).
Proof.
  intros S. unfold emitUint64Le_at. destruct (emitUint32Le_at (Z.shiftr v 0 mod 2^32) (p + 0) i) as [e i1] eqn:E.
  apply sound32l. apply (f_equal snd) in E. cbn [snd] in E. rewrite <- E. now apply sound32l.
Qed.
Lemma sound_emit_at s b v p i : sound i -> sound (snd (emit_at s b v p i)).
Proof.
  intros S. destruct s, b; cbn [emit_at]; auto using sound_emitByte, sound16b, sound16l, sound32b, sound32l, sound64b, sound64l.
Qed.
Lemma zero_bytes_length n : 0 <= n -> Z.of_nat (length (zero_bytes n)) = n.
Proof. intros. unfold zero_bytes. rewrite repeat_length. lia. Qed.
Lemma sound_reset a n i : sound i -> 0 <= n -> sound (i_reset a n i).
Proof.
  intros (L & U & R) N. unfold i_reset, MAX_CODE. split; [|split; [|split]]; cbn [i_bytes i_ub i_len]; auto.
  - rewrite app_length, firstn_length, L. pose proof (zero_bytes_length (64 - (if 64 <=? n then 64 else n))).
    destruct (Z.leb_spec 64 n); lia.
  - destruct (Z.leb_spec 64 n); lia.
  - apply Forall_app. split.
    + destruct R as (_ & F). rewrite <- (firstn_skipn (Z.to_nat (if 64 <=? n then 64 else n))) in F. now apply Forall_app in F.
    + apply Forall_forall. intros x X. apply repeat_spec in X. lia.
Qed.
Lemma sound_do o i : sound i -> legal o -> sound (do_emission o i).
Proof.
  intros S L. destruct o; cbn [do_emission legal] in *.
  - now apply sound_emit_at.
  - rewrite emit_emit_at. now apply sound_emit_at.
  - now apply sound_reset.
Qed.
Lemma sound_new a : sound (new_insn a).
Proof.
  split; [reflexivity|]. split; [reflexivity|]. split; [cbn; lia|]. cbn [new_insn i_bytes]. apply Forall_forall. intros x X. apply repeat_spec in X. lia.
Qed.
Lemma C25_safe addr os : Forall legal os -> sound (fold_left (fun i o => do_emission o i) os (new_insn addr)).
Proof.
  assert (G : forall i, sound i -> Forall legal os -> sound (fold_left (fun i o => do_emission o i) os i)).
  { induction os as [|o os IH]; intros i S F; [exact S|]. inversion F; subst. cbn [fold_left]. apply IH; auto.
    now apply sound_do. }
  intros F. apply G; auto. apply sound_new.
Qed.
Lemma C25_wrap : exists i' , emit_at S16 true 0x1234 255 (new_insn 0) = (OK, i') /\ byte_at i' 0 = 0x34 /\ i_err i' = NO_MEMORY.
Proof. eexists. split; [reflexivity|split; reflexivity]. Qed.

(* ---------------------------------------------------------------- C26 *)
Lemma lor_sh h l k : 0 <= k -> 0 <= l < 2^k -> Z.lor (Z.shiftl h k) l = h * 2^k + l.
Proof.
  intros K L. rewrite Z.shiftl_mul_pow2 by lia.
  rewrite <- Z.lxor_lor, <- Z.add_nocarry_lxor; auto; apply Z.bits_inj'; intros n N; rewrite Z.land_spec, Z.bits_0;
    (destruct (Z.lt_ge_cases n k); [rewrite Z.mul_pow2_bits_low by lia; reflexivity|]);
    (replace l with (l mod 2^k) by (apply Z.mod_small; lia)); rewrite Z.mod_pow2_bits_high by lia; apply andb_false_r.
Qed.

Definition reads_to (d : dinsn) (bs : list Z) (d' : dinsn) : Prop :=
  sound (d_insn d') /\ i_code (d_insn d') = i_code (d_insn d) ++ bs /\
  i_len (d_insn d') = i_len (d_insn d) + Z.of_nat (length bs) /\ d_err d' = d_err d /\
  i_addr (d_insn d') = i_addr (d_insn d) /\ i_err (d_insn d') = i_err (d_insn d).
Definition rd_ok (f : dinsn -> Z * dinsn) (n : Z) (bytes : Z -> list Z) : Prop :=
  (forall v, Z.of_nat (length (bytes v)) = n) /\
  forall v d rest, 0 <= v < 256^n -> sound (d_insn d) -> d_mem d = bytes v ++ rest -> i_len (d_insn d) + n <= 64 ->
  exists d', f d = (v, d') /\ d_mem d' = rest /\ reads_to d (bytes v) d'.

Lemma rd_byte : rd_ok readByte 1 (fun v => [v mod 256]).
Proof.
  split; [reflexivity|]. intros v d rest V S M L. cbn [app] in M. rewrite Z.mod_small in * by lia. unfold readByte. rewrite M.
  destruct (emitByte v (d_insn d)) as [e i] eqn:E.
  destruct (C25_append S8 true v (d_insn d) e i S E) as (S' & (_ & LN & EO & ER & AD) & C).
  change (data_bytes true S8 v) with [v mod 256] in *. rewrite Z.mod_small in * by lia. cbn [length] in *.
  pose proof S as (L0 & _ & R0). assert (e = OK) as -> by (apply EO; lia).
  replace (i_len (d_insn d) + Z.of_nat 1 <=? 64) with true in ER by lia.
  eexists. split; [reflexivity|]. split; [reflexivity|]. cbn [isOK]. split; [exact S'|]. cbn [d_insn d_err].
  split; [|split; [|split; [|split]]]; auto.
  - rewrite C. rewrite firstn_all2; [reflexivity|]. rewrite app_length. unfold i_code. rewrite firstn_length. cbn. lia.
  - destruct (Z.ltb_spec (i_len (d_insn d)) 64); cbn [length]; lia.
Qed.
Lemma reads_to_trans d a d1 b d2 : reads_to d a d1 -> reads_to d1 b d2 -> reads_to d (a ++ b) d2.
Proof.
  intros (A & B & C & D & E & F) (A' & B' & C' & D' & E' & F'). split; [auto|]. rewrite app_length.
  split; [rewrite B', B, app_assoc; reflexivity|]. split; [lia|]. split; [congruence|]. split; congruence.
Qed.
Lemma rd_big f n bytes m : 0 <= n -> m = 2 * n -> rd_ok f n bytes ->
  rd_ok (fun d => let '(msb, d) := f d in let '(lsb, d) := f d in (Z.lor (Z.shiftl msb (8 * n)) lsb, d)) m
    (fun v => bytes (v / 256^n) ++ bytes (v mod 256^n)).
Proof.
  intros N -> (LN & H). split. { intros v. rewrite app_length. pose proof (LN (v / 256^n)). pose proof (LN (v mod 256^n)). lia. }
  intros v d rest V S M L. replace (256 ^ (2 * n)) with (256^n * 256^n) in V by (rewrite <- Z.pow_add_r by lia; f_equal; lia).
  assert (P : 0 < 256^n) by (apply Z.pow_pos_nonneg; lia).
  assert (Hh : 0 <= v / 256^n < 256^n). { split; [apply Z.div_pos; lia|apply Z.div_lt_upper_bound; lia]. }
  assert (Hl : 0 <= v mod 256^n < 256^n) by (apply Z.mod_pos_bound; lia).
  rewrite <- app_assoc in M. pose proof (LN (v / 256^n)). pose proof (LN (v mod 256^n)).
  destruct (H _ d _ Hh S M ltac:(lia)) as (d1 & E1 & M1 & R1). pose proof R1 as (S1 & _ & L1 & _).
  destruct (H _ d1 _ Hl S1 M1 ltac:(lia)) as (d2 & E2 & M2 & R2). exists d2. rewrite E1, E2.
  split; [|split; [auto|eapply reads_to_trans; eauto]]. f_equal.
  assert (2 ^ (8 * n) = 256^n) by (rewrite Z.pow_mul_r by lia; reflexivity).
  rewrite lor_sh by lia. rewrite H2. rewrite Z.mul_comm. symmetry. apply Z.div_mod. lia.
Qed.
Lemma rd_little f n bytes m : 0 <= n -> m = 2 * n -> rd_ok f n bytes ->
  rd_ok (fun d => let '(lsb, d) := f d in let '(msb, d) := f d in (Z.lor (Z.shiftl msb (8 * n)) lsb, d)) m
    (fun v => bytes (v mod 256^n) ++ bytes (v / 256^n)).
Proof.
  intros N -> (LN & H). split. { intros v. rewrite app_length. pose proof (LN (v / 256^n)). pose proof (LN (v mod 256^n)). lia. }
  intros v d rest V S M L. replace (256 ^ (2 * n)) with (256^n * 256^n) in V by (rewrite <- Z.pow_add_r by lia; f_equal; lia).
  assert (P : 0 < 256^n) by (apply Z.pow_pos_nonneg; lia).
  assert (Hh : 0 <= v / 256^n < 256^n). { split; [apply Z.div_pos; lia|apply Z.div_lt_upper_bound; lia]. }
  assert (Hl : 0 <= v mod 256^n < 256^n) by (apply Z.mod_pos_bound; lia).
  rewrite <- app_assoc in M. pose proof (LN (v / 256^n)). pose proof (LN (v mod 256^n)).
  destruct (H _ d _ Hl S M ltac:(lia)) as (d1 & E1 & M1 & R1). pose proof R1 as (S1 & _ & L1 & _).
  destruct (H _ d1 _ Hh S1 M1 ltac:(lia)) as (d2 & E2 & M2 & R2). exists d2. rewrite E1, E2.
  split; [|split; [auto|eapply reads_to_trans; eauto]]. f_equal.
  assert (2 ^ (8 * n) = 256^n) by (rewrite Z.pow_mul_r by lia; reflexivity).
  rewrite lor_sh by lia. rewrite H2. rewrite Z.mul_comm. symmetry. apply Z.div_mod. lia.
Qed.
Lemma rd_ok_eq f n b b' : (forall v, 0 <= v < 256^n -> b v = b' v) -> (forall v, Z.of_nat (length (b' v)) = n) -> rd_ok f n b -> rd_ok f n b'.
Proof. intros E L (_ & H). split; auto. intros v d rest V. rewrite <- E by auto. now apply H. Qed.
Lemma le_split s n v : nbytes s = 2 * Z.of_nat n -> 
  le_bytes (Z.to_nat (nbytes s)) v = le_bytes n (v mod 256 ^ Z.of_nat n) ++ le_bytes n (v / 256 ^ Z.of_nat n).
Proof.
  intros E. replace (Z.to_nat (nbytes s)) with (n + n)%nat by lia. rewrite le_bytes_split. now rewrite le_bytes_mod by lia.
Qed.
Lemma read_ok s b : rd_ok (read_data s b) (nbytes s) (data_bytes b s).
Proof.
  assert (B8 : forall b, rd_ok readByte 1 (data_bytes b S8)) by (intros []; exact rd_byte).
  assert (B16 : forall b, rd_ok (read_data S16 b) 2 (data_bytes b S16)).
  { intros []; [eapply rd_ok_eq; [| |exact (rd_big _ 1 _ 2 ltac:(lia) eq_refl (B8 true))]
               |eapply rd_ok_eq; [| |exact (rd_little _ 1 _ 2 ltac:(lia) eq_refl (B8 false))]];
      try (intros; exact (data_bytes_length _ S16 _)); intros v V; unfold data_bytes;
      rewrite (le_split S16 1) by reflexivity; rewrite ?rev_app_distr; reflexivity. }
  assert (B32 : forall b, rd_ok (read_data S32 b) 4 (data_bytes b S32)).
  { intros []; [eapply rd_ok_eq; [| |exact (rd_big _ 2 _ 4 ltac:(lia) eq_refl (B16 true))]
               |eapply rd_ok_eq; [| |exact (rd_little _ 2 _ 4 ltac:(lia) eq_refl (B16 false))]];
      try (intros; exact (data_bytes_length _ S32 _)); intros v V; unfold data_bytes;
      rewrite (le_split S32 2) by reflexivity; rewrite ?rev_app_distr; reflexivity. }
  assert (B64 : forall b, rd_ok (read_data S64 b) 8 (data_bytes b S64)).
  { intros []; [eapply rd_ok_eq; [| |exact (rd_big _ 4 _ 8 ltac:(lia) eq_refl (B32 true))]
               |eapply rd_ok_eq; [| |exact (rd_little _ 4 _ 8 ltac:(lia) eq_refl (B32 false))]];
      try (intros; exact (data_bytes_length _ S64 _)); intros v V; unfold data_bytes;
      rewrite (le_split S64 4) by reflexivity; rewrite ?rev_app_distr; reflexivity. }
  destruct s; [destruct b; exact rd_byte|apply B16|apply B32|apply B64].
Qed.
Lemma C26_round s b v i e i' d rest : 0 <= v < 256 ^ nbytes s -> sound i -> i_len i + nbytes s <= 64 ->
  emit s b v i = (e, i') -> sound (d_insn d) -> i_len (d_insn d) + nbytes s <= 64 -> d_mem d = data_bytes b s v ++ rest ->
  e = OK /\ i_code i' = i_code i ++ data_bytes b s v /\
  exists d', read_data s b d = (v, d') /\ d_mem d' = rest /\ d_err d' = d_err d /\
    i_code (d_insn d') = i_code (d_insn d) ++ data_bytes b s v.
Proof.
  intros V S L E SD LD M. destruct (C25_append s b v i e i' S E) as (S' & (_ & LN & EO & _) & C).
  rewrite data_bytes_length in *. split; [apply EO; lia|]. split.
  - rewrite C. apply firstn_all2. pose proof (data_bytes_length b s v). destruct S as (SL & _ & SR).
    rewrite app_length. unfold i_code. rewrite firstn_length. lia.
  - destruct (read_ok s b) as (_ & H). destruct (H v d rest V SD M LD) as (d' & A & B & (_ & C' & _ & D & _)).
    exists d'. auto.
Qed.
(* reading past the end of memory is an error, never an access *)
Definition takes (k : nat) (f : dinsn -> Z * dinsn) : Prop := forall x,
  (d_err x = NO_MEMORY -> d_err (snd (f x)) = NO_MEMORY) /\
  (d_err x = OK -> d_err (snd (f x)) = NO_MEMORY \/
     (d_err (snd (f x)) = OK /\ (k <= length (d_mem x))%nat /\ length (d_mem (snd (f x))) = (length (d_mem x) - k)%nat)).
Lemma takes_byte : takes 1 readByte.
Proof.
  intros x. unfold readByte. destruct (d_mem x) as [|c m]; cbn [snd d_err d_mem].
  - split; intros E; rewrite E; cbn; auto.
  - destruct (emitByte c (d_insn x)) as [e i]. cbn [snd d_err d_mem length]. split; intros E; rewrite E; destruct (isOK e); cbn; auto.
    right. repeat split; auto; lia.
Qed.
Lemma takes_two k f (g : Z -> Z -> Z) : takes k f ->
  takes (k + k) (fun x => let '(a, x) := f x in let '(b, x) := f x in (g a b, x)).
Proof.
  intros T x. destruct (T x) as (K & O). destruct (f x) as [a x1] eqn:E1. cbn [snd] in *.
  destruct (T x1) as (K1 & O1). destruct (f x1) as [b x2] eqn:E2. cbn [snd] in *. split.
  - auto.
  - intros E. destruct (O E) as [N | (Q & L & M)]; [auto|]. destruct (O1 Q) as [N | (Q' & L' & M')]; [auto|].
    right. repeat split; auto; lia.
Qed.
Lemma C26_short d s b : d_err d = OK -> Z.of_nat (length (d_mem d)) < nbytes s ->
  d_err (snd (read_data s b d)) = NO_MEMORY.
Proof.
  assert (W : forall k f, takes k f -> d_err d = OK -> (length (d_mem d) < k)%nat -> d_err (snd (f d)) = NO_MEMORY).
  { intros k f T E L. destruct (T d) as (_ & O). destruct (O E) as [N | (_ & L' & _)]; [auto|lia]. }
  pose proof takes_byte as T8.
  pose proof (takes_two _ _ (fun a b => Z.lor (Z.shiftl a 8) b) T8 : takes 2 readUint16Be) as T16b.
  pose proof (takes_two _ _ (fun a b => Z.lor (Z.shiftl b 8) a) T8 : takes 2 readUint16Le) as T16l.
  pose proof (takes_two _ _ (fun a b => Z.lor (Z.shiftl a 16) b) T16b : takes 4 readUint32Be) as T32b.
  pose proof (takes_two _ _ (fun a b => Z.lor (Z.shiftl b 16) a) T16l : takes 4 readUint32Le) as T32l.
  pose proof (takes_two _ _ (fun a b => Z.lor (Z.shiftl a 32) b) T32b : takes 8 readUint64Be) as T64b.
  pose proof (takes_two _ _ (fun a b => Z.lor (Z.shiftl b 32) a) T32l : takes 8 readUint64Le) as T64l.
  intros E L. destruct s, b; cbn [read_data nbytes] in *; eapply W; eauto; lia.
Qed.
