(** Proofs for the disassembler's driver on the TMS32010, whose addresses are of words. *)
From Coq Require Import String ZArith List Bool Lia.
From Verif Require Import M_Char M_Error M_Value M_Text M_StrBuffer M_Format M_Number M_Insn M_Config M_Operators M_BinMemory M_Listing
  M_Table M_Dis M_DisDriver M_Tms32010Defs T_Tms32010 M_Tms32010 M_DisCpus S_ByteMap S_Memory S_DisDriver S_DisCpus
  P_BinMemory P_Config P_AsmText P_CpuShape P_CpuGood P_CpuWord P_Tms32010 P_DisDriver P_DisCpus.
Import ListNotations.
Local Open Scope Z_scope.

(* a step takes whole words, or all there is *)
Definition evens (f : step) : Prop := forall s s', f s = Val s' -> d_mem (t_in s') = [] \/ exists k, (left_of s = left_of s' + 2 * k)%nat.
Lemma evens_same f : (forall s s', f s = Val s' -> d_mem (t_in s') = d_mem (t_in s)) -> evens f.
Proof. intros H s s' E. right. exists 0%nat. unfold left_of. rewrite (H _ _ E). lia. Qed.
Lemma evens_ext s0 s f s' : d_mem (t_in s0) = d_mem (t_in s) -> evens f -> f s = Val s' -> d_mem (t_in s') = [] \/ exists k, (left_of s0 = left_of s' + 2 * k)%nat.
Proof. intros M E H. unfold left_of. rewrite M. exact (E s s' H). Qed.
Lemma print_mem f s s' : t_print f s = Val s' -> d_mem (t_in s') = d_mem (t_in s).
Proof. unfold t_print. destruct (f (t_out s)); cbn; try discriminate. injection 1 as <-. reflexivity. Qed.
Lemma byte_step s v s' : t_byte s = (v, s') -> d_mem (t_in s') = [] \/ left_of s = S (left_of s').
Proof.
  unfold t_byte, M_Insn.readByte, left_of. destruct (d_mem (t_in s)) as [|c m] eqn:M.
  - injection 1 as <- <-. cbn. left. first [exact M|reflexivity].
  - destruct (emitByte _ _) as [e i]. injection 1 as <- <-. cbn. right. reflexivity.
Qed.
Lemma byte_empty s v s' : t_byte s = (v, s') -> d_mem (t_in s) = [] -> d_mem (t_in s') = [].
Proof. unfold t_byte, M_Insn.readByte. intros H M. rewrite M in H. injection H as <- <-. cbn. first [exact M|reflexivity]. Qed.
Lemma word_evens s v s' : t_uint16Le s = (v, s') -> d_mem (t_in s') = [] \/ exists k, (left_of s = left_of s' + 2 * k)%nat.
Proof.
  intros H. apply word_split in H. destruct H as (x & y & s1 & B1 & B2 & _).
  destruct (byte_step _ _ _ B2) as [E|E]; [now left|]. destruct (byte_step _ _ _ B1) as [E1|E1].
  - left. eapply byte_empty; eauto.
  - right. exists 1%nat. lia.
Qed.
Lemma evens_operand d ct opc mode : evens (decodeOperand d ct opc mode).
Proof.
  intros s s'. unfold decodeOperand, outDirect, outShiftCount, outProgramAddress. cbv zeta.
  assert (P : forall f s0, d_mem (t_in s0) = d_mem (t_in s) -> t_print f s0 = Val s' -> d_mem (t_in s') = [] \/ exists k, (left_of s = left_of s' + 2 * k)%nat).
  { intros f s0 M H. apply print_mem in H. right. exists 0%nat. unfold left_of. rewrite H, M. lia. }
  assert (Q : forall s0, d_mem (t_in s0) = d_mem (t_in s) -> Val s0 = Val s' -> d_mem (t_in s') = [] \/ exists k, (left_of s = left_of s' + 2 * k)%nat).
  { intros s0 M H. injection H as <-. right. exists 0%nat. unfold left_of. rewrite M. lia. }
  destruct (mode =? M_PMA) eqn:PM.
  { apply Z.eqb_eq in PM. subst mode. cbn. destruct (t_uint16Le s) as [v s1] eqn:W. intros H. apply print_mem in H. cbn in H.
    apply word_evens in W. unfold left_of in *. rewrite H. exact W. }
  repeat match goal with |- (if ?c then _ else _) = _ -> _ => destruct c end;
    try (eapply P; reflexivity); try (eapply Q; reflexivity).
  all: try (match goal with |- t_print _ (if ?c then _ else _) = _ -> _ => destruct c end; eapply P; reflexivity).
  all: destruct (signExtend opc 13); [eapply P; reflexivity|discriminate].
Qed.
Lemma evens_opcode d ct opc : evens (decode_opcode d ct opc).
Proof.
  intros s s'. unfold decode_opcode. cbv zeta. destruct (tms32010_searchOpCode ct opc) as [[e|]| | | |]; cbn [bind]; try discriminate.
  2:{ injection 1 as <-. right. exists 0%nat. unfold left_of. cbn. lia. }
  destruct (decodeOperand d ct opc (e_m1 e) _) as [s1| | | |] eqn:D1; try discriminate. cbn [bind].
  pose proof (evens_operand _ _ _ _ _ _ D1) as E1. change (left_of (t_readName (entry_name e) (t_seterr OK s))) with (left_of s) in E1.
  destruct (e_m2 e =? M_NONE). { injection 1 as <-. exact E1. }
  assert (SEQ : forall s1 s2 m s0, (d_mem (t_in s1) = [] \/ exists k, (left_of s = left_of s1 + 2 * k)%nat) -> d_mem (t_in s0) = d_mem (t_in s1) ->
    decodeOperand d ct opc m s0 = Val s2 -> d_mem (t_in s2) = [] \/ exists k, (left_of s = left_of s2 + 2 * k)%nat).
  { clear. intros s1 s2 m s0 E1 M H. pose proof (evens_operand _ _ _ _ _ _ H) as E2. unfold left_of in E2. rewrite M in E2. fold (left_of s1) in E2. fold (left_of s2) in E2.
    destruct E2 as [E2|(k & E2)]; [now left|]. destruct E1 as [E1|(j & E1)].
    - left. unfold left_of in E2. rewrite E1 in E2. cbn in E2. destruct (d_mem (t_in s2)); [reflexivity|cbn in E2; lia].
    - right. exists (j + k)%nat. lia. }
  destruct (decodeOperand d ct opc (e_m2 e) _) as [s2| | | |] eqn:D2; try discriminate. cbn [bind].
  assert (E2 : d_mem (t_in s2) = [] \/ exists k, (left_of s = left_of s2 + 2 * k)%nat).
  { eapply SEQ; [exact E1| |exact D2]. now destruct (silent (e_m2 e)). }
  destruct (e_m3 e =? M_NONE). { injection 1 as <-. exact E2. }
  intros D3. eapply SEQ; [exact E2| |exact D3]. reflexivity.
Qed.
Lemma evens_impl d ct : evens (tms32010_decodeImpl d ct).
Proof.
  intros s s'. unfold tms32010_decodeImpl. destruct (t_uint16Le s) as [o s1] eqn:W. apply word_evens in W. intros H. apply evens_opcode in H.
  destruct H as [H|(k & H)]; [now left|]. destruct W as [W|(j & W)].
  - left. unfold left_of in H. rewrite W in H. cbn in H. destruct (d_mem (t_in s')); [reflexivity|cbn in H; lia].
  - right. exists (j + k)%nat. lia.
Qed.

Section Takes.
Variables (np : number_parser) (d : disasm) (ct : Z).
Hypothesis RD : reads_as np d.
Hypothesis CT : In ct types.
Lemma tms32010_takes : takes d (tms32010_decodeImpl d ct) 4.
Proof.
  intros mem addr size FM NE. set (s0 := mkDst _ _ _).
  assert (B0 : bytes_in s0) by exact FM.
  assert (W0 : within addr mem 0 s0). { split; [exact FM|]. exists []. unfold s0. rewrite canon_new. cbn. auto. }
  enough (exists s, tms32010_decodeImpl d ct s0 = Val s /\ within addr mem 4 s /\ (left_of s < left_of s0)%nat) as (s & E & W & L).
  { destruct W as (_ & bs & A & B & C). exists s, bs. split; [exact E|]. split; [exact A|]. split; [|auto].
    intros ->. cbn [app] in A. unfold left_of, s0 in L. cbn in L. rewrite A in L. lia. }
  unfold tms32010_decodeImpl. destruct (t_uint16Le s0) as [o s1] eqn:R1. destruct (word_kept _ _ _ R1 B0) as (B1 & O1 & _).
  assert (L1 : (left_of s1 < left_of s0)%nat).
  { destruct (word_split _ _ _ R1) as (x & y & s2 & X & Y & _). pose proof (proj2 (left_byte _ _ _ X) NE). pose proof (proj1 (left_byte _ _ _ Y)). lia. }
  apply (within_word _ _ _ _ _ _ W0) in R1; [|lia].
  pose proof (good_chain np d ct o RD CT O1) as G. pose proof (chain_len ct o CT O1) as CL.
  rewrite (chain_start d ct o s1 CT O1). destruct (g_total _ _ _ G (t_seterr OK s1) B1) as (s3 & H). exists s3. split; [exact H|]. split.
  - apply (within_le _ _ (2 + n_chain ct o)); [lia|]. eapply (g_within _ _ _ G); [|lia|exact H]. exact R1.
  - pose proof (g_left _ _ _ G (t_seterr OK s1) s3 B1 H) as Q. change (left_of (t_seterr OK s1)) with (left_of s1) in Q. lia.
Qed.
End Takes.

Lemma dis_32010_done ty uh uc oc rel cs ih cur msg ws : In ty types -> (oc = true -> (cs || ih)%bool = true) ->
  image_of 13 ws -> disassembled (dis_32010 ty uh uc oc rel cs ih cur msg) ws.
Proof.
  intros T OC. set (o := dis_32010 ty uh uc oc rel cs ih cur msg).
  apply (any_disassembled o 4 13); try reflexivity; [cbn; lia|cbn; lia| |cbn; lia| |lia].
  2:{ apply (tms32010_takes np_intel); [now apply tms32010_reads|exact T]. }
  - intros mem addr r rest D M. unfold do_decode, dis_decode_from in D. destruct (negb _).
    { injection D as <- <-. right. reflexivity. }
    destruct (do_impl o _) as [s| | | |] eqn:DI; try discriminate. cbn [bind] in D. injection D as _ Em.
    apply evens_impl in DI. rewrite Em in DI. destruct DI as [DI|(k & DI)]; [now left|]. right.
    unfold left_of in DI. cbn [t_in d_mem] in DI. rewrite Em in DI. rewrite M in DI at 1. rewrite app_length in DI.
    assert (L : length (i_code (r_insn r)) = (2 * k)%nat) by lia. rewrite L. change (lc_unit (do_conf o)) with 2. rewrite Nat2Z.inj_mul, Z.mul_comm. apply Z.mod_mul. lia.
Qed.
