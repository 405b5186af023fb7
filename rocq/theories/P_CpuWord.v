(** Facts shared by the proofs about processors whose opcodes are words of two bytes, the low byte first. *)
From Coq Require Import String ZArith List Bool Lia ZifyBool.
From Verif Require Import M_Char M_Error M_Value M_Text M_StrBuffer M_Format M_Number M_Insn M_Config M_Operators
  M_Parsers M_Expr M_Directive M_Table M_Asm M_Dis S_Value S_Number S_Expr S_ExprTree S_Table P_StrBuffer P_Number P_NumberRead
  P_ExprRead P_ExprTree P_ExprCase P_Table P_Insn P_Config P_Value P_Directive P_AsmText P_CpuShape P_CpuGood P_CpuText P_CpuSigned.
Import ListNotations.
Open Scope string_scope.
Open Scope list_scope.
Local Open Scope Z_scope.

(* a part which looks at the error *)
Lemma good_iferr n R R' f g : good n R f -> good n R' g -> good n R (fun s => if isOK (d_err (t_in s)) then f s else g s).
Proof.
  intros [T1 B1 K1 O1 F1 W1 RR1 LF1] [T2 B2 K2 O2 F2 W2 RR2 LF2]. constructor.
  - intros s B. destruct (isOK _); auto.
  - intros s s' B. destruct (isOK _); [apply B1|apply B2]; exact B.
  - intros s s'. destruct (isOK _); [apply K1|apply K2].
  - intros s s' B. destruct (isOK _); [apply O1|apply O2]; exact B.
  - intros s s' H E. destruct (isOK (d_err (t_in s))) eqn:X.
    + destruct (F1 s s' H E) as (nb & EM & FR). exists nb. split; [exact EM|]. intros m. unfold setmem at 1. cbn [t_in d_err]. rewrite X. apply FR.
    + pose proof (K2 s s' H E) as Y. rewrite Y in X. discriminate.
  - intros addr mem k s s'. destruct (isOK _); [apply W1|apply W2].
  - intros addr bs mem nm out s'. cbn [at_ t_in d_err]. change (isOK OK) with true. cbv iota. apply RR1.
  - intros s s' B. destruct (isOK _); [apply LF1|apply LF2]; exact B.
Qed.

Definition word_bytes (o : Z) : list Z := [o mod 256; o / 256].
Lemma word_bytes_of lo hi : byte lo -> byte hi -> word_bytes (lo + 256 * hi) = [lo; hi] /\ 0 <= lo + 256 * hi < 65536.
Proof.
  intros L H. unfold byte in *. unfold word_bytes. split; [|lia].
  rewrite (Z.mul_comm 256), Z.mod_add, Z.div_add by lia. rewrite Z.mod_small, Z.div_small by lia. reflexivity.
Qed.
Lemma word_bytes_byte o : 0 <= o < 65536 -> byte (o mod 256) /\ byte (o / 256) /\ o mod 256 + 256 * (o / 256) = o.
Proof.
  intros H. pose proof (Z.mod_pos_bound o 256 ltac:(lia)). pose proof (Z.div_mod o 256 ltac:(lia)). unfold byte.
  split; [lia|]. split; [|lia]. split; [apply Z.div_pos; lia|apply Z.div_lt_upper_bound; lia].
Qed.

(* an opcode of two bytes, and what follows *)
Definition decode_word (F : Z -> step) : step := fun s => let '(opc, s) := t_uint16Le s in F opc s.
Section Decode.
Variables (d : disasm) (F C : Z -> step) (R : Z -> rel) (n : Z -> nat) (N : nat).
Hypothesis START : forall o addr mem s, 0 <= o < 65536 -> within addr mem 2 s -> F o s = C o (t_seterr OK s).
Hypothesis GOOD : forall o, 0 <= o < 65536 -> good (n o) (R o) (C o).
Hypothesis LEN : forall o, 0 <= o < 65536 -> (2 + n o <= N)%nat.
Hypothesis N64 : (N <= 64)%nat.
Let start (mem : list Z) (addr size : Z) : M_Dis.dstate :=
  mkDst (M_Insn.mkD (new_insn addr) mem OK) [] (mkB [] (size - 1) OK (Some (da_uppercase d))).
Lemma word_start mem addr size : Forall byte mem -> within addr mem 0 (start mem addr size).
Proof. intros FM. split; [exact FM|]. exists []. unfold start. rewrite canon_new. cbn. auto. Qed.
Lemma word_total mem addr size : Forall byte mem -> exists r, dis_decode d (decode_word F) mem addr size = Val r.
Proof.
  intros FM. unfold dis_decode. destruct (negb _); [eauto|].
  fold (start mem addr size). unfold decode_word. pose proof (word_start mem addr size FM) as W0.
  assert (B0 : bytes_in (start mem addr size)) by exact FM.
  destruct (t_uint16Le (start mem addr size)) as [opc s1] eqn:R1. destruct (word_kept _ _ _ R1 B0) as (B1 & O1 & _).
  apply (within_word _ _ _ _ _ _ W0) in R1; [|lia]. rewrite (START _ _ _ _ O1 R1).
  destruct (g_total _ _ _ (GOOD opc O1) (t_seterr OK s1) B1) as (s3 & ->). cbn. eauto.
Qed.
Lemma word_within mem addr size r : Forall byte mem -> dis_decode d (decode_word F) mem addr size = Val r ->
  exists m, mem = i_code (r_insn r) ++ m /\ (length (i_code (r_insn r)) <= N)%nat.
Proof.
  intros FM. unfold dis_decode. destruct (negb _).
  { injection 1 as <-. exists mem. cbn. split; [reflexivity|lia]. }
  fold (start mem addr size).
  assert (FIN : forall s, within addr mem N s -> exists m, mem = i_code (d_insn (t_in s)) ++ m /\ (length (i_code (d_insn (t_in s))) <= N)%nat).
  { intros s (_ & bs & A & B & E). exists (d_mem (t_in s)). rewrite E, canon_code. auto. }
  pose proof (word_start mem addr size FM) as W0.
  destruct (decode_word F (start mem addr size)) as [s'| | | |] eqn:DI; try discriminate. cbn [bind].
  intros H. assert (E : i_code (r_insn r) = i_code (d_insn (t_in s'))).
  { injection H as <-. cbn [r_insn]. now destruct (isOK _). }
  rewrite E. apply FIN. clear H E r FIN. unfold decode_word in DI.
  assert (B0 : bytes_in (start mem addr size)) by exact FM.
  destruct (t_uint16Le (start mem addr size)) as [opc s1] eqn:R1. destruct (word_kept _ _ _ R1 B0) as (B1 & O1 & _).
  apply (within_word _ _ _ _ _ _ W0) in R1; [|lia]. rewrite (START _ _ _ _ O1 R1) in DI. pose proof (LEN opc O1) as L.
  eapply within_le; [exact L|]. eapply (g_within _ _ _ (GOOD opc O1)); [|exact (Nat.le_trans _ _ _ L N64)|exact DI]. exact R1.
Qed.
Lemma word_accepts mem addr size r : Forall byte mem -> (2 <= length mem)%nat -> dis_decode d (decode_word F) mem addr size = Val r -> i_err (r_insn r) = OK ->
  checkAddr (da_aw d) addr false = OK /\
  exists o nb m, 0 <= o < 65536 /\ mem = word_bytes o ++ nb ++ m /\ (length (word_bytes o ++ nb) <= N)%nat /\
    r_insn r = canon addr (word_bytes o ++ nb) /\
    R o (mkH (Some (da_uppercase d)) addr (word_bytes o) []) (r_operands r) nb (r_name r) /\
    forall m', Forall byte m' -> dis_decode d (decode_word F) (word_bytes o ++ nb ++ m') addr size = Val r.
Proof.
  intros FM NE H E. unfold dis_decode in *. destruct (isOK (checkAddr (da_aw d) addr false)) eqn:CA; cbn [negb] in *.
  2:{ injection H as <-. cbn in E. rewrite E in CA. discriminate. }
  split; [now apply isOK_e|]. fold (start mem addr size) in H.
  destruct (decode_word F (start mem addr size)) as [s'| | | |] eqn:DI; try discriminate. cbn [bind] in H.
  assert (SO : s_ok s').
  { injection H as <-. cbn [r_insn] in E. change (i_err (i_seterr (d_err (t_in s')) (d_insn (t_in s')))) with (d_err (t_in s')) in E.
    destruct (isOK (d_err (t_in s'))) eqn:X.
    - apply isOK_e in X. split; [exact X|exact E].
    - cbn [i_err i_seterr] in E. rewrite E in X. discriminate. }
  set (out := mkB [] (size - 1) OK (Some (da_uppercase d))) in *.
  destruct mem as [|lo [|hi mem0]]; [cbn in NE; lia|cbn in NE; lia|].
  inversion FM as [|? ? BL FM1]; subst. inversion FM1 as [|? ? BH FM0]; subst.
  destruct (word_bytes_of lo hi BL BH) as (WB & OR). set (o := lo + 256 * hi) in *.
  assert (B1 : forall m0, t_uint16Le (start (lo :: hi :: m0) addr size) = (o, at_ addr [lo; hi] m0 [] out)).
  { intros m0. unfold start. rewrite canon_new. fold out. fold (at_ addr [] (lo :: hi :: m0) [] out). apply t_word_at; auto. cbn; lia. }
  unfold decode_word in DI. rewrite B1 in DI. pose proof (LEN o OR) as L.
  assert (W2 : forall m0, Forall byte m0 -> within addr (lo :: hi :: m0) 2 (at_ addr [lo; hi] m0 [] out)).
  { intros m0 F0. split; [repeat (constructor; auto)|]. exists [lo; hi]. split; [reflexivity|]. split; [cbn; lia|reflexivity]. }
  rewrite (START _ _ _ _ OR (W2 _ FM0)) in DI.
  change (t_seterr OK (at_ addr [lo; hi] mem0 [] out)) with (at_ addr [lo; hi] mem0 [] out) in DI.
  destruct (g_rel _ _ _ (GOOD o OR) addr [lo; hi] mem0 [] out s' ltac:(cbn; lia) FM0 DI SO) as (t & nb & m & nm' & EM0 & LN & ES & _ & Q).
  assert (RI : r = mkDec (canon addr ([lo; hi] ++ nb)) nm' t) by (injection H as <-; subst s'; reflexivity).
  exists o, nb, m. rewrite WB. split; [exact OR|]. split; [now rewrite EM0|]. split; [rewrite app_length; cbn; lia|].
  split; [now rewrite RI|]. split; [rewrite RI; exact Q|]. intros m' FM'.
  change (bind (decode_word F (start (lo :: hi :: nb ++ m') addr size)) (fun s : M_Dis.dstate =>
          let i := i_seterr (d_err (t_in s)) (d_insn (t_in s)) in
          let i0 := if isOK (i_err i) then i_seterr (b_err (t_out s)) i else i in
          Val (mkDec i0 (t_name s) (b_txt (t_out s)))) = Val r). unfold decode_word. rewrite B1.
  rewrite (START _ _ _ _ OR (W2 (nb ++ m') ltac:(apply Forall_app; split; [rewrite EM0 in FM0; now apply Forall_app in FM0|exact FM']))).
  change (t_seterr OK (at_ addr [lo; hi] (nb ++ m') [] out)) with (setmem (nb ++ m') (at_ addr [lo; hi] mem0 [] out)).
  destruct (g_frame _ _ _ (GOOD o OR) _ _ DI (proj1 SO)) as (nb' & EM' & FR).
  rewrite ES in EM'. cbn [at_ t_in d_mem] in EM'. rewrite EM0 in EM'. apply app_inv_tail in EM'. subst nb'.
  rewrite (FR m'). cbn [bind]. rewrite RI, ES. reflexivity.
Qed.
End Decode.
(* the opcode is emitted after the operands *)
Lemma part_word o addr nb : 0 <= o < 65536 -> (length nb <= 60)%nat -> snd (emitUint16Le_at o 0 (part addr 2 nb)) = canon addr (word_bytes o ++ nb).
Proof.
  intros H L. destruct (word_bytes_byte o H) as (B0 & B1 & E). rewrite <- E at 1. rewrite emit_le by assumption.
  exact (proj2 (part_done (o mod 256) (o / 256) addr nb B0 B1 L)).
Qed.

(* ------------------------------------------------------------ signed decimals, a minus sign if negative *)
Lemma shown_bits b z : 1 <= b <= 31 -> -2^(b-1) <= z < 2^(b-1) -> shown (u32 z) (-b) = z.
Proof.
  intros B H. unfold shown, u32. replace (0 <? -b) with false by lia. cbv zeta.
  rewrite Z.opp_involutive.
  assert (P : 2^b = 2 * 2^(b-1)) by (replace b with (1 + (b-1)) at 1 by lia; rewrite Z.pow_add_r by lia; reflexivity).
  assert (Q : 0 < 2^(b-1)) by (apply Z.pow_pos_nonneg; lia).
  assert (M : (z mod 2^32) mod 2^b = z mod 2^b).
  { replace 32 with (b + (32 - b)) by lia. rewrite Z.pow_add_r by lia. rewrite Z.rem_mul_r by (try apply Z.pow_nonzero; try apply Z.pow_pos_nonneg; lia).
    rewrite (Z.mul_comm (2^b)), Z.mod_add, Z.mod_mod by lia. reflexivity. }
  rewrite M. destruct (Z.neg_nonneg_cases z).
  - replace (z mod 2^b) with (z + 2^b) by (apply (Z.mod_unique _ _ (-1)); lia).
    match goal with |- context [if ?c then _ else _] => destruct c eqn:? end; lia.
  - rewrite Z.mod_small by lia. match goal with |- context [if ?c then _ else _] => destruct c eqn:? end; lia.
Qed.
Definition minus_text (np : number_parser) (t : text) (z : Z) : Prop :=
  exists u, numeral np u (Z.abs z) /\ (0 <= z /\ t = u \/ z < 0 /\ t = 45 :: u).
Lemma good_minus d np z b : da_symtab d = None -> da_reads d np -> 1 <= b <= 31 -> -2^(b-1) <= z < 2^(b-1) ->
  good 0 (R_text (fun _ t => minus_text np t z)) (t_print (dis_outDec d (u32 z) (-b))).
Proof.
  intros S (FD & FO & FH) BB V.
  apply good_print; [intros out; now apply outDec_val|]. intros out o H E. unfold dis_outDec, da_lookup in H. rewrite S in H. cbn [bind] in H.
  assert (X : exists f, fmt_reads f np 10 /\ o = hex_case d (format_signed f (u32 z) (-b)) out).
  { destruct (da_octal d); [specialize (FO eq_refl)|specialize (FD eq_refl)]; injection H as <-; eauto. }
  destruct X as (f & FR & ->). clear H. unfold hex_case, M_StrBuffer.over in *. cbn [b_err] in E. unfold format_signed in *.
  rewrite absolute_spec in * by (unfold u32; pose proof (Z.mod_pos_bound z (2^32)); lia). rewrite shown_bits in * by lia.
  replace (Z.abs (-b)) with b in * by lia.
  assert (P : 2^b = 2 * 2^(b-1)) by (replace b with (1 + (b-1)) at 1 by lia; rewrite Z.pow_add_r by lia; reflexivity).
  assert (PM : 2^(b-1) <= 2^31) by (apply Z.pow_le_mono_r; lia).
  destruct (fmt_numeral f np (Z.abs z) b _ FR ltac:(lia) ltac:(lia) E) as (E1 & u & A & N). rewrite A.
  destruct (Z.ltb_spec z 0).
  - destruct (letter_plain 45 _ eq_refl E1) as (E3 & L). split; [destruct out; exact E3|]. exists (45 :: u). split.
    + rewrite L. unfold appb, case_buf. cbn. now rewrite <- app_assoc.
    + exists u. split; [exact N|]. right. auto.
  - split; [destruct out; exact E1|]. exists u. split; [reflexivity|]. exists u. auto.
Qed.
