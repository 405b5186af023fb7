(** The SC/MP disassembler: proofs. *)
From Coq Require Import String ZArith List Bool Lia ZifyBool.
From Verif Require Import M_Char M_Error M_Value M_Text M_StrBuffer M_Format M_Number M_Insn M_Config M_Operators
  M_Table M_Dis M_Ins8060Defs T_Ins8060 M_Ins8060 S_Value S_Number S_Ins8060 P_StrBuffer P_Number P_NumberRead P_Insn P_Config
  P_AsmText P_CpuShape P_CpuGood P_CpuText P_CpuRange P_HexFile.
Import ListNotations.
Open Scope string_scope.
Open Scope list_scope.
Local Open Scope Z_scope.

Definition two (mode : Z) : bool := (mode =? M_IMM8) || (mode =? M_REL8) || (mode =? M_DISP) || (mode =? M_INDX).
Lemma print_in f s s' : t_print f s = Val s' -> t_in s' = t_in s.
Proof. apply print_err. Qed.
Lemma rel_val d target origin bits s : da_symtab d = None -> exists s', t_print (outRelAddr d target origin bits) s = Val s'.
Proof. intros S. unfold t_print. destruct (outRel_val d target origin bits (t_out s) S) as (o & ->). cbn. eauto. Qed.
Lemma dec_val d v bits s : da_symtab d = None -> exists s', t_print (dis_outDec d v bits) s = Val s'.
Proof. intros S. unfold t_print. destruct (outDec_val d v bits (t_out s) S) as (o & ->). cbn. eauto. Qed.
Lemma byte_in s1 s2 : t_in s1 = t_in s2 -> fst (t_byte s1) = fst (t_byte s2) /\ t_in (snd (t_byte s1)) = t_in (snd (t_byte s2)).
Proof. intros H. unfold t_byte. rewrite H. destruct (readByte (t_in s2)). split; reflexivity. Qed.

(* an operand is printed, and takes a byte or none *)
Lemma indx_run d opc mode h s : da_symtab d = None ->
  exists s', decodeIndx d opc mode h s = Val s' /\ t_in s' = t_in (snd (t_byte s)).
Proof.
  intros S. unfold decodeIndx. set (s0 := if h && _ then _ else s).
  assert (I : t_in s0 = t_in s) by (unfold s0; destruct (h && _); reflexivity).
  clearbody s0. destruct (byte_in s0 s I) as (_ & B). rewrite <- B. cbv zeta. destruct (t_byte s0) as [opr s1]. cbn [snd].
  destruct (_ =? REG_PC).
  - destruct (_ && _).
    + destruct (rel_val d (target_of (address s1) opr (if mode =? M_REL8 then 1 else 0)) (address s1) 8 s1 S) as (s' & H).
      exists s'. split; [exact H|exact (print_in _ _ _ H)].
    + destruct (print_abs_val d (target_of (address s1) opr (if mode =? M_REL8 then 1 else 0)) 0 s1 S) as (s' & H).
      exists s'. split; [exact H|exact (print_in _ _ _ H)].
  - destruct (opr =? 128).
    + eexists. split; [reflexivity|]. reflexivity.
    + destruct (dec_val d (u32 (int8 opr)) (-8) s1 S) as (s' & H). rewrite H. cbn [bind].
      eexists. split; [reflexivity|]. exact (print_in _ _ _ H).
Qed.
Lemma operand_run d opc mode s : da_symtab d = None ->
  exists s', decodeOperand d opc mode s = Val s' /\ t_in s' = if two mode then t_in (snd (t_byte s)) else t_in s.
Proof.
  intros S. unfold decodeOperand, two. destruct (mode =? M_PNTR) eqn:P.
  { apply Z.eqb_eq in P. subst mode. eexists. split; reflexivity. }
  destruct (mode =? M_IMM8).
  { cbn [orb]. destruct (t_byte s) as [v s1]. destruct (print_val d v 8 true s1 S) as (s' & H). exists s'. split; [exact H|exact (print_in _ _ _ H)]. }
  destruct (mode =? M_REL8); [apply indx_run, S|]. destruct (mode =? M_DISP); [apply indx_run, S|].
  destruct (mode =? M_INDX); [apply indx_run, S|]. eexists. split; reflexivity.
Qed.

(* the table, code by code *)
Definition look_ok (o : Z) : bool :=
  match find_opcode o with
  | Val None => true
  | Val (Some e) => (e_mode e =? M_UNDEF) || Bool.eqb (two (e_mode e)) (has_byte o)
  | _ => false
  end.
Lemma look_check : forallb look_ok all_bytes = true.
Proof. vm_compute. reflexivity. Qed.
Lemma look_at o : byte o -> look_ok o = true.
Proof. intros B. pose proof look_check as H. rewrite forallb_forall in H. exact (H o (all_in o B)). Qed.

Lemma check_in s : d_insn (t_in (checkPage s)) = d_insn (t_in s) /\ d_mem (t_in (checkPage s)) = d_mem (t_in s).
Proof. unfold checkPage. destruct (negb _); split; reflexivity. Qed.
Lemma check_out s : t_out (checkPage s) = t_out s.
Proof. unfold checkPage. destruct (negb _); reflexivity. Qed.
Lemma err_ok a b : setErrorIfAt a b = OK -> a = OK /\ b = OK.
Proof. destruct a, b; cbn; auto; discriminate. Qed.
Lemma check_ok s : d_err (t_in (checkPage s)) = OK ->
  d_err (t_in s) = OK /\ pageOf (address s) = pageOf (address s + i_len (d_insn (t_in s)) - 1).
Proof.
  unfold checkPage. destruct (pageOf (address s) =? _) eqn:P; cbn [negb].
  - intros E. split; [exact E|now apply Z.eqb_eq].
  - intros E. cbn in E. apply err_ok in E. destruct E. discriminate.
Qed.

(* the start of a decoding *)
Definition start (d : disasm) (mem : list Z) (addr size : Z) : M_Dis.dstate :=
  mkDst (mkD (canon addr []) mem OK) [] (mkB [] (size - 1) OK (Some (da_uppercase d))).
Lemma decode_run d mem addr size : da_symtab d = None -> Forall byte mem ->
  exists s', ins8060_decodeImpl d (start d mem addr size) = Val s' /\ within addr mem 2 s' /\
    (mem <> [] -> d_err (t_in s') = OK -> exists o m, mem = o :: m /\
      exists bs, mem = bs ++ d_mem (t_in s') /\ d_insn (t_in s') = canon addr bs /\
      length bs = (if has_byte o then 2 else 1)%nat /\ pageOf (u16 addr) = pageOf (u16 addr + Z.of_nat (length bs) - 1)).
Proof.
  intros S F. unfold ins8060_decodeImpl.
  assert (W0 : within addr mem 0 (start d mem addr size)).
  { split; [exact F|]. exists []. cbn. auto. }
  destruct (t_byte (start d mem addr size)) as [o s1] eqn:T.
  pose proof (within_byte _ _ _ _ _ _ W0 ltac:(lia) T) as W1. cbn [Nat.add] in W1.
  assert (BO : byte o).
  { unfold start in T. unfold t_byte, readByte in T. cbn [t_in d_mem d_insn] in T. destruct mem as [|c m]; [injection T as <- <-; unfold byte; lia|].
    inversion F. rewrite canon_emit in T by (assumption || cbn; lia). injection T as <- <-. assumption. }
  pose proof (look_at o BO) as L. unfold look_ok in L. unfold decode_opcode.
  destruct (find_opcode o) as [[e|]| | | |]; try discriminate L; cbn [bind].
  2:{ eexists. split; [reflexivity|]. split; [apply (within_le _ _ 1 2); [lia|]; revert W1; now apply within_eq|].
      intros _ E. cbn in E. discriminate. }
  destruct (e_mode e =? M_UNDEF).
  { eexists. split; [reflexivity|]. split; [apply (within_le _ _ 1 2); [lia|]; revert W1; now apply within_eq|].
    intros _ E. cbn in E. discriminate. }
  cbn [orb] in L. apply eqb_prop in L.
  destruct (operand_run d o (e_mode e) (t_readName (entry_name e) (t_seterr OK s1)) S) as (s2 & R & I). rewrite R. cbn [bind].
  eexists. split; [reflexivity|].
  set (s1' := t_readName (entry_name e) (t_seterr OK s1)) in *.
  assert (W1' : within addr mem 1 s1') by (revert W1; now apply within_eq).
  assert (W2 : within addr mem 2 s2).
  { destruct (two (e_mode e)).
    - destruct (t_byte s1') as [x s3] eqn:T3. cbn [snd] in I.
      pose proof (within_byte _ _ _ _ _ _ W1' ltac:(lia) T3) as W3. cbn [Nat.add] in W3. revert W3. apply within_eq; now rewrite I.
    - apply (within_le _ _ 1 2); [lia|]. revert W1'. apply within_eq; now rewrite I. }
  destruct (check_in s2) as (CI & CM).
  split; [revert W2; now apply within_eq|].
  intros NE E. destruct mem as [|c m]; [congruence|]. exists c, m. split; [reflexivity|].
  destruct (check_ok _ E) as (E2 & PG). rewrite CI, CM.
  inversion F as [|? ? BC FM]. subst.
  unfold start in T. change (mkDst _ _ _) with (at_ addr [] (c :: m) [] (mkB [] (size - 1) OK (Some (da_uppercase d)))) in T.
  rewrite t_byte_at in T by (assumption || cbn; lia). injection T as <- <-. cbn [app] in *.
  rewrite L in I. destruct (has_byte c).
  - destruct m as [|x m'].
    + rewrite I in E2. cbn in E2. discriminate.
    + inversion FM as [|? ? BX FM']. subst. 
      assert (TX : t_byte s1' = (x, t_readName (entry_name e) (at_ addr [c; x] m' [] (mkB [] (size - 1) OK (Some (da_uppercase d)))))).
      { unfold s1', t_byte, t_readName, t_seterr, at_. cbn [t_in t_out t_name d_insn d_mem]. rewrite canon_read by (assumption || cbn; lia). reflexivity. }
      rewrite TX in I. cbn [snd] in I. exists [c; x]. unfold address in PG. rewrite I in *. cbn in *. auto.
  - exists [c]. unfold address in PG. rewrite I in *. cbn in *. auto.
Qed.

(* ------------------------------------------------------------ addresses *)
Lemma offset_mod z : offset z = z mod 4096.
Proof. unfold offset, u16. change 0xFFF with (Z.ones 12). rewrite Z.land_ones by lia. change (2^12) with 4096. change (2^16) with (4096 * 16).
  rewrite Z.rem_mul_r by lia. rewrite Z.mul_comm, Z_mod_plus_full. apply Z.mod_mod. lia. Qed.
Lemma page_div z : 0 <= z < 65536 -> pageOf z = z / 4096 * 4096.
Proof.
  intros H. unfold pageOf, u16. rewrite Z.mod_small by (change (2^16) with 65536; lia). change 0xFFF with (Z.ones 12). rewrite <- Z.ldiff_land, Z.ldiff_ones_r by lia.
  rewrite Z.shiftl_mul_pow2, Z.shiftr_div_pow2 by lia. reflexivity.
Qed.
Lemma int8_disp x : byte x -> int8 x = displacement x.
Proof.
  unfold byte, int8, displacement. intros B. destruct (Z.ltb_spec x 128).
  - rewrite Z.mod_small; lia.
  - replace (x + 128) with (x - 128 + 1 * 256) by lia. rewrite Z_mod_plus_full, Z.mod_small; lia.
Qed.
Lemma target_in addr x fetch : 0 <= addr < 65536 -> addr mod 4096 < 4095 -> byte x ->
  target_of addr x fetch = in_page addr (addr mod 4096 + 1 + fetch + displacement x) /\ 0 <= target_of addr x fetch < 65536.
Proof.
  intros A E B. unfold target_of. cbv zeta. rewrite !offset_mod, (int8_disp x B).
  assert (M : (addr + 1) mod 4096 = addr mod 4096 + 1).
  { rewrite (Z.div_mod addr 4096) at 1 by lia. replace (4096 * (addr / 4096) + addr mod 4096 + 1) with (addr mod 4096 + 1 + addr / 4096 * 4096) by lia.
    rewrite Z_mod_plus_full. apply Z.mod_small. pose proof (Z.mod_pos_bound addr 4096). lia. }
  assert (D : (addr + 1) / 4096 = addr / 4096).
  { pose proof (Z.div_mod addr 4096 ltac:(lia)). pose proof (Z.div_mod (addr + 1) 4096 ltac:(lia)). lia. }
  assert (S1 : addr + 1 < 65536).
  { destruct (Z.eq_dec addr 65535) as [->|]; [cbn in E; lia|lia]. }
  rewrite M, page_div, D by lia. set (off := addr mod 4096 + 1 + displacement x + fetch).
  pose proof (Z.mod_pos_bound off 4096 ltac:(lia)) as OB.
  pose proof (P_HexFile.lor_add (addr / 4096) (off mod 4096) 12 ltac:(lia) OB) as LO. change (2^12) with 4096 in LO. rewrite LO.
  unfold in_page. replace (addr mod 4096 + 1 + fetch + displacement x) with off by (unfold off; lia).
  split; [reflexivity|].
  assert (0 <= addr / 4096 < 16) by (split; [apply Z.div_pos; lia|apply Z.div_lt_upper_bound; lia]). lia.
Qed.

Lemma ins8060_reads uh uc rel cs ih cur : da_reads (ins8060_dis uh uc false rel cs ih cur None) np_ins80xx.
Proof.
  assert (I : In np_ins80xx family_parsers) by (cbn; auto 20).
  unfold da_reads, da_formatter, ins8060_dis. cbn [da_cstyle da_intelhex da_plug da_octal].
  destruct cs; [apply all_reads with (d := ins8060_dis uh uc false rel true ih cur None), universal_reads; auto|].
  destruct ih; [apply all_reads with (d := ins8060_dis uh uc false rel false true cur None), universal_reads; auto|].
  split; [intros _; apply dec_reads, fb_all, I|]. split; [discriminate|intros _; apply ins_hex_reads].
Qed.

(* instructions relative to the program counter *)
Definition pc_code (jump : bool) (o : Z) : bool :=
  match find_opcode o with
  | Val (Some e) => Bool.eqb (e_mode e =? M_REL8) jump && existsb (Z.eqb (e_mode e)) [M_REL8; M_DISP; M_INDX] &&
      (decodePointerReg o =? REG_PC) && (negb (e_mode e =? M_INDX) || (Z.land o 4 =? 0))
  | _ => false
  end.
Lemma pc_target jump o x m addr size uh uc cs ih cur r :
  let d := ins8060_dis uh uc false false cs ih cur None in
  pc_code jump o = true -> byte o -> byte x -> 0 <= addr < 65536 -> addr mod 4096 < 4095 ->
  ins8060_decode d (o :: x :: m) addr size = Val r -> i_err (r_insn r) = OK ->
  numeral np_ins80xx (r_operands r) (in_page addr (addr mod 4096 + 1 + (if jump then 1 else 0) + displacement x)).
Proof.
  intros d PC BO BX A AM D E. unfold ins8060_decode, dis_decode in D.
  assert (C : checkAddr (da_aw d) addr false = OK).
  { rewrite checkAddr_false by (cbn; lia). cbn [da_aw d ins8060_dis]. replace (2 ^ 16 <=? addr) with false by (change (2^16) with 65536; lia). reflexivity. }
  rewrite C in D. cbn [isOK negb] in D. unfold ins8060_decodeImpl in D.
  set (b0 := mkB [] (size - 1) OK (Some (da_uppercase d))) in D.
  change (mkDst (mkD (new_insn addr) (o :: x :: m) OK) [] b0) with (at_ addr [] (o :: x :: m) [] b0) in D.
  rewrite t_byte_at in D by (assumption || cbn; lia). cbn [app] in D. unfold decode_opcode in D. unfold pc_code in PC.
  destruct (find_opcode o) as [[e|]| | | |]; try discriminate PC. cbn [bind] in D.
  set (s1 := t_readName (entry_name e) (t_seterr OK (at_ addr [o] (x :: m) [] b0))) in D.
  set (s2 := t_readName (entry_name e) (at_ addr [o; x] m [] b0)).
  assert (T : t_byte s1 = (x, s2)).
  { unfold s1, s2, t_byte, t_readName, t_seterr, at_. cbn [t_in t_out t_name d_insn d_mem]. rewrite canon_read by (assumption || cbn; lia). reflexivity. }
  set (f := if jump then 1 else 0) in *.
  assert (R : (e_mode e =? M_UNDEF) = false /\ decodeOperand d o (e_mode e) s1 = t_print (outAbsAddr d (target_of addr x f) 0) s2).
  { assert (AD : address s2 = addr) by (unfold address, s2; cbn; unfold u16; apply Z.mod_small; change (2^16) with 65536; lia).
    assert (G : forall h, h && negb (Z.land o 4 =? 0) = false -> (decodePointerReg o =? REG_PC) = true -> (e_mode e =? M_REL8) = jump ->
      decodeIndx d o (e_mode e) h s1 = t_print (outAbsAddr d (target_of addr x f) 0) s2).
    { intros h H P J. unfold decodeIndx. rewrite H, T, P, J, AD. cbv zeta. fold f.
      assert (AE : forall out, outRelAddr d (target_of addr x f) addr 8 out = outAbsAddr d (target_of addr x f) 0 out) by reflexivity.
      match goal with |- (if ?c then _ else _) = _ => destruct c end; reflexivity. }
    unfold decodeOperand.
    assert (MM : In (e_mode e) [M_REL8; M_DISP; M_INDX] /\ (e_mode e =? M_REL8) = jump /\ (decodePointerReg o =? REG_PC) = true /\ ((e_mode e =? M_INDX) = true -> (Z.land o 4 =? 0) = true)).
    { apply andb_prop in PC. destruct PC as [PC Q4]. apply andb_prop in PC. destruct PC as [PC Q3]. apply andb_prop in PC. destruct PC as [Q1 Q2].
      apply eqb_prop in Q1. apply existsb_exists in Q2. destruct Q2 as (md & IN & EQ). apply Z.eqb_eq in EQ. rewrite EQ in *.
      split; [exact IN|]. split; [exact Q1|]. split; [exact Q3|]. intros X. rewrite X in Q4. exact Q4. }
    clear PC D. destruct MM as (IN & J & P & Q). set (md := e_mode e) in *. clearbody md.
    assert (G0 := G false eq_refl P J). assert (G1 : (md =? M_INDX) = true -> decodeIndx d o md true s1 = t_print (outAbsAddr d (target_of addr x f) 0) s2).
    { intros X. apply G; auto. rewrite (Q X). reflexivity. }
    clear G Q J. cbn [In] in IN. destruct IN as [<-|[<-|[<-|[]]]]; (split; [reflexivity|]).
    - exact G0.
    - exact G0.
    - exact (G1 eq_refl). }
  destruct R as (U & R). rewrite U, R in D.
  destruct (target_in addr x f A AM BX) as (TG & TB).
  destruct (print_abs_val d (target_of addr x f) 0 s2 eq_refl) as (s3 & P). rewrite P in D. cbn [bind] in D. injection D as <-.
  cbn [r_operands r_insn] in *.
  pose proof (check_out s3) as TO.
  rewrite TO in E |- *. unfold t_print in P. destruct (outAbsAddr d (target_of addr x f) 0 (t_out s2)) as [o3| | | |] eqn:OA; try discriminate P.
  cbn [bind] in P. injection P as <-. cbn [t_set_out t_out] in *.
  assert (BE : b_err o3 = OK).
  { match type of E with context [if isOK ?c then _ else _] => destruct c; cbn [isOK i_err i_seterr] in E end; solve [exact E|discriminate E]. }
  destruct (outAbs_numeral d np_ins80xx (target_of addr x f) 0 _ o3 eq_refl (ins8060_reads uh uc false cs ih cur) ltac:(lia) ltac:(cbn; lia) OA BE) as (_ & t & -> & N).
  cbn [Z.eqb da_aw d ins8060_dis] in N. change (2^16) with 65536 in N. rewrite Z.mod_small in N by exact TB. rewrite TG in N.
  rewrite appb_txt. exact N.
Qed.
