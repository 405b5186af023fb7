(** Proofs for the disassembler's driver. *)
From Coq Require Import String ZArith List Bool Lia.
From Verif Require Import M_Char M_Error M_Value M_Text M_StrBuffer M_Format M_Number M_Insn M_Config M_Operators M_BinMemory M_Listing
  M_Parsers M_Expr M_Table M_Asm M_Dis M_I8080Defs T_I8080 M_I8080 M_DisDriver M_DisI8080 S_ByteMap S_Memory S_DisDriver
  P_BinMemory P_Config P_AsmText P_CpuShape P_I8080.
Import ListNotations.
Open Scope string_scope.
Open Scope list_scope.
Local Open Scope Z_scope.

Lemma decode_from d impl mem addr size : dis_decode d impl mem addr size =
  bind (dis_decode_from d impl mem addr size) (fun '(r, _) => Val r).
Proof.
  unfold dis_decode, dis_decode_from. destruct (negb _); [reflexivity|].
  destruct (impl _) as [s| | | |]; reflexivity.
Qed.

(* ------------------------------------------------------------ the 8080 consumes *)
(* no step gives bytes back *)
Definition left (s : M_Dis.dstate) : nat := length (d_mem (t_in s)).
Lemma byte_left s v s' : t_byte s = (v, s') -> (left s' <= left s)%nat /\ (d_mem (t_in s) <> [] -> left s' < left s)%nat.
Proof.
  unfold t_byte, M_Insn.readByte, left. destruct (d_mem (t_in s)) as [|c m] eqn:M.
  - injection 1 as <- <-. cbn. try rewrite M. cbn. split; [lia|congruence].
  - destruct (emitByte _ _) as [e i]. injection 1 as <- <-. cbn. split; [lia|intros; lia].
Qed.
Lemma word_left s v s' : t_uint16Le s = (v, s') -> (left s' <= left s)%nat.
Proof.
  intros T. unfold t_uint16Le, readUint16Le in T.
  destruct (M_Insn.readByte (t_in s)) as [x d1] eqn:R1. destruct (M_Insn.readByte d1) as [y d2] eqn:R2. injection T as <- <-.
  assert (B1 : t_byte s = (x, t_set_in d1 s)) by (unfold t_byte; now rewrite R1).
  assert (B2 : t_byte (t_set_in d1 s) = (y, t_set_in d2 (t_set_in d1 s))) by (unfold t_byte; cbn [t_in t_set_in]; now rewrite R2).
  apply byte_left in B1, B2. unfold left in *. cbn in *. lia.
Qed.
Lemma print_left f s s' : t_print f s = Val s' -> left s' = left s.
Proof. unfold t_print. destruct (f (t_out s)); cbn; try discriminate. injection 1 as <-. reflexivity. Qed.
Lemma operand_left d zilog opc mode s s' : decodeOperand d zilog opc mode s = Val s' -> (left s' <= left s)%nat.
Proof.
  unfold decodeOperand.
  destruct (mode =? M_IM8).
  { destruct (t_byte s) as [v s1] eqn:B. apply byte_left in B. intros P. apply print_left in P. lia. }
  destruct (mode =? M_IOA).
  { destruct (t_byte (t_put (paren zilog 40) s)) as [v s1] eqn:B. apply byte_left in B.
    destruct (t_print _ s1) as [s2| | | |] eqn:P; try discriminate. cbn [bind]. injection 1 as <-. apply print_left in P.
    unfold left in *. cbn in *. lia. }
  destruct (mode =? M_IM16).
  { destruct (t_uint16Le s) as [v s1] eqn:B. apply word_left in B. intros P. apply print_left in P. lia. }
  destruct (mode =? M_ABS).
  { destruct (t_uint16Le (t_put (paren zilog 40) s)) as [v s1] eqn:B. apply word_left in B.
    destruct (t_print _ s1) as [s2| | | |] eqn:P; try discriminate. cbn [bind]. injection 1 as <-. apply print_left in P.
    unfold left in *. cbn in *. lia. }
  repeat match goal with |- (if ?c then _ else _) = _ -> _ => destruct c end;
    try (injection 1 as <-; unfold left; cbn; lia); try (intros P; apply print_left in P; lia).
Qed.
Lemma opcode_left d ty zilog pfx opc s s' : decode_opcode d ty zilog pfx opc s = Val s' -> (left s' <= left s)%nat.
Proof.
  unfold decode_opcode. cbv zeta. destruct (i8080_searchOpCode ty zilog pfx opc) as [[e|]| | | |]; cbn [bind]; try discriminate.
  2:{ injection 1 as <-. unfold left, t_setErrorIf, t_seterr. cbn. lia. }
  destruct (e_dst e =? M_NONE). { injection 1 as <-. unfold left. cbn. lia. }
  destruct (decodeOperand d zilog opc (e_dst e) _) as [s1| | | |] eqn:D1; try discriminate. cbn [bind].
  apply operand_left in D1. assert (Q : (left s1 <= left s)%nat) by exact D1.
  destruct (e_src e =? M_NONE). { injection 1 as <-. exact Q. }
  intros D2. apply operand_left in D2. unfold left in *. cbn in *. lia.
Qed.
Lemma impl_left d ty zilog s s' : i8080_decodeImpl d ty zilog s = Val s' -> d_mem (t_in s) <> [] -> (left s' < left s)%nat.
Proof.
  unfold i8080_decodeImpl. destruct (t_byte s) as [opc s1] eqn:R1. intros DI NE. apply byte_left in R1. destruct R1 as (_ & R1).
  specialize (R1 NE). destruct (i8080_isPrefix ty opc).
  - destruct (t_byte s1) as [opc2 s2] eqn:R2. apply byte_left in R2. destruct (negb _).
    + injection DI as <-. lia.
    + apply opcode_left in DI. lia.
  - apply opcode_left in DI. lia.
Qed.
Lemma i8080_from ty zilog uh uc oc rel cs ih cur msg mem addr : In ty [I8080; I8085; V30EMU] -> Forall byte mem -> mem <> [] -> 0 <= addr < 2^16 ->
  exists r rest bs e, do_decode (dis_8080 ty zilog uh uc oc rel cs ih cur msg) mem addr = Val (r, rest) /\
    r_insn r = i_seterr e (canon addr bs) /\ mem = bs ++ rest /\ bs <> [] /\ (length bs <= 3)%nat.
Proof.
  intros T FM NE A.
  set (d := i8080_dis uh uc oc rel cs ih cur None).
  destruct (i8080_total d ty zilog mem addr operands_capacity eq_refl T FM) as (r & H).
  unfold i8080_decode in H. rewrite decode_from in H. unfold do_decode. cbn [dis_8080 do_dis do_impl]. fold d.
  destruct (dis_decode_from d (i8080_decodeImpl d ty zilog) mem addr operands_capacity) as [[r' rest]| | | |] eqn:D; try discriminate.
  cbn [bind] in H. injection H as ->. exists r, rest.
  unfold dis_decode_from in D. rewrite (checkAddr_false (da_aw d) addr) in D by (cbn; lia).
  destruct (Z.leb_spec (2 ^ da_aw d) addr) as [B|_]; [cbn in B; lia|]. cbn [andb isOK negb] in D.
  destruct (i8080_decodeImpl d ty zilog _) as [s| | | |] eqn:DI; try discriminate. cbn [bind] in D.
  pose proof (impl_left _ _ _ _ _ DI NE) as LT. cbn in LT.
  assert (W : within addr mem 3 s).
  { clear D. set (s0 := mkDst _ _ _) in *. assert (B0 : bytes_in s0) by exact FM.
    assert (W0 : within addr mem 0 s0). { split; [exact FM|]. exists []. repeat split; auto. }
    unfold i8080_decodeImpl in DI.
    destruct (t_byte s0) as [opc s1] eqn:R1. destruct (bytes_kept _ _ _ R1 B0) as (B1 & O1 & _).
    apply (within_byte _ _ _ _ _ _ W0) in R1; [|lia].
    destruct (i8080_isPrefix ty opc) eqn:IP.
    - assert (opc = 0xED) as -> by (unfold i8080_isPrefix in IP; lia).
      destruct (t_byte s1) as [opc2 s2] eqn:R2. destruct (bytes_kept _ _ _ R2 B1) as (B2 & O2 & _).
      apply (within_byte _ _ _ _ _ _ R1) in R2; [|lia].
      destruct (negb _); [injection DI as <-; eapply within_le; [|exact R2]; lia|].
      apply (opcode_within _ _ _ _ _ addr mem 2) in DI; auto; cbn; auto; lia.
    - apply (opcode_within _ _ _ _ _ addr mem 1) in DI; auto; cbn; auto; lia. }
  destruct W as (_ & bs & M2 & L & C). injection D as Er Em. rewrite Em in M2.
  exists bs. eexists. split; [reflexivity|]. split.
  { rewrite <- Er. cbn [r_insn]. rewrite C. cbn [i_seterr i_err].
    instantiate (1 := if isOK (d_err (t_in s)) then b_err (t_out s) else d_err (t_in s)). now destruct (isOK (d_err (t_in s))). }
  split; [exact M2|]. split; [|exact L].
  intros ->. unfold left in LT. rewrite M2 in LT. cbn in LT. rewrite Em in LT. lia.
Qed.
Lemma i8080_takes ty zilog uh uc oc rel cs ih cur msg : In ty [I8080; I8085; V30EMU] ->
  takes_some (dis_8080 ty zilog uh uc oc rel cs ih cur msg) (2^16).
Proof.
  intros T mem addr FM0 NE A. assert (FM : Forall byte mem) by (apply Forall_forall; exact FM0).
  destruct (i8080_from ty zilog uh uc oc rel cs ih cur msg mem addr T FM NE A) as (r & rest & bs & e & D & R & M & N & L).
  assert (E : i_code (r_insn r) = bs) by (rewrite R; exact (canon_code addr bs)).
  exists r, rest. rewrite E. split; [exact D|]. split; [exact M|]. split; [exact N|]. split; [rewrite R; reflexivity|].
  split; [rewrite R; reflexivity|]. right. cbn. apply Z.mod_1_r.
Qed.

(* ------------------------------------------------------------ any disassembler *)
(* a piece is what the disassembler makes of some memory *)
Definition decoded_by (o : dops) (top : Z) (p : piece) : Prop :=
  exists mem rest, Forall byte mem /\ mem <> [] /\ 0 <= pc_addr p < top /\ do_decode o mem (pc_addr p) = Val (pc_dec p, rest).
Section Any.
Variable o : dops.
Variable top : Z.
Notation u := (lc_unit (do_conf o)).
Hypothesis U : 1 <= u.
Hypothesis TS : takes_some o top.

Lemma block_done fuel base size offset mem : (length mem < fuel)%nat -> Forall byte mem -> 0 <= base -> 0 <= offset ->
  size = offset + Z.of_nat (length mem) -> base + size <= top * u -> base + size <= 2^32 -> size < 2^32 ->
  (mem = [] \/ offset mod u = 0) ->
  exists ps, dis_block fuel o (base / u) size offset mem = Val ps /\ partition u (base + offset) mem ps /\ Forall (decoded_by o top) ps.
Proof.
  revert offset mem. induction fuel as [|fuel IH]; [lia|]. intros offset mem F FM B0 O0 SZ TOP LIM SL AL. cbn [dis_block].
  destruct mem as [|c mem0].
  { replace (offset <? size) with false by (symmetry; apply Z.ltb_ge; cbn in SZ; lia). exists []. split; [reflexivity|]. split; [reflexivity|constructor]. }
  set (mem := c :: mem0) in *. assert (LM : 0 < Z.of_nat (length mem)) by (cbn; lia). assert (NM : mem <> []) by discriminate. clearbody mem.
  replace (offset <? size) with true by (symmetry; apply Z.ltb_lt; lia). cbv zeta.
  assert (OM : offset mod u = 0) by (destruct AL; [contradiction|assumption]).
  assert (DIV : base / u + offset / u = (base + offset) / u).
  { pose proof (Z_div_mod_eq_full offset u) as Q. rewrite OM in Q.
    rewrite Q at 2. rewrite Z.add_0_r, (Z.mul_comm u), Z_div_plus by lia. reflexivity. }
  rewrite DIV. assert (AB : 0 <= (base + offset) / u < top).
  { split; [apply Z.div_pos; lia|]. apply Z.div_lt_upper_bound; lia. }
  assert (A32 : (base + offset) / u < 2^32).
  { apply Z.div_lt_upper_bound; [lia|]. assert (2^32 * 1 <= u * 2^32) by (rewrite (Z.mul_comm u); apply Z.mul_le_mono_nonneg_l; lia). lia. }
  replace (u32 ((base + offset) / u)) with ((base + offset) / u) by (unfold u32; rewrite Z.mod_small by lia; reflexivity).
  destruct (TS mem ((base + offset) / u)) as (r & rest & D & M & NE & LEN & AD & MU); [apply Forall_forall; exact FM|exact NM|lia|].
  rewrite D. cbn [bind]. rewrite LEN.
  assert (LL : (length mem = length (i_code (r_insn r)) + length rest)%nat) by (rewrite M at 1; apply app_length).
  assert (LC : (0 < length (i_code (r_insn r)))%nat) by (destruct (i_code (r_insn r)); [congruence|cbn; lia]).
  assert (U32 : u32 (offset + Z.of_nat (length (i_code (r_insn r)))) = offset + Z.of_nat (length (i_code (r_insn r)))).
  { unfold u32. rewrite Z.mod_small; [reflexivity|]. lia. }
  rewrite U32.
  destruct (IH (offset + Z.of_nat (length (i_code (r_insn r)))) rest) as (ps & R & P & Q); auto; try lia.
  { rewrite M in FM. apply Forall_app in FM. apply FM. }
  { destruct MU as [->|MU]; [now left|right]. rewrite <- LEN. rewrite Z.add_mod, OM, MU by lia. reflexivity. }
  rewrite R. cbn [bind]. exists (mkPiece ((base + offset) / u) r :: ps). split; [reflexivity|].
  split; [|constructor; [exists mem, rest; auto|exact Q]].
  cbn [partition piece_bytes pc_addr pc_dec]. split; [exact NE|]. split; [reflexivity|]. split; [exact AD|].
  exists rest. split; [exact M|]. rewrite <- Z.add_assoc. exact P.
Qed.
(* the blocks of an image *)
Definition block_in (lim : Z) (b : block) : Prop := 0 <= b_base b /\ Forall byte (b_data b) /\ b_base b + dsize (b_data b) <= lim.
Lemma blocks_done fuel bl : top * u <= 2^32 -> Forall (fun b => length (b_data b) < fuel)%nat bl ->
  Forall (fun b => block_in (top * u) b /\ dsize (b_data b) < 2^32) bl ->
  exists l, dis_blocks fuel o bl = Val l /\ covers u bl l /\ Forall (fun sp => Forall (decoded_by o top) (snd sp)) l.
Proof.
  intros T32 FL FB. induction bl as [|b bl IH]; [exists []; repeat split; constructor|].
  inversion FL as [|? ? L1 L2]; subst. inversion FB as [|? ? ((B0 & BY & BT) & SL) B2]; subst.
  destruct (IH L2 B2) as (l & E & C & DB). cbn [dis_blocks]. unfold block_start.
  destruct (block_done fuel (b_base b) (dsize (b_data b)) 0 (b_data b)) as (ps & R & P & Q); auto; try (unfold dsize in *; lia).
  assert (US : u32 (dsize (b_data b)) = dsize (b_data b)).
  { unfold u32. rewrite Z.mod_small; [reflexivity|]. unfold dsize in *. lia. }
  rewrite US. rewrite R. cbn [bind]. rewrite E. cbn [bind]. rewrite Z.add_0_r in P.
  exists ((b_base b / u, ps) :: l). split; [reflexivity|]. split; constructor; [split; [reflexivity|exact P]|exact C|exact Q|exact DB].
Qed.
End Any.

(* ------------------------------------------------------------ the blocks of an image *)
Lemma seg_le l b d b0 d0 : separated ((b0, d0) :: l) -> In (b, d) l -> b0 + Z.of_nat (length d0) < b.
Proof.
  revert b0 d0. induction l as [|[b1 d1] l IH]; [intros ? ? _ []|]. intros b0 d0 (_ & LT & SEP) [E|H].
  - injection E as -> ->. exact LT.
  - specialize (IH _ _ SEP H). lia.
Qed.
Lemma segs_in l b d i v : separated l -> In (b, d) l -> nth_error d i = Some v -> segs_at l (b + Z.of_nat i) = Some v.
Proof.
  induction l as [|[b0 d0] l IH]; [intros _ []|]. intros SEP [E|H] N; cbn [segs_at].
  - injection E as -> ->. unfold seg_at. cbn [fst snd]. replace (b + Z.of_nat i <? b) with false by (symmetry; apply Z.ltb_ge; lia).
    replace (Z.to_nat (b + Z.of_nat i - b)) with i by lia. rewrite N. reflexivity.
  - pose proof (seg_le _ _ _ _ _ SEP H) as L. unfold seg_at. cbn [fst snd].
    replace (b + Z.of_nat i <? b0) with false by (symmetry; apply Z.ltb_ge; lia).
    assert (nth_error d0 (Z.to_nat (b + Z.of_nat i - b0)) = None) as -> by (apply nth_error_None; lia).
    apply IH; auto. apply SEP.
Qed.
Lemma last_write_in ws a v : last_write ws a = Some v -> In (a, v) ws.
Proof.
  unfold last_write. assert (G : forall acc, fold_left (fun acc w => if fst w =? a then Some (snd w) else acc) ws acc = Some v -> acc = Some v \/ In (a, v) ws).
  { induction ws as [|w ws IH]; intros acc; cbn; [auto|]. intros H. apply IH in H as [H|H]; [|auto].
    destruct (Z.eqb_spec (fst w) a) as [E|E]; [|auto]. injection H as H. right. left. destruct w. cbn in *. congruence. }
  intros H. apply G in H as [H|H]; [discriminate|exact H].
Qed.
Lemma image_blocks ws lim : Forall is_write ws -> (forall a v, In (a, v) ws -> a < lim) ->
  exists bl, mem_blocks (writes ws) = Some bl /\ separated (map block_seg bl) /\
    (forall a, segs_at (map block_seg bl) a = last_write ws a) /\ Forall (block_in lim) bl.
Proof.
  intros F LIM. destruct (writes_blocks ws F) as (bl & E & SEP & AT). exists bl. repeat split; auto.
  apply Forall_forall. intros b IN.
  assert (INS : In (b_base b, b_data b) (map block_seg bl)) by (apply in_map_iff; exists b; auto).
  assert (K : forall i v, nth_error (b_data b) i = Some v -> 0 <= b_base b + Z.of_nat i < lim /\ byte v).
  { intros i v N. pose proof (segs_in _ _ _ _ _ SEP INS N) as Q. rewrite AT in Q. apply last_write_in in Q.
    rewrite Forall_forall in F. destruct (F _ Q) as (A & B). cbn in A, B. specialize (LIM _ _ Q). unfold is_addr in A. unfold byte, is_byte in *. lia. }
  assert (NE : b_data b <> []).
  { clear -SEP INS. revert SEP INS. induction (map block_seg bl) as [|[b0 d0] l IH]; [intros _ []|].
    intros (N & _ & SEP) [H|H]; [congruence|apply IH; auto]. }
  destruct (b_data b) as [|c t] eqn:D; [congruence|].
  destruct (K 0%nat c eq_refl) as (K0 & _). 
  assert (KL : b_base b + Z.of_nat (length t) < lim).
  { destruct (nth_error (c :: t) (length t)) as [v|] eqn:N; [apply K in N; lia|]. apply nth_error_None in N. cbn in N. lia. }
  repeat split.
  - lia.
  - rewrite D. apply Forall_forall. intros x X. apply In_nth_error in X as (i & X). apply K in X. apply X.
  - rewrite D. unfold dsize. cbn [length]. lia.
Qed.
Lemma blocks_fuel fuel fuel' o bl l : (fuel <= fuel')%nat -> dis_blocks fuel o bl = Val l -> dis_blocks fuel' o bl = Val l.
Proof.
  intros L. assert (B : forall start size offset mem ps, dis_block fuel o start size offset mem = Val ps -> dis_block fuel' o start size offset mem = Val ps).
  { clear l. revert fuel' L. induction fuel as [|fuel IH]; [discriminate|]. intros fuel' L start size offset mem ps. destruct fuel' as [|fuel']; [lia|].
    cbn [dis_block]. destruct (offset <? size); [|auto]. cbv zeta. destruct (do_decode o mem _) as [[r rest]| | | |]; try discriminate. cbn [bind].
    destruct (dis_block fuel o start size _ rest) as [q| | | |] eqn:Q; try discriminate. cbn [bind].
    rewrite (IH fuel' ltac:(lia) _ _ _ _ _ Q). auto. }
  revert l. induction bl as [|b bl IH]; [auto|]. intros l. cbn [dis_blocks].
  destruct (dis_block fuel o _ _ _ _) as [ps| | | |] eqn:Q; try discriminate. rewrite (B _ _ _ _ _ Q). cbn [bind].
  destruct (dis_blocks fuel o bl) as [l'| | | |]; try discriminate. rewrite (IH l' eq_refl). auto.
Qed.
Lemma pieces_done o top ws : 1 <= lc_unit (do_conf o) -> top * lc_unit (do_conf o) <= 2^32 -> takes_some o top ->
  Forall is_write ws -> (forall a v, In (a, v) ws -> a < top * lc_unit (do_conf o)) ->
  (exists a, is_addr a /\ last_write ws a = None) ->
  exists bl n l, mem_blocks (writes ws) = Some bl /\ (forall fuel, (n <= fuel)%nat -> dis_pieces fuel o (writes ws) = Val l) /\
    covers (lc_unit (do_conf o)) bl l /\ Forall (block_in (top * lc_unit (do_conf o))) bl /\ Forall (fun sp => Forall (decoded_by o top) (snd sp)) l.
Proof.
  intros U T32 TS F LIM (a & A & N). destruct (image_blocks ws _ F LIM) as (bl & E & SEP & AT & BI).
  set (n := S (fold_right (fun b k => (length (b_data b) + k)%nat) O bl)).
  assert (FU : Forall (fun b => (length (b_data b) < n)%nat) bl).
  { unfold n. clear. induction bl as [|b bl IH]; [constructor|]. constructor; [cbn; lia|]. eapply Forall_impl; [|exact IH]. cbn. intros; lia. }
  destruct (blocks_done o top U TS n bl T32 FU) as (l & R & C & DB).
  { apply Forall_forall. intros b IN. rewrite Forall_forall in BI. specialize (BI b IN). split; [exact BI|].
    destruct BI as (B0 & _ & B1). destruct (Z.eq_dec (dsize (b_data b)) (2^32)) as [Q|Q]; [|lia]. exfalso.
    unfold is_addr in A. unfold dsize in *.
    destruct (nth_error (b_data b) (Z.to_nat a)) as [v|] eqn:NE; [|apply nth_error_None in NE; lia].
    assert (INS : In (b_base b, b_data b) (map block_seg bl)) by (apply in_map_iff; exists b; auto).
    pose proof (segs_in _ _ _ _ _ SEP INS NE) as G. rewrite AT in G. replace (b_base b + Z.of_nat (Z.to_nat a)) with a in G by lia. congruence. }
  exists bl, n, l. split; [exact E|]. split; [|auto]. intros fuel L. unfold dis_pieces. rewrite E. exact (blocks_fuel _ _ _ _ _ L R).
Qed.

(* an address the disassembler refuses: it never gets past it *)
Lemma block_stuck fuel o start size offset mem : lc_unit (do_conf o) <> 0 -> 0 <= offset < size -> size < 2^32 ->
  checkAddr (da_aw (do_dis o)) (u32 (start + offset / lc_unit (do_conf o))) false <> OK ->
  dis_block fuel o start size offset mem = FUEL.
Proof.
  intros U0 L S32 A. revert mem. induction fuel as [|fuel IH]; [reflexivity|]. intros mem. cbn [dis_block].
  replace (offset <? size) with true by (symmetry; apply Z.ltb_lt; lia). cbv zeta. unfold do_decode, dis_decode_from.
  destruct (isOK (checkAddr _ _ false)) eqn:E; [exfalso; apply A; destruct (checkAddr _ _ _); (reflexivity || discriminate)|].
  cbn [negb bind r_insn i_seterr new_insn i_len]. rewrite Z.add_0_r.
  replace (u32 offset) with offset by (unfold u32; rewrite Z.mod_small; lia). rewrite IH. reflexivity.
Qed.

(* ------------------------------------------------------------ the output *)
Lemma bytes_loop_val fuel c lo i offset pos len out : length (li_bytes i) = 64%nat -> li_size i < 64 -> 0 <= offset -> 0 <= len ->
  exists out' n, bytes_loop fuel c lo i offset pos len out = Val (out', n) /\ len <= n /\
    (offset + len < li_size i -> pos < bytesInLine -> fuel <> O -> len < n).
Proof.
  intros LB SZ O0. revert pos len out. induction fuel as [|fuel IH]; intros pos len out L0; cbn [bytes_loop].
  { exists out, len. repeat split; [lia|congruence]. }
  destruct (Z.ltb_spec (offset + len) (li_size i)) as [A|A]; cbn [andb]; [|exists out, len; repeat split; lia].
  destruct (Z.ltb_spec pos bytesInLine) as [B|B]; [|exists out, len; repeat split; lia].
  assert (G : forall k, 0 <= k -> k < 64 -> exists v, getByte i k = Val v).
  { intros k K0 K1. unfold getByte. destruct (nth_error (li_bytes i) (Z.to_nat k)) as [v|] eqn:N; [eauto|]. apply nth_error_None in N. lia. }
  destruct (G (offset + len) ltac:(lia) ltac:(lia)) as (v & V). rewrite V. cbn [bind].
  assert (K : forall pos' len' out', len + 1 <= len' -> exists out'' n, bytes_loop fuel c lo i offset pos' len' out' = Val (out'', n) /\ len <= n /\ (offset + len < li_size i -> pos < bytesInLine -> S fuel <> O -> len < n)).
  { intros pos' len' out' L'. destruct (IH pos' len' out' ltac:(lia)) as (o2 & n & R & Ln & _). exists o2, n. repeat split; [exact R|lia|lia]. }
  repeat match goal with |- context [if ?b then bytes_loop _ _ _ _ _ _ _ _ else _] => destruct b; [apply K; lia|] end.
  destruct (G (offset + (len + 1)) ltac:(lia) ltac:(lia)) as (w & W). rewrite W. cbn [bind]. apply K. lia.
Qed.
Lemma formatBytes_val c lo i offset out : length (li_bytes i) = 64%nat -> li_size i < 64 -> 0 <= offset ->
  exists out' n, formatBytes c lo i offset out = Val (out', n) /\ 0 <= n /\ (offset < li_size i -> 0 < n).
Proof.
  intros A B C. destruct (bytes_loop_val 6 c lo i offset 0 0 out A B C ltac:(lia)) as (out' & n & R & L & P).
  exists out', n. repeat split; [exact R|lia|]. intros H. apply P; [lia|reflexivity|discriminate].
Qed.
Lemma error_lines_val fuel o r next : length (i_bytes (r_insn r)) = 64%nat -> i_len (r_insn r) < 64 -> 0 <= next ->
  (Z.to_nat (i_len (r_insn r) - next) < fuel)%nat -> exists ts, error_lines fuel o r next = Val ts.
Proof.
  intros LB SZ. revert next. induction fuel as [|fuel IH]; [lia|]. intros next N0 F. cbn [error_lines]. unfold formatLine. cbv zeta.
  match goal with |- context [formatBytes _ _ ?li _ ?out] => destruct (formatBytes_val (do_conf o) (do_opts o) li next out LB SZ N0) as (out' & n & R & L & P) end.
  rewrite R. cbn [bind].
  destruct (Z.ltb_spec (next + n) (i_len (r_insn r))) as [Q|Q]; [|eauto].
  cbn in P. destruct (IH (next + n)) as (ts & E); [lia|lia|]. rewrite E. cbn [bind]. eauto.
Qed.
Lemma piece_lines_val o p : length (i_bytes (r_insn (pc_dec p))) = 64%nat -> i_len (r_insn (pc_dec p)) < 64 -> exists ts, piece_lines o p = Val ts.
Proof.
  intros LB SZ. unfold piece_lines. destruct (isOK _); [eauto|]. destruct (error_lines_val 65 o (pc_dec p) 0 LB SZ ltac:(lia) ltac:(lia)) as (ts & E).
  rewrite E. cbn [bind]. eauto.
Qed.

Lemma all_lines_val f ps : Forall (fun p => exists ts, f p = Val ts) ps -> exists ts, all_lines f ps = Val ts.
Proof.
  induction 1 as [|p ps (ts & E) F (ts' & IH)]; cbn [all_lines]; [eauto|]. rewrite E. cbn [bind]. rewrite IH. cbn [bind]. eauto.
Qed.
Lemma org_line_val o a : da_symtab (do_dis o) = None -> exists t, org_line o a = Val t.
Proof.
  intros S. unfold org_line. destruct (negb _); [eauto|]. unfold outAbsAddr, da_lookup. rewrite S. cbn [bind].
  destruct (da_octal _); cbn [bind]; eauto.
Qed.
Lemma blocks_lines_val o l : da_symtab (do_dis o) = None -> Forall (fun sp => Forall (fun p => exists ts, piece_lines o p = Val ts) (snd sp)) l ->
  exists ts, blocks_lines o l = Val ts.
Proof.
  intros S. induction 1 as [|[a ps] l F1 F (ts' & IH)]; cbn [blocks_lines]; [eauto|]. cbn [snd] in F1.
  destruct (org_line_val o a S) as (t & ->). cbn [bind]. destruct (all_lines_val _ _ F1) as (ts & ->). cbn [bind]. rewrite IH. cbn [bind]. eauto.
Qed.
Lemma i8080_piece_lines ty zilog uh uc oc rel cs ih cur msg p : In ty [I8080; I8085; V30EMU] ->
  decoded_by (dis_8080 ty zilog uh uc oc rel cs ih cur msg) (2^16) p -> exists ts, piece_lines (dis_8080 ty zilog uh uc oc rel cs ih cur msg) p = Val ts.
Proof.
  intros T (mem & rest & FM & NE & A & D).
  destruct (i8080_from ty zilog uh uc oc rel cs ih cur msg mem _ T FM NE A) as (r & rest' & bs & e & D' & R & M & N & L).
  rewrite D in D'. injection D' as <- <-. apply piece_lines_val; rewrite R; cbn [i_seterr canon i_bytes i_len]; [|lia].
  rewrite app_length, repeat_length. lia.
Qed.
Lemma i8080_disassembles ty zilog uh uc oc rel cs ih cur msg ws : let o := dis_8080 ty zilog uh uc oc rel cs ih cur msg in
  In ty [I8080; I8085; V30EMU] -> Forall is_write ws -> (forall a v, In (a, v) ws -> a < 2^16) ->
  exists bl n l ts, mem_blocks (writes ws) = Some bl /\
    (forall fuel, (n <= fuel)%nat -> dis_pieces fuel o (writes ws) = Val l /\ disassemble fuel o (writes ws) = Val ts) /\
    covers 1 bl l /\ Forall (block_in (2^16)) bl /\ Forall (fun sp => Forall (decoded_by o (2^16)) (snd sp)) l.
Proof.
  intros o T F LIM.
  destruct (pieces_done o (2^16) ws) as (bl & n & l & E & R & C & BI & DB); auto.
  - cbn. lia.
  - cbn. lia.
  - apply i8080_takes. exact T.
  - exists (2^20). split; [unfold is_addr; lia|]. destruct (last_write ws (2^20)) as [v|] eqn:Q; [|reflexivity].
    apply last_write_in in Q. apply LIM in Q. lia.
  - destruct (blocks_lines_val o l eq_refl) as (ts & BL).
    { eapply Forall_impl; [|exact DB]. cbn beta. intros sp H. eapply Forall_impl; [|exact H]. intros p. apply i8080_piece_lines. exact T. }
    exists bl, n, l, (cpu_line o :: ts). split; [exact E|]. split; [|auto]. intros fuel L. split; [exact (R fuel L)|].
    unfold disassemble. rewrite (R fuel L). cbn [bind]. rewrite BL. reflexivity.
Qed.
Lemma never_ends o fuel : 1 <= lc_unit (do_conf o) -> 1 <= da_aw (do_dis o) < 32 -> 2 ^ da_aw (do_dis o) * lc_unit (do_conf o) < 2^32 ->
  disassemble fuel o (writes [(2 ^ da_aw (do_dis o) * lc_unit (do_conf o), 0)]) = FUEL.
Proof.
  intros U W T. set (a := 2 ^ da_aw (do_dis o) * lc_unit (do_conf o)) in *.
  assert (A0 : 0 < a). { apply Z.mul_pos_pos; [apply Z.pow_pos_nonneg; lia|lia]. }
  assert (A : mem_blocks (writes [(a, 0)]) = Some [mkBlock a [0] None]).
  { clear T. clearbody a. assert (E : createBlock empty a 0 = [(a, mkBlock a [0] None)]).
    { unfold createBlock, empty. cbv zeta.
      repeat (progress (cbn [M_Map.m_next M_Map.m_begin M_Map.m_update M_Map.m_find M_Map.m_emplace b_append b_data b_base b_next app]; rewrite ?Z.eqb_refl)).
      unfold aggregate.
      repeat (progress (cbn [M_Map.m_next M_Map.m_begin M_Map.m_update M_Map.m_find M_Map.m_emplace]; rewrite ?Z.eqb_refl)). reflexivity. }
    change (writes [(a, 0)]) with (createBlock empty a 0). rewrite E. cbn. rewrite Z.eqb_refl. reflexivity. }
  unfold disassemble, dis_pieces. rewrite A. cbn [dis_blocks]. 
  rewrite block_stuck; [reflexivity|lia|cbn; lia|cbn; lia|]. unfold block_start. cbn [b_base].
  rewrite Z.div_0_l, Z.add_0_r by lia. unfold a. rewrite Z.div_mul by lia.
  assert (P : 0 < 2 ^ da_aw (do_dis o)) by (apply Z.pow_pos_nonneg; lia).
  assert (Q : 2 ^ da_aw (do_dis o) < 2^32) by (apply Z.pow_lt_mono_r; lia).
  unfold u32. rewrite Z.mod_small by lia. rewrite checkAddr_false by lia. rewrite Z.leb_refl. discriminate.
Qed.
