(** The 8048 family: proof of the round trip. *)
From Coq Require Import String ZArith List Bool Lia ZifyBool.
From Verif Require Import M_Char M_Error M_Value M_Text M_StrBuffer M_Format M_Number M_Insn M_Config M_Operators
  M_Parsers M_Expr M_Directive M_Table T_Tables M_Asm M_Dis M_I8048Defs T_I8048 M_I8048
  S_Value S_Number S_Expr S_ExprTree S_Table P_StrBuffer P_Number P_NumberRead
  P_ExprRead P_ExprTree P_ExprCase P_Table P_Insn P_Config P_Value P_Directive P_AsmText P_CpuShape P_CpuGood P_CpuText.
Import ListNotations.
Open Scope string_scope.
Open Scope list_scope.
Local Open Scope Z_scope.

Definition reads_as (d : disasm) : Prop := da_symtab d = None /\ da_reads d np_intel /\ da_aw d = 12.
Lemma i8048_reads uh uc oc rel cs ih cur : reads_as (i8048_dis uh uc oc rel cs ih cur None).
Proof.
  split; [reflexivity|]. split; [|reflexivity].
  apply all_reads, universal_reads; [cbn; auto|]. unfold da_formatter, i8048_dis. cbn [da_cstyle da_intelhex da_plug].
  destruct cs, ih; auto.
Qed.
Definition types : list Z := [I8048; I8039; I80C48; I80C39; MSM80C48; MSM80C39].

(* ------------------------------------------------------------ what is printed *)
Inductive kind := K_none | K_name (r : Z) | K_ind (r : Z) | K_dec | K_hex | K_a8 | K_a11 (h : Z) | K_bitn (b : Z).
Definition kind_of (opc mode : Z) : kind :=
  if mode =? M_IA then K_ind REG_A
  else if mode =? M_A then K_name REG_A
  else if (mode =? M_IR) || (mode =? M_IR3) then K_ind (decodeRRegNum (Z.land opc 7))
  else if mode =? M_R then K_name (decodeRRegNum (Z.land opc 7))
  else if mode =? M_BUS then K_name REG_BUS
  else if (mode =? M_P12) || (mode =? M_PEXT) then K_name (decodePortNum (Z.land opc 7))
  else if mode =? M_P then K_name REG_P
  else if mode =? M_P1 then K_name REG_P1
  else if mode =? M_P2 then K_name REG_P2
  else if mode =? M_AD08 then K_a8
  else if mode =? M_AD11 then K_a11 (Z.land opc 0xE0)
  else if mode =? M_BITN then K_bitn (Z.shiftr (Z.land opc 0xE0) 5)
  else if mode =? M_IMM8 then K_dec
  else if mode =? M_BIT8 then K_hex
  else if mode =? M_PSW then K_name REG_PSW
  else if mode =? M_C then K_name REG_C
  else if mode =? M_F then K_name (if negb (Z.land opc 0x20 =? 0) then REG_F1 else REG_F0)
  else if mode =? M_RB then K_name (if negb (Z.land opc 0x10 =? 0) then REG_RB1 else REG_RB0)
  else if mode =? M_MB then K_name (if negb (Z.land opc 0x10 =? 0) then REG_MB1 else REG_MB0)
  else if mode =? M_I then K_name REG_I
  else if mode =? M_T then K_name REG_T
  else if mode =? M_CNT then K_name REG_CNT
  else if mode =? M_TCNT then K_name REG_TCNT
  else if mode =? M_TCNTI then K_name REG_TCNTI
  else if mode =? M_CLK then K_name REG_CLK
  else K_none.
Definition kwidth (K : kind) : nat := match K with K_none | K_name _ | K_ind _ | K_bitn _ => 0 | _ => 1 end.
Definition num := numeral np_intel.
Definition reg_text (r : Z) : text := match name_of r REG_ENTRIES with Some t => t | None => [] end.
(* the target of a branch within the page of the byte after the opcode at [addr] *)
Definition page8 (addr x : Z) : Z := Z.lor (Z.ldiff (u32 (addr + 1)) 0xFF) x.
(* the target of JMP and CALL, with [h] the high bits of the opcode *)
Definition jump11 (h x : Z) : Z := Z.lor (Z.shiftl h 3) x.
(* the operand of kind [K], with the value [v], in the case [k], of the instruction at [addr] *)
Definition piece (K : kind) (k : option bool) (addr : Z) (t : text) (nb : list Z) (v : Z) : Prop :=
  match K with
  | K_none => t = [] /\ nb = [] /\ v = 0
  | K_name r => t = map (conv k) (reg_text r) /\ nb = [] /\ v = 0
  | K_ind r => t = 64 :: map (conv k) (reg_text r) /\ nb = [] /\ v = 0
  | K_dec | K_hex => exists u, num u v /\ nb = [v] /\ byte v /\ t = 35 :: u
  | K_a8 => exists x, nb = [x] /\ byte x /\ v = page8 addr x /\ (0 <= addr < 4095 -> num t v)
  | K_a11 h => exists x, nb = [x] /\ byte x /\ v = jump11 h x /\ num t v
  | K_bitn b => nb = [] /\ v = b /\ num t v
  end.
Definition R_piece (K : kind) : rel := fun h t nb nm' =>
  nm' = h_nm h /\ exists v, piece K (h_case h) (h_addr h) t nb v.
Ltac rel_out := cbn [h_case h_addr h_bs h_nm] in *.
Lemma reg_out r b : outRegName r b = out_text (reg_text r) b.
Proof. unfold outRegName, reg_text. now destruct (name_of r REG_ENTRIES). Qed.
Lemma good_reg r : good 0 (R_piece (K_name r)) (fun s => Val (t_put (outRegName r) s)).
Proof.
  eapply good_weaken; [apply le_n| |apply (good_put _ (reg_text r)); intros; apply reg_out].
  intros h t nb nm' (-> & -> & ->). split; [reflexivity|]. exists 0. cbn [piece]. auto.
Qed.
Lemma good_letter c : is_alpha c = false -> good 0 (R_text (fun _ t => t = [c])) (fun s => Val (t_put (letter c) s)).
Proof.
  intros A. eapply good_weaken; [apply le_n| |apply (good_put _ [c]); intros; apply letter_text].
  intros h t nb nm' (-> & -> & ->). split; [reflexivity|]. split; [reflexivity|]. cbn [map]. now rewrite plain_symbol.
Qed.
Lemma good_ind r : good 0 (R_piece (K_ind r)) (fun s => Val (t_put (outRegName r) (t_put (letter 64) s))).
Proof.
  apply (good_ext _ _ (fun s => bind (Val (t_put (letter 64) s)) (fun s => Val (t_put (outRegName r) s)))); [reflexivity|].
  eapply good_weaken; [apply le_n| |apply (good_seq 0 0 _ _ _ _ (good_letter 64 eq_refl) (good_reg r))].
  intros h t nb nm' (t1 & t2 & n1 & n2 & nm1 & -> & -> & (-> & -> & ->) & -> & v & -> & -> & ->). rel_out.
  split; [reflexivity|]. exists 0. cbn [piece app]. auto.
Qed.
Lemma good_sharp (R : rel) f : (forall v, byte v -> good 0 (R_num np_intel v) (t_print (f v))) ->
  (forall h t nb nm' v u, num u v -> nb = [v] -> byte v -> t = 35 :: u -> nm' = h_nm h -> R h t nb nm') ->
  good 1 R (fun s => let '(v, s) := t_byte (t_put (letter 35) s) in t_print (f v) s).
Proof.
  intros G Q.
  apply (good_ext _ _ (fun s => bind (Val (t_put (letter 35) s)) (fun s => let '(v, s) := t_byte s in t_print (f v) s))); [reflexivity|].
  eapply good_weaken; [apply le_n| |apply (good_seq 0 1 (R_text (fun _ t => t = [35])) (R_byte (fun v => R_num np_intel v)))].
  - intros h t nb nm' (t1 & t2 & n1 & n2 & nm1 & -> & -> & (-> & -> & ->) & (v & nb' & -> & B & -> & -> & N)). rel_out.
    apply (Q h _ _ _ v t2); auto.
  - now apply good_letter.
  - apply (good_byte 0 (fun v => R_num np_intel v)); intros v; [apply G|apply keeps_print|apply frame_print].
Qed.
Lemma good_imm d (hex : bool) : reads_as d -> good 1 (R_piece (if hex then K_hex else K_dec))
  (fun s => let '(v, s) := t_byte (t_put (letter 35) s) in t_print (if hex then dis_outHex d v 8 false else dis_outDec d v 8) s).
Proof.
  intros (SY & RD & AW). apply good_sharp.
  - intros v V. unfold byte in V. destruct hex; [apply good_hex|apply good_dec]; auto; lia.
  - intros h t nb nm' v u N -> B -> ->. split; [reflexivity|]. exists v. destruct hex; exists u; auto.
Qed.

(* ------------------------------------------------------------ jumps *)
Lemma land_mid z n k : 0 <= n -> 0 <= k -> Z.land z (Z.shiftl (Z.ones k) n) = (z / 2^n) mod 2^k * 2^n.
Proof.
  intros N K. rewrite <- Z.land_ones, <- Z.shiftr_div_pow2, <- Z.shiftl_mul_pow2 by lia. apply Z.bits_inj'. intros i I.
  rewrite Z.land_spec, !Z.shiftl_spec, Z.land_spec by lia. destruct (Z.ltb_spec i n).
  - rewrite !(Z.testbit_neg_r _ (i - n)) by lia. now rewrite andb_false_r.
  - rewrite Z.shiftr_spec by lia. now replace (i - n + n) with i by lia.
Qed.
Lemma high_bits o : byte o -> exists q, Z.land o 0xE0 = 32 * q /\ 0 <= q < 8.
Proof.
  intros O. exists ((o / 32) mod 8). change 0xE0 with (Z.shiftl (Z.ones 3) 5). rewrite land_mid by lia. change (2^3) with 8. change (2^5) with 32.
  pose proof (Z.mod_pos_bound (o / 32) 8). lia.
Qed.
Lemma jump11_val h x q : h = 32 * q -> 0 <= q < 8 -> byte x -> jump11 h x = 256 * q + x.
Proof.
  intros -> Q X. unfold jump11. replace (Z.shiftl (32 * q) 3) with (Z.shiftl q 8) by (rewrite !Z.shiftl_mul_pow2 by lia; change (2^8) with 256; change (2^3) with 8; lia).
  rewrite lor_sh by (unfold byte in X; lia). change (2^8) with 256. lia.
Qed.
Lemma jump11_range o x : byte o -> byte x -> 0 <= jump11 (Z.land o 0xE0) x < 2048.
Proof. intros O X. destruct (high_bits o O) as (q & E & Q). rewrite (jump11_val _ x q E Q X). unfold byte in *. lia. Qed.
Lemma page8_val addr x : byte x -> 0 <= addr < 2^32 - 1 -> page8 addr x = 256 * ((addr + 1) / 256) + x.
Proof.
  intros X A. unfold page8, u32. rewrite Z.mod_small by lia. change 0xFF with (Z.ones 8). rewrite Z.ldiff_ones_r by lia.
  rewrite lor_sh by (unfold byte in X; lia). rewrite Z.shiftr_div_pow2 by lia. change (2^8) with 256. lia.
Qed.
Lemma page8_range addr x : byte x -> 0 <= addr < 4095 -> 0 <= page8 addr x < 4096.
Proof.
  intros X A. rewrite page8_val by (auto; lia). unfold byte in X. assert (0 <= (addr + 1) / 256 < 16); [|lia].
  split; [apply Z.div_pos; lia|apply Z.div_lt_upper_bound; lia].
Qed.
Lemma page8_pos addr x : byte x -> 0 <= page8 addr x < 2^32.
Proof.
  intros X. unfold page8. assert (B : 0 <= u32 (addr + 1) < 2^32) by (unfold u32; apply Z.mod_pos_bound; lia). change 0xFF with (Z.ones 8). rewrite Z.ldiff_ones_r by lia.
  rewrite lor_sh by (unfold byte in X; lia). rewrite Z.shiftr_div_pow2 by lia. change (2^8) with 256. unfold byte in X.
  pose proof (Z.div_mod (u32 (addr + 1)) 256 ltac:(lia)). pose proof (Z.mod_pos_bound (u32 (addr + 1)) 256 ltac:(lia)).
  assert (u32 (addr + 1) / 256 < 2^24) by (apply Z.div_lt_upper_bound; lia). lia.
Qed.
Lemma keeping_insn g : (forall i, keeping (g i)) -> keeping (fun s => g (d_insn (t_in s)) s).
Proof.
  intros K. split.
  - intros s s'. apply (K (d_insn (t_in s))).
  - intros s s' H E. destruct (proj2 (K (d_insn (t_in s))) s s' H E) as (nb & A & C). exists nb. split; [exact A|]. exact C.
Qed.
Lemma good_abs_any d v : da_symtab d = None -> da_reads d np_intel -> da_aw d = 12 -> 0 <= v < 2^32 ->
  good 0 (R_text (fun _ t => num t (v mod 4096))) (t_print (outAbsAddr d v 0)).
Proof.
  intros SY R AW V. apply good_print; [intros; now apply outAbs_val|]. intros out o H E.
  destruct (outAbs_numeral d np_intel v 0 out o SY R ltac:(lia) ltac:(rewrite AW; cbn; lia) H E) as (E0 & t & A & N).
  rewrite AW in N. change (if 0 =? 0 then 12 else 0) with 12 in N. change (2^12) with 4096 in N. eauto.
Qed.
Lemma byte_addr s v s' : t_byte s = (v, s') -> i_addr (d_insn (t_in s')) = i_addr (d_insn (t_in s)).
Proof.
  assert (EA : forall c i, i_addr (snd (emitByte c i)) = i_addr i).
  { intros c i. unfold emitByte, emitByte_at. cbv zeta. destruct (_ <=? _); [reflexivity|]. cbn [snd]. destruct (_ <? _); unfold store_byte, i_setlen; cbn [i_addr]; destruct (_ && _); reflexivity. }
  unfold t_byte, readByte. destruct (d_mem (t_in s)) as [|c m].
  - intros H. injection H as <- <-. reflexivity.
  - rewrite (surjective_pairing (emitByte c (d_insn (t_in s)))). intros H. injection H as <- <-. cbn [t_in t_set_in d_insn]. apply EA.
Qed.
Lemma good_a8 d : reads_as d -> good 1 (R_piece K_a8)
  (fun s => let base := u32 (i_addr (d_insn (t_in s)) + 1) in let '(v, s) := t_byte s in t_print (outAbsAddr d (Z.lor (Z.ldiff base 0xFF) v) 0) s).
Proof.
  intros (SY & RD & AW).
  set (tg := fun v (i : insn) => page8 (i_addr i) v).
  apply (good_ext _ _ (fun s => let '(v, s) := t_byte s in (fun v s => (fun i => t_print (outAbsAddr d (tg v i) 0)) (d_insn (t_in s)) s) v s)).
  { intros s. destruct (t_byte s) as [v s'] eqn:E. cbv beta zeta. unfold tg, page8. now rewrite (byte_addr _ _ _ E). }
  eapply good_weaken; [apply le_n| |apply (good_byte 0 (fun v => R_insn (fun i => R_text (fun _ t => num t (tg v i mod 4096)))) (fun v s => (fun i => t_print (outAbsAddr d (tg v i) 0)) (d_insn (t_in s)) s))].
  2:{ intros v V. apply (good_insn 0 (fun i => R_text (fun _ t => num t (tg v i mod 4096))) (fun i => t_print (outAbsAddr d (tg v i) 0))). intros i. apply good_abs_any; auto. now apply page8_pos. }
  2,3: intros v; apply (keeping_insn (fun i => t_print (outAbsAddr d (tg v i) 0))); intros i; apply keeping_print.
  intros h t nb nm' (v & nb' & -> & B & -> & -> & N). rel_out. split; [reflexivity|]. exists (page8 (h_addr h) v), v.
  split; [reflexivity|]. split; [exact B|]. split; [reflexivity|]. intros A. unfold tg, canon in N. cbn [i_addr] in N. rewrite Z.mod_small in N by now apply page8_range. exact N.
Qed.
Lemma good_a11 d o : reads_as d -> byte o -> good 1 (R_piece (K_a11 (Z.land o 0xE0)))
  (fun s => let '(v, s) := t_byte s in t_print (outAbsAddr d (jump11 (Z.land o 0xE0) v) 0) s).
Proof.
  intros (SY & RD & AW) O.
  eapply good_weaken; [apply le_n| |apply (good_byte 0 (fun v => R_num np_intel (jump11 (Z.land o 0xE0) v)) (fun v => t_print (outAbsAddr d (jump11 (Z.land o 0xE0) v) 0)))].
  2:{ intros v V. apply (good_abs d np_intel _ 0 12); auto; rewrite ?AW; cbn [Z.eqb]; try lia. pose proof (jump11_range o v O V). change (2^12) with 4096. lia. }
  2,3: intros v; apply keeping_print.
  intros h t nb nm' (v & nb' & -> & B & -> & -> & N). rel_out. split; [reflexivity|]. exists (jump11 (Z.land o 0xE0) v), v. auto.
Qed.
Lemma bitn_range o : byte o -> 0 <= Z.shiftr (Z.land o 0xE0) 5 < 8.
Proof.
  intros O. destruct (high_bits o O) as (q & -> & Q). rewrite Z.shiftr_div_pow2 by lia. change (2^5) with 32. rewrite Z.mul_comm, Z.div_mul; lia.
Qed.
Lemma good_operand d o mode : reads_as d -> byte o -> good (kwidth (kind_of o mode)) (R_piece (kind_of o mode)) (decodeOperand d o mode).
Proof.
  intros RA O. unfold decodeOperand, kind_of. cbv zeta.
  repeat match goal with
  | |- good _ _ (fun s => if ?b then _ else _) => destruct b; [first
      [apply good_reg|apply good_ind|exact (good_a8 d RA)|exact (good_a11 d o RA O)|exact (good_imm d false RA)|exact (good_imm d true RA)|idtac]|]
  end.
  - destruct RA as (SY & RD & AW). eapply good_weaken; [apply le_n| |apply (good_dec d np_intel _ 3 SY RD); [change (2^3) with 8; now apply bitn_range|lia]].
    intros h t nb nm' (-> & -> & N). split; [reflexivity|]. eexists. cbn [piece]. auto.
  - eapply good_weaken; [apply le_n| |apply good_none]. intros h t nb nm' (-> & -> & ->). split; [reflexivity|]. exists 0. cbn. auto.
Qed.

(* ------------------------------------------------------------ a whole instruction *)
Definition look (ty o : Z) : option entry := match find_opcode ty o with Val r => r | _ => None end.
Definition look_ok (ty o : Z) : bool :=
  match find_opcode ty o with
  | Val None => true
  | Val (Some e) => (negb (e_dst e =? M_NONE) || (e_src e =? M_NONE)) && (kwidth (kind_of o (e_dst e)) + kwidth (kind_of o (e_src e)) <=? 1)%nat
  | _ => false
  end.
Lemma look_check : forallb (fun ty => forallb (look_ok ty) all_bytes) types = true.
Proof. vm_compute. reflexivity. Qed.
Lemma look_at ty o : In ty types -> byte o -> look_ok ty o = true.
Proof. intros T O. pose proof look_check as H. rewrite forallb_forall in H. specialize (H ty T). rewrite forallb_forall in H. apply H, all_in, O. Qed.
Definition more_op (d : disasm) (o mode : Z) : step :=
  if mode =? M_NONE then fun s => Val s else fun s => bind (Val (t_put comma s)) (decodeOperand d o mode).
Definition chain (d : disasm) (ty o : Z) : step :=
  match look ty o with
  | None => fun s => Val (t_setErrorIf UNKNOWN_INSTRUCTION s)
  | Some e => fun s => bind (Val (t_readName (entry_name e) s)) (fun s => bind (decodeOperand d o (e_dst e) s) (more_op d o (e_src e)))
  end.
Definition decode_opcode (d : disasm) (ty opc : Z) : step := fun s =>
  bind (find_opcode ty opc) (fun r =>
    let s := t_seterr OK s in
    match r with
    | None => Val (t_setErrorIf UNKNOWN_INSTRUCTION s)
    | Some e =>
      let s := t_readName (entry_name e) s in
      if e_dst e =? M_NONE then Val s
      else
        bind (decodeOperand d opc (e_dst e) s) (fun s =>
          if e_src e =? M_NONE then Val s
          else decodeOperand d opc (e_src e) (t_put comma s))
    end).
Lemma chain_start d ty o s : In ty types -> byte o -> decode_opcode d ty o s = chain d ty o (t_seterr OK s).
Proof.
  intros T O. pose proof (look_at ty o T O) as LO. unfold decode_opcode, chain, look, look_ok in *. cbv zeta.
  destruct (find_opcode ty o) as [[e|]| | | |]; try discriminate; cbn [bind]; [|reflexivity].
  rewrite !andb_true_iff in LO. destruct LO as (L1 & _).
  unfold more_op. destruct (Z.eqb_spec (e_dst e) M_NONE) as [->|N]; cbn [negb orb] in L1.
  - rewrite L1 in *. reflexivity.
  - cbn [bind]. destruct (decodeOperand _ _ _ _) as [s1| | | |]; try reflexivity. cbn [bind]. now destruct (e_src e =? M_NONE).
Qed.
Definition R_more (o mode : Z) : rel :=
  if mode =? M_NONE then R_none else R_seq (R_text (fun _ t => t = [44; 32])) (R_piece (kind_of o mode)).
Definition R_chain (ty o : Z) : rel := fun h t nb nm' => exists e, look ty o = Some e /\
  R_seq (R_name (entry_name e)) (R_seq (R_piece (kind_of o (e_dst e))) (R_more o (e_src e))) h t nb nm'.
Definition n_chain (ty o : Z) : nat :=
  match look ty o with Some e => kwidth (kind_of o (e_dst e)) + kwidth (kind_of o (e_src e)) | None => 0 end.
Lemma good_more d o mode : reads_as d -> byte o -> good (kwidth (kind_of o mode)) (R_more o mode) (more_op d o mode).
Proof.
  intros RD O. unfold R_more, more_op. destruct (Z.eqb_spec mode M_NONE) as [->|_].
  - apply good_none.
  - apply (good_seq 0 _ _ _ (fun s => Val (t_put comma s))); [apply good_comma|now apply good_operand].
Qed.
Lemma good_chain d ty o : reads_as d -> byte o -> good (n_chain ty o) (R_chain ty o) (chain d ty o).
Proof.
  intros RD O. unfold n_chain, chain, R_chain. destruct (look ty o) as [e|].
  - pose proof (good_seq 0 _ _ _ _ _ (good_name (entry_name e)) (good_seq _ _ _ _ _ _ (good_operand d o (e_dst e) RD O) (good_more d o (e_src e) RD O))) as G.
    eapply good_weaken; [apply le_n| |exact G]. intros h t nb nm' Q. exists e. auto.
  - eapply good_weaken; [apply le_n| |apply good_check]. intros h t nb nm' (Q & _). discriminate.
Qed.
Lemma chain_len ty o : In ty types -> byte o -> (1 + n_chain ty o <= 2)%nat.
Proof.
  intros T O. pose proof (look_at ty o T O) as LO. unfold n_chain, look_ok, look in *. destruct (find_opcode ty o) as [[e|]| | | |]; try lia.
Qed.

(* ------------------------------------------------------------ reading it back *)
Definition fam48 : family := mkFam pl_intel prefix_intel infix_intel [].
Lemma num_digit u n : num u n -> is_digit (peek u) = true.
Proof. intros N. specialize (N [] Logic.I). rewrite app_nil_r in N. eapply intel_head; [exact N|discriminate]. Qed.
Lemma head_48 u n : num u n -> head_ok fam48 u.
Proof. intros N. left. eapply num_digit, N. Qed.
Lemma parse_place48 a loc t v b rest : a_pl a = pl_intel -> a_radix a = 10 -> 0 <= loc < 2^32 -> 0 <= v < 2^32 ->
  place_text np_intel 36 loc t v -> blanks b -> tail rest ->
  exists b' w, blanks b' /\ parseInteger a loc (t ++ b ++ rest) OK 0 = Val (w, OK, b' ++ rest) /\ int_value w /\ int_of w = v.
Proof.
  intros PL RX LO V P B T.
  assert (T' : rest = [] \/ exists c u, rest = c :: u /\ (c = 44 \/ c = 59 \/ (c = 0 /\ c <> 0))).
  { destruct T as [->|(c & u & -> & C)]; [auto|]. right. exists c, u. tauto. }
  destruct (parse_place fam48 a loc 0 36 [] t v b rest) as (b' & w & X1 & X2 & X3 & X4 & X5); auto.
  all: try apply head_48; try apply Forall_nil; try (cbn; auto 40; fail).
  - intros e I L r. cbn in I. repeat (destruct I as [<-|I]; [cbn in *; try lia; split; discriminate|]). contradiction.
  - exists b', w. split; [exact X1|]. split; [exact X2|]. split; [exact X3|]. exact X4.
Qed.
Lemma tail_skip b rest : blanks b -> tail rest -> skipSpaces (b ++ rest) = rest.
Proof. intros B T. rewrite skip_blanks by exact B. destruct T as [->|(c & u & -> & [->| ->])]; [reflexivity|now apply skip_none..]. Qed.
Lemma reg_parse s : parseRegName s = parse_name REG_ENTRIES REG_UNDEF s.
Proof. reflexivity. Qed.
Lemma reg_none s : isNameLetter (peek s) = false \/ is_digit (peek s) = true -> parseRegName s = Val (REG_UNDEF, s).
Proof.
  intros [H|H]; unfold parseRegName.
  - unfold searchText, searchSymbol. change s with ([] ++ s) at 1. rewrite (take_app _ [] s eq_refl H). reflexivity.
  - rewrite searchText_digit; [reflexivity|vm_compute; reflexivity|exact H].
Qed.
(* what starts an operand *)
Definition starts (t : text) : Prop := t <> [] /\ is_space (peek t) = false /\ peek t <> 0 /\ peek t <> 59.
Lemma starts_skip b t z : blanks b -> starts t -> skipSpaces (b ++ t ++ z) = t ++ z.
Proof. intros B (N & S & _). rewrite skip_blanks by exact B. destruct t as [|c t]; [congruence|]. cbn [app]. now apply skip_none. Qed.
Lemma starts_eol t z : starts t -> p_eol pl_intel (t ++ z) = (false, t ++ z).
Proof.
  intros ST. change (p_eol pl_intel) with eol_semicolon. unfold eol_semicolon. cbv zeta. pose proof (starts_skip [] t z (Forall_nil _) ST) as SK. cbn [app] in SK. rewrite SK.
  destruct ST as (N & _ & Z0 & Z59). destruct t as [|c t]; [congruence|]. cbn [app peek] in *. apply Z.eqb_neq in Z0, Z59. now rewrite Z0, Z59.
Qed.
Lemma digit_starts c t : is_digit c = true -> starts (c :: t).
Proof. intros D. unfold starts. cbn [peek]. unfold is_digit, is_space in *. repeat split; try discriminate; lia. Qed.
Lemma sign_starts c t : In c [35; 36; 47; 64] -> starts (c :: t).
Proof. intros I. unfold starts. cbn [peek]. cbn in I. repeat (destruct I as [<-|I]; [repeat split; discriminate|]). contradiction. Qed.
(* a number is no register *)
Lemma num_noreg t v z : num t v -> starts t /\ parseRegName (t ++ z) = Val (REG_UNDEF, t ++ z) /\ expect_char 35 (t ++ z) = None /\ expect_char 64 (t ++ z) = None.
Proof.
  intros N. apply num_digit in N. destruct t as [|c t]; [discriminate|]. cbn [peek] in N. split; [now apply digit_starts|].
  split; [apply reg_none; right; exact N|]. cbn [app expect_char]. unfold is_digit in N.
  destruct (Z.eqb_spec c 35); [lia|]. destruct (Z.eqb_spec c 64); [lia|]. auto.
Qed.
(* names *)
Definition regs : list Z := map snd REG_ENTRIES.
Definition hits (w : text) (r : Z) : bool := match parseRegName w with Val (r', []) => r' =? r | _ => false end && negb (r =? REG_UNDEF).
Definition reg_check (k : bool) (r : Z) : bool :=
  let w := map (conv (Some k)) (reg_text r) in
  word w && negb (is_space (peek w)) && negb (peek w =? 0) && negb (peek w =? 59) && negb (peek w =? 35) && negb (peek w =? 64) && hits w r.
Lemma reg_checks : forallb (fun k => forallb (reg_check k) regs) [false; true] = true.
Proof. vm_compute. reflexivity. Qed.
Lemma reg_read k r z : In r regs -> isNameLetter (peek z) = false ->
  let w := map (conv (Some k)) (reg_text r) in
  starts w /\ parseRegName (w ++ z) = Val (r, z) /\ (r =? REG_UNDEF) = false /\ expect_char 35 (w ++ z) = None /\ expect_char 64 (w ++ z) = None.
Proof.
  intros R Z w. pose proof reg_checks as H. rewrite forallb_forall in H. specialize (H k ltac:(destruct k; cbn; auto)).
  rewrite forallb_forall in H. specialize (H r R). unfold reg_check in H. cbv zeta in H. fold w in H. rewrite !andb_true_iff, !negb_true_iff in H.
  destruct H as ((((((W & S) & Z0) & Z59) & Z35) & Z64) & HT). unfold hits in HT. apply andb_true_iff in HT. destruct HT as (HT & U). apply negb_true_iff in U.
  assert (w <> []) as NW by (intros E; rewrite E in Z0; discriminate).
  split; [split; [exact NW|]; split; [exact S|]; split; lia|]. split.
  { rewrite reg_parse in *. apply name_app; [exact W|exact Z|lia|]. 
 destruct (parse_name REG_ENTRIES REG_UNDEF w) as [[r' [|? ?]]| | | |]; try discriminate.
 apply Z.eqb_eq in HT. now rewrite HT. }
  split; [exact U|]. destruct w as [|c w']; [congruence|]. cbn [app expect_char peek] in *. now rewrite Z35, Z64.
Qed.
(* the operand which is read *)
Definition name_mode (r : Z) : Z :=
  if r =? REG_BUS then M_BUS else if r =? REG_P then M_P else if r =? REG_P1 then M_P1 else if r =? REG_P2 then M_P2
  else if (r =? REG_P4) || (r =? REG_P5) || (r =? REG_P6) || (r =? REG_P7) then M_PEXT
  else if r =? REG_A then M_A else if r =? REG_PSW then M_PSW else if (r =? REG_F0) || (r =? REG_F1) then M_F
  else if r =? REG_C then M_C else if r =? REG_I then M_I else if (r =? REG_RB0) || (r =? REG_RB1) then M_RB
  else if (r =? REG_MB0) || (r =? REG_MB1) then M_MB else if r =? REG_T then M_T else if r =? REG_CLK then M_CLK
  else if r =? REG_CNT then M_CNT else if r =? REG_TCNT then M_TCNT else if r =? REG_TCNTI then M_TCNTI else M_R.
Definition mode_of (K : kind) : Z :=
  match K with
  | K_none => M_NONE
  | K_name r => name_mode r
  | K_ind r => if r =? REG_A then M_IA else if r =? REG_R3 then M_IR3 else M_IR
  | K_dec | K_hex => M_IMM8
  | K_a8 | K_a11 _ | K_bitn _ => M_AD11
  end.
Definition reg_of (K : kind) : Z := match K with K_name r | K_ind r => r | _ => REG_UNDEF end.
Definition op_of (K : kind) (w : value) : operand := mkOp (mode_of K) (reg_of K) w OK.
Definition valued (K : kind) : bool := match K with K_none | K_name _ | K_ind _ => false | _ => true end.
Definition reads (K : kind) (v : Z) (op : operand) : Prop :=
  exists w, op = op_of K w /\ (valued K = false \/ int_value w /\ int_of w = v).
Definition kind_okb (K : kind) : bool :=
  match K with
  | K_name r => existsb (Z.eqb r) regs
  | K_ind r => existsb (Z.eqb r) [REG_A; REG_R0; REG_R1; REG_R3]
  | K_a11 h => existsb (Z.eqb h) [0; 32; 64; 96; 128; 160; 192; 224]
  | K_bitn b => (0 <=? b) && (b <? 8)
  | _ => true
  end.
Lemma in_list x l : existsb (Z.eqb x) l = true -> In x l.
Proof. rewrite existsb_exists. intros (y & I & E). apply Z.eqb_eq in E. now subst. Qed.
Lemma a11_high h : kind_okb (K_a11 h) = true -> exists q, h = 32 * q /\ 0 <= q < 8.
Proof. cbn [kind_okb]. intros H. apply in_list in H. cbn in H. exists (h / 32). repeat (destruct H as [<-|H]; [vm_compute; repeat split; discriminate|]). contradiction. Qed.
Lemma piece_range K k addr t nb v : kind_okb K = true -> piece K k addr t nb v -> 0 <= addr < 4096 -> (K = K_a8 -> addr < 4095) -> 0 <= v < 4096.
Proof.
  intros KO H AR A8. destruct K; cbn [piece] in H; unfold byte in H; try lia.
  - destruct H as (u & _ & _ & H & _). lia.
  - destruct H as (u & _ & _ & H & _). lia.
  - destruct H as (x & _ & X & -> & _). apply page8_range; [exact X|]. specialize (A8 eq_refl). lia.
  - destruct H as (x & _ & X & -> & _). destruct (a11_high _ KO) as (q & E & Q). rewrite (jump11_val h x q E Q X). lia.
  - cbn [kind_okb] in KO. lia.
Qed.
Lemma name_regs r : kind_okb (K_name r) = true -> In r regs.
Proof. cbn [kind_okb]. apply in_list. Qed.
Lemma parse_piece K k addr t nb v a b0 b rest :
  a_pl a = pl_intel -> a_radix a = 10 -> K <> K_none -> kind_okb K = true -> piece K (Some k) addr t nb v ->
  0 <= addr < 4096 -> (K = K_a8 -> addr < 4095) -> blanks b0 -> blanks b -> tail rest ->
  starts t /\ exists b' op, blanks b' /\ parseOperand a addr (b0 ++ t ++ b ++ rest) = Val (op, b' ++ rest) /\ reads K v op /\ o_err op = OK.
Proof.
  intros PL RX NK KO P AR A8 B0 B T. pose proof (piece_range _ _ _ _ _ _ KO P AR A8) as VR.
  assert (AR' : 0 <= addr < 2^32) by lia.
  assert (PLACE : num t v -> (forall w, int_value w -> int_of w = v -> reads K v (mkOp M_AD11 REG_UNDEF w OK)) ->
     starts t /\ exists b' op, blanks b' /\ parseOperand a addr (b0 ++ t ++ b ++ rest) = Val (op, b' ++ rest) /\ reads K v op /\ o_err op = OK).
  { intros N RDS. destruct (num_noreg t v (b ++ rest) N) as (ST & R0 & N35 & N64). split; [exact ST|].
    destruct (parse_place48 a addr t v b rest PL RX AR' ltac:(lia) (or_introl N) B T) as (b' & w & B' & PI & IV & IO).
    exists b', (mkOp M_AD11 REG_UNDEF w OK). split; [exact B'|]. split; [|split; [now apply RDS|reflexivity]].
    unfold parseOperand. cbv zeta. rewrite (starts_skip b0 _ _ B0 ST), PL, (starts_eol _ _ ST), N35, N64. cbn [andb]. rewrite R0. cbn [bind].
    change (REG_UNDEF =? REG_UNDEF) with true. cbn [negb]. cbv iota. rewrite PI. cbn [bind].
    change (hasError OK) with false. reflexivity. }
  assert (IMM : forall u, t = 35 :: u -> num u v -> (forall w, int_value w -> int_of w = v -> reads K v (mkOp M_IMM8 REG_UNDEF w OK)) ->
     starts t /\ exists b' op, blanks b' /\ parseOperand a addr (b0 ++ t ++ b ++ rest) = Val (op, b' ++ rest) /\ reads K v op /\ o_err op = OK).
  { intros u -> N RDS. assert (ST : starts (35 :: u)) by (apply sign_starts; cbn; auto). split; [exact ST|].
    destruct (parse_place48 a addr u v b rest PL RX AR' ltac:(lia) (or_introl N) B T) as (b' & w & B' & PI & IV & IO).
    exists b', (mkOp M_IMM8 REG_UNDEF w OK). split; [exact B'|]. split; [|split; [now apply RDS|reflexivity]].
    unfold parseOperand. cbv zeta. rewrite (starts_skip b0 _ _ B0 ST), PL, (starts_eol _ _ ST). cbn [app expect_char]. change (35 =? 35) with true. cbv iota. rewrite PI. reflexivity. }
  assert (IND : forall u z, is_space (peek (u ++ z)) = false -> parseOperand a addr (b0 ++ (64 :: u) ++ z) =
    bind (parseRegName (u ++ z)) (fun '(reg, q) => if negb (reg =? REG_UNDEF) then register_operand true reg ((64 :: u) ++ z) q else Val (bad_operand UNKNOWN_OPERAND, (64 :: u) ++ z))).
  { intros u z SP. assert (ST : starts (64 :: u)) by (apply sign_starts; cbn; auto). unfold parseOperand. cbv zeta. rewrite (starts_skip b0 _ _ B0 ST), PL, (starts_eol _ _ ST).
    cbn [app expect_char]. change (64 =? 35) with false. change (64 =? 64) with true. cbv iota. cbn [andb]. rewrite SP. reflexivity. }
  destruct K; cbn [piece] in P; [congruence|..].
  - destruct P as (-> & -> & ->). destruct (reg_read k r (b ++ rest) (name_regs _ KO) (tail_noname _ _ B T)) as (ST & RR & NU & N35 & N64). split; [exact ST|].
    exists b, (op_of (K_name r) v_undef). split; [exact B|]. split; [|split; [exists v_undef; auto|reflexivity]].
    unfold parseOperand. cbv zeta. rewrite (starts_skip b0 _ _ B0 ST), PL, (starts_eol _ _ ST), N35, N64. cbn [andb]. rewrite RR. cbn [bind]. rewrite NU. cbn [negb]. cbv iota.
    apply name_regs in KO. cbn in KO. repeat (destruct KO as [<-|KO]; [reflexivity|]). contradiction.
  - destruct P as (-> & -> & ->). split; [apply sign_starts; cbn; auto|].
    assert (KO' : In r regs) by (cbn [kind_okb] in KO; apply in_list in KO; vm_compute in KO |- *; tauto).
    destruct (reg_read k r (b ++ rest) KO' (tail_noname _ _ B T)) as (ST & RR & NU & _).
    exists b, (op_of (K_ind r) v_undef). split; [exact B|]. split; [|split; [exists v_undef; auto|reflexivity]].
    rewrite IND; [|destruct ST as (NE & SP & _); destruct (map (conv (Some k)) (reg_text r)); [congruence|exact SP]]. rewrite RR. cbn [bind]. rewrite NU. cbn [negb]. cbv iota.
    cbn [kind_okb] in KO. apply in_list in KO. cbn in KO. repeat (destruct KO as [<-|KO]; [reflexivity|]). contradiction.
  - destruct P as (u & N & -> & BV & ->). apply (IMM u); auto. intros w IV IO. exists w. auto.
  - destruct P as (u & N & -> & BV & ->). apply (IMM u); auto. intros w IV IO. exists w. auto.
  - destruct P as (x & _ & _ & _ & N). apply PLACE; [apply N; specialize (A8 eq_refl); lia|]. intros w IV IO. exists w. auto.
  - destruct P as (x & _ & _ & _ & N). apply PLACE; [exact N|]. intros w IV IO. exists w. auto.
  - destruct P as (_ & _ & N). apply PLACE; [exact N|]. intros w IV IO. exists w. auto.
Qed.

(* ------------------------------------------------------------ bytes *)
Lemma emit8 x z addr e o : byte x -> u8 z = x -> ai_emitOperand8 z (mkAI (part addr 1 []) e o) = mkAI (part addr 1 [x]) e o.
Proof. intros X U. unfold ai_emitOperand8. rewrite U. cbn [ai_insn]. pose proof (part_byte x addr 1 [] X ltac:(cbn; lia)) as E. cbn [length Nat.add app] in E. change (Z.of_nat 1) with 1 in E. rewrite E. reflexivity. Qed.
Lemma noerr i e o : ai_setErrorIf OK (mkAI i e o) = mkAI i e o.
Proof. unfold ai_setErrorIf, setErrorIfAt. cbn. now rewrite andb_false_r. Qed.
Lemma page_val z : page z = 256 * ((z / 256) mod 256).
Proof.
  unfold page, u16. change 0xFF with (Z.ones 8). rewrite Z.ldiff_ones_r, Z.shiftl_mul_pow2, Z.shiftr_div_pow2 by lia. change (2^8) with 256. change (2^16) with (256 * 256).
  rewrite Z.rem_mul_r, Z.mul_comm by lia. f_equal. rewrite Z.mul_comm, Z_div_plus by lia. rewrite (Z.div_small (z mod 256)); [lia|]. apply Z.mod_pos_bound. lia.
Qed.
Lemma embed_check : forallb (fun q => forallb (fun x => Z.land (Z.shiftr (256 * q + x) 3) 0xE0 =? 32 * q) all_bytes) [0; 1; 2; 3; 4; 5; 6; 7] = true.
Proof. vm_compute. reflexivity. Qed.
Lemma embed_bits q x : 0 <= q < 8 -> byte x -> Z.land (Z.shiftr (256 * q + x) 3) 0xE0 = 32 * q.
Proof.
  intros Q X. pose proof embed_check as H. rewrite forallb_forall in H. specialize (H q ltac:(cbn; lia)). rewrite forallb_forall in H. apply Z.eqb_eq, H, all_in, X.
Qed.
Definition plain_modes : list Z := [M_A; M_R; M_IR; M_BUS; M_P12; M_PEXT; M_IA; M_PSW; M_C; M_I; M_F; M_RB; M_MB; M_T; M_CNT; M_TCNT; M_TCNTI; M_CLK; M_IR3; M_P; M_P1; M_P2].
Definition fits (K : kind) (m : Z) : bool :=
  match K with
  | K_none => m =? M_NONE
  | K_name _ | K_ind _ => existsb (Z.eqb m) plain_modes
  | K_dec | K_hex => (m =? M_IMM8) || (m =? M_BIT8)
  | K_a8 => m =? M_AD08
  | K_a11 h => m =? M_AD11
  | K_bitn b => m =? M_BITN
  end.
Definition emb (K : kind) (m o : Z) : Z :=
  match K with
  | K_name r | K_ind r =>
    if (m =? M_IR) || (m =? M_IR3) || (m =? M_R) then u8 (Z.lor o (encodeRRegName r))
    else if (m =? M_P12) || (m =? M_PEXT) then u8 (Z.lor o (encodePortName r))
    else if m =? M_F then u8 (Z.lor o (if r =? REG_F1 then 0x20 else 0))
    else if m =? M_RB then u8 (Z.lor o (if r =? REG_RB1 then 0x10 else 0))
    else if m =? M_MB then u8 (Z.lor o (if r =? REG_MB1 then 0x10 else 0))
    else o
  | K_a11 h => u8 (Z.lor o h)
  | K_bitn b => u8 (Z.lor o (32 * b))
  | _ => o
  end.
Lemma emit_piece K k addr t nb v m op o nb0 :
  piece K k addr t nb v -> kind_okb K = true -> fits K m = true -> reads K v op ->
  0 <= addr < 4096 -> (K = K_a8 -> addr < 4095) -> (kwidth K = 1%nat -> nb0 = []) ->
  encodeOperand m op (mkAI (part addr 1 nb0) OK o) = mkAI (part addr 1 (nb0 ++ nb)) OK (emb K m o).
Proof.
  intros P KO F (w & -> & RW) AR A8 N0. pose proof (piece_range _ _ _ _ _ _ KO P AR A8) as VR.
  unfold encodeOperand. cbv zeta. cbn [op_of o_err o_val o_reg]. rewrite noerr.
  assert (I2 : i_addr (part addr 1 nb0) = addr) by (destruct nb0; reflexivity).
  destruct (valued K) eqn:VK.
  2:{ assert (nb = []) as -> by (destruct K; try discriminate; cbn [piece] in P; tauto). rewrite app_nil_r.
      destruct K; try discriminate; cbn [fits] in F.
      - apply Z.eqb_eq in F. subst m. reflexivity.
      - apply in_list in F. cbn in F. repeat (destruct F as [<-|F]; [reflexivity|]). contradiction.
      - apply in_list in F. cbn in F. repeat (destruct F as [<-|F]; [reflexivity|]). contradiction. }
  destruct RW as [W0|(IV & IO)]; [congruence|].
  pose proof (get_unsigned w v IV IO ltac:(lia)) as GU.
  assert (OV : forall n, 0 <= v <= n -> n < 2^31 -> overflow w n 0 = false).
  { intros n R S. rewrite (over w v) by (auto; lia). destruct (Z.ltb_spec n v); [lia|auto]. }
  destruct K; try discriminate; cbn [fits emb kwidth] in *; cbn [piece] in P; try (rewrite (N0 eq_refl) in *; cbn [app]).
  - destruct P as (u & _ & -> & B & _). unfold byte in B. assert (OU : overflowUint8 w = false) by (unfold overflowUint8; rewrite (over w v) by (auto; lia); destruct (Z.ltb_spec 255 v); [lia|reflexivity]). apply orb_true_iff in F.
    destruct F as [F|F]; apply Z.eqb_eq in F; subst m; cbn [Z.eqb M_IR M_IR3 M_R M_P12 M_PEXT M_AD08 M_AD11 M_IMM8 M_BIT8 Pos.eqb orb];
      rewrite OU, GU, (emit8 v); auto; unfold u8; apply Z.mod_small; exact B.
  - destruct P as (u & _ & -> & B & _). unfold byte in B. assert (OU : overflowUint8 w = false) by (unfold overflowUint8; rewrite (over w v) by (auto; lia); destruct (Z.ltb_spec 255 v); [lia|reflexivity]). apply orb_true_iff in F.
    destruct F as [F|F]; apply Z.eqb_eq in F; subst m; cbn [Z.eqb M_IR M_IR3 M_R M_P12 M_PEXT M_AD08 M_AD11 M_IMM8 M_BIT8 Pos.eqb orb];
      rewrite OU, GU, (emit8 v); auto; unfold u8; apply Z.mod_small; exact B.
  - destruct P as (x & -> & BX & EV & _). specialize (A8 eq_refl). rewrite page8_val in EV by (auto; lia). unfold byte in BX. apply Z.eqb_eq in F. subst m.
    cbn [Z.eqb M_IR M_IR3 M_R M_P12 M_PEXT M_AD08 M_AD11 Pos.eqb orb]. unfold encodeAddress. cbv zeta. change (M_AD08 =? M_AD08) with true. cbv iota. cbn [op_of o_val ai_insn]. rewrite GU, I2.
    assert (U : u32 (addr + 1) = addr + 1) by (unfold u32; apply Z.mod_small; lia). rewrite U.
    assert (D1 : v / 256 = (addr + 1) / 256) by (symmetry; apply (Z.div_unique _ _ _ x); lia).
    assert (page v = page (addr + 1)) as -> by (rewrite !page_val, D1; reflexivity). rewrite Z.eqb_refl. cbn [negb].
    rewrite (emit8 x); auto. unfold u8. change (2^8) with 256. symmetry. apply (Z.mod_unique _ _ ((addr + 1) / 256)); lia.
  - destruct P as (x & -> & BX & EV & _). destruct (a11_high _ KO) as (q & EQ & Q). rewrite (jump11_val h x q EQ Q BX) in EV. apply Z.eqb_eq in F. subst m. unfold byte in BX.
    cbn [Z.eqb M_IR M_IR3 M_R M_P12 M_PEXT M_AD08 M_AD11 Pos.eqb orb]. unfold encodeAddress. cbv zeta. change (M_AD11 =? M_AD08) with false. cbv iota. cbn [op_of o_val ai_insn]. rewrite GU.
    assert (checkAddr 12 v false = OK) as -> by (apply C31_addr; lia). change (isOK OK) with true. cbn [negb]. rewrite EV at 2. rewrite embed_bits by auto. rewrite <- EQ.
    unfold ai_embed. cbn [ai_insn ai_err ai_opc]. rewrite (emit8 x); auto. unfold u8. change (2^8) with 256. symmetry. apply (Z.mod_unique _ _ q); lia.
  - destruct P as (-> & EV & _). rewrite app_nil_r. apply Z.eqb_eq in F. subst m v. cbn [kind_okb] in KO.
    cbn [Z.eqb M_IR M_IR3 M_R M_P12 M_PEXT M_AD08 M_AD11 M_IMM8 M_BIT8 M_BITN Pos.eqb orb]. rewrite OV by lia. rewrite GU. unfold ai_embed. cbn [ai_insn ai_err ai_opc].
    do 2 f_equal. change 7 with (Z.ones 3). rewrite Z.land_ones, Z.shiftl_mul_pow2 by lia. change (2^3) with 8. change (2^5) with 32. rewrite Z.mod_small by lia. f_equal. lia.
Qed.

(* ------------------------------------------------------------ every opcode *)
Definition is_none (K : kind) : bool := match K with K_none => true | _ => false end.
Lemma is_none_ok K : is_none K = true <-> K = K_none.
Proof. destruct K; cbn; split; congruence. Qed.
Definition check_name (k : option bool) (nm : text) (K1 K2 : kind) : bool :=
  let nm' := map (conv k) nm in
  plain_name sp_intel [] i8048_directives nm' && is_alpha (peek nm') && (negb (is_none K1) || is_none K2) && kind_okb K1 && kind_okb K2.
Definition check_one (k : option bool) (ty opc : Z) (nm : text) (K1 K2 : kind) : bool :=
  check_name k nm K1 K2 && (kwidth K1 + kwidth K2 <=? 1)%nat &&
  match i8048_searchName ty (map (conv k) nm) (mode_of K1) (mode_of K2) with
  | Val (OK, Some e) => fits K1 (e_dst e) && fits K2 (e_src e) && (emb K2 (e_src e) (emb K1 (e_dst e) (e_opc e)) =? opc)
  | _ => false
  end.
Definition check (k : option bool) (ty opc : Z) : bool :=
  match look ty opc with
  | None => true
  | Some e =>
    Bool.eqb (is_none (kind_of opc (e_src e))) (e_src e =? M_NONE) &&
    check_one k ty opc (entry_name e) (kind_of opc (e_dst e)) (kind_of opc (e_src e))
  end.
Lemma check_ok : forallb (fun k => forallb (fun ty => forallb (check (Some k) ty) all_bytes) types) [false; true] = true.
Proof. vm_compute. reflexivity. Qed.
Lemma check_at k ty opc : In ty types -> byte opc -> check (Some k) ty opc = true.
Proof.
  intros T O. pose proof check_ok as H. rewrite forallb_forall in H. specialize (H k ltac:(destruct k; cbn; auto)).
  rewrite forallb_forall in H. specialize (H ty T). rewrite forallb_forall in H. apply H, all_in, O.
Qed.
Lemma piece_len K k addr t n v : piece K k addr t n v -> length n = kwidth K.
Proof.
  destruct K; cbn [piece kwidth]; [intros (_ & -> & _)|intros (_ & -> & _)|intros (_ & -> & _)|intros (? & _ & -> & _)|intros (? & _ & -> & _)|
    intros (? & -> & _)|intros (? & -> & _)|intros (-> & _)]; reflexivity.
Qed.
(* the operands of an instruction *)
Definition sep (K : kind) : text := if is_none K then [] else [44; 32].
Definition two (k : option bool) (addr : Z) (K1 K2 : kind) (t : text) (nb : list Z) : Prop :=
  exists t1 t2 n1 n2 v1 v2, piece K1 k addr t1 n1 v1 /\ piece K2 k addr t2 n2 v2 /\ t = t1 ++ sep K2 ++ t2 /\ nb = n1 ++ n2.
Lemma chain_two ty o k h t nb nm' : In ty types -> byte o -> h_case h = Some k -> R_chain ty o h t nb nm' ->
  exists nm K1 K2, check_one (Some k) ty o nm K1 K2 = true /\ nm' = firstn 11 (map (conv (Some k)) nm) /\ two (Some k) (h_addr h) K1 K2 t nb.
Proof.
  intros T O HC (e & L & Q). pose proof (check_at k ty o T O) as CK. unfold check in CK. rewrite L in CK.
  rewrite !andb_true_iff in CK. destruct CK as (N2 & CK). apply eqb_prop in N2.
  exists (entry_name e), (kind_of o (e_dst e)), (kind_of o (e_src e)). split; [exact CK|].
  destruct Q as (t0 & tr & n0 & nr & nm1 & -> & -> & (-> & -> & ->) & t1 & t2 & n1 & n2 & nm2 & -> & -> & Q1 & Q2).
  rel_out. destruct Q1 as (-> & v1 & P1). rel_out. rewrite ?HC in *.
  unfold R_more in Q2. unfold two, sep. rewrite N2. destruct (e_src e =? M_NONE) eqn:NE.
  - destruct Q2 as (-> & -> & ->). rel_out. split; [reflexivity|]. apply is_none_ok in N2. rewrite N2. exists t1, [], n1, [], v1, 0. cbn [piece app]. auto 10.
  - destruct Q2 as (t3 & t4 & n3 & n4 & nm3 & -> & -> & (-> & -> & ->) & -> & v2 & P2). rel_out. rewrite ?HC in P2. split; [reflexivity|].
    exists t1, t4, n1, n4, v1, v2. cbn [app]. auto 10.
Qed.
Lemma reads_none : reads K_none 0 no_operand.
Proof. exists v_undef. auto. Qed.
Lemma parse_two k addr K1 K2 t nb a b rest :
  a_pl a = pl_intel -> a_radix a = 10 -> kind_okb K1 = true -> kind_okb K2 = true -> (K1 = K_none -> K2 = K_none) ->
  two (Some k) addr K1 K2 t nb -> 0 <= addr < 4096 -> (K1 = K_a8 \/ K2 = K_a8 -> addr < 4095) -> blanks b -> last_rest rest ->
  exists t1 t2 n1 n2 v1 v2 o1 o2,
    piece K1 (Some k) addr t1 n1 v1 /\ piece K2 (Some k) addr t2 n2 v2 /\
    nb = n1 ++ n2 /\ parseOperands a addr (skipSpaces (t ++ b ++ rest)) = Val (Two o1 o2 rest) /\ reads K1 v1 o1 /\ reads K2 v2 o2.
Proof.
  intros PL RX R1 R2 N12 (t1 & t2 & n1 & n2 & v1 & v2 & P1 & P2 & -> & ->) AR A8 B LR.
  exists t1, t2, n1, n2, v1, v2. pose proof (last_tail _ LR) as TR.
  assert (E2 : is_none K2 = true -> t2 = []) by (intros Q; apply is_none_ok in Q; subst K2; cbn [piece] in P2; tauto).
  destruct (is_none K1) eqn:NK1.
  - apply is_none_ok in NK1. pose proof (N12 NK1) as NK2. subst K1 K2. specialize (E2 eq_refl). subst t2. pose proof P1 as P1'. cbn [piece] in P1'. destruct P1' as (-> & -> & ->).
    cbn [piece] in P2. destruct P2 as (_ & -> & ->).
    exists no_operand, no_operand. split; [cbn; auto|]. split; [cbn; auto|]. split; [reflexivity|]. split; [|split; apply reads_none].
    unfold sep. cbn [is_none app]. rewrite last_skip by assumption.
    assert (LS : skipSpaces rest = rest) by (apply (last_skip [] rest (Forall_nil _) LR)).
    unfold parseOperands, parseOperand at 1. cbv zeta. rewrite LS, PL. change (p_eol pl_intel) with eol_semicolon. unfold eol_semicolon. cbv zeta. rewrite LS.
    assert ((peek rest =? 0) || (peek rest =? 59) = true) as -> by (destruct LR as [->|(u & ->)]; reflexivity). cbn [bind no_operand o_err]. change (hasError OK) with false. cbv iota.
    rewrite LS. now rewrite last_nocomma by assumption.
  - assert (NK1' : K1 <> K_none) by (intros ->; discriminate). unfold sep. destruct (is_none K2) eqn:NK2.
    + pose proof NK2 as NK2'. apply is_none_ok in NK2'. subst K2. rewrite (E2 eq_refl) in *. cbn [app]. rewrite app_nil_r.
      destruct (parse_piece K1 k addr t1 n1 v1 a [] b rest PL RX NK1' R1 P1 AR ltac:(auto) (Forall_nil _) B TR) as (ST & b' & o1 & B' & PO & RD1 & E1).
      cbn [piece] in P2. destruct P2 as (_ & -> & ->).
      exists o1, no_operand. split; [exact P1|]. split; [cbn; auto|]. split; [reflexivity|]. split; [|split; [exact RD1|apply reads_none]].
      pose proof (starts_skip [] t1 (b ++ rest) (Forall_nil _) ST) as SK. cbn [app] in SK, PO. rewrite SK. unfold parseOperands. rewrite PO. cbn [bind]. rewrite E1.
      change (hasError OK) with false. cbv iota. cbv zeta. rewrite tail_skip by assumption. now rewrite last_nocomma by assumption.
    + assert (NK2' : K2 <> K_none) by (intros ->; discriminate). set (r2 := 44 :: 32 :: t2 ++ b ++ rest).
      assert (T2 : tail r2) by (right; unfold r2; eauto).
      destruct (parse_piece K1 k addr t1 n1 v1 a [] [] r2 PL RX NK1' R1 P1 AR ltac:(auto) (Forall_nil _) (Forall_nil _) T2) as (ST & b' & o1 & B' & PO & RD1 & E1).
      destruct (parse_piece K2 k addr t2 n2 v2 a [32] b rest PL RX NK2' R2 P2 AR ltac:(auto) ltac:(repeat constructor) B TR) as (_ & b2 & o2 & B2 & PO2 & RD2 & E2').
      exists o1, o2. split; [exact P1|]. split; [exact P2|]. split; [reflexivity|]. split; [|auto].
      assert (EQ : (t1 ++ [44; 32] ++ t2) ++ b ++ rest = t1 ++ r2) by (unfold r2; rewrite <- !app_assoc; reflexivity). rewrite EQ.
      pose proof (starts_skip [] t1 r2 (Forall_nil _) ST) as SK. cbn [app] in SK, PO, PO2. rewrite SK. unfold parseOperands. rewrite PO. cbn [bind]. rewrite E1.
      change (hasError OK) with false. cbv iota. cbv zeta. rewrite tail_skip by assumption. unfold r2. cbn [expect_char]. change (44 =? 44) with true. cbv iota.
      rewrite PO2. cbn [bind]. rewrite E2'. change (hasError OK) with false. cbv iota. now rewrite tail_skip by assumption.
Qed.
Lemma check_name_ok k nm K1 K2 : check_name k nm K1 K2 = true ->
  plain_name sp_intel [] i8048_directives (map (conv k) nm) = true /\ is_alpha (peek (map (conv k) nm)) = true /\ (K1 = K_none -> K2 = K_none) /\
  kind_okb K1 = true /\ kind_okb K2 = true /\ firstn 11 (map (conv k) nm) = map (conv k) nm.
Proof.
  unfold check_name. cbv zeta. rewrite !andb_true_iff. intros ((((PN & AL) & N1) & KO1) & KO2). split; [exact PN|]. split; [exact AL|]. split.
  { intros ->. cbn in N1. now apply is_none_ok. }
  repeat (split; [assumption|]).
  apply firstn_all2. unfold plain_name in PN. rewrite !andb_true_iff in PN. destruct PN as (((_ & L) & _) & _). now apply Nat.leb_le in L.
Qed.
Lemma encode_line ty a k nm K1 K2 indent gap t b rest addr i : check_name (Some k) nm K1 K2 = true ->
  a_pl a = pl_intel -> a_aw a = 12 -> blanks indent -> blanks gap -> gap <> [] \/ t = [] -> blanks b -> last_rest rest -> checkAddr 12 addr false = OK ->
  i8048_encodeImpl ty a addr (map (conv (Some k)) nm) (skipSpaces (t ++ b ++ rest)) (new_insn addr) = Val (i, rest) ->
  i8048_encode ty a (indent ++ firstn 11 (map (conv (Some k)) nm) ++ gap ++ t ++ b ++ rest) addr = Val (L_insn i rest).
Proof.
  intros CK PL AW BI BG NG BB LR CA EN. destruct (check_name_ok _ _ _ _ CK) as (PN & AL & _ & _ & _ & LN). rewrite LN.
  unfold i8048_encode. rewrite line_insn; [| | |exact BI|exact BG| |].
  - rewrite EN. cbn [bind]. reflexivity.
  - rewrite PL. exact PN.
  - intros z. rewrite PL. change (p_line pl_intel) with (p_eol pl_intel). apply starts_eol. destruct (map (conv (Some k)) nm) as [|c u]; [discriminate|]. cbn [peek] in AL.
    unfold starts. cbn [peek]. unfold is_alpha, is_upper, is_lower, is_space in *. repeat split; try discriminate; lia.
  - rewrite PL. apply name_ends; auto. intros c I. cbn in I. repeat (destruct I as [<-|I]; [reflexivity|]). contradiction.
  - rewrite AW. exact CA.
Qed.
Lemma encode_ok k ty o nm K1 K2 t nb a indent gap b rest addr :
  check_one (Some k) ty o nm K1 K2 = true -> two (Some k) addr K1 K2 t nb -> byte o ->
  a_pl a = pl_intel -> a_radix a = 10 -> a_aw a = 12 ->
  blanks indent -> blanks gap -> gap <> [] \/ t = [] -> blanks b -> last_rest rest -> 0 <= addr < 4096 -> checkAddr 12 addr false = OK ->
  addr + Z.of_nat (length (o :: nb)) <= 4096 ->
  i8048_encode ty a (indent ++ firstn 11 (map (conv (Some k)) nm) ++ gap ++ t ++ b ++ rest) addr =
  Val (L_insn (canon addr (o :: nb)) rest).
Proof.
  intros CK TH BO PL RX AW BI BG NG BB LR AR CA IN. unfold check_one in CK. rewrite !andb_true_iff in CK. destruct CK as ((CN & KW) & CK).
  apply (encode_line ty a k nm K1 K2); auto. destruct (check_name_ok _ _ _ _ CN) as (PN & AL & N12 & KO1 & KO2 & _).
  assert (A8 : K1 = K_a8 \/ K2 = K_a8 -> addr < 4095).
  { destruct TH as (t1 & t2 & n1 & n2 & v1 & v2 & P1 & P2 & _ & ->). apply piece_len in P1, P2. cbn [length] in IN. rewrite app_length in IN.
    intros [Q|Q]; subst; cbn [kwidth] in *; lia. }
  set (nm' := map (conv (Some k)) nm) in *.
  destruct (parse_two k addr K1 K2 t nb a b rest) as (t1 & t2 & n1 & n2 & v1 & v2 & o1 & o2 & P1 & P2 & EN & PO & RD1 & RD2); auto.
  unfold i8048_encodeImpl. rewrite PO. cbn [bind].
  assert (M : o_mode o1 = mode_of K1 /\ o_mode o2 = mode_of K2).
  { destruct RD1 as (? & -> & _). destruct RD2 as (? & -> & _). auto. }
  destruct M as (-> & ->).
  destruct (i8048_searchName ty nm' (mode_of K1) (mode_of K2)) as [[er [e|]]| | | |]; try discriminate.
  2:{ destruct er; discriminate. }
  destruct er; try discriminate. rewrite !andb_true_iff in CK. destruct CK as ((F1 & F2) & EO). apply Z.eqb_eq in EO.
  cbn [bind i_err new_insn]. change (setErrorIfAt OK OK) with OK. change (isOK OK) with true. cbn [negb]. cbv zeta.
  change (new_insn addr) with (part addr 1 []).
  pose proof (piece_len _ _ _ _ _ _ P1) as L1. pose proof (piece_len _ _ _ _ _ _ P2) as L2. apply Nat.leb_le in KW.
  rewrite (emit_piece K1 (Some k) addr t1 n1 v1 (e_dst e) o1 (e_opc e) [] P1 KO1 F1 RD1 AR) by auto. cbn [app].
  rewrite (emit_piece K2 (Some k) addr t2 n2 v2 (e_src e) o2 _ n1 P2 KO2 F2 RD2 AR); [|auto|].
  2:{ intros Q. rewrite Q in KW. destruct n1; [reflexivity|]. cbn [length] in L1. lia. }
  rewrite EO, EN. destruct (part_done 0 o addr (n1 ++ n2) ltac:(unfold byte; lia) BO ltac:(rewrite app_length; lia)) as (D1 & _).
  unfold ai_emitInsn, ai_set. cbn [ai_insn ai_err ai_opc]. rewrite D1. reflexivity.
Qed.

(* ------------------------------------------------------------ the disassembler *)
Section Whole.
Variables (d : disasm) (ty : Z).
Hypothesis RD : reads_as d.
Hypothesis T : In ty types.
Let pfx (c : Z) : bool := false.
Let F (p o : Z) : step := decode_opcode d ty o.
Let n (p o : Z) : nat := if p =? 0 then n_chain ty o else 0%nat.
Let P0 : pfx 0 = false := eq_refl.
Let START : forall p o addr mem s, (p = 0 \/ pfx p = true) -> byte p -> byte o -> within addr mem 2 s -> F p o s = (fun _ o => chain d ty o) p o (t_seterr OK s).
Proof. intros p o addr mem s Q BP BO W. now apply chain_start. Qed.
Let GOOD : forall p o, (p = 0 \/ pfx p = true) -> byte p -> byte o -> good (n p o) ((fun _ o => R_chain ty o) p o) ((fun _ o => chain d ty o) p o).
Proof. intros p o [->|Q] BP BO; [|discriminate]. now apply good_chain. Qed.
Let LEN : forall p o, (p = 0 \/ pfx p = true) -> byte p -> byte o -> (length (opcode_bytes p o) + n p o <= 2)%nat.
Proof. intros p o [->|Q] BP BO; [|discriminate]. now apply chain_len. Qed.
Lemma decode_eq mem addr size : i8048_decode d ty mem addr size = dis_decode d (decode_impl pfx F) mem addr size.
Proof. reflexivity. Qed.
Lemma i8048_total mem addr size : Forall byte mem -> exists r, i8048_decode d ty mem addr size = Val r.
Proof. intros FM. rewrite decode_eq. exact (decode_total d pfx F _ _ n 2 START GOOD LEN ltac:(lia) mem addr size FM). Qed.
Lemma i8048_within mem addr size r : Forall byte mem -> i8048_decode d ty mem addr size = Val r ->
  exists m, mem = i_code (r_insn r) ++ m /\ (length (i_code (r_insn r)) <= 2)%nat.
Proof. intros FM. rewrite decode_eq. exact (decode_within d pfx F _ _ n 2 P0 START GOOD LEN ltac:(lia) mem addr size r FM). Qed.
Lemma i8048_takes : takes d (i8048_decodeImpl d ty) 2.
Proof. exact (decode_takes d pfx F _ _ n 2 P0 START GOOD LEN ltac:(lia)). Qed.
Lemma i8048_accepts mem addr size r : Forall byte mem -> mem <> [] -> i8048_decode d ty mem addr size = Val r -> i_err (r_insn r) = OK ->
  checkAddr 12 addr false = OK /\
  exists o nb m, byte o /\ mem = (o :: nb) ++ m /\ (length (o :: nb) <= 2)%nat /\
    r_insn r = canon addr (o :: nb) /\
    R_chain ty o (mkH (Some (da_uppercase d)) addr [o] []) (r_operands r) nb (r_name r) /\
    forall m', Forall byte m' -> i8048_decode d ty ((o :: nb) ++ m') addr size = Val r.
Proof.
  intros FM NE H E. rewrite decode_eq in H.
  destruct (decode_accepts d pfx F _ _ n 2 P0 START GOOD LEN ltac:(lia) mem addr size r FM NE H E)
    as (CA & p & o & nb & m & [->|PP] & BP & BO & EM & L & RI & Q & FR); [|discriminate].
  destruct RD as (_ & _ & AW). rewrite AW in CA. split; [exact CA|]. exists o, nb, m. auto 10.
Qed.
Lemma canon_code addr bs : i_code (canon addr bs) = bs.
Proof. unfold i_code, canon. cbn [i_len i_bytes]. rewrite Nat2Z.id, firstn_app, firstn_all, Nat.sub_diag. cbn [firstn]. now rewrite app_nil_r. Qed.
Lemma i8048_round mem addr size r a indent gap b rest :
  Forall byte mem -> mem <> [] -> i8048_decode d ty mem addr size = Val r -> i_err (r_insn r) = OK ->
  a_pl a = pl_intel -> a_radix a = 10 -> a_aw a = 12 -> 0 <= addr < 2^32 -> addr + Z.of_nat (length (i_code (r_insn r))) <= 4096 ->
  blanks indent -> blanks gap -> gap <> [] \/ r_operands r = [] -> blanks b -> last_rest rest ->
  i8048_encode ty a (indent ++ r_name r ++ gap ++ r_operands r ++ b ++ rest) addr = Val (L_insn (r_insn r) rest).
Proof.
  intros FM NE H E PL RX AW AR IN BI BG NG BB LR. destruct (i8048_accepts mem addr size r FM NE H E) as (CA & o & nb & m & BO & _ & _ & RI & Q & _).
  destruct (chain_two ty o (da_uppercase d) (mkH (Some (da_uppercase d)) addr [o] []) (r_operands r) nb (r_name r) T BO eq_refl Q) as (nm & K1 & K2 & CK & NM & TH).
  rewrite RI, ?canon_code in *. rewrite NM. apply (encode_ok (da_uppercase d) ty o nm K1 K2); auto.
  apply C31_addr in CA; [|lia|exact AR]. change (2^12) with 4096 in CA. lia.
Qed.
End Whole.
