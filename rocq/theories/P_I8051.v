(** The 8051: proof of the round trip. *)
From Coq Require Import String ZArith List Bool Lia ZifyBool.
From Verif Require Import M_Char M_Error M_Value M_Text M_StrBuffer M_Format M_Number M_Insn M_Config M_Operators
  M_Parsers M_Expr M_Directive M_Table T_Tables M_Asm M_Dis M_I8051Defs T_I8051 M_I8051
  S_Value S_Number S_Expr S_ExprTree S_Table P_StrBuffer P_Number P_NumberRead
  P_ExprRead P_ExprTree P_ExprCase P_Table P_Insn P_Config P_Value P_Directive P_AsmText P_CpuShape P_CpuGood P_CpuText P_Dot.
Import ListNotations.
Open Scope string_scope.
Open Scope list_scope.
Local Open Scope Z_scope.

Definition reads_as (d : disasm) : Prop := da_symtab d = None /\ da_reads d np_intel /\ da_aw d = 16 /\
  (da_relative d = true -> da_cursym d = 36).
Lemma i8051_reads uh uc oc rel cs ih cur : (rel = true -> cur = 36) -> reads_as (i8051_dis uh uc oc rel cs ih cur None).
Proof.
  intros H. split; [reflexivity|]. split; [|split; [reflexivity|exact H]].
  apply all_reads, universal_reads; [cbn; auto|]. unfold da_formatter, i8051_dis. cbn [da_cstyle da_intelhex da_plug].
  destruct cs, ih; auto.
Qed.

(* ------------------------------------------------------------ what is printed *)
Inductive kind := K_none | K_name (r : Z) | K_ind (r : Z) | K_idx (r : Z) | K_imm8 | K_imm16 | K_adr8 (opc : Z) | K_a11 (h : Z) | K_adr16 |
  K_bit (neg : bool) | K_rel.
Definition kind_of (opc mode : Z) : kind :=
  if mode =? M_REL then K_rel
  else if mode =? M_AREG then K_name REG_A
  else if mode =? M_RREG then K_name (Z.land opc 7)
  else if mode =? M_IDIRR then K_ind (Z.land opc 1)
  else if mode =? M_CREG then K_name REG_C
  else if mode =? M_IDIRD then K_ind REG_DPTR
  else if mode =? M_DREG then K_name REG_DPTR
  else if mode =? M_ABREG then K_name REG_AB
  else if mode =? M_ADR8 then K_adr8 opc
  else if mode =? M_ADR11 then K_a11 (Z.land opc 0xE0)
  else if mode =? M_ADR16 then K_adr16
  else if mode =? M_NOTAD then K_bit true
  else if mode =? M_BITAD then K_bit false
  else if mode =? M_IMM8 then K_imm8
  else if mode =? M_IMM16 then K_imm16
  else if mode =? M_INDXD then K_idx REG_DPTR
  else if mode =? M_INDXP then K_idx REG_PC
  else K_none.
Definition kwidth (K : kind) : nat :=
  match K with K_none | K_name _ | K_ind _ | K_idx _ => 0 | K_imm8 | K_adr8 _ | K_a11 _ | K_bit _ | K_rel => 1 | K_imm16 | K_adr16 => 2 end.
Definition num := numeral np_intel.
Definition reg_text (r : Z) : text := match name_of r REG_ENTRIES with Some t => t | None => [] end.
(* the address of AJMP and ACALL, with [h] the high bits of the opcode, before the address [z] *)
Definition jump11 (h x z : Z) : Z := Z.lor (Z.lor (Z.land z 0xF800) (Z.shiftl h 3)) x.
(* the byte that holds the bit *)
Definition bit_byte (x : Z) : Z := u8 (if negb (Z.land x 0x80 =? 0) then Z.ldiff x 7 else Z.shiftr x 3 + 0x20).
(* the operand of kind [K], with the value [v], in the case [k], after the bytes [bs] of the instruction at [addr] *)
Definition piece (d : disasm) (K : kind) (k : option bool) (addr : Z) (bs : list Z) (t : text) (nb : list Z) (v : Z) : Prop :=
  match K with
  | K_none => t = [] /\ nb = [] /\ v = 0
  | K_name r => t = map (conv k) (reg_text r) /\ nb = [] /\ v = 0
  | K_ind r => t = 64 :: map (conv k) (reg_text r) /\ nb = [] /\ v = 0
  | K_idx r => t = 64 :: map (conv k) (reg_text REG_A) ++ 43 :: map (conv k) (reg_text r) /\ nb = [] /\ v = 0
  | K_imm8 => exists u, num u v /\ nb = [v] /\ byte v /\ t = 35 :: u
  | K_imm16 => exists hi lo u, nb = [hi; lo] /\ byte hi /\ byte lo /\ v = 256 * hi + lo /\ num u v /\ t = 35 :: u
  | K_adr8 o => num t v /\ nb = [v] /\ byte v /\ invalidDirect o v = false
  | K_a11 h => exists x, nb = [x] /\ byte x /\ v = jump11 h x (u32 (addr + Z.of_nat (length bs) + 1)) /\ num t v
  | K_adr16 => exists hi lo, nb = [hi; lo] /\ byte hi /\ byte lo /\ v = 256 * hi + lo /\ num t v
  | K_bit neg => exists u w, nb = [v] /\ byte v /\ num u (bit_byte v) /\ num w (Z.land v 7) /\ t = (if neg then [47] else []) ++ u ++ 46 :: w
  | K_rel => exists x, nb = [x] /\ byte x /\ v = u32 (u32 (addr + Z.of_nat (length bs) + 1) + int8 x) /\ checkAddr 16 v false = OK /\
      (0 <= addr < 2^16 -> (length bs <= 8)%nat -> place_text np_intel 36 addr t v)
  end.
Definition R_piece (d : disasm) (K : kind) : rel := fun h t nb nm' =>
  nm' = h_nm h /\ exists v, piece d K (h_case h) (h_addr h) (h_bs h) t nb v.
Ltac rel_out := cbn [h_case h_addr h_bs h_nm] in *.
Lemma reg_out r b : outRegName r b = out_text (reg_text r) b.
Proof. unfold outRegName, reg_text. now destruct (name_of r REG_ENTRIES). Qed.
Lemma good_reg d r : good 0 (R_piece d (K_name r)) (fun s => Val (t_put (outRegName r) s)).
Proof.
  eapply good_weaken; [apply le_n| |apply (good_put _ (reg_text r)); intros; apply reg_out].
  intros h t nb nm' (-> & -> & ->). split; [reflexivity|]. exists 0. cbn [piece]. auto.
Qed.
Lemma good_letter c : is_alpha c = false -> good 0 (R_text (fun _ t => t = [c])) (fun s => Val (t_put (letter c) s)).
Proof.
  intros A. eapply good_weaken; [apply le_n| |apply (good_put _ [c]); intros; apply letter_text].
  intros h t nb nm' (-> & -> & ->). split; [reflexivity|]. split; [reflexivity|]. cbn [map]. now rewrite plain_symbol.
Qed.
Lemma good_ind d r : good 0 (R_piece d (K_ind r)) (fun s => Val (t_put (outRegName r) (t_put (letter 64) s))).
Proof.
  apply (good_ext _ _ (fun s => bind (Val (t_put (letter 64) s)) (fun s => Val (t_put (outRegName r) s)))); [reflexivity|].
  eapply good_weaken; [apply le_n| |apply (good_seq 0 0 _ _ _ _ (good_letter 64 eq_refl) (good_reg d r))].
  intros h t nb nm' (t1 & t2 & n1 & n2 & nm1 & -> & -> & (-> & -> & ->) & -> & v & -> & -> & ->). rel_out.
  split; [reflexivity|]. exists 0. cbn [piece app]. auto.
Qed.
Lemma good_idx d r : good 0 (R_piece d (K_idx r)) (fun s => Val (t_put (fun out => outRegName r (letter 43 (outRegName REG_A (letter 64 out)))) s)).
Proof.
  eapply good_weaken; [apply le_n| |apply (good_put _ (64 :: reg_text REG_A ++ 43 :: reg_text r))].
  - intros h t nb nm' (-> & -> & ->). split; [reflexivity|]. exists 0. cbn [piece map]. rewrite map_app. cbn [map]. rewrite (plain_symbol 64), (plain_symbol 43) by reflexivity. auto.
  - intros b. rewrite !reg_out, !letter_text, <- !out_text_app. reflexivity.
Qed.
Lemma good_imm8 d : reads_as d -> good 1 (R_piece d K_imm8)
  (fun s => let s := t_put (letter 35) s in let '(v, s) := t_byte s in t_print (dis_outHex d v 8 true) s).
Proof.
  intros (SY & RD & AW & _).
  apply (good_ext _ _ (fun s => bind (Val (t_put (letter 35) s)) (fun s => let '(v, s) := t_byte s in t_print (dis_outHex d v 8 true) s))); [reflexivity|].
  eapply good_weaken; [apply le_n| |apply (good_seq 0 1 (R_text (fun _ t => t = [35])) (R_byte (fun v => R_num np_intel v)))].
  - intros h t nb nm' (t1 & t2 & n1 & n2 & nm1 & -> & -> & (-> & -> & ->) & (v & nb' & -> & B & -> & -> & N)). rel_out.
    split; [reflexivity|]. exists v, t2. cbn [app]. auto.
  - now apply good_letter.
  - apply (good_byte 0 (fun v => R_num np_intel v)); intros v; [intros V; apply good_hex; auto; unfold byte in *; lia|apply keeps_print|apply frame_print].
Qed.
Lemma good_word d : reads_as d -> good 2 (R_piece d K_adr16) (fun s => let '(v, s) := t_uint16Be s in t_print (outAbsAddr d v 0) s).
Proof.
  intros (SY & RD & AW & _).
  eapply good_weaken; [apply le_n| |apply (good_be 0 (fun v => R_num np_intel v))].
  - intros h t nb nm' (hi & lo & nb' & -> & BH & BL & -> & -> & N). rel_out. split; [reflexivity|]. exists (256 * hi + lo), hi, lo. auto 10.
  - intros v V. apply (good_abs d np_intel v 0 16); auto; rewrite ?AW; cbn [Z.eqb]; lia.
  - intros v. apply keeping_print.
Qed.
Lemma good_imm16 d : reads_as d -> good 2 (R_piece d K_imm16)
  (fun s => let s := t_put (letter 35) s in let '(v, s) := t_uint16Be s in t_print (outAbsAddr d v 0) s).
Proof.
  intros RA.
  apply (good_ext _ _ (fun s => bind (Val (t_put (letter 35) s)) (fun s => let '(v, s) := t_uint16Be s in t_print (outAbsAddr d v 0) s))); [reflexivity|].
  eapply good_weaken; [apply le_n| |apply (good_seq 0 2 _ _ _ _ (good_letter 35 eq_refl) (good_word d RA))].
  intros h t nb nm' (t1 & t2 & n1 & n2 & nm1 & -> & -> & (-> & -> & ->) & -> & v & hi & lo & -> & BH & BL & -> & N). rel_out.
  split; [reflexivity|]. exists (256 * hi + lo), hi, lo, t2. cbn [app]. auto 10.
Qed.
Lemma noerr_t s : t_setErrorIf OK s = s.
Proof. destruct s as [[? ? e] ? ?]. unfold t_setErrorIf, t_seterr, setErrorIfAt. cbn. now rewrite andb_false_r. Qed.
Lemma good_adr8 d o : reads_as d -> good 1 (R_piece d (K_adr8 o))
  (fun s => let '(addr, s) := t_byte s in t_print (outAbsAddr d addr 8) (if invalidDirect o addr then t_setErrorIf OPERAND_NOT_ALLOWED s else s)).
Proof.
  intros (SY & RD & AW & _).
  set (er := fun v => if invalidDirect o v then OPERAND_NOT_ALLOWED else OK).
  set (g := fun v s => bind (Val (t_setErrorIf (er v) s)) (t_print (outAbsAddr d v 8))).
  apply (good_ext _ _ (fun s => let '(v, s) := t_byte s in g v s)).
  { intros s. destruct (t_byte s) as [v s1]. unfold g, er. cbn [bind]. destruct (invalidDirect o v); [reflexivity|]. now rewrite noerr_t. }
  eapply good_weaken; [apply le_n| |apply (good_byte 0 (fun v => R_seq (R_check (er v)) (R_num np_intel v)) g)].
  - intros h t nb nm' (v & nb' & -> & B & t1 & t2 & n1 & n2 & nm1 & -> & -> & (E & -> & -> & ->) & -> & -> & N). rel_out. split; [reflexivity|].
    exists v. cbn [piece app]. unfold er in E. destruct (invalidDirect o v); [discriminate|auto].
  - intros v V. apply (good_seq 0 0); [apply good_check|]. apply (good_abs d np_intel v 8 8); auto; unfold byte in *; lia.
  - intros v. apply keeps_seq; [apply (g_keeps _ _ _ (good_check (er v)))|apply keeps_print].
  - intros v. apply (keeping_seq (fun s => Val (t_setErrorIf (er v) s))); [eapply keeping_of, good_check|apply keeping_print].
Qed.

(* ------------------------------------------------------------ AJMP and ACALL *)
Lemma land_mid z n k : 0 <= n -> 0 <= k -> Z.land z (Z.shiftl (Z.ones k) n) = (z / 2^n) mod 2^k * 2^n.
Proof.
  intros N K. rewrite <- Z.land_ones, <- Z.shiftr_div_pow2, <- Z.shiftl_mul_pow2 by lia. apply Z.bits_inj'. intros i I.
  rewrite Z.land_spec, !Z.shiftl_spec, Z.land_spec by lia. destruct (Z.ltb_spec i n).
  - rewrite !(Z.testbit_neg_r _ (i - n)) by lia. now rewrite andb_false_r.
  - rewrite Z.shiftr_spec by lia. now replace (i - n + n) with i by lia.
Qed.
Lemma high_bits o : byte o -> exists q, Z.land o 0xE0 = 32 * q /\ 0 <= q < 8.
Proof.
  intros O. exists ((o / 32) mod 8). change 0xE0 with (Z.shiftl (Z.ones 3) 5). rewrite land_mid by lia. change (2^3) with 8. change (2^5) with 32.
  pose proof (Z.mod_pos_bound (o / 32) 8). lia.
Qed.
Lemma jump11_val h x z q : h = 32 * q -> 0 <= q < 8 -> byte x -> jump11 h x z = 2048 * ((z / 2048) mod 32) + 256 * q + x.
Proof.
  intros -> Q X. unfold jump11. change 0xF800 with (Z.shiftl (Z.ones 5) 11). rewrite land_mid by lia. change (2^11) with 2048. change (2^5) with 32.
  set (B := (z / 2048) mod 32). rewrite (Z.shiftl_mul_pow2 (32 * q)) by lia. change (2^3) with 8.
  replace (B * 2048) with (Z.shiftl B 11) by (rewrite Z.shiftl_mul_pow2 by lia; reflexivity).
  rewrite lor_sh by lia. replace (B * 2^11 + 32 * q * 8) with (Z.shiftl (8 * B + q) 8) by (rewrite Z.shiftl_mul_pow2 by lia; change (2^8) with 256; change (2^11) with 2048; lia).
  rewrite lor_sh by (unfold byte in X; lia). change (2^8) with 256. lia.
Qed.
Lemma jump11_range o x z : byte o -> byte x -> 0 <= jump11 (Z.land o 0xE0) x z < 65536.
Proof.
  intros O X. destruct (high_bits o O) as (q & E & Q). rewrite (jump11_val _ x z q E Q X). pose proof (Z.mod_pos_bound (z / 2048) 32). unfold byte in *. lia.
Qed.
Lemma keeping_insn g : (forall i, keeping (g i)) -> keeping (fun s => g (d_insn (t_in s)) s).
Proof.
  intros K. split.
  - intros s s'. apply (K (d_insn (t_in s))).
  - intros s s' H E. destruct (proj2 (K (d_insn (t_in s))) s s' H E) as (nb & A & C). exists nb. split; [exact A|]. exact C.
Qed.
Lemma good_a11 d o : reads_as d -> byte o -> good 1 (R_piece d (K_a11 (Z.land o 0xE0)))
  (fun s => let '(v, s) := t_byte s in let i := d_insn (t_in s) in t_print (outAbsAddr d (jump11 (Z.land o 0xE0) v (u32 (i_addr i + i_len i))) 0) s).
Proof.
  intros (SY & RD & AW & _) O.
  set (tg := fun v (i : insn) => jump11 (Z.land o 0xE0) v (u32 (i_addr i + i_len i))).
  eapply good_weaken; [apply le_n| |apply (good_byte 0 (fun v => R_insn (fun i => R_num np_intel (tg v i))) (fun v s => (fun i => t_print (outAbsAddr d (tg v i) 0)) (d_insn (t_in s)) s))].
  2:{ intros v V. apply (good_insn 0 (fun i => R_num np_intel (tg v i)) (fun i => t_print (outAbsAddr d (tg v i) 0))). intros i. apply (good_abs d np_intel (tg v i) 0 16); auto; rewrite ?AW; cbn [Z.eqb]; try lia. now apply jump11_range. }
  2,3: intros v; apply (keeping_insn (fun i => t_print (outAbsAddr d (tg v i) 0))); intros i; apply keeping_print.
  intros h t nb nm' (v & nb' & -> & B & -> & -> & N). rel_out. split; [reflexivity|]. exists (tg v (canon (h_addr h) (h_bs h ++ [v]))), v.
  split; [reflexivity|]. split; [exact B|]. split; [|exact N]. unfold tg, canon. cbn [i_addr i_len]. rewrite app_length. cbn [length]. do 2 f_equal. lia.
Qed.
Lemma seven v : 0 <= Z.land v 7 < 2^3.
Proof. change 7 with (Z.ones 3). rewrite Z.land_ones by lia. apply Z.mod_pos_bound. lia. Qed.
Lemma bit_byte_range v : 0 <= bit_byte v < 2^8.
Proof. unfold bit_byte, u8. apply Z.mod_pos_bound. lia. Qed.
Lemma good_bit d mode neg : reads_as d -> neg = (mode =? M_NOTAD) -> good 1 (R_piece d (K_bit neg)) (decodeBitAddr d mode).
Proof.
  intros (SY & RD & AW & _) EN.
  set (g := fun v s => bind (t_print (outAbsAddr d (bit_byte v) 8) s) (fun s => bind (Val (t_put (letter 46) s)) (t_print (dis_outHex d (Z.land v 7) 3 true)))).
  set (f := fun s => if neg then Val (t_put (letter 47) s) else Val s).
  apply (good_ext _ _ (fun s => bind (f s) (fun s => let '(v, s) := t_byte s in g v s))).
  { intros s. unfold decodeBitAddr, f, g. rewrite <- EN. destruct neg; cbn [bind]; destruct (t_byte _) as [v s1]; reflexivity. }
  assert (GF : good 0 (R_text (fun _ t => t = if neg then [47] else [])) f).
  { unfold f. destruct neg; [now apply good_letter|]. eapply good_weaken; [apply le_n| |apply good_none]. intros h t nb nm' (-> & -> & ->). repeat split. }
  assert (GG : forall v, good 0 (R_seq (R_num np_intel (bit_byte v)) (R_seq (R_text (fun _ t => t = [46])) (R_num np_intel (Z.land v 7)))) (g v)).
  { intros v. apply (good_seq 0 0); [apply (good_abs d np_intel _ 8 8); auto; [apply bit_byte_range|lia]|].
    apply (good_seq 0 0 _ _ (fun s => Val (t_put (letter 46) s))); [now apply good_letter|]. apply good_hex; auto; [apply seven|lia]. }
  eapply good_weaken; [apply le_n| |apply (good_seq 0 1 _ _ _ _ GF (good_byte' 0 _ g GG))].
  intros h t nb nm' (t1 & t2 & n1 & n2 & nm1 & -> & -> & (-> & -> & ->) & (v & nb' & -> & B & t3 & t4 & n3 & n4 & nm2 & -> & -> & (-> & -> & N1) & t5 & t6 & n5 & n6 & nm3 & -> & -> & (-> & -> & ->) & -> & -> & N2)). rel_out.
  split; [reflexivity|]. exists v, t3, t6. cbn [app]. auto 10.
Qed.
Lemma good_branch d : reads_as d -> good 1 (R_piece d K_rel) (decodeRelative d).
Proof.
  intros (SY & RD & AW & CS).
  set (tg := fun v (i : insn) => u32 (u32 (i_addr i + i_len i) + int8 v)).
  apply (good_ext _ _ (fun s => let '(v, s) := t_byte s in let i := d_insn (t_in s) in
      t_print (outRelAddr d (tg v i) (i_addr i) 8) (t_setErrorIf (checkAddr (da_aw d) (tg v i) false) s))).
  { intros s. unfold decodeRelative. now destruct (t_byte s). }
  eapply good_weaken; [apply le_n| |apply (good_branch8 d np_intel 36 tg SY RD)].
  - intros h t nb nm' (-> & x & -> & B & CK & P). split; [reflexivity|]. rewrite AW in *. unfold tg in *. cbn [canon i_addr i_len] in *.
    replace (h_addr h + Z.of_nat (length (h_bs h ++ [x]))) with (h_addr h + Z.of_nat (length (h_bs h)) + 1) in * by (rewrite app_length; cbn [length]; lia).
    exists (u32 (u32 (h_addr h + Z.of_nat (length (h_bs h)) + 1) + int8 x)), x. split; [reflexivity|]. split; [exact B|]. split; [reflexivity|]. split; [exact CK|]. intros AR LB.
    apply P; [exact AR|]. destruct (rel_target (h_addr h + Z.of_nat (length (h_bs h)) + 1) x ltac:(lia) CK) as (-> & _). pose proof (int8_range x). lia.
  - rewrite AW. lia.
  - exact CS.
  - reflexivity.
  - intros v i. unfold tg, u32. apply Z.mod_pos_bound. lia.
Qed.
Lemma good_operand d o mode : reads_as d -> byte o -> good (kwidth (kind_of o mode)) (R_piece d (kind_of o mode)) (decodeOperand d o mode).
Proof.
  intros RA O. unfold decodeOperand, kind_of.
  destruct (mode =? M_REL); [now apply good_branch|].
  destruct (mode =? M_AREG); [apply good_reg|].
  destruct (mode =? M_RREG) eqn:MR.
  { cbn [orb]. apply Z.eqb_eq in MR. subst mode. apply good_reg. }
  destruct (mode =? M_IDIRR) eqn:MI.
  { cbn [orb]. apply Z.eqb_eq in MI. subst mode. apply good_ind. }
  cbn [orb]. destruct (mode =? M_CREG); [apply good_reg|].
  destruct (mode =? M_IDIRD); [apply good_ind|].
  destruct (mode =? M_DREG); [apply good_reg|].
  destruct (mode =? M_ABREG); [apply good_reg|].
  destruct (mode =? M_ADR8) eqn:A8.
  { cbn [orb]. apply (good_ext _ _ (fun s => let '(addr, s) := t_byte s in t_print (outAbsAddr d addr 8) (if invalidDirect o addr then t_setErrorIf OPERAND_NOT_ALLOWED s else s))); [|now apply good_adr8].
    intros s. unfold decodeAddress. now rewrite A8. }
  destruct (mode =? M_ADR11) eqn:A11.
  { cbn [orb]. eapply good_ext; [|now apply (good_a11 d o)]. intros s. unfold decodeAddress. now rewrite A8, A11. }
  destruct (mode =? M_ADR16) eqn:A16.
  { cbn [orb]. eapply good_ext; [|now apply good_word]. intros s. unfold decodeAddress. now rewrite A8, A11. }
  cbn [orb]. destruct (mode =? M_NOTAD) eqn:NA.
  { cbn [orb]. apply good_bit; auto. }
  destruct (mode =? M_BITAD) eqn:BA.
  { cbn [orb]. apply good_bit; auto. }
  cbn [orb]. destruct (mode =? M_IMM8) eqn:I8.
  { cbn [orb]. eapply good_ext; [|now apply good_imm8]. intros s. unfold decodeImmediate. now rewrite I8. }
  destruct (mode =? M_IMM16) eqn:I16.
  { cbn [orb]. eapply good_ext; [|now apply good_imm16]. intros s. unfold decodeImmediate. now rewrite I8. }
  cbn [orb]. destruct (mode =? M_INDXD); [apply good_idx|].
  destruct (mode =? M_INDXP); [apply good_idx|].
  eapply good_weaken; [apply le_n| |apply good_none]. intros h t nb nm' (-> & -> & ->). split; [reflexivity|]. exists 0. cbn. auto.
Qed.

(* ------------------------------------------------------------ a whole instruction *)
Definition look (o : Z) : option entry := match find_opcode o with Val r => r | _ => None end.
Definition swapped (e : entry) : bool := (e_m1 e =? M_ADR8) && (e_m2 e =? M_ADR8).
Definition look_ok (o : Z) : bool :=
  match find_opcode o with
  | Val None => true
  | Val (Some e) => (negb (e_m1 e =? M_NONE) || (e_m2 e =? M_NONE)) && (negb (e_m2 e =? M_NONE) || (e_m3 e =? M_NONE)) &&
      (negb (swapped e) || (e_m3 e =? M_NONE) && negb (o =? 0xE5)) &&
      (kwidth (kind_of o (e_m1 e)) + kwidth (kind_of o (e_m2 e)) + kwidth (kind_of o (e_m3 e)) <=? 2)%nat
  | _ => false
  end.
Lemma look_check : forallb look_ok all_bytes = true.
Proof. vm_compute. reflexivity. Qed.
Lemma look_at o : byte o -> look_ok o = true.
Proof. intros O. pose proof look_check as H. rewrite forallb_forall in H. apply H, all_in, O. Qed.
Definition more_op (d : disasm) (o mode : Z) : step :=
  if mode =? M_NONE then fun s => Val s else fun s => bind (Val (t_put comma s)) (decodeOperand d o mode).
(* MOV of an address to an address: the bytes are not in the order of the text *)
Definition mov (d : disasm) : step := fun s =>
  let '(src, s) := t_byte s in
  let '(dst, s) := t_byte s in
  bind (t_print (outAbsAddr d dst 8) s) (fun s => bind (Val (t_put comma s)) (t_print (outAbsAddr d src 8))).
Definition R_mov : rel := fun h t nb nm' => nm' = h_nm h /\ exists src dst t1 t2, nb = [src; dst] /\ byte src /\ byte dst /\ num t1 dst /\ num t2 src /\ t = t1 ++ [44; 32] ++ t2.
Definition chain (d : disasm) (o : Z) : step :=
  match look o with
  | None => fun s => Val (t_setErrorIf UNKNOWN_INSTRUCTION s)
  | Some e =>
    if swapped e then fun s => bind (Val (t_readName (entry_name e) s)) (mov d)
    else fun s => bind (Val (t_readName (entry_name e) s)) (fun s => bind (decodeOperand d o (e_m1 e) s) (fun s => bind (more_op d o (e_m2 e) s) (more_op d o (e_m3 e))))
  end.
Definition decode_opcode (d : disasm) (opc : Z) : step := fun s =>
  bind (find_opcode opc) (fun r =>
    let s := t_seterr OK s in
    match r with
    | None => Val (t_setErrorIf UNKNOWN_INSTRUCTION s)
    | Some e =>
      let s := t_readName (entry_name e) s in
      if (e_m1 e =? M_ADR8) && (e_m2 e =? M_ADR8) then
        let '(src8, s) := t_byte s in
        let '(dst8, s) := t_byte s in
        bind (t_print (outAbsAddr d dst8 8) s) (fun s => t_print (outAbsAddr d src8 8) (t_put comma s))
      else if e_m1 e =? M_NONE then Val s
      else
        bind (decodeOperand d opc (e_m1 e) s) (fun s =>
          if e_m2 e =? M_NONE then Val s
          else
            bind (decodeOperand d opc (e_m2 e) (t_put comma s)) (fun s =>
              if e_m3 e =? M_NONE then Val s
              else decodeOperand d opc (e_m3 e) (t_put comma s)))
    end).
Lemma chain_start d o s : byte o -> decode_opcode d o s = chain d o (t_seterr OK s).
Proof.
  intros O. pose proof (look_at o O) as LO. unfold decode_opcode, chain, look, look_ok in *. cbv zeta.
  destruct (find_opcode o) as [[e|]| | | |]; try discriminate; cbn [bind]; [|reflexivity].
  rewrite !andb_true_iff in LO. destruct LO as (((L1 & L2) & _) & _). unfold swapped. destruct (_ && _); [reflexivity|].
  unfold more_op. destruct (Z.eqb_spec (e_m1 e) M_NONE) as [->|N]; cbn [negb orb] in L1.
  - rewrite L1 in *. cbn [negb orb] in L2. rewrite L2. reflexivity.
  - cbn [bind]. destruct (decodeOperand _ _ _ _) as [s1| | | |]; try reflexivity. cbn [bind]. destruct (e_m2 e =? M_NONE); cbn [negb orb bind] in *.
    + now rewrite L2.
    + destruct (decodeOperand _ _ _ _) as [s2| | | |]; try reflexivity. cbn [bind]. now destruct (e_m3 e =? M_NONE).
Qed.
Definition R_more (d : disasm) (o mode : Z) : rel :=
  if mode =? M_NONE then R_none else R_seq (R_text (fun _ t => t = [44; 32])) (R_piece d (kind_of o mode)).
Definition R_chain (d : disasm) (o : Z) : rel := fun h t nb nm' => exists e, look o = Some e /\
  if swapped e then R_seq (R_name (entry_name e)) R_mov h t nb nm'
  else R_seq (R_name (entry_name e)) (R_seq (R_piece d (kind_of o (e_m1 e))) (R_seq (R_more d o (e_m2 e)) (R_more d o (e_m3 e)))) h t nb nm'.
Definition n_chain (o : Z) : nat :=
  match look o with
  | Some e => if swapped e then 2 else kwidth (kind_of o (e_m1 e)) + (kwidth (kind_of o (e_m2 e)) + kwidth (kind_of o (e_m3 e)))
  | None => 0
  end.
Lemma good_mov d : reads_as d -> good 2 R_mov (mov d).
Proof.
  intros (SY & RD & AW & _).
  set (h2 := fun src dst s => bind (t_print (outAbsAddr d dst 8) s) (fun s => bind (Val (t_put comma s)) (t_print (outAbsAddr d src 8)))).
  assert (KH : forall src dst, keeping (h2 src dst)).
  { intros src dst. apply keeping_seq; [apply keeping_print|]. apply (keeping_seq (fun s => Val (t_put comma s))); [eapply keeping_of, good_comma|apply keeping_print]. }
  assert (G2 : forall src, byte src -> good 1 (R_byte (fun dst => R_seq (R_num np_intel dst) (R_seq (R_text (fun _ t => t = [44; 32])) (R_num np_intel src)))) (fun s => let '(dst, s) := t_byte s in h2 src dst s)).
  { intros src BS. apply good_byte; [|intros v; apply KH..]. intros dst BD. apply (good_seq 0 0); [apply (good_abs d np_intel dst 8 8); auto; unfold byte in *; lia|].
    apply (good_seq 0 0 _ _ (fun s => Val (t_put comma s))); [apply good_comma|]. apply (good_abs d np_intel src 8 8); auto; unfold byte in *; lia. }
  apply (good_ext _ _ (fun s => let '(src, s) := t_byte s in (fun s => let '(dst, s) := t_byte s in h2 src dst s) s)); [reflexivity|].
  eapply good_weaken; [apply le_n| |apply (good_byte 1 _ (fun src s => let '(dst, s) := t_byte s in h2 src dst s) G2)].
  - intros h t nb nm' (src & nb' & -> & BS & dst & nb2 & -> & BD & t1 & t2 & n1 & n2 & nm1 & -> & -> & (-> & -> & N1) & t3 & t4 & n3 & n4 & nm2 & -> & -> & (-> & -> & ->) & -> & -> & N2).
    rel_out. split; [reflexivity|]. exists src, dst, t1, t4. cbn [app]. auto 10.
  - intros src s s' H E. destruct (t_byte s) as [y s1] eqn:B. pose proof (proj1 (KH src y) _ _ H E) as E1. clear H. rename E1 into H.
    destruct (isOK (d_err (t_in s))) eqn:O; [now apply isOK_e|].
    rewrite (byte_err _ _ _ B) in H; [exact H|]. intros N. rewrite N in O. discriminate.
  - intros src. apply frame_byte; intros; apply KH.
Qed.
Lemma good_more d o mode : reads_as d -> byte o -> good (kwidth (kind_of o mode)) (R_more d o mode) (more_op d o mode).
Proof.
  intros RD O. unfold R_more, more_op. destruct (Z.eqb_spec mode M_NONE) as [->|_].
  - apply good_none.
  - apply (good_seq 0 _ _ _ (fun s => Val (t_put comma s))); [apply good_comma|now apply good_operand].
Qed.
Lemma good_chain d o : reads_as d -> byte o -> good (n_chain o) (R_chain d o) (chain d o).
Proof.
  intros RD O. unfold n_chain, chain, R_chain. destruct (look o) as [e|].
  - destruct (swapped e) eqn:SW.
    + eapply good_weaken; [apply le_n| |apply (good_seq 0 2 _ _ _ _ (good_name (entry_name e)) (good_mov d RD))]. intros h t nb nm' Q. exists e. rewrite SW. auto.
    + pose proof (good_seq 0 _ _ _ _ _ (good_name (entry_name e)) (good_seq _ _ _ _ _ _ (good_operand d o (e_m1 e) RD O) (good_seq _ _ _ _ _ _ (good_more d o (e_m2 e) RD O) (good_more d o (e_m3 e) RD O)))) as G.
      eapply good_weaken; [apply le_n| |exact G]. intros h t nb nm' Q. exists e. rewrite SW. auto.
  - eapply good_weaken; [apply le_n| |apply good_check]. intros h t nb nm' (Q & _). discriminate.
Qed.
Lemma chain_len o : byte o -> (1 + n_chain o <= 3)%nat.
Proof.
  intros O. pose proof (look_at o O) as LO. unfold n_chain, look_ok, look in *. destruct (find_opcode o) as [[e|]| | | |]; try lia. destruct (swapped e); lia.
Qed.

(* ------------------------------------------------------------ reading it back *)
Definition fam51 : family := mkFam pl_intel prefix_intel infix_intel [].
Lemma num_digit u n : num u n -> is_digit (peek u) = true.
Proof. intros N. specialize (N [] Logic.I). rewrite app_nil_r in N. eapply intel_head; [exact N|discriminate]. Qed.
Lemma head_51 u n : num u n -> head_ok fam51 u.
Proof. intros N. left. eapply num_digit, N. Qed.
Lemma parse_place51 a loc t v b rest : a_pl a = pl_intel -> a_radix a = 10 -> 0 <= loc < 2^32 -> 0 <= v < 2^32 ->
  place_text np_intel 36 loc t v -> blanks b -> tail rest ->
  exists b' w, blanks b' /\ parseInteger a loc (t ++ b ++ rest) OK 0 = Val (w, OK, b' ++ rest) /\ int_value w /\ int_of w = v.
Proof.
  intros PL RX LO V P B T.
  assert (T' : rest = [] \/ exists c u, rest = c :: u /\ (c = 44 \/ c = 59 \/ (c = 0 /\ c <> 0))).
  { destruct T as [->|(c & u & -> & C)]; [auto|]. right. exists c, u. tauto. }
  destruct (parse_place fam51 a loc 0 36 [] t v b rest) as (b' & w & X1 & X2 & X3 & X4 & X5); auto.
  all: try apply head_51; try apply Forall_nil; try (cbn; auto 40; fail).
  - intros e I L r. cbn in I. repeat (destruct I as [<-|I]; [cbn in *; try lia; split; discriminate|]). contradiction.
  - exists b', w. split; [exact X1|]. split; [exact X2|]. split; [exact X3|]. exact X4.
Qed.
Lemma tail_skip b rest : blanks b -> tail rest -> skipSpaces (b ++ rest) = rest.
Proof. intros B T. rewrite skip_blanks by exact B. destruct T as [->|(c & u & -> & [->| ->])]; [reflexivity|now apply skip_none..]. Qed.
Lemma tail_nodot b rest : blanks b -> tail rest -> expect_char 46 (b ++ rest) = None /\ peek (skipSpaces (b ++ rest)) <> 46.
Proof.
  intros B T. split.
  - destruct b as [|c b]; cbn [app].
    + destruct T as [->|(c & u & -> & [->| ->])]; reflexivity.
    + inversion B as [|x y C _]; subst. cbn [expect_char]. destruct (Z.eqb_spec c 46) as [->|_]; [discriminate|reflexivity].
  - rewrite tail_skip by assumption. destruct T as [->|(c & u & -> & [->| ->])]; discriminate.
Qed.
Lemma reg_parse s : parseRegName s = parse_name REG_ENTRIES REG_UNDEF s.
Proof. reflexivity. Qed.
Lemma reg_none s : isNameLetter (peek s) = false \/ is_digit (peek s) = true -> parseRegName s = Val (REG_UNDEF, s).
Proof.
  intros [H|H]; unfold parseRegName.
  - unfold searchText, searchSymbol. change s with ([] ++ s) at 1. rewrite (take_app _ [] s eq_refl H). reflexivity.
  - rewrite searchText_digit; [reflexivity|vm_compute; reflexivity|exact H].
Qed.
(* what starts an operand *)
Definition starts (t : text) : Prop := t <> [] /\ is_space (peek t) = false /\ peek t <> 0 /\ peek t <> 59.
Lemma starts_skip b t z : blanks b -> starts t -> skipSpaces (b ++ t ++ z) = t ++ z.
Proof. intros B (N & S & _). rewrite skip_blanks by exact B. destruct t as [|c t]; [congruence|]. cbn [app]. now apply skip_none. Qed.
Lemma starts_eol t z : starts t -> p_eol pl_intel (t ++ z) = (false, t ++ z).
Proof.
  intros ST. change (p_eol pl_intel) with eol_semicolon. unfold eol_semicolon. cbv zeta. pose proof (starts_skip [] t z (Forall_nil _) ST) as SK. cbn [app] in SK. rewrite SK.
  destruct ST as (N & _ & Z0 & Z59). destruct t as [|c t]; [congruence|]. cbn [app peek] in *. apply Z.eqb_neq in Z0, Z59. now rewrite Z0, Z59.
Qed.
Lemma digit_starts c t : is_digit c = true -> starts (c :: t).
Proof. intros D. unfold starts. cbn [peek]. unfold is_digit, is_space in *. repeat split; try discriminate; lia. Qed.
Lemma sign_starts c t : In c [35; 36; 47; 64] -> starts (c :: t).
Proof. intros I. unfold starts. cbn [peek]. cbn in I. repeat (destruct I as [<-|I]; [repeat split; discriminate|]). contradiction. Qed.
(* an address is no register *)
Definition noreg (t : text) : Prop := starts t /\ (forall z, parseRegName (t ++ z) = Val (REG_UNDEF, t ++ z) /\
  expect_char 35 (t ++ z) = None /\ expect_char 47 (t ++ z) = None /\ expect_char 64 (t ++ z) = None).
Lemma place_noreg loc t v : place_text np_intel 36 loc t v -> noreg t.
Proof.
  intros P.
  assert (L : forall u, noreg (36 :: u)).
  { intros u. split; [apply sign_starts; cbn; auto|]. intros z. split; [apply reg_none; left; reflexivity|]. auto. }
  destruct P as [N|[(-> & _)|(u & n & [(-> & _)|(-> & _)] & _)]]; [|apply L..].
  apply num_digit in N. destruct t as [|c t]; [discriminate|]. cbn [peek] in N. split; [now apply digit_starts|]. intros z.
  split; [apply reg_none; right; exact N|]. cbn [app expect_char]. unfold is_digit in N.
  destruct (Z.eqb_spec c 35); [lia|]. destruct (Z.eqb_spec c 47); [lia|]. destruct (Z.eqb_spec c 64); [lia|]. auto.
Qed.
(* names *)
Definition regs : list Z := map snd REG_ENTRIES.
Definition hits (w : text) (r : Z) : bool := match parseRegName w with Val (r', []) => r' =? r | _ => false end && negb (r =? REG_UNDEF).
Definition reg_check (k : bool) (r : Z) : bool :=
  let w := map (conv (Some k)) (reg_text r) in
  word w && negb (is_space (peek w)) && negb (peek w =? 0) && negb (peek w =? 59) && negb (peek w =? 35) && negb (peek w =? 64) && hits w r.
Lemma reg_checks : forallb (fun k => forallb (reg_check k) regs) [false; true] = true.
Proof. vm_compute. reflexivity. Qed.
Lemma reg_read k r z : In r regs -> isNameLetter (peek z) = false ->
  let w := map (conv (Some k)) (reg_text r) in
  starts w /\ parseRegName (w ++ z) = Val (r, z) /\ (r =? REG_UNDEF) = false /\ expect_char 35 (w ++ z) = None /\ expect_char 64 (w ++ z) = None.
Proof.
  intros R Z w. pose proof reg_checks as H. rewrite forallb_forall in H. specialize (H k ltac:(destruct k; cbn; auto)).
  rewrite forallb_forall in H. specialize (H r R). unfold reg_check in H. cbv zeta in H. fold w in H. rewrite !andb_true_iff, !negb_true_iff in H.
  destruct H as ((((((W & S) & Z0) & Z59) & Z35) & Z64) & HT). unfold hits in HT. apply andb_true_iff in HT. destruct HT as (HT & U). apply negb_true_iff in U.
  assert (w <> []) as NW by (intros E; rewrite E in Z0; discriminate).
  split; [split; [exact NW|]; split; [exact S|]; split; lia|]. split.
  { rewrite reg_parse in *. apply name_app; [exact W|exact Z|lia|]. 
 destruct (parse_name REG_ENTRIES REG_UNDEF w) as [[r' [|? ?]]| | | |]; try discriminate.
 apply Z.eqb_eq in HT. now rewrite HT. }
  split; [exact U|]. destruct w as [|c w']; [congruence|]. cbn [app expect_char peek] in *. now rewrite Z35, Z64.
Qed.
(* the operand which is read *)
Definition mode_of (K : kind) : Z :=
  match K with
  | K_none => M_NONE
  | K_name r => if isRReg r then M_RREG else if r =? REG_A then M_AREG else if r =? REG_C then M_CREG else if r =? REG_DPTR then M_DREG else M_ABREG
  | K_ind r => if r =? REG_DPTR then M_IDIRD else M_IDIRR
  | K_idx r => if r =? REG_DPTR then M_INDXD else M_INDXP
  | K_imm8 | K_imm16 => M_IMM16
  | K_adr8 _ | K_a11 _ | K_adr16 | K_rel => M_ADR16
  | K_bit neg => if neg then M_NOTAD else M_BITAD
  end.
Definition reg_of (K : kind) : Z := match K with K_name r | K_ind r => r | K_idx _ => REG_A | _ => REG_UNDEF end.
Definition op_of (K : kind) (w : value) : operand := mkOp (mode_of K) (reg_of K) w OK.
Definition reads (K : kind) (v : Z) (op : operand) : Prop :=
  exists w, op = op_of K w /\ (kwidth K = 0%nat \/ int_value w /\ int_of w = v).
Definition kind_okb (K : kind) : bool :=
  match K with
  | K_name r => existsb (Z.eqb r) [REG_R0; REG_R1; 2; 3; 4; 5; 6; 7; REG_A; REG_C; REG_DPTR; REG_AB]
  | K_ind r => existsb (Z.eqb r) [REG_R0; REG_R1; REG_DPTR]
  | K_idx r => existsb (Z.eqb r) [REG_DPTR; REG_PC]
  | K_a11 h => existsb (Z.eqb h) [0; 32; 64; 96; 128; 160; 192; 224]
  | _ => true
  end.
Lemma in_list x l : existsb (Z.eqb x) l = true -> In x l.
Proof. rewrite existsb_exists. intros (y & I & E). apply Z.eqb_eq in E. now subst. Qed.
Lemma a11_high h : kind_okb (K_a11 h) = true -> exists q, h = 32 * q /\ 0 <= q < 8.
Proof. cbn [kind_okb]. intros H. apply in_list in H. cbn in H. exists (h / 32). repeat (destruct H as [<-|H]; [vm_compute; repeat split; discriminate|]). contradiction. Qed.
Lemma piece_range d K k addr bs t nb v : kind_okb K = true -> piece d K k addr bs t nb v -> 0 <= v < 65536.
Proof.
  intros KO. destruct K; cbn [piece]; unfold byte; intros H; try lia.
  - destruct H as (u & _ & _ & H & _). lia.
  - destruct H as (hi & lo & u & _ & H1 & H2 & -> & _). lia.
  - destruct H as (x & _ & H1 & -> & _). destruct (a11_high _ KO) as (q & E & Q). rewrite (jump11_val h x _ q E Q H1).
    pose proof (Z.mod_pos_bound (u32 (addr + Z.of_nat (length bs) + 1) / 2048) 32 ltac:(lia)). lia.
  - destruct H as (hi & lo & _ & H1 & H2 & -> & _). lia.
  - destruct H as (u & w & _ & H & _). lia.
  - destruct H as (x & _ & _ & -> & CK & _). apply C31_addr in CK; [|lia|unfold u32; apply Z.mod_pos_bound; lia].
    split; [unfold u32; apply Z.mod_pos_bound; lia|]. change 65536 with (2^16). tauto.
Qed.
(* the bits of the addressable bytes *)
Definition bit_check (x : Z) : bool :=
  ((Z.ldiff (bit_byte x) 0x0F =? 0x20) || (Z.ldiff (bit_byte x) 0x78 =? 0x80)) &&
  (Z.lor (if Z.land (bit_byte x) 0x80 =? 0 then Z.shiftl (Z.land (bit_byte x) 0xF) 3 else bit_byte x) (Z.land x 7) =? x).
Lemma bit_checks : forallb bit_check all_bytes = true.
Proof. vm_compute. reflexivity. Qed.
Lemma bit_back x : byte x -> bit_check x = true.
Proof. intros B. pose proof bit_checks as H. rewrite forallb_forall in H. apply H, all_in, B. Qed.
Lemma name_regs r : kind_okb (K_name r) = true -> In r regs.
Proof. cbn [kind_okb]. intros H. apply in_list in H. vm_compute in H |- *. tauto. Qed.
Lemma parse_piece d K k addr bs t nb v a b0 b rest :
  a_pl a = pl_intel -> a_radix a = 10 -> K <> K_none -> kind_okb K = true -> piece d K (Some k) addr bs t nb v -> (length bs <= 8)%nat ->
  0 <= addr < 2^16 -> blanks b0 -> blanks b -> tail rest ->
  starts t /\ exists b' op, blanks b' /\ parseOperand a addr (b0 ++ t ++ b ++ rest) = Val (op, b' ++ rest) /\ reads K v op /\ o_err op = OK.
Proof.
  intros PL RX NK KO P LB AR B0 B T. pose proof (piece_range _ _ _ _ _ _ _ _ KO P) as VR.
  assert (AR' : 0 <= addr < 2^32) by lia.
  assert (PLACE : place_text np_intel 36 addr t v -> (forall w, int_value w -> int_of w = v -> reads K v (mkOp M_ADR16 REG_UNDEF w OK)) ->
     starts t /\ exists b' op, blanks b' /\ parseOperand a addr (b0 ++ t ++ b ++ rest) = Val (op, b' ++ rest) /\ reads K v op /\ o_err op = OK).
  { intros N RDS. destruct (place_noreg addr t v N) as (ST & NR). split; [exact ST|]. destruct (NR (b ++ rest)) as (R0 & N35 & N47 & N64).
    destruct (parse_place51 a addr t v b rest PL RX AR' ltac:(lia) N B T) as (b' & w & B' & PI & IV & IO).
    destruct (tail_nodot b' rest B' T) as (ND & ND').
    exists b', (mkOp M_ADR16 REG_UNDEF w OK). split; [exact B'|]. split; [|split; [now apply RDS|reflexivity]].
    unfold parseOperand. cbv zeta. rewrite (starts_skip b0 _ _ B0 ST), PL, (starts_eol _ _ ST), N35, N64. cbn [andb]. rewrite R0. cbn [bind].
    change (REG_UNDEF =? REG_UNDEF) with true. cbn [negb]. cbv iota. unfold address_operand. rewrite N47.
    pose proof (starts_skip [] t (b ++ rest) (Forall_nil _) ST) as SK. cbn [app] in SK. rewrite SK, (integer_same a addr _ _ _ PL PI ND'). cbn [bind].
    change (hasError OK) with false. cbv iota. rewrite ND. reflexivity. }
  assert (IMM : forall u, t = 35 :: u -> num u v -> (forall w, int_value w -> int_of w = v -> reads K v (mkOp M_IMM16 REG_UNDEF w OK)) ->
     starts t /\ exists b' op, blanks b' /\ parseOperand a addr (b0 ++ t ++ b ++ rest) = Val (op, b' ++ rest) /\ reads K v op /\ o_err op = OK).
  { intros u -> N RDS. assert (ST : starts (35 :: u)) by (apply sign_starts; cbn; auto). split; [exact ST|].
    destruct (parse_place51 a addr u v b rest PL RX AR' ltac:(lia) (or_introl N) B T) as (b' & w & B' & PI & IV & IO).
    exists b', (mkOp M_IMM16 REG_UNDEF w OK). split; [exact B'|]. split; [|split; [now apply RDS|reflexivity]].
    unfold parseOperand. cbv zeta. rewrite (starts_skip b0 _ _ B0 ST), PL, (starts_eol _ _ ST). cbn [app expect_char]. change (35 =? 35) with true. cbv iota. rewrite PI. reflexivity. }
  assert (IND : forall u z, is_space (peek (u ++ z)) = false -> parseOperand a addr (b0 ++ (64 :: u) ++ z) =
    bind (parseRegName (u ++ z)) (fun '(reg, q) => if negb (reg =? REG_UNDEF) then register_operand true reg ((64 :: u) ++ z) q else Val (bad_operand UNKNOWN_OPERAND, (64 :: u) ++ z))).
  { intros u z SP. assert (ST : starts (64 :: u)) by (apply sign_starts; cbn; auto). unfold parseOperand. cbv zeta. rewrite (starts_skip b0 _ _ B0 ST), PL, (starts_eol _ _ ST).
    cbn [app expect_char]. change (64 =? 35) with false. change (64 =? 64) with true. cbv iota. cbn [andb]. rewrite SP. reflexivity. }
  assert (BIT : forall (neg : bool) u w, K = K_bit neg -> byte v -> num u (bit_byte v) -> num w (Z.land v 7) -> t = (if neg then [47] else []) ++ u ++ 46 :: w ->
     starts t /\ exists b' op, blanks b' /\ parseOperand a addr (b0 ++ t ++ b ++ rest) = Val (op, b' ++ rest) /\ reads K v op /\ o_err op = OK).
  { intros neg u w EK BV NU NW ->. pose proof (seven v) as SV. change (2^3) with 8 in SV. pose proof (bit_byte_range v) as BR. change (2^8) with 256 in BR.
    assert (ST : starts ((if neg then [47] else []) ++ u ++ 46 :: w)).
    { destruct neg; [apply sign_starts; cbn; auto|]. apply num_digit in NU. destruct u as [|c u]; [discriminate|]. now apply digit_starts. }
    split; [exact ST|].
    destruct (parse_place51 a addr w (Z.land v 7) b rest PL RX AR' ltac:(lia) (or_introl NW) B T) as (b' & bn & B' & PI & IV & IO).
    pose proof (bit_back v BV) as CK. unfold bit_check in CK. apply andb_true_iff in CK. destruct CK as (CK1 & CK2). apply Z.eqb_eq in CK2.
    exists b', (op_of K (setUnsigned v)). split; [exact B'|]. subst K.
    assert (IVS : int_value (setUnsigned v) /\ int_of (setUnsigned v) = v).
    { unfold byte in BV. apply set_unsigned. lia. }
    split; [|split; [exists (setUnsigned v); auto|reflexivity]].
    destruct (place_noreg addr u (bit_byte v) (or_introl NU)) as (STU & NR).
    set (z := 46 :: w ++ b ++ rest).
    assert (EZ : ((if neg then [47] else []) ++ u ++ 46 :: w) ++ b ++ rest = (if neg then [47] else []) ++ u ++ z) by (unfold z; now rewrite <- !app_assoc).
    destruct (NR z) as (R0 & N35 & N47 & N64).
    unfold parseOperand. cbv zeta. rewrite (starts_skip b0 _ _ B0 ST), PL, (starts_eol _ _ ST), EZ.
    assert (X : expect_char 35 ((if neg then [47] else []) ++ u ++ z) = None /\ expect_char 64 ((if neg then [47] else []) ++ u ++ z) = None /\
      parseRegName ((if neg then [47] else []) ++ u ++ z) = Val (REG_UNDEF, (if neg then [47] else []) ++ u ++ z) /\
      expect_char 47 ((if neg then [47] else []) ++ u ++ z) = if neg then Some (u ++ z) else None).
    { destruct neg; cbn [app]; [|rewrite N47; auto]. split; [reflexivity|]. split; [reflexivity|]. split; [apply reg_none; left; reflexivity|reflexivity]. }
    destruct X as (X1 & X2 & X3 & X4). rewrite X1, X2. cbn [andb]. rewrite X3. cbn [bind]. change (REG_UNDEF =? REG_UNDEF) with true. cbn [negb]. cbv iota.
    pose proof (starts_skip [] u z (Forall_nil _) STU) as SK. cbn [app] in SK.
    pose proof (parse_dot a addr [] u (bit_byte v) (w ++ b ++ rest) PL RX NU (Forall_nil _)) as PD. cbn [app] in PD.
    assert (OV : overflow bn 7 0 = false). { rewrite (over bn (Z.land v 7)) by (auto; lia). destruct (Z.ltb_spec 7 (Z.land v 7)); [lia|reflexivity]. }
    assert (GB : getUnsigned bn = Z.land v 7) by (apply get_unsigned; auto; lia).
    assert (GU : getUnsigned (mkV V_UNSIGNED (bit_byte v)) = bit_byte v) by (apply get_unsigned; try reflexivity; [cbn; lia|lia]).
    unfold address_operand. rewrite X4. unfold z in *. clear X1 X2 X3 X4 EZ. destruct neg; cbv iota beta; cbn [app]; rewrite SK, PD; cbn [bind];
      change (hasError OK) with false; cbv iota; cbn [expect_char]; change (46 =? 46) with true; change (isOK OK) with true; cbv iota; cbv zeta; rewrite PI; cbn [bind];
      change (setErrorIfAt OK OK) with OK; rewrite OV, GB, GU, CK1, CK2; reflexivity. }
  destruct K; cbn [piece] in P; [congruence|..].
  - destruct P as (-> & -> & ->). destruct (reg_read k r (b ++ rest) (name_regs _ KO) (tail_noname _ _ B T)) as (ST & RR & NU & N35 & N64). split; [exact ST|].
    exists b, (op_of (K_name r) v_undef). split; [exact B|]. split; [|split; [exists v_undef; auto|reflexivity]].
    unfold parseOperand. cbv zeta. rewrite (starts_skip b0 _ _ B0 ST), PL, (starts_eol _ _ ST), N35, N64. cbn [andb]. rewrite RR. cbn [bind]. rewrite NU. cbn [negb]. cbv iota.
    cbn [kind_okb] in KO. apply in_list in KO. cbn in KO. repeat (destruct KO as [<-|KO]; [reflexivity|]). contradiction.
  - destruct P as (-> & -> & ->). split; [apply sign_starts; cbn; auto|].
    assert (KO' : In r regs) by (cbn [kind_okb] in KO; apply in_list in KO; vm_compute in KO |- *; tauto).
    destruct (reg_read k r (b ++ rest) KO' (tail_noname _ _ B T)) as (ST & RR & NU & _).
    exists b, (op_of (K_ind r) v_undef). split; [exact B|]. split; [|split; [exists v_undef; auto|reflexivity]].
    rewrite IND; [|destruct ST as (NE & SP & _); destruct (map (conv (Some k)) (reg_text r)); [congruence|exact SP]]. rewrite RR. cbn [bind]. rewrite NU. cbn [negb]. cbv iota.
    cbn [kind_okb] in KO. apply in_list in KO. cbn in KO. repeat (destruct KO as [<-|KO]; [reflexivity|]). contradiction.
  - destruct P as (-> & -> & ->). split; [apply sign_starts; cbn; auto|].
    assert (KO' : In r regs) by (cbn [kind_okb] in KO; apply in_list in KO; vm_compute in KO |- *; tauto).
    destruct (reg_read k r (b ++ rest) KO' (tail_noname _ _ B T)) as (_ & RR & _).
    set (z := map (conv (Some k)) (reg_text r) ++ b ++ rest) in *.
    assert (EZ : (map (conv (Some k)) (reg_text REG_A) ++ 43 :: map (conv (Some k)) (reg_text r)) ++ b ++ rest = map (conv (Some k)) (reg_text REG_A) ++ 43 :: z) by (unfold z; now rewrite <- app_assoc).
    destruct (reg_read k REG_A (43 :: z) ltac:(vm_compute; tauto) eq_refl) as (ST & RA & _).
    exists b, (op_of (K_idx r) v_undef). split; [exact B|]. split; [|split; [exists v_undef; auto|reflexivity]].
    rewrite IND; rewrite EZ; [|destruct ST as (NE & SP & _); destruct (map (conv (Some k)) (reg_text REG_A)); [congruence|exact SP]]. rewrite RA. cbn [bind].
    change (REG_A =? REG_UNDEF) with false. cbn [negb]. cbv iota. unfold register_operand. cbv zeta. change (REG_A =? REG_A) with true. cbn [andb expect_char]. change (43 =? 43) with true. cbv iota.
    rewrite RR. cbn [bind].
    cbn [kind_okb] in KO. apply in_list in KO. cbn in KO. repeat (destruct KO as [<-|KO]; [reflexivity|]). contradiction.
  - destruct P as (u & N & -> & BV & ->). apply (IMM u); auto. intros w IV IO. exists w. auto.
  - destruct P as (hi & lo & u & -> & B1 & B2 & EV & N & ->). apply (IMM u); auto. intros w IV IO. exists w. auto.
  - destruct P as (N & _). apply PLACE; [now left|]. intros w IV IO. exists w. auto.
  - destruct P as (x & _ & _ & _ & N). apply PLACE; [now left|]. intros w IV IO. exists w. auto.
  - destruct P as (hi & lo & _ & _ & _ & _ & N). apply PLACE; [now left|]. intros w IV IO. exists w. auto.
  - destruct P as (u & w & _ & BV & NU & NW & ->). apply (BIT neg u w); auto.
  - destruct P as (x & _ & _ & _ & _ & N). apply PLACE; [now apply N|]. intros w IV IO. exists w. auto.
Qed.

(* ------------------------------------------------------------ bytes *)
Lemma pos51 addr nb e o : ai_operandPos (mkAI (part addr 1 nb) e o) = Z.of_nat (1 + length nb).
Proof. rewrite <- (part_at addr 1 nb). reflexivity. Qed.
Lemma emit8 x z addr nb e o : byte x -> u8 z = x -> (length nb <= 8)%nat ->
  ai_emitOperand8 z (mkAI (part addr 1 nb) e o) = mkAI (part addr 1 (nb ++ [x])) e o.
Proof. intros X U L. unfold ai_emitOperand8. rewrite pos51, U. cbn [ai_insn]. rewrite part_byte; [reflexivity|exact X|lia]. Qed.
Lemma emit16 hi lo z addr nb e o : byte hi -> byte lo -> u16 z = 256 * hi + lo -> (length nb <= 8)%nat ->
  ai_emitOperand16 z (mkAI (part addr 1 nb) e o) = mkAI (part addr 1 (nb ++ [hi; lo])) e o.
Proof. intros X Y U L. unfold ai_emitOperand16. rewrite pos51, U. cbn [ai_insn]. rewrite part_be; [reflexivity|exact X|exact Y|lia]. Qed.
Lemma noerr i e o : ai_setErrorIf OK (mkAI i e o) = mkAI i e o.
Proof. unfold ai_setErrorIf, setErrorIfAt. cbn. now rewrite andb_false_r. Qed.
Lemma block_val z : block z = 2048 * ((z / 2048) mod 32).
Proof.
  unfold block, u16. change 0x7FF with (Z.ones 11). rewrite Z.ldiff_ones_r, Z.shiftl_mul_pow2, Z.shiftr_div_pow2 by lia. change (2^11) with 2048. change (2^16) with (2048 * 32).
  rewrite Z.rem_mul_r, Z.mul_comm by lia. f_equal. rewrite Z.mul_comm, Z_div_plus by lia. rewrite (Z.div_small (z mod 2048)); [lia|]. apply Z.mod_pos_bound. lia.
Qed.
Lemma page_val z : page z = z mod 2048.
Proof.
  unfold page, u16. change 0x7FF with (Z.ones 11). rewrite Z.land_ones by lia. change (2^11) with 2048. change (2^16) with (2048 * 32).
  rewrite Z.rem_mul_r by lia. rewrite Z.mul_comm, Z_mod_plus by lia. apply Z.mod_mod. lia.
Qed.
Lemma embed_check : forallb (fun q => forallb (fun x => Z.land (Z.shiftr (256 * q + x) 3) 0xE0 =? 32 * q) all_bytes) [0; 1; 2; 3; 4; 5; 6; 7] = true.
Proof. vm_compute. reflexivity. Qed.
Lemma embed_bits q x : 0 <= q < 8 -> byte x -> Z.land (Z.shiftr (256 * q + x) 3) 0xE0 = 32 * q.
Proof.
  intros Q X. pose proof embed_check as H. rewrite forallb_forall in H. specialize (H q ltac:(cbn; lia)). rewrite forallb_forall in H. apply Z.eqb_eq, H, all_in, X.
Qed.
Definition fits (K : kind) (m o : Z) : bool :=
  match K with
  | K_none => m =? M_NONE
  | K_name r => (m =? M_RREG) || (m =? M_AREG) || (m =? M_CREG) || (m =? M_DREG) || (m =? M_ABREG)
  | K_ind r => (m =? M_IDIRR) || (m =? M_IDIRD)
  | K_idx r => (m =? M_INDXD) || (m =? M_INDXP)
  | K_imm8 => m =? M_IMM8
  | K_imm16 => m =? M_IMM16
  | K_adr8 opc => (m =? M_ADR8) && (negb (o =? 0xE5) || (opc =? 0xE5))
  | K_a11 h => (m =? M_ADR11) && ((o =? AJMP) || (o =? ACALL))
  | K_adr16 => (m =? M_ADR16) && ((o =? LJMP) || (o =? LCALL))
  | K_bit neg => (m =? if neg then M_NOTAD else M_BITAD) && negb (o =? 0xE5)
  | K_rel => m =? M_REL
  end.
Definition emb (K : kind) (m o : Z) : Z :=
  match K with
  | K_name r | K_ind r => if (m =? M_RREG) || (m =? M_IDIRR) then u8 (Z.lor o (u8 r)) else o
  | K_a11 h => u8 (Z.lor o h)
  | _ => o
  end.
Lemma emit_piece smart d K k addr bs t nb v m op o nb0 :
  piece d K k addr bs t nb v -> kind_okb K = true -> fits K m o = true -> reads K v op ->
  0 <= addr < 2^16 -> (length nb0 <= 4)%nat -> (K = K_rel -> length bs = 1 + length nb0)%nat -> (forall h, K = K_a11 h -> length bs = 1%nat) ->
  (smart = true -> K = K_adr16 -> block (addr + 2) <> block v) ->
  encodeOperand smart m op (mkAI (part addr 1 nb0) OK o) = Val (mkAI (part addr 1 (nb0 ++ nb)) OK (emb K m o)).
Proof.
  intros P KO F (w & -> & RW) AR LN REL A11 SM. pose proof (piece_range _ _ _ _ _ _ _ _ KO P) as VR.
  unfold encodeOperand. cbv zeta. cbn [op_of o_err o_val]. rewrite noerr.
  assert (BASE : u32 (addr + 2) = addr + 2) by (unfold u32; apply Z.mod_small; lia).
  assert (I2 : i_addr (part addr 1 nb0) = addr) by (destruct nb0; reflexivity).
  destruct RW as [W0|(IV & IO)].
  - assert (nb = []) as -> by (destruct K; cbn [kwidth] in W0; try discriminate; cbn [piece] in P; tauto). rewrite app_nil_r.
    destruct K; cbn [kwidth fits emb] in *; try discriminate; rewrite ?orb_true_iff in F.
    + apply Z.eqb_eq in F. subst m. reflexivity.
    + repeat (destruct F as [F|F]; [|]); apply Z.eqb_eq in F; subst m; reflexivity.
    + repeat (destruct F as [F|F]; [|]); apply Z.eqb_eq in F; subst m; reflexivity.
    + repeat (destruct F as [F|F]; [|]); apply Z.eqb_eq in F; subst m; reflexivity.
  - pose proof (get_unsigned w v IV IO ltac:(lia)) as GU.
    assert (OV : 0 <= v <= 255 -> overflow w 255 0 = false /\ overflowUint8 w = false).
    { intros R. unfold overflowUint8. rewrite !(over w v) by (auto; lia). destruct (Z.ltb_spec 255 v); [lia|auto]. }
    destruct K; cbn [kwidth fits emb] in *; cbn [piece] in P.
    + destruct P as (_ & -> & _). apply Z.eqb_eq in F. subst m. now rewrite app_nil_r.
    + destruct P as (_ & -> & _). rewrite app_nil_r. rewrite ?orb_true_iff in F. repeat (destruct F as [F|F]; [|]); apply Z.eqb_eq in F; subst m; reflexivity.
    + destruct P as (_ & -> & _). rewrite app_nil_r. rewrite ?orb_true_iff in F. repeat (destruct F as [F|F]; [|]); apply Z.eqb_eq in F; subst m; reflexivity.
    + destruct P as (_ & -> & _). rewrite app_nil_r. rewrite ?orb_true_iff in F. repeat (destruct F as [F|F]; [|]); apply Z.eqb_eq in F; subst m; reflexivity.
    + destruct P as (u & _ & -> & B & _). unfold byte in B. apply Z.eqb_eq in F. subst m. cbn [Z.eqb M_REL M_RREG M_IDIRR M_IMM8 Pos.eqb orb].
      destruct (OV ltac:(lia)) as (_ & ->). rewrite GU, (emit8 v); [reflexivity|exact B|unfold u8; apply Z.mod_small; exact B|lia].
    + destruct P as (hi & lo & u & -> & BH & BL & EV & _). apply Z.eqb_eq in F. subst m. cbn [Z.eqb M_REL M_RREG M_IDIRR M_IMM8 M_IMM16 M_ADR11 M_ADR16 Pos.eqb orb].
      rewrite GU, (emit16 hi lo); [reflexivity|exact BH|exact BL| |lia]. unfold u16. rewrite Z.mod_small by lia. exact EV.
    + destruct P as (_ & -> & B & ID). unfold byte in B. apply andb_true_iff in F. destruct F as (F & NI). apply Z.eqb_eq in F. subst m.
      cbn [Z.eqb M_REL M_RREG M_IDIRR M_IMM8 M_IMM16 M_ADR11 M_ADR16 M_ADR8 Pos.eqb orb].
      destruct (OV ltac:(lia)) as (-> & _). cbn [ai_opc]. rewrite GU.
      assert (invalidDirect o v = false) as ->.
      { unfold invalidDirect in *. apply orb_true_iff in NI. destruct NI as [NI|NI]; [apply negb_true_iff in NI; now rewrite NI|]. apply Z.eqb_eq in NI. subst opc.
        change (0xE5 =? 0xE5) with true in ID. cbn [andb] in ID. now rewrite ID, andb_false_r. }
      rewrite (emit8 v); [reflexivity|exact B|unfold u8; apply Z.mod_small; exact B|lia].
    + destruct P as (x & -> & BX & EV & _). specialize (A11 h eq_refl). rewrite A11 in EV. change (Z.of_nat 1) with 1 in EV. replace (addr + 1 + 1) with (addr + 2) in EV by lia. rewrite BASE in EV.
      destruct (a11_high _ KO) as (q & EQ & Q). rewrite (jump11_val h x _ q EQ Q BX) in EV. apply andb_true_iff in F. destruct F as (F & FO). apply Z.eqb_eq in F. subst m.
      cbn [Z.eqb M_REL M_RREG M_IDIRR M_IMM8 M_IMM16 M_ADR11 M_ADR16 M_ADR8 Pos.eqb orb].
      set (B := ((addr + 2) / 2048) mod 32) in *. pose proof (Z.mod_pos_bound ((addr + 2) / 2048) 32 ltac:(lia)) as RB. fold B in RB. unfold byte in BX.
      assert (D1 : v / 2048 = B) by (symmetry; apply (Z.div_unique _ _ _ (256 * q + x)); lia).
      assert (D2 : v mod 2048 = 256 * q + x) by (symmetry; apply (Z.mod_unique _ _ B); lia).
      assert (BL : block (addr + 2) = block v) by (rewrite !block_val, D1; fold B; rewrite (Z.mod_small B) by lia; reflexivity).
      assert (SJ : short_jump v (mkAI (part addr 1 nb0) OK o) = mkAI (part addr 1 (nb0 ++ [x])) OK (u8 (Z.lor o h))).
      { unfold short_jump. rewrite page_val, D2, embed_bits by (auto; unfold byte; lia). rewrite <- EQ. unfold ai_embed. cbn [ai_insn ai_err ai_opc].
        rewrite (emit8 x); [reflexivity|exact BX| |lia]. unfold u8. change (2^8) with 256. symmetry. apply (Z.mod_unique _ _ (8 * B + q)); lia. }
      unfold encodeJump. cbv zeta. cbn [ai_insn o_err op_of o_val]. rewrite I2, BASE, GU. change (isOK OK) with true. cbn [negb]. rewrite BL, (Z.eqb_refl (block v)). cbn [negb orb]. change (M_ADR11 =? M_ADR11) with true. change (M_ADR11 =? M_ADR16) with false. cbn [andb].
      f_equal. destruct (smart && _); cbn [negb]; cbv iota; [|exact SJ].
      rewrite <- SJ. f_equal. unfold shortJump. cbn [ai_opc]. apply orb_true_iff in FO. destruct FO as [FO|FO]; apply Z.eqb_eq in FO; subst o; reflexivity.
    + destruct P as (hi & lo & -> & BH & BL & EV & _). apply andb_true_iff in F. destruct F as (F & FO). apply Z.eqb_eq in F. subst m.
      cbn [Z.eqb M_REL M_RREG M_IDIRR M_IMM8 M_IMM16 M_ADR11 M_ADR16 M_ADR8 Pos.eqb orb].
      assert (LJ : long_jump (op_of K_adr16 w) (mkAI (part addr 1 nb0) OK o) = mkAI (part addr 1 (nb0 ++ [hi; lo])) OK o).
      { unfold long_jump. cbn [op_of o_val]. rewrite GU, (emit16 hi lo); [reflexivity|exact BH|exact BL| |lia]. unfold u16. rewrite Z.mod_small by lia. exact EV. }
      unfold encodeJump. cbv zeta. cbn [ai_insn]. change (M_ADR16 =? M_ADR16) with true. change (M_ADR16 =? M_ADR11) with false. cbn [andb]. f_equal.
      destruct smart; cbn [andb negb].
      * assert (maySmartBranch (mkAI (part addr 1 nb0) OK o) = true) as ->.
        { unfold maySmartBranch. cbn [ai_opc]. apply orb_true_iff in FO. destruct FO as [FO|FO]; apply Z.eqb_eq in FO; subst o; reflexivity. }
        cbn [negb]. change (o_err (op_of K_adr16 w)) with OK. change (o_val (op_of K_adr16 w)) with w. change (isOK OK) with true. cbn [negb orb]. rewrite I2, BASE, GU.
        specialize (SM eq_refl eq_refl). apply Z.eqb_neq in SM. rewrite SM. cbn [negb]. rewrite <- LJ. f_equal.
        unfold longJump. cbn [ai_opc]. apply orb_true_iff in FO. destruct FO as [FO|FO]; apply Z.eqb_eq in FO; subst o; reflexivity.
      * exact LJ.
    + destruct P as (u & u' & -> & B & _). unfold byte in B. apply andb_true_iff in F. destruct F as (F & NI). apply negb_true_iff in NI. apply Z.eqb_eq in F. subst m.
      destruct (OV ltac:(lia)) as (OV1 & _). rewrite OV1, GU. cbn [ai_opc]. unfold invalidDirect. rewrite NI. cbn [andb].
      destruct neg; cbn [Z.eqb M_REL M_RREG M_IDIRR M_IMM8 M_IMM16 M_ADR11 M_ADR16 M_ADR8 M_BITAD M_NOTAD Pos.eqb orb];
        (rewrite (emit8 v); [reflexivity|exact B|unfold u8; apply Z.mod_small; exact B|lia]).
    + destruct P as (x & -> & X & EV & CK & _). apply Z.eqb_eq in F. subst m. cbn [Z.eqb M_REL].
      unfold encodeRelative. cbv zeta. cbn [ai_insn ai_err]. change (o_err (op_of K_rel w)) with OK. change (o_val (op_of K_rel w)) with w. change (isOK OK) with true. cbn [negb]. rewrite GU, I2.
      pose proof (part_at addr 1 nb0) as PA. unfold part_pos in PA. change (Z.of_nat 1) with 1 in PA. rewrite PA.
      rewrite REL in EV by reflexivity. set (base := addr + Z.of_nat (1 + length nb0) + 1) in *. assert (BR : 0 <= base < 2^31) by (unfold base; lia).
      rewrite EV in CK. destruct (rel_target base x BR CK) as (TG & TR). rewrite TG in EV.
      replace (u32 base) with base by (unfold u32; symmetry; apply Z.mod_small; lia). pose proof (int8_range x).
      rewrite branch_near by (try change (2^16) with 65536; try change (2^(16-1)) with 32768; lia).
      replace (v - base) with (int8 x) by lia.
      destruct (C30_delta (int8 x) 8 ltac:(lia)) as (far & -> & FAR). assert (far = false) as -> by (apply FAR; change (2^(8-1)) with 128; lia).
      unfold ai_seterr. cbn [ai_insn ai_opc]. rewrite (emit8 x); [reflexivity|exact X| |lia].
      unfold u8. change (2^8) with 256. now apply int8_back.
Qed.

(* ------------------------------------------------------------ every opcode *)
Definition is_none (K : kind) : bool := match K with K_none => true | _ => false end.
Definition is_jump (K : kind) : bool := match K with K_a11 _ | K_adr16 => true | _ => false end.
Definition is_adr8 (K : kind) : bool := match K with K_adr8 _ => true | _ => false end.
Definition is_long (K : kind) : bool := match K with K_adr16 => true | _ => false end.
Lemma is_none_ok K : is_none K = true <-> K = K_none.
Proof. destruct K; cbn; split; congruence. Qed.
Definition check_name (k : option bool) (nm : text) (K1 K2 K3 : kind) : bool :=
  let nm' := map (conv k) nm in
  plain_name sp_intel [] i8051_directives nm' && is_alpha (peek nm') && (negb (is_none K1) || is_none K2) && (negb (is_none K2) || is_none K3) &&
  kind_okb K1 && kind_okb K2 && kind_okb K3 && negb (is_jump K2) && negb (is_jump K3).
Definition check_one (k : option bool) (opc : Z) (sw : bool) (nm : text) (K1 K2 K3 : kind) : bool :=
  check_name k nm K1 K2 K3 && (negb (is_long K1) || ((opc =? LJMP) || (opc =? LCALL)) && is_none K2) &&
  match i8051_searchName (map (conv k) nm) (mode_of K1) (mode_of K2) (mode_of K3) with
  | Val (OK, Some e) =>
    Bool.eqb (swapped e) sw &&
    if sw then
      is_adr8 K1 && is_adr8 K2 && is_none K3 &&
      fits K2 (e_m2 e) (e_opc e) && fits K1 (e_m1 e) (emb K2 (e_m2 e) (e_opc e)) && (emb K1 (e_m1 e) (emb K2 (e_m2 e) (e_opc e)) =? opc)
    else
      let o1 := emb K1 (e_m1 e) (e_opc e) in
      let o2 := emb K2 (e_m2 e) o1 in
      fits K1 (e_m1 e) (e_opc e) && fits K2 (e_m2 e) o1 && fits K3 (e_m3 e) o2 && (emb K3 (e_m3 e) o2 =? opc)
  | _ => false
  end.
Definition check (k : option bool) (opc : Z) : bool :=
  match look opc with
  | None => true
  | Some e =>
    Bool.eqb (is_none (kind_of opc (e_m2 e))) (e_m2 e =? M_NONE) && Bool.eqb (is_none (kind_of opc (e_m3 e))) (e_m3 e =? M_NONE) &&
    check_one k opc (swapped e) (entry_name e) (kind_of opc (e_m1 e)) (kind_of opc (e_m2 e)) (kind_of opc (e_m3 e))
  end.
Lemma check_ok : forallb (fun k => forallb (check (Some k)) all_bytes) [false; true] = true.
Proof. vm_compute. reflexivity. Qed.
Lemma check_at k opc : byte opc -> check (Some k) opc = true.
Proof.
  intros O. pose proof check_ok as H. rewrite forallb_forall in H. specialize (H k ltac:(destruct k; cbn; auto)).
  rewrite forallb_forall in H. apply H, all_in, O.
Qed.
Lemma piece_len d K k addr bs t n v : piece d K k addr bs t n v -> length n = kwidth K.
Proof.
  destruct K; cbn [piece kwidth]; [intros (_ & -> & _)|intros (_ & -> & _)|intros (_ & -> & _)|intros (_ & -> & _)|intros (? & _ & -> & _)|intros (? & ? & ? & -> & _)|intros (_ & -> & _)|
    intros (? & -> & _)|intros (? & ? & -> & _)|intros (? & ? & -> & _)|intros (? & -> & _)]; reflexivity.
Qed.
Lemma width_le K : (kwidth K <= 2)%nat.
Proof. destruct K; cbn; lia. Qed.
(* the operands of an instruction *)
Definition sep (K : kind) : text := if is_none K then [] else [44; 32].
Definition three (d : disasm) (sw : bool) (k : option bool) (addr : Z) (bs : list Z) (K1 K2 K3 : kind) (t : text) (nb : list Z) : Prop :=
  exists t1 t2 t3 n1 n2 n3 v1 v2 v3,
    piece d K1 k addr bs t1 n1 v1 /\ piece d K2 k addr (bs ++ n1) t2 n2 v2 /\ piece d K3 k addr (bs ++ n1 ++ n2) t3 n3 v3 /\
    t = t1 ++ sep K2 ++ t2 ++ sep K3 ++ t3 /\ nb = if sw then n2 ++ n1 else n1 ++ n2 ++ n3.
Lemma more_piece d o mode h t nb nm' : is_none (kind_of o mode) = (mode =? M_NONE) -> R_more d o mode h t nb nm' ->
  nm' = h_nm h /\ exists u v, piece d (kind_of o mode) (h_case h) (h_addr h) (h_bs h) u nb v /\ t = sep (kind_of o mode) ++ u.
Proof.
  intros N. unfold R_more, sep. rewrite N. destruct (mode =? M_NONE).
  - intros (-> & -> & ->). split; [reflexivity|]. exists [], 0. apply is_none_ok in N. rewrite N. cbn. auto.
  - intros (t1 & t2 & n1 & n2 & nm1 & -> & -> & (-> & -> & ->) & -> & v & P). rel_out. rewrite app_nil_r in P. split; [reflexivity|]. exists t2, v. auto.
Qed.
Lemma chain_three d o k h t nb nm' : byte o -> h_case h = Some k -> R_chain d o h t nb nm' ->
  exists sw nm K1 K2 K3, check_one (Some k) o sw nm K1 K2 K3 = true /\ nm' = firstn 11 (map (conv (Some k)) nm) /\
    three d sw (Some k) (h_addr h) (h_bs h) K1 K2 K3 t nb.
Proof.
  intros O HC (e & L & Q). pose proof (check_at k o O) as CK. unfold check in CK. rewrite L in CK.
  rewrite !andb_true_iff in CK. destruct CK as ((N2 & N3) & CK). apply eqb_prop in N2, N3.
  pose proof (look_at o O) as LO. unfold look_ok, look in *. destruct (find_opcode o) as [[e'|]| | | |]; try discriminate. injection L as ->.
  exists (swapped e), (entry_name e), (kind_of o (e_m1 e)), (kind_of o (e_m2 e)), (kind_of o (e_m3 e)). split; [exact CK|].
  rewrite !andb_true_iff in LO. destruct LO as ((_ & LS) & _).
  destruct (swapped e) eqn:SW.
  - cbn [negb orb] in LS. apply andb_true_iff in LS. destruct LS as (M3 & NE). unfold swapped in SW. apply andb_true_iff in SW. destruct SW as (M1 & M2). apply Z.eqb_eq in M1, M2, M3.
    apply negb_true_iff in NE.
    destruct Q as (t0 & tr & n0 & nr & nm1 & -> & -> & (-> & -> & ->) & -> & src & dst & t1 & t2 & -> & BS & BD & NU1 & NU2 & ->). rel_out. rewrite HC.
    split; [reflexivity|]. rewrite M1, M2, M3. change (kind_of o M_ADR8) with (K_adr8 o). change (kind_of o M_NONE) with K_none. exists t1, t2, [], [dst], [src], [], dst, src, 0. cbn [piece].
    assert (ID : forall v, invalidDirect o v = false) by (intros v; unfold invalidDirect; now rewrite NE).
    unfold sep. cbn [is_none app]. rewrite app_nil_r. auto 12.
  - destruct Q as (t0 & tr & n0 & nr & nm1 & -> & -> & (-> & -> & ->) & t1 & tr2 & n1 & nr' & nm2 & -> & -> & Q1 & t2 & t3 & n2 & n3 & nm3 & -> & -> & Q2 & Q3).
    rel_out. rewrite ?app_nil_r in *. rewrite HC in *.
    destruct (more_piece _ _ _ _ _ _ _ N2 Q2) as (-> & u2 & v2 & P2 & ->). destruct (more_piece _ _ _ _ _ _ _ N3 Q3) as (-> & u3 & v3 & P3 & ->). rel_out.
    destruct Q1 as (-> & v1 & P1). rel_out. rewrite ?HC in *. split; [reflexivity|].
    exists t1, u2, u3, n1, n2, n3, v1, v2, v3. rewrite app_assoc. cbn [app]. rewrite <- !app_assoc. rewrite <- app_assoc in P3. auto 10.
Qed.
(* what follows an operand *)
Definition follow (K : kind) (t b rest : text) : text := if is_none K then rest else 44 :: 32 :: t ++ b ++ rest.
Definition more (a : asm) (loc : Z) (scan : text) : res (operand * text) :=
  match expect_char 44 scan with
  | Some scan => bind (parseOperand a loc scan) (fun '(o, scan) => Val (o, if hasError (o_err o) then scan else skipSpaces scan))
  | None => Val (no_operand, scan)
  end.
Lemma follow_tail K t b rest : tail rest -> tail (follow K t b rest).
Proof. intros T. unfold follow. destruct (is_none K); [exact T|]. right. eauto. Qed.
Lemma reads_none : reads K_none 0 no_operand.
Proof. exists v_undef. auto. Qed.
Lemma more_ok d K k addr bs t nb v a b rest :
  a_pl a = pl_intel -> a_radix a = 10 -> kind_okb K = true -> piece d K (Some k) addr bs t nb v -> (length bs <= 8)%nat ->
  0 <= addr < 2^16 -> blanks b -> tail rest -> (K = K_none -> last_rest rest) ->
  exists op, more a addr (follow K t b rest) = Val (op, rest) /\ reads K v op /\ o_err op = OK.
Proof.
  intros PL RX KO P LB AR B T LR. unfold more, follow. destruct (is_none K) eqn:NK.
  - apply is_none_ok in NK. subst K. cbn [piece] in P. destruct P as (-> & -> & ->). rewrite last_nocomma by auto. exists no_operand. split; [reflexivity|]. split; [apply reads_none|reflexivity].
  - cbn [expect_char]. change (44 =? 44) with true. cbv iota. assert (K <> K_none) as NK' by (intros ->; discriminate).
    destruct (parse_piece d K k addr bs t nb v a [32] b rest PL RX NK' KO P LB AR ltac:(repeat constructor) B T) as (_ & b' & op & B' & PO & RD & E).
    cbn [app] in PO. rewrite PO. cbn [bind]. rewrite E. change (hasError OK) with false. cbv iota. rewrite tail_skip by assumption. eauto.
Qed.
Lemma parse_three d sw k addr bs K1 K2 K3 t nb a b rest :
  a_pl a = pl_intel -> a_radix a = 10 -> kind_okb K1 = true -> kind_okb K2 = true -> kind_okb K3 = true -> (K1 = K_none -> K2 = K_none) -> (K2 = K_none -> K3 = K_none) ->
  three d sw (Some k) addr bs K1 K2 K3 t nb -> (length bs <= 2)%nat -> 0 <= addr < 2^16 -> blanks b -> last_rest rest ->
  exists t1 t2 t3 n1 n2 n3 v1 v2 v3 o1 o2 o3,
    piece d K1 (Some k) addr bs t1 n1 v1 /\ piece d K2 (Some k) addr (bs ++ n1) t2 n2 v2 /\ piece d K3 (Some k) addr (bs ++ n1 ++ n2) t3 n3 v3 /\
    nb = (if sw then n2 ++ n1 else n1 ++ n2 ++ n3) /\ parseOperands a addr (skipSpaces (t ++ b ++ rest)) = Val (Three o1 o2 o3 rest) /\
    reads K1 v1 o1 /\ reads K2 v2 o2 /\ reads K3 v3 o3.
Proof.
  intros PL RX R1 R2 R3 N12 N23 (t1 & t2 & t3 & n1 & n2 & n3 & v1 & v2 & v3 & P1 & P2 & P3 & -> & ->) LB AR B LR.
  exists t1, t2, t3, n1, n2, n3, v1, v2, v3. pose proof (last_tail _ LR) as TR.
  pose proof (piece_len _ _ _ _ _ _ _ _ P1) as L1. pose proof (piece_len _ _ _ _ _ _ _ _ P2) as L2. pose proof (width_le K1). pose proof (width_le K2).
  set (b2 := if is_none K3 then b else []). set (b1 := if is_none K2 then b2 else []).
  assert (B2 : blanks b2) by (unfold b2; destruct (is_none K3); [exact B|apply Forall_nil]). assert (B1 : blanks b1) by (unfold b1; destruct (is_none K2); [exact B2|apply Forall_nil]).
  assert (EQ : (t1 ++ sep K2 ++ t2 ++ sep K3 ++ t3) ++ b ++ rest = t1 ++ b1 ++ follow K2 t2 b2 (follow K3 t3 b rest)).
  { rewrite <- !app_assoc. f_equal. unfold b1, b2, follow, sep.
    assert (E3 : is_none K3 = true -> t3 = []) by (intros Q; apply is_none_ok in Q; subst K3; cbn [piece] in P3; tauto).
    assert (E2 : is_none K2 = true -> t2 = []) by (intros Q; apply is_none_ok in Q; subst K2; cbn [piece] in P2; tauto).
    destruct (is_none K2) eqn:NK2.
    - apply is_none_ok in NK2. specialize (N23 NK2). apply is_none_ok in N23. rewrite (E2 eq_refl), N23, (E3 N23). reflexivity.
    - destruct (is_none K3); [rewrite (E3 eq_refl); reflexivity|reflexivity]. }
  assert (T3 : tail (follow K3 t3 b rest)) by now apply follow_tail. assert (T2 : tail (follow K2 t2 b2 (follow K3 t3 b rest))) by now apply follow_tail.
  assert (L3' : K2 = K_none -> last_rest (follow K3 t3 b rest)) by (intros Q; specialize (N23 Q); subst K3; exact LR).
  destruct (more_ok d K3 k addr _ t3 n3 v3 a b rest PL RX R3 P3 ltac:(rewrite !app_length; lia) AR B TR (fun _ => LR)) as (o3 & M3 & RD3 & E3).
  destruct (more_ok d K2 k addr _ t2 n2 v2 a b2 _ PL RX R2 P2 ltac:(rewrite !app_length; lia) AR B2 T3 L3') as (o2 & M2 & RD2 & E2).
  assert (FIN : forall o1 b', blanks b' -> parseOperand a addr (skipSpaces (t1 ++ b1 ++ follow K2 t2 b2 (follow K3 t3 b rest))) = Val (o1, b' ++ follow K2 t2 b2 (follow K3 t3 b rest)) -> o_err o1 = OK ->
    parseOperands a addr (skipSpaces (t1 ++ b1 ++ follow K2 t2 b2 (follow K3 t3 b rest))) = Val (Three o1 o2 o3 rest)).
  { intros o1 b' B' PO E1. unfold parseOperands. rewrite PO. cbn [bind]. rewrite E1. change (hasError OK) with false. cbv iota. cbv zeta.
    rewrite tail_skip by assumption. fold (more a addr (follow K2 t2 b2 (follow K3 t3 b rest))). rewrite M2. cbn [bind]. rewrite E2. change (hasError OK) with false. cbv iota.
    fold (more a addr (follow K3 t3 b rest)). rewrite M3. cbn [bind]. rewrite E3. reflexivity. }
  rewrite EQ. destruct (is_none K1) eqn:NK1.
  - apply is_none_ok in NK1. pose proof (N12 NK1) as NK2. pose proof (N23 NK2) as NK3. subst K1 K2 K3. cbn [piece] in P1. destruct P1 as (-> & -> & ->).
    unfold follow in *. cbn [is_none app] in *. exists no_operand, o2, o3. split; [cbn; auto|]. split; [exact P2|]. split; [exact P3|]. split; [reflexivity|].
    split; [|split; [apply reads_none|auto]]. rewrite last_skip in * by assumption. apply (FIN no_operand []); [apply Forall_nil| |reflexivity].
    assert (LS : skipSpaces rest = rest) by (apply (last_skip [] rest (Forall_nil _) LR)).
    unfold parseOperand. cbv zeta. rewrite LS, PL. change (p_eol pl_intel) with eol_semicolon. unfold eol_semicolon. cbv zeta. rewrite LS.
    assert ((peek rest =? 0) || (peek rest =? 59) = true) as -> by (destruct LR as [->|(u & ->)]; reflexivity). reflexivity.
  - assert (NK1' : K1 <> K_none) by (intros ->; discriminate).
    destruct (parse_piece d K1 k addr bs t1 n1 v1 a [] b1 _ PL RX NK1' R1 P1 ltac:(lia) AR (Forall_nil _) B1 T2) as (ST & b' & o1 & B' & PO & RD1 & E1).
    exists o1, o2, o3. split; [exact P1|]. split; [exact P2|]. split; [exact P3|]. split; [reflexivity|]. split; [|auto]. apply (FIN o1 b' B'); [|exact E1].
    pose proof (starts_skip [] t1 (b1 ++ follow K2 t2 b2 (follow K3 t3 b rest)) (Forall_nil _) ST) as SK. cbn [app] in SK, PO. rewrite SK. exact PO.
Qed.
Lemma check_name_ok k nm K1 K2 K3 : check_name k nm K1 K2 K3 = true ->
  plain_name sp_intel [] i8051_directives (map (conv k) nm) = true /\ is_alpha (peek (map (conv k) nm)) = true /\ (K1 = K_none -> K2 = K_none) /\ (K2 = K_none -> K3 = K_none) /\
  kind_okb K1 = true /\ kind_okb K2 = true /\ kind_okb K3 = true /\ is_jump K2 = false /\ is_jump K3 = false /\
  firstn 11 (map (conv k) nm) = map (conv k) nm.
Proof.
  unfold check_name. cbv zeta. rewrite !andb_true_iff, !negb_true_iff. intros ((((((((PN & AL) & N1) & N2) & KO1) & KO2) & KO3) & J2) & J3). split; [exact PN|]. split; [exact AL|]. split.
  { intros ->. cbn in N1. now apply is_none_ok. }
  split. { intros ->. cbn in N2. now apply is_none_ok. }
  repeat (split; [assumption|]).
  apply firstn_all2. unfold plain_name in PN. rewrite !andb_true_iff in PN. destruct PN as (((_ & L) & _) & _). now apply Nat.leb_le in L.
Qed.
Lemma encode_line smart a k nm K1 K2 K3 indent gap t b rest addr i : check_name (Some k) nm K1 K2 K3 = true ->
  a_pl a = pl_intel -> a_aw a = 16 -> blanks indent -> blanks gap -> gap <> [] \/ t = [] -> blanks b -> last_rest rest -> checkAddr 16 addr false = OK ->
  i8051_encodeImpl smart a addr (map (conv (Some k)) nm) (skipSpaces (t ++ b ++ rest)) (new_insn addr) = Val (i, rest) ->
  i8051_encode smart a (indent ++ firstn 11 (map (conv (Some k)) nm) ++ gap ++ t ++ b ++ rest) addr = Val (L_insn i rest).
Proof.
  intros CK PL AW BI BG NG BB LR CA EN. destruct (check_name_ok _ _ _ _ _ CK) as (PN & AL & _ & _ & _ & _ & _ & _ & _ & LN). rewrite LN.
  unfold i8051_encode. rewrite line_insn; [| | |exact BI|exact BG| |].
  - rewrite EN. cbn [bind]. reflexivity.
  - rewrite PL. exact PN.
  - intros z. rewrite PL. change (p_line pl_intel) with (p_eol pl_intel). apply starts_eol. destruct (map (conv (Some k)) nm) as [|c u]; [discriminate|]. cbn [peek] in AL.
    unfold starts. cbn [peek]. unfold is_alpha, is_upper, is_lower, is_space in *. repeat split; try discriminate; lia.
  - rewrite PL. apply name_ends; auto. intros c I. cbn in I. repeat (destruct I as [<-|I]; [reflexivity|]). contradiction.
  - rewrite AW. exact CA.
Qed.
Lemma encode_ok smart d k o sw nm K1 K2 K3 t nb a indent gap b rest addr :
  check_one (Some k) o sw nm K1 K2 K3 = true ->
  three d sw (Some k) addr [o] K1 K2 K3 t nb -> byte o ->
  a_pl a = pl_intel -> a_radix a = 10 -> a_aw a = 16 ->
  blanks indent -> blanks gap -> gap <> [] \/ t = [] -> blanks b -> last_rest rest -> 0 <= addr < 2^16 -> checkAddr 16 addr false = OK ->
  (smart = true -> o = LJMP \/ o = LCALL -> forall hi lo, nb = [hi; lo] -> hi / 8 <> ((addr + 2) / 2048) mod 32) ->
  i8051_encode smart a (indent ++ firstn 11 (map (conv (Some k)) nm) ++ gap ++ t ++ b ++ rest) addr =
  Val (L_insn (canon addr (o :: nb)) rest).
Proof.
  intros CK TH BO PL RX AW BI BG NG BB LR AR CA SM. unfold check_one in CK. rewrite !andb_true_iff in CK. destruct CK as ((CN & LG) & CK).
  apply (encode_line smart a k nm K1 K2 K3); auto. destruct (check_name_ok _ _ _ _ _ CN) as (PN & AL & N12 & N23 & KO1 & KO2 & KO3 & J2 & J3 & _).
  set (nm' := map (conv (Some k)) nm) in *.
  destruct (parse_three d sw k addr [o] K1 K2 K3 t nb a b rest) as (t1 & t2 & t3 & n1 & n2 & n3 & v1 & v2 & v3 & o1 & o2 & o3 & P1 & P2 & P3 & EN & PO & RD1 & RD2 & RD3); auto.
  unfold i8051_encodeImpl. rewrite PO. cbn [bind].
  assert (M : o_mode o1 = mode_of K1 /\ o_mode o2 = mode_of K2 /\ o_mode o3 = mode_of K3).
  { destruct RD1 as (? & -> & _). destruct RD2 as (? & -> & _). destruct RD3 as (? & -> & _). auto. }
  destruct M as (-> & -> & ->).
  destruct (i8051_searchName nm' (mode_of K1) (mode_of K2) (mode_of K3)) as [[er [e|]]| | | |]; try discriminate.
  2:{ destruct er; discriminate. }
  destruct er; try discriminate. apply andb_true_iff in CK. destruct CK as (SW & CK). apply eqb_prop in SW.
  cbn [bind i_err new_insn]. change (setErrorIfAt OK OK) with OK. change (isOK OK) with true. cbn [negb]. cbv zeta.
  change (new_insn addr) with (part addr 1 []).
  pose proof (piece_len _ _ _ _ _ _ _ _ P1) as L1. pose proof (piece_len _ _ _ _ _ _ _ _ P2) as L2. pose proof (piece_len _ _ _ _ _ _ _ _ P3) as L3.
  pose proof (width_le K1). pose proof (width_le K2). pose proof (width_le K3).
  assert (DONE : forall nb, (length nb <= 6)%nat -> (let ai := ai_emitInsn (mkAI (part addr 1 nb) OK o) in Val (i_seterr (ai_err ai) (ai_insn ai), rest)) = Val (canon addr (o :: nb), rest)).
  { intros l L. destruct (part_done 0 o addr l ltac:(unfold byte; lia) BO ltac:(lia)) as (D1 & _). unfold ai_emitInsn, ai_set. cbn [ai_insn ai_err ai_opc]. rewrite D1. reflexivity. }
  fold (swapped e). rewrite SW. destruct sw.
  - rewrite !andb_true_iff in CK. destruct CK as (((((A1 & A2) & _) & F2) & F1) & EO). apply Z.eqb_eq in EO.
    assert (E1 : o_err o1 = OK) by (destruct RD1 as (? & -> & _); reflexivity). rewrite E1, noerr.
    destruct K1; try discriminate. destruct K2; try discriminate.
    rewrite (emit_piece smart d _ (Some k) addr _ t2 n2 v2 (e_m2 e) o2 (e_opc e) []  P2 KO2 F2 RD2 AR); try discriminate; [|cbn; lia].
    cbn [bind app].
    rewrite (emit_piece smart d _ (Some k) addr _ t1 n1 v1 (e_m1 e) o1 _ n2 P1 KO1 F1 RD1 AR); try discriminate; [|cbn [kwidth] in *; lia].
    cbn [bind]. rewrite EO. rewrite EN. apply DONE. rewrite app_length. lia.
  - cbv zeta in CK. rewrite !andb_true_iff in CK. destruct CK as (((F1 & F2) & F3) & EO). apply Z.eqb_eq in EO.
    rewrite (emit_piece smart d K1 (Some k) addr [o] t1 n1 v1 (e_m1 e) o1 (e_opc e) [] P1 KO1 F1 RD1 AR); [|cbn; lia|intros _; reflexivity|reflexivity|].
    2:{ intros S1 E1. specialize (SM S1). subst K1. cbn [is_long negb orb] in LG. apply andb_true_iff in LG. destruct LG as (LO & NK2). apply is_none_ok in NK2. pose proof (N23 NK2) as NK3. subst K2 K3.
        cbn [piece] in P1, P2, P3. destruct P1 as (hi & lo & -> & BH & BL & EV & _). destruct P2 as (_ & -> & _). destruct P3 as (_ & -> & _). cbn [app] in EN.
        assert (SM' : hi / 8 <> ((addr + 2) / 2048) mod 32) by (apply (SM ltac:(lia) hi lo); exact EN). rewrite !block_val. unfold byte in *.
        assert (v1 / 2048 = hi / 8) as ->.
        { rewrite EV. change 2048 with (256 * 8). rewrite <- Z.div_div by lia. f_equal. rewrite Z.mul_comm, Z.add_comm, Z_div_plus by lia. rewrite (Z.div_small lo) by lia. lia. }
        rewrite (Z.mod_small (hi / 8)); [lia|]. split; [apply Z.div_pos; lia|apply Z.div_lt_upper_bound; lia]. }
    cbn [bind app].
    rewrite (emit_piece smart d K2 (Some k) addr _ t2 n2 v2 (e_m2 e) o2 _ n1 P2 KO2 F2 RD2 AR); [|lia|intros _; reflexivity|intros h ->; discriminate|intros _ ->; discriminate].
    cbn [bind].
    rewrite (emit_piece smart d K3 (Some k) addr _ t3 n3 v3 (e_m3 e) o3 _ (n1 ++ n2) P3 KO3 F3 RD3 AR); [|rewrite app_length; lia|intros _; rewrite app_length; reflexivity|intros h ->; discriminate|intros _ ->; discriminate].
    cbn [bind]. rewrite EO, EN, <- app_assoc. apply DONE. rewrite !app_length. lia.
Qed.

(* ------------------------------------------------------------ the disassembler *)
Section Whole.
Variables (d : disasm).
Hypothesis RD : reads_as d.
Let pfx (c : Z) : bool := false.
Let F (p o : Z) : step := decode_opcode d o.
Let n (p o : Z) : nat := if p =? 0 then n_chain o else 0%nat.
Let P0 : pfx 0 = false := eq_refl.
Let START : forall p o addr mem s, (p = 0 \/ pfx p = true) -> byte p -> byte o -> within addr mem 2 s -> F p o s = (fun _ o => chain d o) p o (t_seterr OK s).
Proof. intros p o addr mem s Q BP BO W. now apply chain_start. Qed.
Let GOOD : forall p o, (p = 0 \/ pfx p = true) -> byte p -> byte o -> good (n p o) ((fun _ o => R_chain d o) p o) ((fun _ o => chain d o) p o).
Proof. intros p o [->|Q] BP BO; [|discriminate]. now apply good_chain. Qed.
Let LEN : forall p o, (p = 0 \/ pfx p = true) -> byte p -> byte o -> (length (opcode_bytes p o) + n p o <= 3)%nat.
Proof. intros p o [->|Q] BP BO; [|discriminate]. now apply chain_len. Qed.
Lemma decode_eq mem addr size : i8051_decode d mem addr size = dis_decode d (decode_impl pfx F) mem addr size.
Proof. reflexivity. Qed.
Lemma i8051_total mem addr size : Forall byte mem -> exists r, i8051_decode d mem addr size = Val r.
Proof. intros FM. rewrite decode_eq. exact (decode_total d pfx F _ _ n 3 START GOOD LEN ltac:(lia) mem addr size FM). Qed.
Lemma i8051_within mem addr size r : Forall byte mem -> i8051_decode d mem addr size = Val r ->
  exists m, mem = i_code (r_insn r) ++ m /\ (length (i_code (r_insn r)) <= 3)%nat.
Proof. intros FM. rewrite decode_eq. exact (decode_within d pfx F _ _ n 3 P0 START GOOD LEN ltac:(lia) mem addr size r FM). Qed.
Lemma i8051_takes : takes d (i8051_decodeImpl d) 3.
Proof. exact (decode_takes d pfx F _ _ n 3 P0 START GOOD LEN ltac:(lia)). Qed.
Lemma i8051_accepts mem addr size r : Forall byte mem -> mem <> [] -> i8051_decode d mem addr size = Val r -> i_err (r_insn r) = OK ->
  checkAddr 16 addr false = OK /\
  exists o nb m, byte o /\ mem = (o :: nb) ++ m /\ (length (o :: nb) <= 3)%nat /\
    r_insn r = canon addr (o :: nb) /\
    R_chain d o (mkH (Some (da_uppercase d)) addr [o] []) (r_operands r) nb (r_name r) /\
    forall m', Forall byte m' -> i8051_decode d ((o :: nb) ++ m') addr size = Val r.
Proof.
  intros FM NE H E. rewrite decode_eq in H.
  destruct (decode_accepts d pfx F _ _ n 3 P0 START GOOD LEN ltac:(lia) mem addr size r FM NE H E)
    as (CA & p & o & nb & m & [->|PP] & BP & BO & EM & L & RI & Q & FR); [|discriminate].
  destruct RD as (_ & _ & AW & _). rewrite AW in CA. split; [exact CA|]. exists o, nb, m. auto 10.
Qed.
Lemma i8051_round smart mem addr size r a indent gap b rest :
  Forall byte mem -> mem <> [] -> i8051_decode d mem addr size = Val r -> i_err (r_insn r) = OK ->
  a_pl a = pl_intel -> a_radix a = 10 -> a_aw a = 16 -> 0 <= addr < 2^32 ->
  blanks indent -> blanks gap -> gap <> [] \/ r_operands r = [] -> blanks b -> last_rest rest ->
  (smart = true -> forall c hi lo, i_code (r_insn r) = [c; hi; lo] -> c = 2 \/ c = 0x12 -> hi / 8 <> ((addr + 2) / 2048) mod 32) ->
  i8051_encode smart a (indent ++ r_name r ++ gap ++ r_operands r ++ b ++ rest) addr = Val (L_insn (r_insn r) rest).
Proof.
  intros FM NE H E PL RX AW AR BI BG NG BB LR SM. destruct (i8051_accepts mem addr size r FM NE H E) as (CA & o & nb & m & BO & _ & _ & RI & Q & _).
  destruct (chain_three d o (da_uppercase d) (mkH (Some (da_uppercase d)) addr [o] []) (r_operands r) nb (r_name r) BO eq_refl Q) as (sw & nm & K1 & K2 & K3 & CK & NM & TH).
  rewrite RI in *. rewrite NM. apply (encode_ok smart d (da_uppercase d) o sw nm K1 K2 K3); auto.
  - apply C31_addr in CA; [|lia|exact AR]. lia.
  - intros S1 OO hi lo ->. apply (SM S1 o hi lo); [reflexivity|]. exact OO.
Qed.
End Whole.
