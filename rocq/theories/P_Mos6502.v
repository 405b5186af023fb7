(** The 6502 family: proof of the round trip. *)
From Coq Require Import String ZArith List Bool Lia ZifyBool.
From Verif Require Import M_Char M_Error M_Value M_Text M_StrBuffer M_Format M_Number M_Insn M_Config M_Operators
  M_Parsers M_Expr M_Directive M_Table T_Tables M_Asm M_Dis M_Mos6502Defs T_Mos6502 M_Mos6502
  S_Value S_Number S_Expr S_ExprTree S_Table P_StrBuffer P_Number P_NumberRead
  P_ExprRead P_ExprTree P_ExprCase P_Table P_Insn P_Config P_Value P_Directive P_AsmText P_CpuShape P_CpuGood P_CpuText P_CpuSigned.
From Verif Require P_CpuRange P_Mc6800.
Import ListNotations.
Open Scope string_scope.
Open Scope list_scope.
Local Open Scope Z_scope.

Definition types : list Z := [MOS6502; G65SC02; R65C02; W65C02S; W65C816].
Definition reads_as (np : number_parser) (d : disasm) (ty : Z) : Prop := da_symtab d = None /\ da_reads d np /\ da_aw d = addressWidth ty /\
  (da_relative d = true -> da_cursym d = 42).
Lemma mos6502_reads ty uh uc oc rel cs ih cur : (rel = true -> cur = 42) -> (oc = true -> cs = true \/ ih = true) ->
  reads_as np_motorola (mos6502_dis ty uh uc oc rel cs ih cur None) ty.
Proof.
  intros H OC. split; [reflexivity|]. split; [|split; [reflexivity|exact H]].
  assert (I : In np_motorola family_parsers) by (cbn; auto 10).
  unfold mos6502_dis in *.
  destruct cs; [apply all_reads; unfold da_formatter; cbn [da_cstyle]; apply universal_reads; auto|].
  destruct ih; [apply all_reads; unfold da_formatter; cbn [da_cstyle da_intelhex]; apply universal_reads; auto|].
  unfold da_reads, da_formatter. cbn [da_cstyle da_intelhex da_plug da_octal].
  split; [intros _; apply dec_reads, fb_all, I|]. split; [|intros _; apply m_hex]. intros E. destruct (OC E); discriminate.
Qed.
(* whatever is printed is read by some parser *)
Lemma mos6502_printed ty uh uc oc rel cs ih cur : (rel = true -> cur = 42) -> exists np, reads_as np (mos6502_dis ty uh uc oc rel cs ih cur None) ty.
Proof.
  intros H. destruct oc; [destruct (cs || ih) eqn:X|].
  - exists np_motorola. apply mos6502_reads; [exact H|]. intros _. now apply orb_true_iff.
  - exists (np_octal np_motorola). apply orb_false_iff in X. destruct X as (-> & ->).
    split; [reflexivity|]. split; [|split; [reflexivity|exact H]]. apply octal_reads; [cbn; auto 10|reflexivity|reflexivity].
  - exists np_motorola. apply mos6502_reads; [exact H|discriminate].
Qed.
Lemma aw_cases ty : addressWidth ty = 16 \/ addressWidth ty = 24.
Proof. unfold addressWidth. destruct (bankModel ty); auto. Qed.

(* ------------------------------------------------------------ what is printed *)
Inductive kind := K_none | K_reg (r : Z) | K_imm (w : bool) | K_abs | K_absl (jsl : bool) | K_dpg | K_rel | K_lrel | K_bank.
(* [la], [li]: whether the immediate operands of the accumulator and of the index registers are words *)
Definition kind_of (la li : bool) (opc m : Z) : kind :=
  let mode := baseMode m in
  if mode =? M_REGA then K_reg REG_A
  else if mode =? M_REGX then K_reg REG_X
  else if mode =? M_REGY then K_reg REG_Y
  else if mode =? M_REGS then K_reg REG_S
  else if mode =? M_IMA then K_imm la
  else if mode =? M_IMX then K_imm li
  else if mode =? M_IM8 then K_imm false
  else if mode =? M_ABS then K_abs
  else if mode =? M_ABSL then K_absl (opc =? JSL)
  else if mode =? M_DPG then K_dpg
  else if mode =? M_REL then K_rel
  else if mode =? M_LREL then K_lrel
  else K_none.
Definition kwidth (K : kind) : nat :=
  match K with
  | K_none | K_reg _ | K_bank => 0
  | K_imm w => if w then 2 else 1
  | K_abs | K_lrel => 2
  | K_absl _ => 3
  | K_dpg | K_rel => 1
  end.
Ltac rel_out := cbn [h_case h_addr h_bs h_nm] in *.
Section Printed.
Variable np : number_parser.
Definition reg_text (r : Z) : text := match name_of r REG_ENTRIES with Some t => t | None => [] end.
Definition chk (ty v addr : Z) : err :=
  if bankModel ty then checkAddr_in (addressWidth ty) v addr 16 false else checkAddr (addressWidth ty) v false.
(* where a branch goes; [pos] bytes are before its offset, which is [n] bytes *)
Definition goal_of (addr pos n delta : Z) : Z := u32 (u32 (addr + (pos + n)) + delta).
Definition placed (ty addr pos : Z) (t : text) (v : Z) : Prop :=
  chk ty v addr = OK /\ (0 <= addr < 2 ^ addressWidth ty -> 0 <= pos <= 8 -> place_text np 42 addr t v).
(* the operand of kind [K], with the value [v], in the case [k], of the instruction at [addr], after [pos] bytes *)
Definition piece (ty : Z) (K : kind) (k : option bool) (addr pos : Z) (t : text) (nb : list Z) (v : Z) : Prop :=
  match K with
  | K_none => t = [] /\ nb = [] /\ v = 0
  | K_reg r => t = map (conv k) (reg_text r) /\ nb = [] /\ v = 0
  | K_imm w => exists u, t = 35 :: u /\ numeral np u v /\
      if w then exists lo hi, nb = [lo; hi] /\ byte hi /\ byte lo /\ v = 256 * hi + lo else nb = [v] /\ byte v
  | K_abs => exists lo hi u, nb = [lo; hi] /\ byte hi /\ byte lo /\ v = 256 * hi + lo /\ numeral np u v /\
      t = (if v <? 0x100 then [62] else []) ++ u
  | K_absl jsl => exists lo hi bk u, nb = [lo; hi; bk] /\ byte hi /\ byte lo /\ byte bk /\ v = 65536 * bk + (256 * hi + lo) /\ numeral np u v /\
      t = (if negb jsl && (v <? 0x10000) then [62; 62] else []) ++ u
  | K_dpg => numeral np t v /\ nb = [v] /\ byte v
  | K_rel => exists x, nb = [x] /\ byte x /\ v = goal_of addr pos 1 (int8 x) /\ placed ty addr pos t v
  | K_lrel => exists lo hi, nb = [lo; hi] /\ byte hi /\ byte lo /\ v = goal_of addr pos 2 (int16 (256 * hi + lo)) /\ placed ty addr pos t v
  | K_bank => numeral np t v /\ nb = [] /\ exists x, byte x /\ v = 65536 * x
  end.
Definition R_piece (ty : Z) (K : kind) : rel := fun h t nb nm' =>
  nm' = h_nm h /\ exists v, piece ty K (h_case h) (h_addr h) (Z.of_nat (length (h_bs h))) t nb v.
Lemma keeping_byte g : (forall v, keeping (g v)) -> keeping (fun s => let '(v, s) := t_byte s in g v s).
Proof.
  intros K. split; [|apply frame_byte; intros; apply K].
  intros s s' H E. destruct (t_byte s) as [v s1] eqn:X. apply (proj1 (K v) _ _ H) in E.
  destruct (isOK (d_err (t_in s))) eqn:OK1; [now apply isOK_e|].
  rewrite (byte_err _ _ _ X) in E; [exact E|]. intros N. rewrite N in OK1. discriminate.
Qed.
Lemma good_reg ty r : good 0 (R_piece ty (K_reg r)) (fun s => Val (t_put (outRegName r) s)).
Proof.
  eapply good_weaken; [apply le_n| |apply (good_put _ (reg_text r))].
  - intros h t nb nm' (-> & -> & ->). split; [reflexivity|]. exists 0. cbn [piece]. auto.
  - intros b. unfold outRegName, reg_text. now destruct (name_of r REG_ENTRIES).
Qed.
Lemma good_letter c : is_alpha c = false -> good 0 (R_text (fun _ t => t = [c])) (fun s => Val (t_put (letter c) s)).
Proof.
  intros A. eapply good_weaken; [apply le_n| |apply (good_put _ [c]); intros; apply letter_text].
  intros h t nb nm' (-> & -> & ->). split; [reflexivity|]. split; [reflexivity|]. cbn [map]. now rewrite plain_symbol.
Qed.
Lemma good_imm d ty w : reads_as np d ty -> good (kwidth (K_imm w)) (R_piece ty (K_imm w)) (decodeImmediate d w).
Proof.
  intros (SY & RD & AW & _). destruct w; cbn [kwidth].
  - apply (good_ext _ _ (fun s => bind (Val (t_put (letter 35) s)) (fun s => let '(v, s) := t_uint16Le s in t_print (dis_outHex d v 16 true) s))); [reflexivity|].
    eapply good_weaken; [apply le_n| |apply (good_seq 0 2 (R_text (fun _ t => t = [35])) (R_le (fun v => R_num np v)))].
    + intros h t nb nm' (t1 & t2 & n1 & n2 & nm1 & -> & -> & (-> & -> & ->) & (lo & hi & nb' & -> & BH & BL & -> & -> & N)). rel_out.
      split; [reflexivity|]. exists (256 * hi + lo), t2. split; [reflexivity|]. split; [exact N|]. exists lo, hi. auto.
    + now apply good_letter.
    + apply (good_le 0 (fun v => R_num np v)); [|intros v; apply keeping_print]. intros v V. apply good_hex; auto; lia.
  - apply (good_ext _ _ (fun s => bind (Val (t_put (letter 35) s)) (fun s => let '(v, s) := t_byte s in t_print (dis_outHex d v 8 true) s))); [reflexivity|].
    eapply good_weaken; [apply le_n| |apply (good_seq 0 1 (R_text (fun _ t => t = [35])) (R_byte (fun v => R_num np v)))].
    + intros h t nb nm' (t1 & t2 & n1 & n2 & nm1 & -> & -> & (-> & -> & ->) & (v & nb' & -> & B & -> & -> & N)). rel_out.
      split; [reflexivity|]. exists v, t2. auto.
    + now apply good_letter.
    + apply (good_byte 0 (fun v => R_num np v)); [|intros v; apply keeps_print|intros v; apply frame_print].
      intros v V. apply good_hex; auto; unfold byte in *; lia.
Qed.
Lemma good_dpg d ty : reads_as np d ty -> good 1 (R_piece ty K_dpg) (decodeDirectPage d).
Proof.
  intros (SY & RD & AW & _).
  apply (good_ext _ _ (fun s => let '(v, s) := t_byte s in t_print (outAbsAddr d v 8) s)).
  { intros s. unfold decodeDirectPage. destruct (t_byte s) as [v s1]. unfold da_lookup. now rewrite SY. }
  eapply good_weaken; [apply le_n| |apply (good_byte 0 (fun v => R_num np v))].
  - intros h t nb nm' (v & nb' & -> & B & -> & -> & N). split; [reflexivity|]. exists v. cbn [piece]. auto.
  - intros v V. apply (good_abs d np v 8 8); auto; unfold byte in *; lia.
  - intros v. apply keeps_print.
  - intros v. apply frame_print.
Qed.
Lemma good_some (b : bool) f w : good 0 (R_text (fun _ t => t = w)) (fun s => Val (t_put f s)) ->
  good 0 (R_text (fun _ t => t = if b then w else [])) (fun s => Val (if b then t_put f s else s)).
Proof.
  intros G. destruct b; [exact G|]. eapply good_weaken; [apply le_n| |apply good_none]. intros h t nb nm' (-> & -> & ->). repeat split.
Qed.
Lemma good_abs16 d ty : reads_as np d ty -> good 2 (R_piece ty K_abs) (decodeAbsolute d).
Proof.
  intros (SY & RD & AW & _).
  apply (good_ext _ _ (fun s => let '(v, s) := t_uint16Le s in
    bind ((fun s => Val (if v <? 0x100 then t_put (letter 62) s else s)) s) (t_print (outAbsAddr d v 16)))).
  { intros s. unfold decodeAbsolute. destruct (t_uint16Le s) as [v s1]. unfold da_lookup. rewrite SY. cbn [bind]. reflexivity. }
  assert (G : forall v, good 0 (R_text (fun k t => t = if v <? 0x100 then [62] else [])) (fun s => Val (if v <? 0x100 then t_put (letter 62) s else s))).
  { intros v. apply good_some. now apply good_letter. }
  eapply good_weaken; [apply le_n| |apply (good_le 0 (fun v => R_seq (R_text (fun k t => t = if v <? 0x100 then [62] else [])) (R_num np v)))].
  - intros h t nb nm' (lo & hi & nb' & -> & BH & BL & t1 & t2 & n1 & n2 & nm1 & -> & -> & (-> & -> & ->) & -> & -> & N). rel_out.
    split; [reflexivity|]. exists (256 * hi + lo), lo, hi, t2. cbn [app]. auto 10.
  - intros v V. apply (good_seq 0 0); [apply G|]. apply (good_abs d np v 16 16); auto; lia.
  - intros v. apply keeping_seq; [eapply keeping_of, G|apply keeping_print].
Qed.
Lemma bank_val bk lo : byte bk -> 0 <= lo < 65536 -> Z.lor lo (Z.shiftl bk 16) = 65536 * bk + lo.
Proof.
  intros B L. unfold byte in B. rewrite Z.lor_comm. rewrite (P_CpuRange.lor_add _ 16); [|lia|lia|].
  - rewrite Z.shiftl_mul_pow2 by lia. lia.
  - rewrite Z.land_ones, Z.shiftl_mul_pow2 by lia. now rewrite Z.mod_mul by lia.
Qed.
Lemma good_two : good 0 (R_text (fun _ t => t = [62; 62])) (fun s => Val (t_put (fun out => letter 62 (letter 62 out)) s)).
Proof.
  eapply good_weaken; [apply le_n| |apply (good_put _ [62; 62])].
  - intros h t nb nm' (-> & -> & ->). split; [reflexivity|]. split; [reflexivity|]. cbn [map]. now rewrite plain_symbol.
  - intros b. rewrite !letter_text. reflexivity.
Qed.
Lemma good_absl d ty opc : reads_as np d ty -> ty = W65C816 -> good 3 (R_piece ty (K_absl (opc =? JSL))) (decodeAbsoluteLong d opc).
Proof.
  intros (SY & RD & AW & _) ->. change (addressWidth W65C816) with 24 in AW.
  set (T := fun v : Z => if negb (opc =? JSL) && (v <? 0x10000) then [62; 62] else []).
  set (P := fun v s => Val (if negb (opc =? JSL) && (v <? 0x10000) then t_put (fun out => letter 62 (letter 62 out)) s else s)).
  set (g := fun v : Z => (fun s => bind ((fun s => Val (t_setErrorIf (checkAddr (da_aw d) v false) s)) s) (fun s => bind (P v s) (t_print (outAbsAddr d v 0)))) : step).
  apply (good_ext _ _ (fun s => let '(low, s) := t_uint16Le s in (fun s => let '(bank, s) := t_byte s in g (Z.lor low (Z.shiftl bank 16)) s) s)).
  { intros s. unfold decodeAbsoluteLong, g, P. destruct (t_uint16Le s) as [v s1]. destruct (t_byte s1) as [bk s2]. unfold da_lookup. rewrite SY. cbn [bind]. cbv zeta.
    destruct (opc =? JSL); cbn [negb andb]; [reflexivity|]. now destruct (_ <? _). }
  set (R := fun v => R_seq (R_check (checkAddr (da_aw d) v false)) (R_seq (R_text (fun _ t => t = T v)) (R_num np v))).
  assert (GP : forall v, good 0 (R_text (fun _ t => t = T v)) (P v)).
  { intros v. unfold P, T. apply good_some, good_two. }
  assert (G : forall v, 0 <= v < 2^24 -> good 0 (R v) (g v)).
  { intros v V. apply (good_seq 0 0); [apply good_check|]. apply (good_seq 0 0); [apply GP|].
    apply (good_abs d np v 0 24); auto; rewrite ?AW; cbn [Z.eqb]; lia. }
  assert (KG : forall v, keeping (g v)).
  { intros v. apply keeping_seq; [eapply keeping_of, good_check|]. apply keeping_seq; [eapply keeping_of, GP|apply keeping_print]. }
  eapply good_weaken; [apply le_n| |apply (good_le 1 (fun low => R_byte (fun bank => R (Z.lor low (Z.shiftl bank 16)))))].
  - intros h t nb nm' (lo & hi & nb' & -> & BH & BL & bk & nb2 & -> & BB & t0 & t1 & n0 & n1 & nm0 & -> & -> & (_ & -> & -> & ->) & t2 & t3 & n2 & n3 & nm1 & -> & -> & (-> & -> & ->) & -> & -> & N). rel_out.
    rewrite bank_val in * by (auto; unfold byte in *; lia).
    split; [reflexivity|]. exists (65536 * bk + (256 * hi + lo)), lo, hi, bk, t3. cbn [app]. auto 12.
  - intros low V. apply (good_byte 0 (fun bank => R (Z.lor low (Z.shiftl bank 16)))).
    + intros bk B. apply G. rewrite bank_val by (auto; unfold byte in *; lia). unfold byte in B. lia.
    + intros bk. apply KG.
    + intros bk. apply KG.
  - intros low. apply keeping_byte. intros bk. apply KG.
Qed.
(* branches *)
Lemma int16_range x : -32768 <= int16 x <= 32767.
Proof. unfold int16. pose proof (Z.mod_pos_bound (x + 32768) 65536). lia. Qed.
Lemma int16_back x : 0 <= x < 65536 -> int16 x mod 65536 = x.
Proof.
  unfold int16. intros X. replace ((x + 32768) mod 65536 - 32768) with (x + (- ((x + 32768) / 65536)) * 65536) by (pose proof (Z.div_mod (x + 32768) 65536); lia).
  rewrite Z.mod_add by lia. now apply Z.mod_small.
Qed.
Lemma target_near aw base delta : 0 <= base < 2^31 -> -2^16 <= delta <= 2^16 -> 1 <= aw <= 24 -> u32 (u32 base + delta) < 2^aw ->
  u32 (u32 base + delta) = base + delta /\ 0 <= base + delta < 2^aw.
Proof.
  intros B D W CK. assert (2^aw <= 2^24) by (apply Z.pow_le_mono_r; lia). unfold u32 in *. rewrite (Z.mod_small base) in * by lia.
  destruct (Z.neg_nonneg_cases (base + delta)) as [NG|NG].
  - exfalso. replace (base + delta) with (base + delta + 2^32 + (-1) * 2^32) in CK by lia. rewrite Z.mod_add, Z.mod_small in CK by lia. lia.
  - rewrite Z.mod_small in * by lia. lia.
Qed.
Lemma chk_range ty v addr : 0 <= v < 2^32 -> 0 <= addr < 2 ^ addressWidth ty -> chk ty v addr = OK -> 0 <= v < 2 ^ addressWidth ty.
Proof.
  intros V A C. unfold chk in C. pose proof (aw_cases ty) as W. assert (2 ^ addressWidth ty <= 2^24) by (apply Z.pow_le_mono_r; lia).
  destruct (bankModel ty).
  - apply C31_segment in C; lia.
  - apply C31_addr in C; lia.
Qed.
Lemma goal_near ty addr pos n delta : 0 <= addr < 2 ^ addressWidth ty -> 0 <= pos <= 8 -> 0 <= n <= 2 -> -32768 <= delta <= 32767 ->
  chk ty (goal_of addr pos n delta) addr = OK ->
  goal_of addr pos n delta = addr + pos + n + delta /\ 0 <= addr + pos + n + delta < 2 ^ addressWidth ty.
Proof.
  intros A P N D C. pose proof (aw_cases ty) as W. assert (2 ^ addressWidth ty <= 2^24) by (apply Z.pow_le_mono_r; lia).
  apply chk_range in C; [|unfold goal_of, u32; apply Z.mod_pos_bound; lia|exact A].
  destruct (target_near (addressWidth ty) (addr + (pos + n)) delta ltac:(lia) ltac:(lia) ltac:(lia) ltac:(apply C)) as (E & R).
  unfold goal_of. lia.
Qed.
Definition jump (d : disasm) (ty bits delta : Z) : step := fun s =>
  let insn := d_insn (t_in s) in
  let target := u32 (u32 (i_addr insn + i_len insn) + delta) in
  t_print (outRelAddr d target (i_addr insn) bits) (t_setErrorIf (chk ty target (i_addr insn)) s).
Definition R_jump (ty bits delta : Z) : rel := fun h t nb nm' => nb = [] /\ nm' = h_nm h /\
  let v := u32 (u32 (h_addr h + Z.of_nat (length (h_bs h))) + delta) in
  chk ty v (h_addr h) = OK /\ (0 <= h_addr h < 2 ^ addressWidth ty -> Z.abs (v - h_addr h) < 2 ^ bits -> place_text np 42 (h_addr h) t v).
Lemma good_jump d ty bits delta : reads_as np d ty -> 1 <= bits <= 31 -> good 0 (R_jump ty bits delta) (jump d ty bits delta).
Proof.
  intros (SY & RD & AW & CS) B. pose proof (aw_cases ty) as W.
  set (tg := fun i => u32 (u32 (i_addr i + i_len i) + delta)).
  set (g := fun i s => bind (Val (t_setErrorIf (chk ty (tg i) (i_addr i)) s)) (t_print (outRelAddr d (tg i) (i_addr i) bits))).
  apply (good_ext _ _ (fun s => g (d_insn (t_in s)) s)); [reflexivity|].
  set (R := fun i => R_seq (R_check (chk ty (tg i) (i_addr i)))
     (R_text (fun _ t => 0 <= tg i < 2 ^ da_aw d -> 0 <= i_addr i < 2 ^ da_aw d -> Z.abs (tg i - i_addr i) < 2 ^ bits ->
      place_text np (da_cursym d) (i_addr i) t (tg i) /\ (da_relative d = false -> numeral np t (tg i))))).
  assert (TR : forall i, 0 <= tg i < 2^32) by (intros i; unfold tg, u32; apply Z.mod_pos_bound; lia).
  assert (G : forall i, good 0 (R i) (g i)).
  { intros i. apply (good_seq 0 0); [apply good_check|]. apply good_rel; auto; try lia. intros Q. now rewrite (CS Q). }
  eapply good_weaken; [apply le_n| |apply (good_insn 0 R g G)].
  intros h t nb nm' (t1 & t2 & n1 & n2 & nm1 & -> & -> & (CK & -> & -> & ->) & -> & -> & P). rel_out. cbn [app].
  split; [reflexivity|]. split; [reflexivity|]. cbv zeta. unfold tg in *. cbn [canon i_addr i_len] in *. split; [exact CK|]. intros AR LB.
  rewrite AW in P. destruct (P (chk_range _ _ _ (TR (canon (h_addr h) (h_bs h))) AR CK) AR LB) as (P1 & P2).
  destruct (da_relative d) eqn:RL.
  - rewrite (CS eq_refl) in P1. exact P1.
  - left. auto.
Qed.
Lemma good_rel8 d ty : reads_as np d ty -> good 1 (R_piece ty K_rel) (decodeRelative d ty M_REL).
Proof.
  intros RA. pose proof RA as (_ & _ & AW & _).
  apply (good_ext _ _ (fun s => let '(v, s) := t_byte s in jump d ty 8 (int8 v) s)).
  { intros s. unfold decodeRelative, jump, chk. change (M_REL =? M_LREL) with false. cbv iota. destruct (t_byte s) as [v s1]. rewrite AW. reflexivity. }
  eapply good_weaken; [apply le_n| |apply (good_byte' 0 (fun v => R_jump ty 8 (int8 v))); intros v; apply good_jump; auto; lia].
  intros h t nb nm' (x & nb' & -> & B & -> & -> & CK & P). rel_out. split; [reflexivity|].
  rewrite app_length, Nat2Z.inj_add in *. cbn [length] in *. change (Z.of_nat 1) with 1 in *.
  fold (goal_of (h_addr h) (Z.of_nat (length (h_bs h))) 1 (int8 x)) in *.
  exists (goal_of (h_addr h) (Z.of_nat (length (h_bs h))) 1 (int8 x)), x. split; [reflexivity|]. split; [exact B|]. split; [reflexivity|].
  split; [exact CK|]. intros AR PR. apply P; [exact AR|]. pose proof (int8_range x).
  destruct (goal_near ty (h_addr h) _ 1 (int8 x) AR PR ltac:(lia) ltac:(lia) CK) as (-> & _). lia.
Qed.
Lemma good_rel16 d ty : reads_as np d ty -> good 2 (R_piece ty K_lrel) (decodeRelative d ty M_LREL).
Proof.
  intros RA. pose proof RA as (_ & _ & AW & _).
  apply (good_ext _ _ (fun s => let '(v, s) := t_uint16Le s in jump d ty 16 (int16 v) s)).
  { intros s. unfold decodeRelative, jump, chk. change (M_LREL =? M_LREL) with true. cbv iota. destruct (t_uint16Le s) as [v s1]. rewrite AW. reflexivity. }
  assert (G : forall v, good 0 (R_jump ty 16 (int16 v)) (jump d ty 16 (int16 v))) by (intros v; apply good_jump; auto; lia).
  eapply good_weaken; [apply le_n| |apply (good_le 0 (fun v => R_jump ty 16 (int16 v))); intros v; [intros _; apply G|eapply keeping_of, G]].
  intros h t nb nm' (lo & hi & nb' & -> & BH & BL & -> & -> & CK & P). rel_out. split; [reflexivity|].
  rewrite app_length, Nat2Z.inj_add in *. cbn [length] in *. change (Z.of_nat 2) with 2 in *.
  fold (goal_of (h_addr h) (Z.of_nat (length (h_bs h))) 2 (int16 (256 * hi + lo))) in *.
  exists (goal_of (h_addr h) (Z.of_nat (length (h_bs h))) 2 (int16 (256 * hi + lo))), lo, hi.
  split; [reflexivity|]. split; [exact BH|]. split; [exact BL|]. split; [reflexivity|].
  split; [exact CK|]. intros AR PR. apply P; [exact AR|]. pose proof (int16_range (256 * hi + lo)).
  destruct (goal_near ty (h_addr h) _ 2 (int16 (256 * hi + lo)) AR PR ltac:(lia) ltac:(lia) CK) as (-> & _). lia.
Qed.
Definition words_of (ty : Z) (o : options) : bool * bool := (longImmediate ty o M_IMA, longImmediate ty o M_IMX).
Lemma good_operand d ty o opc m : reads_as np d ty -> (baseMode m = M_ABSL -> ty = W65C816) ->
  let K := kind_of (longImmediate ty o M_IMA) (longImmediate ty o M_IMX) opc m in
  good (kwidth K) (R_piece ty K) (decodeOperand d ty o opc m).
Proof.
  intros RA LL. unfold decodeOperand, kind_of. cbv zeta. set (mode := baseMode m) in *.
  destruct (mode =? M_REGA); [apply good_reg|].
  destruct (mode =? M_REGX); [apply good_reg|].
  destruct (mode =? M_REGY); [apply good_reg|].
  destruct (mode =? M_REGS); [apply good_reg|].
  destruct (Z.eqb_spec mode M_IMA) as [->|_]; [now apply good_imm|].
  destruct (Z.eqb_spec mode M_IMX) as [->|_]; [now apply good_imm|].
  destruct (Z.eqb_spec mode M_IM8) as [->|_].
  { replace (longImmediate ty o M_IM8) with false; [now apply good_imm|]. unfold longImmediate. now destruct (ty =? W65C816). }
  cbn [orb].
  destruct (mode =? M_ABS); [now apply good_abs16|].
  destruct (Z.eqb_spec mode M_ABSL) as [E|_]; [apply good_absl; auto|].
  destruct (mode =? M_DPG); [now apply good_dpg|].
  destruct (Z.eqb_spec mode M_REL) as [->|_]; [now apply good_rel8|].
  destruct (Z.eqb_spec mode M_LREL) as [->|_]; [now apply good_rel16|].
  cbn [orb]. eapply good_weaken; [apply le_n| |apply good_none]. intros h t nb nm' (-> & -> & ->). split; [reflexivity|]. exists 0. cbn. auto.
Qed.

(* ------------------------------------------------------------ a whole instruction *)
Definition open_text (m : Z) : text := (if indirect m then [40] else []) ++ (if longIndirect m then [91] else []).
Definition close_text (b1 b2 : bool) : text := (if b1 then [41] else []) ++ (if b2 then [93] else []).
Definition put_two (b1 : bool) (c1 : Z) (b2 : bool) (c2 : Z) : step := fun s => Val (put_if b2 c2 (put_if b1 c1 s)).
Lemma good_puts (b1 : bool) c1 (b2 : bool) c2 : is_alpha c1 = false -> is_alpha c2 = false ->
  good 0 (R_text (fun _ t => t = (if b1 then [c1] else []) ++ (if b2 then [c2] else []))) (put_two b1 c1 b2 c2).
Proof.
  intros A1 A2. apply (good_ext _ _ (fun s => bind ((fun s => Val (put_if b1 c1 s)) s) (fun s => Val (put_if b2 c2 s)))); [reflexivity|].
  eapply good_weaken; [apply le_n| |apply (good_seq 0 0 (R_text (fun _ t => t = if b1 then [c1] else [])) (R_text (fun _ t => t = if b2 then [c2] else [])))].
  - intros h t nb nm' (t1 & t2 & n1 & n2 & nm1 & -> & -> & (-> & -> & ->) & (-> & -> & ->)). repeat split.
  - unfold put_if. apply good_some. now apply good_letter.
  - unfold put_if. apply good_some. now apply good_letter.
Qed.
Definition look (il : bool) (ty o : Z) : option entry := match find_opcode il ty o with Val r => r | _ => None end.
Definition is_bank (e : entry) : bool := (e_m1 e =? M_BANK) && (e_m2 e =? M_BANK).
Definition look_ok (ty : Z) (il la li : bool) (o : Z) : bool :=
  let kw m := kwidth (kind_of la li o m) in
  match find_opcode il ty o with
  | Val None => true
  | Val (Some e) => (negb (e_m1 e =? M_NONE) || (e_m2 e =? M_NONE)) && (negb (e_m2 e =? M_NONE) || (e_m3 e =? M_NONE)) &&
      ((ty =? W65C816) || (negb (baseMode (e_m1 e) =? M_ABSL) && negb (baseMode (e_m2 e) =? M_ABSL) && negb (baseMode (e_m3 e) =? M_ABSL) && negb (is_bank e))) &&
      (kw (e_m1 e) + (kw (e_m2 e) + kw (e_m3 e)) <=? 3)%nat
  | _ => false
  end.
(* a word as an immediate operand only for the 65816 *)
Definition setups : list (Z * bool * bool * bool) :=
  flat_map (fun il => map (fun ty => (ty, il, false, false)) types ++ [(W65C816, il, false, true); (W65C816, il, true, false); (W65C816, il, true, true)]) [false; true].
Lemma look_check : forallb (fun '(ty, il, la, li) => forallb (look_ok ty il la li) all_bytes) setups = true.
Proof. vm_compute. reflexivity. Qed.
Lemma setup_in ty il o : In ty types -> In (ty, il, longImmediate ty o M_IMA, longImmediate ty o M_IMX) setups.
Proof.
  intros T. destruct o as [a b c]. destruct il, a, b; cbn in T;
    (repeat (destruct T as [<-|T]; [vm_compute; repeat (first [left; reflexivity|right])|])); contradiction.
Qed.
Lemma look_at ty il opt o : In ty types -> byte o -> look_ok ty il (longImmediate ty opt M_IMA) (longImmediate ty opt M_IMX) o = true.
Proof.
  intros T O. pose proof look_check as H. rewrite forallb_forall in H. specialize (H _ (setup_in ty il opt T)). cbv beta iota in H.
  rewrite forallb_forall in H. apply H, all_in, O.
Qed.
Definition first_op (d : disasm) (ty : Z) (opt : options) (o : Z) (e : entry) : step :=
  if e_m1 e =? M_NONE then fun s => Val s
  else fun s => bind (put_two (indirect (e_m1 e)) 40 (longIndirect (e_m1 e)) 91 s) (fun s => bind (decodeOperand d ty opt o (e_m1 e) s)
    (put_two (indirect (e_m1 e) && negb (indirect (e_m2 e))) 41 (longIndirect (e_m1 e) && negb (longIndirect (e_m2 e))) 93)).
Definition more_op (d : disasm) (ty : Z) (opt : options) (o m : Z) (b1 b2 : bool) : step :=
  if m =? M_NONE then fun s => Val s
  else fun s => bind (Val (t_put (letter 44) s)) (fun s => bind (decodeOperand d ty opt o m s) (put_two b1 41 b2 93)).
Definition block (d : disasm) : step := fun s =>
  let '(db, s) := t_byte s in (fun s => let '(sb, s) := t_byte s in
    bind (t_print (outAbsAddr d (Z.shiftl sb 16) 0) s) (fun s => bind (Val (t_put comma s)) (t_print (outAbsAddr d (Z.shiftl db 16) 0)))) s.
Definition chain (d : disasm) (ty : Z) (opt : options) (o : Z) : step :=
  match look (op_indirectLong opt) ty o with
  | None => fun s => Val (t_setErrorIf UNKNOWN_INSTRUCTION s)
  | Some e => fun s => bind (Val (t_readName (entry_name e) s)) (
      if is_bank e then block d
      else fun s => bind (first_op d ty opt o e s) (fun s => bind (more_op d ty opt o (e_m2 e) (indirect (e_m2 e)) (longIndirect (e_m2 e)) s)
             (more_op d ty opt o (e_m3 e) false false)))
  end.
Lemma block_eq d s : decodeBlockMove d s = block d s.
Proof.
  unfold decodeBlockMove, block. destruct (t_byte s) as [db s1]. destruct (t_byte s1) as [sb s2] eqn:B. destruct (t_print _ s2) as [s3| | | |] eqn:P; try reflexivity.
  cbn [bind]. cbv zeta. destruct (isOK (d_err (t_in s1))) eqn:E; [reflexivity|]. cbn [negb].
  assert (X : d_err (t_in (t_put comma s3)) = d_err (t_in s1)).
  { change (d_err (t_in s3) = d_err (t_in s1)). rewrite (print_err _ _ _ P). apply (byte_err _ _ _ B). intros N. rewrite N in E. discriminate. }
  f_equal. rewrite <- X. destruct (t_put comma s3) as [[i m er] nm out]. reflexivity.
Qed.
Lemma chain_start d ty opt o s : In ty types -> byte o -> decode_opcode d ty opt o s = chain d ty opt o (t_seterr OK s).
Proof.
  intros T O. pose proof (look_at ty (op_indirectLong opt) opt o T O) as LO. unfold decode_opcode, chain, look, look_ok in *. cbv zeta in *.
  destruct (find_opcode _ ty o) as [[e|]| | | |]; try discriminate; cbn [bind]; [|reflexivity].
  fold (is_bank e). destruct (is_bank e); [apply block_eq|]. rewrite !andb_true_iff in LO. destruct LO as (((L1 & L2) & _) & _).
  unfold decode_operands, first_op, more_op, put_two. cbv zeta.
  destruct (Z.eqb_spec (e_m1 e) M_NONE) as [M1|_]; cbn [negb orb] in L1.
  { rewrite L1 in *. cbn [negb orb] in L2. rewrite L2. reflexivity. }
  cbn [bind]. destruct (decodeOperand _ _ _ _ (e_m1 e) _) as [s1| | | |]; try reflexivity. cbn [bind].
  destruct (Z.eqb_spec (e_m2 e) M_NONE) as [M2|_]; cbn [negb orb] in L2.
  { rewrite L2. reflexivity. }
  cbn [bind]. destruct (decodeOperand _ _ _ _ (e_m2 e) _) as [s2| | | |]; try reflexivity. cbn [bind].
  destruct (e_m3 e =? M_NONE); [reflexivity|]. cbn [bind]. destruct (decodeOperand _ _ _ _ (e_m3 e) _) as [s3| | | |]; reflexivity.
Qed.
Section Rel.
Variables (d : disasm) (ty : Z) (opt : options) (o : Z).
Let la := longImmediate ty opt M_IMA.
Let li := longImmediate ty opt M_IMX.
Definition kind1 (m : Z) : kind := kind_of la li o m.
Definition R_first (e : entry) : rel :=
  if e_m1 e =? M_NONE then R_none
  else R_seq (R_text (fun _ t => t = open_text (e_m1 e))) (R_seq (R_piece ty (kind1 (e_m1 e)))
    (R_text (fun _ t => t = close_text (indirect (e_m1 e) && negb (indirect (e_m2 e))) (longIndirect (e_m1 e) && negb (longIndirect (e_m2 e)))))).
Definition R_more (m : Z) (b1 b2 : bool) : rel :=
  if m =? M_NONE then R_none
  else R_seq (R_text (fun _ t => t = [44])) (R_seq (R_piece ty (kind1 m)) (R_text (fun _ t => t = close_text b1 b2))).
Definition R_block : rel := fun h t nb nm' => nm' = h_nm h /\ exists db sb t1 t2,
  nb = [db; sb] /\ byte db /\ byte sb /\ numeral np t1 (65536 * sb) /\ numeral np t2 (65536 * db) /\ t = t1 ++ [44; 32] ++ t2.
Definition R_tail (e : entry) : rel :=
  if is_bank e then R_block
  else R_seq (R_first e) (R_seq (R_more (e_m2 e) (indirect (e_m2 e)) (longIndirect (e_m2 e))) (R_more (e_m3 e) false false)).
Definition R_chain : rel := fun h t nb nm' => exists e, look (op_indirectLong opt) ty o = Some e /\
  R_seq (R_name (entry_name e)) (R_tail e) h t nb nm'.
Definition kw (m : Z) : nat := kwidth (kind1 m).
Definition n_chain : nat :=
  match look (op_indirectLong opt) ty o with
  | Some e => if is_bank e then 2%nat else (kw (e_m1 e) + (kw (e_m2 e) + kw (e_m3 e)))%nat
  | None => 0%nat
  end.
Hypothesis RD : reads_as np d ty.
Lemma good_first e : (baseMode (e_m1 e) = M_ABSL -> ty = W65C816) -> good (kw (e_m1 e)) (R_first e) (first_op d ty opt o e).
Proof.
  intros LL. unfold R_first, first_op. destruct (Z.eqb_spec (e_m1 e) M_NONE) as [->|_].
  - apply good_none.
  - replace (kw (e_m1 e)) with (0 + (kw (e_m1 e) + 0))%nat by lia.
    apply good_seq; [now apply good_puts|]. apply good_seq; [now apply good_operand|]. now apply good_puts.
Qed.
Lemma good_more m b1 b2 : (baseMode m = M_ABSL -> ty = W65C816) -> good (kw m) (R_more m b1 b2) (more_op d ty opt o m b1 b2).
Proof.
  intros LL. unfold R_more, more_op. destruct (Z.eqb_spec m M_NONE) as [->|_].
  - apply good_none.
  - replace (kw m) with (0 + (kw m + 0))%nat by lia.
    apply (good_seq 0 _ _ _ (fun s => Val (t_put (letter 44) s))); [now apply good_letter|]. apply good_seq; [now apply good_operand|]. now apply good_puts.
Qed.
Lemma good_block : ty = W65C816 -> good 2 R_block (block d).
Proof.
  intros E. destruct RD as (SY & RR & AW & _). rewrite E in AW. change (addressWidth W65C816) with 24 in AW.
  set (g := fun db sb => (fun s => bind (t_print (outAbsAddr d (Z.shiftl sb 16) 0) s) (fun s => bind (Val (t_put comma s)) (t_print (outAbsAddr d (Z.shiftl db 16) 0)))) : step).
  assert (KG : forall db sb, keeping (g db sb)).
  { intros db sb. apply keeping_seq; [apply keeping_print|]. apply (keeping_seq (fun s => Val (t_put comma s))); [apply keeping_put|apply keeping_print]. }
  assert (SH : forall x, Z.shiftl x 16 = 65536 * x) by (intros x; rewrite Z.shiftl_mul_pow2 by lia; lia).
  set (R := fun db sb => R_seq (R_num np (65536 * sb)) (R_seq (R_text (fun _ t => t = [44; 32])) (R_num np (65536 * db)))).
  assert (G : forall db sb, byte db -> byte sb -> good 0 (R db sb) (g db sb)).
  { intros db sb B1 B2. unfold g. rewrite !SH. unfold byte in *.
    apply (good_seq 0 0); [apply (good_abs d np _ 0 24); auto; rewrite ?AW; cbn [Z.eqb]; lia|].
    apply (good_seq 0 0 _ _ (fun s => Val (t_put comma s))); [apply good_comma|]. apply (good_abs d np _ 0 24); auto; rewrite ?AW; cbn [Z.eqb]; lia. }
  unfold block. eapply good_weaken; [apply le_n| |apply (good_byte 1 (fun db => R_byte (fun sb => R db sb)) (fun db s => let '(sb, s) := t_byte s in g db sb s))].
  - intros h t nb nm' (db & nb' & -> & B1 & sb & nb2 & -> & B2 & t1 & t2 & n1 & n2 & nm1 & -> & -> & (-> & -> & N1) & t3 & t4 & n3 & n4 & nm2 & -> & -> & (-> & -> & ->) & -> & -> & N2). rel_out.
    split; [reflexivity|]. exists db, sb, t1, t4. auto 10.
  - intros db B1. apply (good_byte 0 (fun sb => R db sb) (g db)); [intros sb B2; now apply G| |]; intros sb; apply KG.
  - intros db. apply (keeping_byte (g db)). apply KG.
  - intros db. apply (keeping_byte (g db)). apply KG.
Qed.
Hypothesis TY : In ty types.
Hypothesis BO : byte o.
Lemma good_chain : good n_chain R_chain (chain d ty opt o).
Proof.
  pose proof (look_at ty (op_indirectLong opt) opt o TY BO) as LO. unfold n_chain, chain, R_chain, look, look_ok in *. cbv zeta in *.
  destruct (find_opcode _ ty o) as [[e|]| | | |]; try discriminate LO.
  - rewrite !andb_true_iff in LO. destruct LO as ((_ & LL) & _).
    assert (L : forall m, m = e_m1 e \/ m = e_m2 e \/ m = e_m3 e -> baseMode m = M_ABSL -> ty = W65C816).
    { intros m M B. apply orb_true_iff in LL. destruct LL as [LL|LL]; [now apply Z.eqb_eq|]. exfalso. rewrite !andb_true_iff, !negb_true_iff, !Z.eqb_neq in LL.
      destruct M as [->|[->| ->]]; tauto. }
    assert (G : good (if is_bank e then 2 else (kw (e_m1 e) + (kw (e_m2 e) + kw (e_m3 e))))%nat (R_tail e) (if is_bank e then block d
      else fun s => bind (first_op d ty opt o e s) (fun s => bind (more_op d ty opt o (e_m2 e) (indirect (e_m2 e)) (longIndirect (e_m2 e)) s)
             (more_op d ty opt o (e_m3 e) false false)))).
    { unfold R_tail. destruct (is_bank e).
      - apply good_block. apply orb_true_iff in LL. destruct LL as [LL|LL]; [now apply Z.eqb_eq|]. exfalso. rewrite andb_true_iff in LL. destruct LL as (_ & LL). discriminate.
      - apply good_seq; [apply good_first; apply L; auto|]. apply good_seq; apply good_more; apply L; auto. }
    eapply good_weaken; [apply le_n| |apply (good_seq 0 _ _ _ (fun s => Val (t_readName (entry_name e) s)) _ (good_name (entry_name e)) G)].
    intros h t nb nm' Q. exists e. auto.
  - eapply good_weaken; [apply le_n| |apply good_check]. intros h t nb nm' (Q & _). discriminate.
Qed.
Lemma chain_len : (1 + n_chain <= 4)%nat.
Proof.
  pose proof (look_at ty (op_indirectLong opt) opt o TY BO) as LO. unfold n_chain, look_ok, look in *. cbv zeta in *.
  destruct (find_opcode _ ty o) as [[e|]| | | |]; try (cbn; lia). rewrite andb_true_iff in LO. destruct LO as (_ & LO). apply Nat.leb_le in LO.
  destruct (is_bank e); [lia|]. unfold kw, kind1, la, li. lia.
Qed.
End Rel.
End Printed.
