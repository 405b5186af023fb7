(** The Z80: proof of the round trip. *)
From Coq Require Import String ZArith List Bool Lia ZifyBool.
From Verif Require Import M_Char M_Error M_Value M_Text M_StrBuffer M_Format M_Number M_Insn M_Config M_Operators
  M_Parsers M_Expr M_Directive M_Table T_Tables M_Asm M_Dis M_Z80Defs T_Z80 M_Z80
  S_Value S_Number S_Expr S_ExprTree S_Table P_StrBuffer P_Number P_NumberRead
  P_ExprRead P_ExprTree P_ExprCase P_Table P_Insn P_Config P_Value P_Directive P_AsmText P_CpuShape P_CpuGood P_CpuText P_CpuSigned.
Import ListNotations.
Open Scope string_scope.
Open Scope list_scope.
Local Open Scope Z_scope.

Definition reads_as (d : disasm) : Prop := da_symtab d = None /\ da_reads d np_intel /\ da_aw d = 16 /\
  (da_relative d = true -> da_cursym d = 36).
Lemma z80_reads uh uc oc rel cs ih cur : (rel = true -> cur = 36) -> reads_as (z80_dis uh uc oc rel cs ih cur None).
Proof.
  intros H. split; [reflexivity|]. split; [|split; [reflexivity|exact H]]. apply all_reads, universal_reads; [cbn; auto|].
  unfold da_formatter, z80_dis. cbn. destruct cs, ih; auto.
Qed.

(* ------------------------------------------------------------ what is printed *)
Inductive kind := K_none | K_name (r : Z) | K_ind (r : Z) | K_cc (c : Z) | K_val (x : Z) | K_byte | K_ioa | K_word | K_abs
  | K_idx (r : Z) | K_rel.
Definition data_kind (r : Z) : kind := if r =? REG_HL then K_ind r else K_name r.
Definition kind_of (p o mode : Z) : kind :=
  if mode =? M_IM8 then K_byte
  else if mode =? M_IM16 then K_word
  else if mode =? M_ABS then K_abs
  else if mode =? M_IOA then K_ioa
  else if mode =? M_IDX then K_idx (decodeIndexReg p)
  else if mode =? M_CC4 then K_cc (decodeCcName (Z.land (Z.shiftr o 3) 3))
  else if mode =? M_CC8 then K_cc (decodeCcName (Z.shiftr o 3))
  else if mode =? M_REL then K_rel
  else if (mode =? M_R16) || (mode =? M_NOHL) || (mode =? M_R16X) then K_name (decodePointerReg (Z.shiftr o 4) p)
  else if mode =? M_STK then K_name (decodeStackReg (Z.shiftr o 4))
  else if (mode =? M_SRC) || (mode =? M_SR8) then data_kind (decodeDataReg o)
  else if (mode =? M_DST) || (mode =? M_DR8) then data_kind (decodeDataReg (Z.shiftr o 3))
  else if mode =? M_VEC then K_val (Z.land o 0x38)
  else if mode =? M_BIT then K_val (Z.land (Z.shiftr o 3) 7)
  else if mode =? M_IMMD then let n := Z.land (Z.shiftr o 3) 3 in K_val (if n =? 0 then 0 else n - 1)
  else if mode =? R_IDX then K_name (decodeIndexReg p)
  else if (mode =? R_A) || (mode =? R_DE) || (mode =? R_HL) || (mode =? R_SP) || (mode =? R_AF) || (mode =? R_AFP) ||
          (mode =? R_I) || (mode =? R_R) then K_name (mode - R_BASE)
  else if mode =? I_PTR then K_ind (decodeIndirectBase (Z.shiftr o 4))
  else if mode =? I_IDX then K_ind (decodeIndexReg p)
  else if (mode =? I_HL) || (mode =? I_SP) || (mode =? I_C) then K_ind (mode - I_BASE)
  else K_none.
Definition kwidth (K : kind) : nat :=
  match K with K_none | K_name _ | K_ind _ | K_cc _ | K_val _ => 0 | K_byte | K_ioa | K_idx _ | K_rel => 1 | K_word | K_abs => 2 end.
Definition num := numeral np_intel.
Definition reg_text (r : Z) : text := match name_of r REG_ENTRIES with Some t => t | None => [] end.
Definition cc_text (c : Z) : text := match name_of c CC_ENTRIES with Some t => t | None => [] end.
(* the operand of kind [K], with the value [v], in the case [k], of the instruction at [addr], after the bytes [bs] *)
Definition piece (d : disasm) (K : kind) (k : option bool) (addr : Z) (bs : list Z) (t : text) (nb : list Z) (v : Z) : Prop :=
  match K with
  | K_none => t = [] /\ nb = [] /\ v = 0
  | K_name r => t = map (conv k) (reg_text r) /\ nb = [] /\ v = 0
  | K_ind r => t = 40 :: map (conv k) (reg_text r) ++ [41] /\ nb = [] /\ v = 0
  | K_cc c => t = map (conv k) (cc_text c) /\ nb = [] /\ v = 0
  | K_val x => num t x /\ nb = [] /\ v = x
  | K_byte => num t v /\ nb = [v] /\ byte v
  | K_ioa => exists u, t = 40 :: u ++ [41] /\ num u v /\ nb = [v] /\ byte v
  | K_word => exists lo hi, nb = [lo; hi] /\ byte lo /\ byte hi /\ v = 256 * hi + lo /\ num t v
  | K_abs => exists u lo hi, t = 40 :: u ++ [41] /\ nb = [lo; hi] /\ byte lo /\ byte hi /\ v = 256 * hi + lo /\ num u v
  | K_idx r => exists u x, t = 40 :: map (conv k) (reg_text r) ++ u ++ [41] /\ nb = [x] /\ byte x /\ v = int8 x /\ signed_text np_intel u v
  | K_rel => exists x, nb = [x] /\ byte x /\ v = u32 (u32 (addr + Z.of_nat (length bs) + 1) + int8 x) /\ checkAddr 16 v false = OK /\
      (0 <= addr < 2^16 -> (length bs <= 2)%nat -> place_text np_intel 36 addr t v)
  end.
Definition R_piece (d : disasm) (K : kind) : rel := fun h t nb nm' =>
  nm' = h_nm h /\ exists v, piece d K (h_case h) (h_addr h) (h_bs h) t nb v.
Ltac rel_out := cbn [h_case h_addr h_bs h_nm] in *.
Lemma reg_out r b : outRegName r b = out_text (reg_text r) b.
Proof. unfold outRegName, reg_text. now destruct (name_of r REG_ENTRIES). Qed.
Lemma good_reg d r : good 0 (R_piece d (K_name r)) (fun s => Val (t_put (outRegName r) s)).
Proof.
  eapply good_weaken; [apply le_n| |apply (good_put _ (reg_text r)); intros; apply reg_out].
  intros h t nb nm' (-> & -> & ->). split; [reflexivity|]. exists 0. cbn [piece]. auto.
Qed.
Lemma ind_out r b : outIndirectReg r b = out_text (40 :: reg_text r ++ [41]) b.
Proof. unfold outIndirectReg. rewrite !letter_text, reg_out. change (40 :: reg_text r ++ [41]) with ([40] ++ reg_text r ++ [41]). now rewrite !out_text_app. Qed.
Lemma conv40 k : conv k 40 = 40. Proof. apply plain_symbol. reflexivity. Qed.
Lemma conv41 k : conv k 41 = 41. Proof. apply plain_symbol. reflexivity. Qed.
Lemma good_ind d r : good 0 (R_piece d (K_ind r)) (fun s => Val (t_put (outIndirectReg r) s)).
Proof.
  eapply good_weaken; [apply le_n| |apply (good_put _ (40 :: reg_text r ++ [41])); intros; apply ind_out].
  intros h t nb nm' (-> & -> & ->). split; [reflexivity|]. exists 0. cbn [piece]. cbn [map]. rewrite map_app. cbn [map]. rewrite conv40, conv41. auto.
Qed.
Lemma good_data d r : good 0 (R_piece d (data_kind r)) (fun s => Val (t_put (outDataReg r) s)).
Proof.
  unfold data_kind, outDataReg. destruct (Z.eqb_spec r REG_HL) as [->|_]; [apply (good_ind d REG_HL)|].
  apply (good_ext _ _ (fun s => Val (t_put (outRegName r) s))); [reflexivity|apply good_reg].
Qed.
Lemma good_cc d c : good 0 (R_piece d (K_cc c)) (fun s => Val (t_put (outCcName c) s)).
Proof.
  eapply good_weaken; [apply le_n| |apply (good_put _ (cc_text c))].
  - intros h t nb nm' (-> & -> & ->). split; [reflexivity|]. exists 0. cbn [piece]. auto.
  - intros b. unfold outCcName, cc_text. now destruct (name_of c CC_ENTRIES).
Qed.
Lemma good_val d x f : good 0 (R_num np_intel x) f -> good 0 (R_piece d (K_val x)) f.
Proof.
  apply good_weaken; [apply le_n|]. intros h t nb nm' (-> & -> & N). split; [reflexivity|]. exists x. cbn [piece]. auto.
Qed.
Lemma good_letter c : is_alpha c = false -> good 0 (R_text (fun _ t => t = [c])) (fun s => Val (t_put (letter c) s)).
Proof.
  intros A. eapply good_weaken; [apply le_n| |apply (good_put _ [c]); intros; apply letter_text].
  intros h t nb nm' (-> & -> & ->). split; [reflexivity|]. split; [reflexivity|]. cbn [map]. now rewrite (plain_symbol _ A).
Qed.
Lemma good_imm8 d : reads_as d -> good 1 (R_piece d K_byte) (fun s => let '(v, s) := t_byte s in t_print (dis_outHex d v 8 true) s).
Proof.
  intros (SY & RD & AW & _). eapply good_weaken; [apply le_n| |apply (good_byte 0 (fun v => R_num np_intel v))].
  - intros h t nb nm' (v & nb' & -> & B & -> & -> & N). split; [reflexivity|]. exists v. cbn [piece]. auto.
  - intros v V. apply good_hex; auto; unfold byte in *; lia.
  - intros v. apply keeps_print.
  - intros v. apply frame_print.
Qed.
Lemma good_imm16 d : reads_as d -> good 2 (R_piece d K_word) (fun s => let '(v, s) := t_uint16Le s in t_print (dis_outHex d v 16 true) s).
Proof.
  intros (SY & RD & AW & _). eapply good_weaken; [apply le_n| |apply (good_le 0 (fun v => R_num np_intel v))].
  - intros h t nb nm' (lo & hi & nb' & -> & BL & BH & -> & -> & N). split; [reflexivity|]. exists (256 * hi + lo). cbn [piece]. exists lo, hi. auto 10.
  - intros v V. apply good_hex; auto; lia.
  - intros v. apply keeping_print.
Qed.
Lemma good_absolute d : reads_as d -> good 2 (R_piece d K_abs)
  (fun s => let s := t_put (letter 40) s in let '(v, s) := t_uint16Le s in bind (t_print (outAbsAddr d v 0) s) (fun s => Val (t_put (letter 41) s))).
Proof.
  intros (SY & RD & AW & _).
  set (g := fun v s => bind (t_print (outAbsAddr d v 0) s) (fun s => Val (t_put (letter 41) s))).
  assert (G : forall v, 0 <= v < 65536 -> good 0 (R_seq (R_num np_intel v) (R_text (fun _ t => t = [41]))) (g v)).
  { intros v V. apply (good_seq 0 0); [|now apply good_letter]. apply (good_abs d np_intel v 0 16); auto; rewrite ?AW; cbn [Z.eqb]; lia. }
  apply (good_ext _ _ (fun s => bind (Val (t_put (letter 40) s)) (fun s => let '(v, s) := t_uint16Le s in g v s))); [reflexivity|].
  eapply good_weaken; [apply le_n| |apply (good_seq 0 2); [apply (good_letter 40); reflexivity|apply (good_le 0 _ g G); intros v; apply keeping_seq; [apply keeping_print|apply keeping_put]]].
  intros h t nb nm' (t1 & t2 & n1 & n2 & nm1 & -> & -> & (-> & -> & ->) & lo & hi & nb' & -> & BL & BH & u1 & u2 & m1 & m2 & nm2 & -> & -> & (-> & -> & N) & (-> & -> & ->)).
  rel_out. split; [reflexivity|]. exists (256 * hi + lo). cbn [piece]. exists u1, lo, hi. cbn [app]. auto 10.
Qed.
Lemma good_ioa d : reads_as d -> good 1 (R_piece d K_ioa)
  (fun s => let s := t_put (letter 40) s in let '(v, s) := t_byte s in bind (t_print (dis_outHex d v 8 true) s) (fun s => Val (t_put (letter 41) s))).
Proof.
  intros (SY & RD & AW & _).
  set (g := fun v s => bind (t_print (dis_outHex d v 8 true) s) (fun s => Val (t_put (letter 41) s))).
  assert (G : forall v, byte v -> good 0 (R_seq (R_num np_intel v) (R_text (fun _ t => t = [41]))) (g v)).
  { intros v V. apply (good_seq 0 0); [|now apply good_letter]. apply good_hex; auto; unfold byte in *; lia. }
  assert (KG : forall v, keeping (g v)) by (intros v; apply keeping_seq; [apply keeping_print|apply keeping_put]).
  apply (good_ext _ _ (fun s => bind (Val (t_put (letter 40) s)) (fun s => let '(v, s) := t_byte s in g v s))); [reflexivity|].
  eapply good_weaken; [apply le_n| |apply (good_seq 0 1); [apply (good_letter 40); reflexivity|apply (good_byte 0 _ g G); intros v; apply KG]].
  intros h t nb nm' (t1 & t2 & n1 & n2 & nm1 & -> & -> & (-> & -> & ->) & v & nb' & -> & BV & u1 & u2 & m1 & m2 & nm2 & -> & -> & (-> & -> & N) & (-> & -> & ->)).
  rel_out. split; [reflexivity|]. exists v. cbn [piece]. exists u1. cbn [app]. auto 10.
Qed.
Lemma good_offset d z : reads_as d -> -128 <= z <= 127 ->
  good 0 (R_text (fun _ t => exists u, t = u ++ [41] /\ signed_text np_intel u z)) (outIndexOffset d z).
Proof.
  intros (SY & RD & AW & _) V.
  apply (good_ext _ _ (fun s => bind (bind (Val (if 0 <=? z then t_put (letter 43) s else s)) (t_print (dis_outDec d (u32 z) (-8)))) (fun s => Val (t_put (letter 41) s)))); [reflexivity|].
  eapply good_weaken; [apply le_n| |apply (good_seq 0 0); [apply (good_signed8 d np_intel z SY RD V)|apply (good_letter 41); reflexivity]].
  intros h t nb nm' (t1 & t2 & n1 & n2 & nm1 & -> & -> & (-> & -> & N) & (-> & -> & ->)). rel_out. split; [reflexivity|]. split; [reflexivity|]. exists t1. auto.
Qed.
Lemma good_open r : good 0 (R_text (fun k t => t = 40 :: map (conv k) (reg_text r))) (fun s => Val (t_put (fun out => outRegName r (letter 40 out)) s)).
Proof.
  eapply good_weaken; [apply le_n| |apply (good_put _ (40 :: reg_text r))].
  - intros h t nb nm' (-> & -> & ->). split; [reflexivity|]. split; [reflexivity|]. cbn [map]. now rewrite conv40.
  - intros b. rewrite reg_out, letter_text. change (40 :: reg_text r) with ([40] ++ reg_text r). now rewrite out_text_app.
Qed.
Lemma good_idx d r : reads_as d -> good 1 (R_piece d (K_idx r))
  (fun s => let s := t_put (fun out => outRegName r (letter 40 out)) s in let '(v, s) := t_byte s in outIndexOffset d (int8 v) s).
Proof.
  intros RA. set (g := fun v => outIndexOffset d (int8 v)).
  set (R := fun v => R_text (fun _ t => exists u, t = u ++ [41] /\ signed_text np_intel u (int8 v))).
  assert (G : forall v, good 0 (R v) (g v)) by (intros v; apply good_offset; [exact RA|apply int8_range]).
  apply (good_ext _ _ (fun s => bind (Val (t_put (fun out => outRegName r (letter 40 out)) s)) (fun s => let '(v, s) := t_byte s in g v s))); [reflexivity|].
  eapply good_weaken; [apply le_n| |apply (good_seq 0 1); [apply (good_open r)|apply (good_byte' 0 R g G)]].
  intros h t nb nm' (t1 & t2 & n1 & n2 & nm1 & -> & -> & (-> & -> & ->) & v & nb' & -> & BV & -> & -> & u & -> & N). rel_out.
  split; [reflexivity|]. exists (int8 v). cbn [piece]. exists u, v. cbn [app]. rewrite <- ?app_assoc. auto 10.
Qed.
Lemma good_branch d : reads_as d -> good 1 (R_piece d K_rel) (decodeRelative d).
Proof.
  intros (SY & RD & AW & CS).
  set (tg := fun v (i : insn) => u32 (u32 (i_addr i + i_len i) + int8 v)).
  apply (good_ext _ _ (fun s => let '(v, s) := t_byte s in let i := d_insn (t_in s) in
      t_print (outRelAddr d (tg v i) (i_addr i) 8) (t_setErrorIf (checkAddr (da_aw d) (tg v i) false) s))).
  { intros s. unfold decodeRelative. now destruct (t_byte s). }
  eapply good_weaken; [apply le_n| |apply (good_branch8 d np_intel 36 tg SY RD)].
  - intros h t nb nm' (-> & x & -> & B & CK & P). split; [reflexivity|]. rewrite AW in *. unfold tg in *. cbn [canon i_addr i_len] in *.
    replace (h_addr h + Z.of_nat (length (h_bs h ++ [x]))) with (h_addr h + Z.of_nat (length (h_bs h)) + 1) in * by (rewrite app_length; cbn [length]; lia).
    exists (u32 (u32 (h_addr h + Z.of_nat (length (h_bs h)) + 1) + int8 x)), x. split; [reflexivity|]. split; [exact B|]. split; [reflexivity|]. split; [exact CK|]. intros AR LB.
    apply P; [exact AR|]. destruct (rel_target (h_addr h + Z.of_nat (length (h_bs h)) + 1) x ltac:(lia) CK) as (-> & _). pose proof (int8_range x). lia.
  - rewrite AW. lia.
  - exact CS.
  - reflexivity.
  - intros v i. unfold tg, u32. apply Z.mod_pos_bound. lia.
Qed.
(* one digit *)
Lemma digit_num n : 0 <= n < 4 -> num [48 + n] n.
Proof.
  intros N. assert (F : fmt_reads DecFormatter np_intel 10) by (apply dec_reads, fb_all; cbn; auto).
  assert (X : In n [0; 1; 2; 3]) by (cbn; lia). cbn in X.
  repeat (destruct X as [<-|X]; [
    match goal with |- num _ ?m =>
      destruct (fmt_numeral _ _ m 8 (mkB [] 80 OK None) F ltac:(lia) ltac:(lia) eq_refl) as (_ & t & A & T); vm_compute in A; injection A as <-; exact T end|]).
  contradiction.
Qed.
Lemma land_low o n k : n = 2 ^ k - 1 -> 0 <= k -> 0 <= Z.land o n < 2 ^ k.
Proof. intros -> K. replace (2^k - 1) with (Z.ones k) by (rewrite Z.ones_equiv; lia). rewrite Z.land_ones by lia. apply Z.mod_pos_bound. lia. Qed.
Lemma good_operand d p o mode : reads_as d -> byte o -> good (kwidth (kind_of p o mode)) (R_piece d (kind_of p o mode)) (decodeOperand d p o mode).
Proof.
  intros RA BO. pose proof RA as (SY & RD & AW & _). unfold decodeOperand, kind_of.
  assert (R3 : forall z, 0 <= Z.land z 7 < 2^3) by (intros z; apply land_low; lia).
  assert (R2 : forall z, 0 <= Z.land z 3 < 2^2) by (intros z; apply land_low; lia).
  assert (GH : forall v bits, 0 <= v < 2 ^ bits -> 1 <= bits <= 32 -> good 0 (R_piece d (K_val v)) (t_print (dis_outHex d v bits true))).
  { intros v bits V B. apply good_val. now apply good_hex. }
  assert (GN : good 0 (R_piece d K_none) (fun s => Val s)).
  { eapply good_weaken; [apply le_n| |apply good_none]. intros h t nb nm' (-> & -> & ->). split; [reflexivity|]. exists 0. cbn. auto. }
  destruct (mode =? M_IM8); [now apply good_imm8|].
  destruct (mode =? M_IM16); [now apply good_imm16|].
  destruct (mode =? M_ABS); [now apply good_absolute|].
  destruct (mode =? M_IOA); [now apply good_ioa|].
  destruct (mode =? M_IDX); [now apply good_idx|].
  destruct (mode =? M_CC4); [apply good_cc|].
  destruct (mode =? M_CC8); [apply good_cc|].
  destruct (mode =? M_REL); [now apply good_branch|].
  destruct (_ || _ || _); [apply good_reg|].
  destruct (mode =? M_STK); [apply good_reg|].
  assert (DW : forall r, kwidth (data_kind r) = 0%nat) by (intros r; unfold data_kind; now destruct (r =? REG_HL)).
  destruct (_ || _); [rewrite DW; apply good_data|].
  destruct (_ || _); [rewrite DW; apply good_data|].
  destruct (mode =? M_VEC).
  { apply GH; [|lia]. split; [apply Z.land_nonneg; lia|]. pose proof (all_in o BO) as I.
    assert (forallb (fun o => Z.land o 0x38 <? 256) all_bytes = true) as H by (vm_compute; reflexivity). rewrite forallb_forall in H. specialize (H o I). change (2^8) with 256. lia. }
  destruct (mode =? M_BIT); [apply GH; [apply R3|lia]|].
  destruct (mode =? M_IMMD).
  { cbv zeta. pose proof (R2 (Z.shiftr o 3)) as RR. set (n := Z.land _ _) in *.
    apply good_val. set (m := if n =? 0 then 0 else n - 1).
    replace (if n =? 0 then 48 else n - 1 + 48) with (48 + m) by (unfold m; destruct (n =? 0); lia).
    assert (M3 : 0 <= m < 4) by (unfold m; destruct (Z.eqb_spec n 0); lia).
    eapply good_weaken; [apply le_n| |apply (good_letter (48 + m))].
    - intros h t nb nm' (-> & -> & ->). split; [reflexivity|]. split; [reflexivity|]. now apply digit_num.
    - unfold is_alpha, is_upper, is_lower. lia. }
  destruct (mode =? R_IDX); [apply good_reg|].
  destruct (_ || _ || _ || _ || _ || _ || _ || _); [apply good_reg|].
  destruct (mode =? I_PTR); [apply good_ind|].
  destruct (mode =? I_IDX); [apply good_ind|].
  destruct (_ || _ || _); [apply good_ind|exact GN].
Qed.

(* ------------------------------------------------------------ a whole instruction *)
Definition pages : list Z := [0; 0xCB; 0xED; 0xDD; 0xFD].
Definition pfx (c : Z) : bool := isPrefix Z80_PAGES c.
Definition look (p o : Z) : option entry := match z80_searchOpCode p o with Val r => r | _ => None end.
Definition is_ixb (e : entry) : bool := e_dst e =? T_IXB.
Definition look_ok (p o : Z) : bool :=
  match z80_searchOpCode p o with
  | Val None => true
  | Val (Some e) => (negb (e_dst e =? M_NONE) || (e_src e =? M_NONE)) && (negb (is_ixb e) || (o =? 0xCB) && ((p =? 0xDD) || (p =? 0xFD))) &&
      (kwidth (kind_of p o (e_dst e)) + kwidth (kind_of p o (e_src e)) <=? 2)%nat
  | _ => false
  end.
Lemma look_check : forallb (fun p => forallb (look_ok p) all_bytes) pages = true.
Proof. vm_compute. reflexivity. Qed.
Lemma look_at p o : In p pages -> byte o -> look_ok p o = true.
Proof. intros P O. pose proof look_check as H. rewrite forallb_forall in H. specialize (H p P). rewrite forallb_forall in H. apply H, all_in, O. Qed.
Lemma look_val p o : In p pages -> byte o -> z80_searchOpCode p o = Val (look p o).
Proof. intros P O. pose proof (look_at p o P O) as LO. unfold look, look_ok in *. destruct (z80_searchOpCode p o) as [[e|]| | | |]; try discriminate; reflexivity. Qed.
Definition noname : step := fun s => Val (mkDst (t_in s) [] (t_out s)).
Definition bit_number (d : disasm) (x : Z) (e : entry) : step :=
  if e_dst e =? M_BIT then fun s => bind (t_print (dis_outHex d (Z.land (Z.shiftr x 3) 7) 3 true) s) (fun s => Val (t_put comma s)) else fun s => Val s.
Definition bits (d : disasm) (p v x : Z) : step :=
  match look 0xCB x with
  | None => fun s => bind (noname s) (fun s => Val (t_setErrorIf UNKNOWN_INSTRUCTION s))
  | Some e =>
    if decodeDataReg x =? REG_HL then
      fun s => bind (noname s) (fun s => bind (Val (t_readName (entry_name e) s)) (fun s => bind (bit_number d x e s) (fun s =>
        bind (Val (t_put (fun out => outRegName (decodeIndexReg p) (letter 40 out)) s)) (outIndexOffset d (int8 v)))))
    else fun s => bind (noname s) (fun s => bind (Val (t_readName (entry_name e) s)) (fun s => bind (noname s) (fun s => Val (t_setErrorIf UNKNOWN_INSTRUCTION s))))
  end.
Definition ixchain (d : disasm) (p : Z) : step := fun s =>
  let '(v, s) := t_byte s in (fun s => let '(x, s) := t_byte s in bits d p v x s) s.
Lemma seterr_same e s : d_err (t_in s) = e -> t_setErrorIf e s = s.
Proof. intros <-. unfold t_setErrorIf, setErrorIfAt. destruct s as [[i m e] nm out]. cbn. unfold t_seterr, t_set_in. cbn. now destruct e. Qed.
Lemma ix_eq d p s : bytes_in s -> decodeIndexedBitOp d p 0xCB s = ixchain d p s.
Proof.
  intros BI. unfold decodeIndexedBitOp, ixchain. destruct (t_byte s) as [v s1] eqn:T1. destruct (bytes_kept _ _ _ T1 BI) as (BI1 & BV & _).
  destruct (t_byte s1) as [x s2] eqn:T2. destruct (bytes_kept _ _ _ T2 BI1) as (BI2 & BX & _). cbv zeta.
  rewrite look_val by (auto; cbn; auto). cbn [bind]. unfold bits. destruct (look 0xCB x) as [e|]; [|reflexivity].
  unfold noname, bit_number. cbn [bind]. destruct (decodeDataReg x =? REG_HL); [|reflexivity].
  set (s3 := t_readName (entry_name e) (mkDst (t_in s2) [] (t_out s2))).
  assert (S3 : t_in s3 = t_in s2) by reflexivity.
  assert (FIN : forall s4, t_in s4 = t_in s2 -> (if negb (isOK (d_err (t_in s1))) then t_setErrorIf (d_err (t_in s1)) s4 else s4) = s4).
  { intros s4 E4. destruct (negb (isOK (d_err (t_in s1)))) eqn:N; [|reflexivity]. apply seterr_same. rewrite E4. eapply byte_err; [exact T2|].
    intros E. rewrite E in N. discriminate. }
  destruct (e_dst e =? M_BIT).
  - destruct (t_print (dis_outHex d (Z.land (Z.shiftr x 3) 7) 3 true) s3) as [s4| | | |] eqn:P; cbn [bind]; try reflexivity.
    rewrite FIN; [reflexivity|]. rewrite !put_in. now rewrite (print_err _ _ _ P).
  - cbn [bind]. rewrite FIN; [reflexivity|]. rewrite put_in. exact S3.
Qed.
Definition more_op (d : disasm) (p o mode : Z) : step :=
  if mode =? M_NONE then fun s => Val s else fun s => bind (Val (t_put comma s)) (decodeOperand d p o mode).
Definition chain (d : disasm) (p o : Z) : step :=
  match look p o with
  | None => fun s => Val (t_setErrorIf UNKNOWN_INSTRUCTION s)
  | Some e =>
    if is_ixb e then fun s => bind (Val (t_readName (entry_name e) s)) (ixchain d p)
    else fun s => bind (Val (t_readName (entry_name e) s)) (fun s => bind (decodeOperand d p o (e_dst e) s) (more_op d p o (e_src e)))
  end.
Lemma pages_in p : p = 0 \/ pfx p = true -> In p pages.
Proof.
  intros [->|H]; [cbn; auto|]. unfold pfx, isPrefix in H. apply existsb_exists in H. destruct H as (x & I & H).
  destruct (Z.eqb_spec (p_info x) 0); [discriminate|]. apply Z.eqb_eq in H. subst p. cbn [In Z80_PAGES] in I.
  repeat (destruct I as [<-|I]; [cbn; auto 20|]). contradiction.
Qed.
Lemma chain_start d p o s : In p pages -> byte o -> bytes_in s -> decode_opcode d p o s = chain d p o (t_seterr OK s).
Proof.
  intros P O BI. pose proof (look_at p o P O) as LO. unfold decode_opcode, chain, look, look_ok, is_ixb in *. cbv zeta.
  destruct (z80_searchOpCode p o) as [[e|]| | | |]; try discriminate; cbn [bind]; [|reflexivity].
  apply andb_true_iff in LO. destruct LO as (LO & _). apply andb_true_iff in LO. destruct LO as (LO & IX).
  destruct (Z.eqb_spec (e_dst e) T_IXB) as [EX|N].
  - cbn [negb orb] in IX. apply andb_true_iff in IX. destruct IX as (IX & _). apply Z.eqb_eq in IX. subst o. rewrite ix_eq; [reflexivity|exact BI].
  - unfold more_op. destruct (Z.eqb_spec (e_dst e) M_NONE) as [->|NN]; cbn [negb orb] in LO.
    + rewrite LO. reflexivity.
    + destruct (decodeOperand _ _ _ _ _) as [s1| | | |]; try reflexivity. cbn [bind]. now destruct (e_src e =? M_NONE).
Qed.
Definition is_none (K : kind) : bool := match K with K_none => true | _ => false end.
Lemma is_none_ok K : is_none K = true <-> K = K_none.
Proof. destruct K; cbn; split; congruence. Qed.
Definition sep (K : kind) : text := if is_none K then [] else [44; 32].
Definition two (d : disasm) (k : option bool) (addr : Z) (bs : list Z) (K1 K2 : kind) (t : text) (nb : list Z) : Prop :=
  exists t1 t2 n1 n2 v1 v2, piece d K1 k addr bs t1 n1 v1 /\ piece d K2 k addr (bs ++ n1) t2 n2 v2 /\ t = t1 ++ sep K2 ++ t2 /\ nb = n1 ++ n2.
(* the bit instructions of the index registers *)
Definition ix_kinds (p x : Z) (e : entry) : kind * kind :=
  if e_dst e =? M_BIT then (K_val (Z.land (Z.shiftr x 3) 7), K_idx (decodeIndexReg p)) else (K_idx (decodeIndexReg p), K_none).
Definition R_ix (d : disasm) (p : Z) : rel := fun h t nb nm' => exists v x e, nb = [v; x] /\ byte v /\ byte x /\
  look 0xCB x = Some e /\ decodeDataReg x = REG_HL /\ nm' = firstn 11 (map (conv (h_case h)) (entry_name e)) /\
  two d (h_case h) (h_addr h) (h_bs h) (fst (ix_kinds p x e)) (snd (ix_kinds p x e)) t [v].
Definition R_open (d : disasm) (p v : Z) : rel := R_seq (R_text (fun k t => t = 40 :: map (conv k) (reg_text (decodeIndexReg p))))
  (R_text (fun _ t => exists u, t = u ++ [41] /\ signed_text np_intel u (int8 v))).
Definition R_bitno (x : Z) (e : entry) : rel := if e_dst e =? M_BIT then R_seq (R_num np_intel (Z.land (Z.shiftr x 3) 7)) (R_text (fun _ t => t = [44; 32])) else R_none.
Definition R_noname : rel := fun h t nb nm' => t = [] /\ nb = [] /\ nm' = [].
Lemma good_noname : good 0 R_noname noname.
Proof. exact (good_setname []). Qed.
Definition R_bits (d : disasm) (p v x : Z) : rel := fun h t nb nm' => exists e, look 0xCB x = Some e /\ decodeDataReg x = REG_HL /\
  R_seq R_noname (R_seq (R_name (entry_name e)) (R_seq (R_bitno x e) (R_open d p v))) h t nb nm'.
Lemma good_bits d p v x : reads_as d -> good 0 (R_bits d p v x) (bits d p v x).
Proof.
  intros RA. unfold bits, R_bits.
  assert (BAD : forall R : rel, good 0 R (fun s => bind (noname s) (fun s => Val (t_setErrorIf UNKNOWN_INSTRUCTION s)))).
  { intros R. eapply good_weaken; [apply le_n| |apply (good_seq 0 0); [apply good_noname|apply good_check]].
    intros h t nb nm' (t1 & t2 & n1 & n2 & nm1 & _ & _ & _ & Q & _). discriminate. }
  destruct (look 0xCB x) as [e|]; [|apply BAD].
  destruct (Z.eqb_spec (decodeDataReg x) REG_HL) as [HL|_].
  - assert (G : good 0 (R_bitno x e) (bit_number d x e)).
    { unfold R_bitno, bit_number. destruct (e_dst e =? M_BIT); [|apply good_none]. apply (good_seq 0 0); [|apply good_comma].
      destruct RA as (SY & RD & _). apply good_hex; auto; [apply land_low|]; lia. }
    pose proof (good_seq 0 0 _ _ _ _ (good_open (decodeIndexReg p)) (good_offset d (int8 v) RA (int8_range v))) as G4.
    pose proof (good_seq 0 0 _ _ _ _ G G4) as G3. pose proof (good_seq 0 0 _ _ _ _ (good_name (entry_name e)) G3) as G2.
    pose proof (good_seq 0 0 _ _ _ _ good_noname G2) as G1. cbn [Nat.add] in G1.
    eapply good_weaken; [apply le_n| |exact G1]. intros h t nb nm' Q. exists e. auto.
  - eapply good_weaken; [apply le_n| |apply (good_seq 0 0); [apply good_noname|apply (good_seq 0 0); [apply good_name|apply (BAD (fun _ _ _ _ => False))]]].
    intros h t nb nm' (t1 & t2 & n1 & n2 & nm1 & _ & _ & _ & t3 & t4 & n3 & n4 & nm2 & _ & _ & _ & []).
Qed.
Lemma good_ixchain d p : reads_as d -> good 2 (R_ix d p) (ixchain d p).
Proof.
  intros RA. eapply good_weaken; [apply le_n| |apply (good_byte' 1 (fun v => R_byte (R_bits d p v)) (fun v s => let '(x, s) := t_byte s in bits d p v x s)); intros v; apply (good_byte' 0 (R_bits d p v) (bits d p v)); intros x; now apply good_bits].
  intros h t nb nm' (v & nb1 & -> & BV & x & nb2 & -> & BX & e & L & HL & t1 & t2 & n1 & n2 & nm1 & -> & -> & (-> & -> & ->) &
    t3 & t4 & n3 & n4 & nm2 & -> & -> & (-> & -> & ->) & t5 & t6 & n5 & n6 & nm3 & -> & -> & Q1 & t7 & t8 & n7 & n8 & nm4 & -> & -> & (-> & -> & ->) & -> & -> & u & -> & SG).
  rel_out. unfold R_ix. exists v, x, e. unfold ix_kinds, R_bitno in *. destruct (e_dst e =? M_BIT).
  - destruct Q1 as (w1 & w2 & m1 & m2 & nm5 & -> & -> & (-> & -> & NU) & (-> & -> & ->)). rel_out. cbn [app].
    split; [reflexivity|]. split; [exact BV|]. split; [exact BX|]. split; [exact L|]. split; [exact HL|]. split; [reflexivity|]. cbn [fst snd].
    exists w1, (40 :: map (conv (h_case h)) (reg_text (decodeIndexReg p)) ++ u ++ [41]), [], [v], (Z.land (Z.shiftr x 3) 7), (int8 v).
    split; [cbn [piece]; auto|]. split; [cbn [piece]; exists u, v; auto 10|]. split; [|reflexivity].
    unfold sep. cbn [is_none]. rewrite <- !app_assoc. cbn [app]. rewrite ?app_assoc. reflexivity.
  - destruct Q1 as (-> & -> & ->). rel_out. cbn [app].
    split; [reflexivity|]. split; [exact BV|]. split; [exact BX|]. split; [exact L|]. split; [exact HL|]. split; [reflexivity|]. cbn [fst snd].
    exists (40 :: map (conv (h_case h)) (reg_text (decodeIndexReg p)) ++ u ++ [41]), [], [v], [], (int8 v), 0.
    split; [cbn [piece]; exists u, v; auto 10|]. split; [cbn [piece]; auto|]. split; [|reflexivity]. unfold sep. cbn [is_none app]. now rewrite app_nil_r.
Qed.
Definition R_more (d : disasm) (p o mode : Z) : rel :=
  if mode =? M_NONE then R_none else R_seq (R_text (fun _ t => t = [44; 32])) (R_piece d (kind_of p o mode)).
Definition R_chain (d : disasm) (p o : Z) : rel := fun h t nb nm' => exists e, look p o = Some e /\
  if is_ixb e then R_seq (R_name (entry_name e)) (R_ix d p) h t nb nm'
  else R_seq (R_name (entry_name e)) (R_seq (R_piece d (kind_of p o (e_dst e))) (R_more d p o (e_src e))) h t nb nm'.
Definition n_chain (p o : Z) : nat :=
  match look p o with Some e => if is_ixb e then 2 else kwidth (kind_of p o (e_dst e)) + kwidth (kind_of p o (e_src e)) | None => 0 end.
Lemma good_more d p o mode : reads_as d -> byte o -> good (kwidth (kind_of p o mode)) (R_more d p o mode) (more_op d p o mode).
Proof.
  intros RD BO. unfold R_more, more_op. destruct (Z.eqb_spec mode M_NONE) as [->|_].
  - apply good_none.
  - apply (good_seq 0 _ _ _ (fun s => Val (t_put comma s))); [apply good_comma|now apply good_operand].
Qed.
Lemma good_chain d p o : reads_as d -> byte o -> good (n_chain p o) (R_chain d p o) (chain d p o).
Proof.
  intros RD BO. unfold n_chain, chain, R_chain. destruct (look p o) as [e|].
  - destruct (is_ixb e) eqn:X.
    + pose proof (good_seq 0 _ _ _ _ _ (good_name (entry_name e)) (good_ixchain d p RD)) as G.
      eapply good_weaken; [apply le_n| |exact G]. intros h t nb nm' Q. exists e. rewrite X. auto.
    + pose proof (good_seq 0 _ _ _ _ _ (good_name (entry_name e)) (good_seq _ _ _ _ _ _ (good_operand d p o (e_dst e) RD BO) (good_more d p o (e_src e) RD BO))) as G.
      eapply good_weaken; [apply le_n| |exact G]. intros h t nb nm' Q. exists e. rewrite X. auto.
  - eapply good_weaken; [apply le_n| |apply good_check]. intros h t nb nm' (Q & _). discriminate.
Qed.
Lemma chain_len p o : In p pages -> byte o -> (n_chain p o <= 2)%nat.
Proof.
  intros P O. pose proof (look_at p o P O) as LO. unfold n_chain, look_ok, look in *. destruct (z80_searchOpCode p o) as [[e|]| | | |]; try lia.
  destruct (is_ixb e); lia.
Qed.

(* ------------------------------------------------------------ reading it back *)
Definition famZ : family := mkFam pl_z80 prefix_zilog infix_zilog [].
Lemma num_digit u n : num u n -> is_digit (peek u) = true.
Proof. intros N. specialize (N [] Logic.I). rewrite app_nil_r in N. eapply intel_head; [exact N|discriminate]. Qed.
Lemma head_z u n : num u n -> head_ok famZ u.
Proof. intros N. left. eapply num_digit, N. Qed.
Lemma parse_placeZ a loc delim b0 t v b rest : a_pl a = pl_z80 -> a_radix a = 10 -> In delim [0; 41; 44; 93] -> 0 <= loc < 2^32 -> 0 <= v < 2^32 ->
  place_text np_intel 36 loc t v -> blanks b0 -> blanks b ->
  (rest = [] \/ exists c u, rest = c :: u /\ (c = 44 \/ c = 59 \/ (c = delim /\ c <> 0))) ->
  exists b' w, blanks b' /\ parseInteger a loc (b0 ++ t ++ b ++ rest) OK delim = Val (w, OK, b' ++ rest) /\ int_value w /\ int_of w = v /\
    (num t v -> w = mkV V_UNSIGNED v).
Proof.
  intros PL RX DL LO V P B0 B T.
  destruct (parse_place famZ a loc delim 36 b0 t v b rest) as (b' & w & X1 & X2 & X3 & X4 & X5); auto.
  - cbn. auto 20.
  - cbn. auto.
  - apply head_z.
  - cbn. auto 40.
  - cbn. auto 40.
  - intros e I L r. cbn in I. repeat (destruct I as [<-|I]; [cbn in *; try lia; split; discriminate|]). contradiction.
  - exists b', w. split; [exact X1|]. split; [exact X2|]. split; [exact X3|]. split; [exact X4|]. intros N. apply X5; [|exact N]. intros [H|H]; [discriminate|destruct H].
Qed.
Lemma parse_signedZ a loc b0 t z b rest : a_pl a = pl_z80 -> a_radix a = 10 ->
  signed_text np_intel t z -> blanks b0 -> blanks b ->
  (rest = [] \/ exists c u, rest = c :: u /\ (c = 44 \/ c = 59 \/ (c = 41 /\ c <> 0))) ->
  exists b' w, blanks b' /\ parseInteger a loc (b0 ++ t ++ b ++ rest) OK 41 = Val (w, OK, b' ++ rest) /\ int_value w /\ int_of w = z.
Proof.
  intros PL RX P B0 B T. apply (parse_signed famZ a loc 41 b0 t z b rest 3); auto.
  - cbn. auto 20.
  - cbn. auto.
  - apply head_z.
  - lia.
  - cbn. auto 40.
  - cbn. auto 40.
  - intros e I L r. cbn in I. repeat (destruct I as [<-|I]; [cbn in *; try lia; split; discriminate|]). contradiction.
Qed.
Lemma reg_parse s : parseRegName s = parse_name REG_ENTRIES REG_UNDEF s.
Proof. reflexivity. Qed.
Lemma cc_parse s : parseCcName s = parse_name CC_ENTRIES CC_UNDEF s.
Proof. reflexivity. Qed.
Lemma none_name es u s : forallb (fun e => negb (is_digit (peek (nm_text e)))) es = true ->
  isNameLetter (peek s) = false \/ is_digit (peek s) = true -> parse_name es u s = Val (u, s).
Proof.
  intros OKN [H|H]; unfold parse_name.
  - unfold searchText, searchSymbol. change s with ([] ++ s) at 1. rewrite (take_app _ [] s eq_refl H). reflexivity.
  - rewrite searchText_digit; [reflexivity|exact OKN|exact H].
Qed.
Lemma reg_none s : isNameLetter (peek s) = false \/ is_digit (peek s) = true -> parseRegName s = Val (REG_UNDEF, s).
Proof. intros H. rewrite reg_parse. apply none_name; [vm_compute; reflexivity|exact H]. Qed.
Lemma cc_none s : isNameLetter (peek s) = false \/ is_digit (peek s) = true -> parseCcName s = Val (CC_UNDEF, s).
Proof. intros H. rewrite cc_parse. apply none_name; [vm_compute; reflexivity|exact H]. Qed.
(* a word that is none of the names *)
Lemma name_miss es u w z : word w = true -> isNameLetter (peek z) = false -> searchText nm_text w es = Val (None, w) -> parse_name es u (w ++ z) = Val (u, w ++ z).
Proof.
  unfold word. intros W Z M. apply andb_true_iff in W. destruct W as (L & W). apply Nat.leb_le in L. unfold parse_name.
  rewrite searchText_app; [|destruct w; [cbn in L; lia|discriminate]|exact W|exact Z]. rewrite M. reflexivity.
Qed.
(* what starts an operand *)
Definition starts (t : text) : Prop := t <> [] /\ is_space (peek t) = false /\ peek t <> 0 /\ peek t <> 59.
Lemma starts_skip b t z : blanks b -> starts t -> skipSpaces (b ++ t ++ z) = t ++ z.
Proof. intros B (N & S & _). rewrite skip_blanks by exact B. destruct t as [|c t]; [congruence|]. cbn [app]. now apply skip_none. Qed.
Lemma starts_eol t z : starts t -> p_eol pl_z80 (t ++ z) = (false, t ++ z).
Proof.
  intros ST. change (p_eol pl_z80) with eol_semicolon. unfold eol_semicolon. cbv zeta. pose proof (starts_skip [] t z (Forall_nil _) ST) as SK. cbn [app] in SK. rewrite SK.
  destruct ST as (N & _ & Z0 & Z59). destruct t as [|c t]; [congruence|]. cbn [app peek] in *. apply Z.eqb_neq in Z0, Z59. now rewrite Z0, Z59.
Qed.
Lemma digit_starts c t : is_digit c = true -> starts (c :: t).
Proof. intros D. unfold starts. cbn [peek]. unfold is_digit, is_space in *. repeat split; try discriminate; lia. Qed.
Lemma place_noreg loc t v z : place_text np_intel 36 loc t v -> starts t /\ parseRegName (t ++ z) = Val (REG_UNDEF, t ++ z) /\ parseCcName (t ++ z) = Val (CC_UNDEF, t ++ z) /\ expect_char 40 (t ++ z) = None.
Proof.
  intros P.
  assert (L : forall u, starts (36 :: u) /\ parseRegName ((36 :: u) ++ z) = Val (REG_UNDEF, (36 :: u) ++ z) /\ parseCcName ((36 :: u) ++ z) = Val (CC_UNDEF, (36 :: u) ++ z) /\ expect_char 40 ((36 :: u) ++ z) = None).
  { intros u. split; [unfold starts; cbn [peek]; repeat split; try discriminate|]. split; [apply reg_none; left; reflexivity|]. split; [apply cc_none; left; reflexivity|reflexivity]. }
  destruct P as [N|[(-> & _)|(u & n & [(-> & _)|(-> & _)] & _)]]; [|apply L..].
  apply num_digit in N. destruct t as [|c t]; [discriminate|]. cbn [peek] in N. split; [now apply digit_starts|].
  split; [apply reg_none; right; exact N|]. split; [apply cc_none; right; exact N|]. cbn [app expect_char]. unfold is_digit in N. destruct (Z.eqb_spec c 40); [lia|reflexivity].
Qed.
(* names *)
Definition regs : list Z := map snd REG_ENTRIES.
Definition ccs : list Z := map snd CC_ENTRIES.
Definition missed (es : list (string * Z)) (w : text) : bool :=
  match searchText nm_text w es with Val (None, u) => (length u =? length w)%nat | _ => false end.
Lemma missed_ok es w : missed es w = true -> searchText nm_text w es = Val (None, w).
Proof.
  unfold missed. destruct (searchText nm_text w es) as [[[i|] t]| | | |] eqn:E; try discriminate. intros L. apply Nat.eqb_eq in L. revert E.
  unfold searchText, searchSymbol. destruct (takeWhile isNameLetter w) as [sym next] eqn:T. destruct (Nat.eqb (length sym) 0); [congruence|].
  destruct (binarySearch _ _) as [[i|]| | | |]; cbn [bind]; congruence.
Qed.
Definition hits (es : list (string * Z)) (u : Z) (w : text) (r : Z) : bool := match parse_name es u w with Val (r', []) => r' =? r | _ => false end && negb (r =? u).
Definition name_start (w : text) : bool := word w && negb (is_space (peek w)) && negb (peek w =? 0) && negb (peek w =? 59) && negb (peek w =? 40).
Definition reg_check (k : bool) (r : Z) : bool :=
  let w := map (conv (Some k)) (reg_text r) in
  name_start w && hits REG_ENTRIES REG_UNDEF w r && ((r =? REG_C) || missed CC_ENTRIES w).
Definition cc_check (k : bool) (c : Z) : bool :=
  let w := map (conv (Some k)) (cc_text c) in
  name_start w && (if c =? CC_C then hits REG_ENTRIES REG_UNDEF w REG_C else missed REG_ENTRIES w && hits CC_ENTRIES CC_UNDEF w c).
Lemma reg_checks : forallb (fun k => forallb (reg_check k) regs && forallb (cc_check k) ccs) [false; true] = true.
Proof. vm_compute. reflexivity. Qed.
Lemma hits_app es u w r z : word w = true -> isNameLetter (peek z) = false -> hits es u w r = true -> parse_name es u (w ++ z) = Val (r, z) /\ r <> u.
Proof.
  unfold hits. intros W Z H. apply andb_true_iff in H. destruct H as (H & U). apply negb_true_iff, Z.eqb_neq in U. split; [|exact U].
  apply name_app; auto. destruct (parse_name es u w) as [[r' [|? ?]]| | | |]; try discriminate. apply Z.eqb_eq in H. now subst.
Qed.
Lemma name_starts w : name_start w = true -> word w = true /\ starts w.
Proof.
  unfold name_start. rewrite !andb_true_iff, !negb_true_iff. intros ((((W & S) & Z0) & Z59) & Z40). split; [exact W|].
  split; [intros ->; discriminate|]. split; [exact S|]. split; lia.
Qed.
Lemma reg_read k r z : In r regs -> isNameLetter (peek z) = false ->
  starts (map (conv (Some k)) (reg_text r)) /\ parseRegName (map (conv (Some k)) (reg_text r) ++ z) = Val (r, z) /\ r <> REG_UNDEF /\
  (r = REG_C \/ parseCcName (map (conv (Some k)) (reg_text r) ++ z) = Val (CC_UNDEF, map (conv (Some k)) (reg_text r) ++ z)).
Proof.
  intros R Z. pose proof reg_checks as H. rewrite forallb_forall in H. specialize (H k ltac:(destruct k; cbn; auto)). apply andb_true_iff in H. destruct H as (H & _).
  rewrite forallb_forall in H. specialize (H r R). unfold reg_check in H. cbv zeta in H. rewrite !andb_true_iff in H. destruct H as ((NS & HT) & M).
  destruct (name_starts _ NS) as (W & ST). destruct (hits_app _ _ _ _ z W Z HT) as (P & NU). rewrite reg_parse, cc_parse. split; [exact ST|]. split; [exact P|]. split; [exact NU|].
  apply orb_true_iff in M. destruct M as [M|M]; [left; lia|right]. apply name_miss; auto. now apply missed_ok.
Qed.
Lemma cc_read k c z : In c ccs -> isNameLetter (peek z) = false ->
  starts (map (conv (Some k)) (cc_text c)) /\
  (if c =? CC_C then parseRegName (map (conv (Some k)) (cc_text c) ++ z) = Val (REG_C, z)
   else parseRegName (map (conv (Some k)) (cc_text c) ++ z) = Val (REG_UNDEF, map (conv (Some k)) (cc_text c) ++ z) /\
        parseCcName (map (conv (Some k)) (cc_text c) ++ z) = Val (c, z) /\ c <> CC_UNDEF).
Proof.
  intros R Z. pose proof reg_checks as H. rewrite forallb_forall in H. specialize (H k ltac:(destruct k; cbn; auto)). apply andb_true_iff in H. destruct H as (_ & H).
  rewrite forallb_forall in H. specialize (H c R). unfold cc_check in H. cbv zeta in H. rewrite !andb_true_iff in H. destruct H as (NS & H).
  destruct (name_starts _ NS) as (W & ST). rewrite reg_parse, cc_parse. split; [exact ST|]. destruct (c =? CC_C).
  - destruct (hits_app _ _ _ _ z W Z H) as (P & NU). exact P.
  - apply andb_true_iff in H. destruct H as (M & HT). destruct (hits_app _ _ _ _ z W Z HT) as (P & NU). split; [|auto]. apply name_miss; auto. now apply missed_ok.
Qed.
(* the operand which is read *)
Definition ind_mode (r : Z) : Z := if (r =? REG_BC) || (r =? REG_DE) then I_PTR else if (r =? REG_IX) || (r =? REG_IY) then I_IDX else r + I_BASE.
Definition op_of (K : kind) (w : value) : operand :=
  match K with
  | K_none => no_operand
  | K_name r => if r =? REG_C then mkOp R_C REG_C (setUnsigned (encodeCcName CC_C)) OK else mkOp (reg_mode r) r v_undef OK
  | K_ind r => mkOp (ind_mode r) r v_undef OK
  | K_cc c => if c =? CC_C then mkOp R_C REG_C (setUnsigned (encodeCcName CC_C)) OK
              else mkOp (if isCc4Name c then M_CC4 else M_CC8) REG_UNDEF (setUnsigned (encodeCcName c)) OK
  | K_val x => mkOp M_IM16 REG_UNDEF (mkV V_UNSIGNED x) OK
  | K_byte | K_word | K_rel => mkOp M_IM16 REG_UNDEF w OK
  | K_ioa | K_abs => mkOp M_ABS REG_UNDEF w OK
  | K_idx r => mkOp M_IDX r w OK
  end.
Definition reads (K : kind) (v : Z) (op : operand) : Prop :=
  exists w, op = op_of K w /\ (kwidth K = 0%nat \/ int_value w /\ int_of w = v).
Definition kind_ok (K : kind) : Prop :=
  match K with
  | K_name r => In r regs
  | K_ind r => In r [REG_BC; REG_DE; REG_HL; REG_SP; REG_IX; REG_IY; REG_C]
  | K_cc c => In c ccs
  | K_idx r => In r [REG_IX; REG_IY]
  | K_val x => 0 <= x < 256
  | _ => True
  end.
Definition lowest (K : kind) : Z := match K with K_idx _ => -128 | _ => 0 end.
Lemma piece_range d K k addr bs t nb v : kind_ok K -> piece d K k addr bs t nb v -> lowest K <= v < 65536.
Proof.
  unfold lowest. destruct K; cbn [piece kind_ok]; unfold byte; intros KO H; try lia.
  - destruct H as (u & _ & _ & _ & H). lia.
  - destruct H as (lo & hi & _ & H1 & H2 & -> & _). lia.
  - destruct H as (u & lo & hi & _ & _ & H1 & H2 & -> & _). lia.
  - destruct H as (u & x & _ & _ & _ & -> & _). pose proof (int8_range x). lia.
  - destruct H as (x & _ & _ & -> & CK & _). apply C31_addr in CK; [|lia|unfold u32; apply Z.mod_pos_bound; lia].
    split; [unfold u32; apply Z.mod_pos_bound; lia|]. change 65536 with (2^16). tauto.
Qed.
Lemma ind_regs r : In r [REG_BC; REG_DE; REG_HL; REG_SP; REG_IX; REG_IY; REG_C] -> In r regs.
Proof. cbn. intuition (subst; auto 20). Qed.
Lemma idx_regs r : In r [REG_IX; REG_IY] -> In r regs.
Proof. cbn. intuition (subst; auto 20). Qed.
Lemma tail_end delim rest : tail rest -> rest = [] \/ exists c u, rest = c :: u /\ (c = 44 \/ c = 59 \/ (c = delim /\ c <> 0)).
Proof. intros [->|(c & u & -> & C)]; [auto|]. right. exists c, u. tauto. Qed.
Lemma open_starts u : starts (40 :: u).
Proof. unfold starts. cbn [peek]. repeat split; try discriminate. Qed.
Lemma parse_piece d K k addr bs t nb v a b0 b rest :
  a_pl a = pl_z80 -> a_radix a = 10 -> K <> K_none -> kind_ok K -> piece d K (Some k) addr bs t nb v -> (length bs <= 2)%nat ->
  0 <= addr < 2^16 -> blanks b0 -> blanks b -> tail rest ->
  starts t /\ exists b' op, blanks b' /\ parseOperand a addr (b0 ++ t ++ b ++ rest) = Val (op, b' ++ rest) /\ reads K v op /\ o_err op = OK.
Proof.
  intros PL RX NK KO P LB AR B0 B T. pose proof (piece_range _ _ _ _ _ _ _ _ KO P) as VR.
  assert (AR' : 0 <= addr < 2^32) by lia.
  assert (CL : forall z x, skipSpaces (41 :: z) = 41 :: z /\ (41 :: z = [] \/ exists c u, 41 :: z = c :: u /\ (c = 44 \/ c = 59 \/ c = 41 /\ c <> 0)) /\ expect_char 41 (41 :: x) = Some x).
  { intros z x. split; [now apply skip_none|]. split; [|reflexivity]. right. exists 41, z. split; [reflexivity|]. right; right. split; [reflexivity|discriminate]. }
  assert (PLACE : place_text np_intel 36 addr t v -> 0 <= v < 2^32 -> (forall w, int_value w -> int_of w = v -> (num t v -> w = mkV V_UNSIGNED v) -> reads K v (mkOp M_IM16 REG_UNDEF w OK)) ->
     starts t /\ exists b' op, blanks b' /\ parseOperand a addr (b0 ++ t ++ b ++ rest) = Val (op, b' ++ rest) /\ reads K v op /\ o_err op = OK).
  { intros N V RDS. destruct (place_noreg addr t v (b ++ rest) N) as (ST & NR & NC & NP). split; [exact ST|].
    destruct (parse_placeZ a addr 0 [] t v b rest PL RX ltac:(cbn; auto) AR' V N (Forall_nil _) B (tail_end 0 _ T)) as (b' & w & B' & PI & IV & IO & EW).
    exists b', (mkOp M_IM16 REG_UNDEF w OK). split; [exact B'|]. split; [|split; [now apply RDS|reflexivity]].
    unfold parseOperand. cbv zeta. rewrite (starts_skip b0 _ _ B0 ST), PL, (starts_eol _ _ ST), NR. cbn [bind]. change (REG_UNDEF =? REG_C) with false. cbv iota.
    rewrite NC. cbn [bind]. change (CC_UNDEF =? CC_UNDEF) with true. cbn [negb]. change (REG_UNDEF =? REG_UNDEF) with true. cbn [negb].
    rewrite NP. cbn [app] in PI. rewrite PI. reflexivity. }
  assert (OPEN : forall u z res, parseOperand a addr (b0 ++ (40 :: u) ++ z) = res <->
    bind (parseRegName (skipSpaces (u ++ z))) (fun '(reg, t) =>
                    if reg =? REG_UNDEF then
                      bind (parseInteger a addr (skipSpaces (u ++ z)) OK 41) (fun '(v, e, t) =>
                        if hasError e then Val (mkOp M_NONE REG_UNDEF v e, (40 :: u) ++ z)
                        else
                          match expect_char 41 (skipSpaces t) with
                          | Some t => Val (mkOp M_ABS REG_UNDEF v e, t)
                          | None => Val (mkOp M_NONE REG_UNDEF v MISSING_CLOSING_PAREN, (40 :: u) ++ z)
                          end)
                    else
                      let p := skipSpaces t in
                      match expect_char 41 p with
                      | Some t =>
                        if (reg =? REG_BC) || (reg =? REG_DE) then Val (mkOp I_PTR reg v_undef OK, t)
                        else if (reg =? REG_IX) || (reg =? REG_IY) then Val (mkOp I_IDX reg v_undef OK, t)
                        else if (reg =? REG_HL) || (reg =? REG_SP) || (reg =? REG_C)
                        then Val (mkOp (reg + I_BASE) reg v_undef OK, t)
                        else Val (mkOp M_NONE reg v_undef REGISTER_NOT_ALLOWED, (40 :: u) ++ z)
                      | None =>
                        if ((peek p =? 43) || (peek p =? 45)) && ((reg =? REG_IX) || (reg =? REG_IY)) then
                          bind (parseInteger a addr p OK 41) (fun '(v, e, t) =>
                            if hasError e then Val (mkOp M_NONE reg v e, (40 :: u) ++ z)
                            else
                              match expect_char 41 (skipSpaces t) with
                              | Some t => Val (mkOp M_IDX reg v e, t)
                              | None => Val (mkOp M_NONE reg v MISSING_CLOSING_PAREN, (40 :: u) ++ z)
                              end)
                        else Val (mkOp M_NONE reg v_undef UNKNOWN_OPERAND, (40 :: u) ++ z)
                      end) = res).
  { intros u z res. unfold parseOperand. cbv zeta. rewrite (starts_skip b0 _ _ B0 (open_starts u)), PL, (starts_eol _ _ (open_starts u)).
    rewrite (reg_none ((40 :: u) ++ z)) by (left; reflexivity). cbn [bind]. change (REG_UNDEF =? REG_C) with false. cbv iota.
    rewrite (cc_none ((40 :: u) ++ z)) by (left; reflexivity). cbn [bind]. change (CC_UNDEF =? CC_UNDEF) with true. cbn [negb].
    change (REG_UNDEF =? REG_UNDEF) with true. cbn [negb]. cbn [app expect_char]. change (40 =? 40) with true. cbv iota. reflexivity. }
  assert (PAREN : forall u, t = 40 :: u ++ [41] -> num u v -> 0 <= v < 2^32 -> (forall w, int_value w -> int_of w = v -> reads K v (mkOp M_ABS REG_UNDEF w OK)) ->
     starts t /\ exists b' op, blanks b' /\ parseOperand a addr (b0 ++ t ++ b ++ rest) = Val (op, b' ++ rest) /\ reads K v op /\ o_err op = OK).
  { intros u -> N V RDS. split; [apply open_starts|].
    destruct (place_noreg addr u v (41 :: b ++ rest) (or_introl N)) as (ST & NR & _ & _).
    destruct (parse_placeZ a addr 41 [] u v [] (41 :: b ++ rest) PL RX ltac:(cbn; auto) AR' V (or_introl N) (Forall_nil _) (Forall_nil _)) as (b' & w & B' & PI & IV & IO & _).
    { apply CL. exact []. }
    exists b, (mkOp M_ABS REG_UNDEF w OK). split; [exact B|]. split; [|split; [now apply RDS|reflexivity]].
    apply OPEN. replace ((u ++ [41]) ++ b ++ rest) with (u ++ 41 :: b ++ rest) by now rewrite <- app_assoc.
    pose proof (starts_skip [] u (41 :: b ++ rest) (Forall_nil _) ST) as SK. cbn [app] in SK. rewrite SK, NR. cbn [bind]. change (REG_UNDEF =? REG_UNDEF) with true. cbv iota.
    cbn [app] in PI. rewrite PI. cbn [bind]. change (hasError OK) with false. cbv iota. rewrite skip_blanks by exact B'. destruct (CL (b ++ rest) (b ++ rest)) as (-> & _ & ->). reflexivity. }
  destruct K; cbn [piece kind_ok lowest] in P, KO, VR; [congruence|..].
  - destruct P as (-> & -> & ->). destruct (reg_read k r (b ++ rest) KO (tail_noname _ _ B T)) as (ST & RR & NU & NC). split; [exact ST|].
    exists b, (op_of (K_name r) v_undef). split; [exact B|]. split; [|split; [exists v_undef; auto|cbn [op_of]; now destruct (r =? REG_C)]].
    unfold parseOperand. cbv zeta. rewrite (starts_skip b0 _ _ B0 ST), PL, (starts_eol _ _ ST), RR. cbn [bind op_of]. destruct (Z.eqb_spec r REG_C); [reflexivity|].
    destruct NC as [NC|NC]; [congruence|]. rewrite NC. cbn [bind]. change (CC_UNDEF =? CC_UNDEF) with true. cbn [negb].
    apply Z.eqb_neq in NU. rewrite NU. reflexivity.
  - destruct P as (-> & -> & ->). split; [apply open_starts|]. exists b, (op_of (K_ind r) v_undef). split; [exact B|].
    split; [|split; [exists v_undef; auto|reflexivity]]. apply OPEN.
    replace ((map (conv (Some k)) (reg_text r) ++ [41]) ++ b ++ rest) with (map (conv (Some k)) (reg_text r) ++ 41 :: b ++ rest) by now rewrite <- app_assoc.
    destruct (reg_read k r (41 :: b ++ rest) (ind_regs _ KO) eq_refl) as (ST & RR & NU & _).
    pose proof (starts_skip [] _ (41 :: b ++ rest) (Forall_nil _) ST) as SK. cbn [app] in SK. rewrite SK, RR. cbn [bind]. apply Z.eqb_neq in NU. rewrite NU. cbv zeta.
    destruct (CL (b ++ rest) (b ++ rest)) as (-> & _ & ->). cbn [op_of]. unfold ind_mode.
    destruct (_ || _) eqn:E1; [reflexivity|]. destruct ((r =? REG_IX) || (r =? REG_IY)) eqn:E2; [reflexivity|].
    cbn in KO. repeat (destruct KO as [<-|KO]; [try discriminate; reflexivity|]). contradiction.
  - destruct P as (-> & -> & ->). destruct (cc_read k c (b ++ rest) KO (tail_noname _ _ B T)) as (ST & RR). split; [exact ST|].
    exists b, (op_of (K_cc c) v_undef). split; [exact B|]. split; [|split; [exists v_undef; auto|cbn [op_of]; now destruct (c =? CC_C)]].
    unfold parseOperand. cbv zeta. rewrite (starts_skip b0 _ _ B0 ST), PL, (starts_eol _ _ ST). cbn [op_of]. destruct (Z.eqb_spec c CC_C).
    + rewrite RR. reflexivity.
    + destruct RR as (R1 & R2 & NU). rewrite R1. cbn [bind]. change (REG_UNDEF =? REG_C) with false. cbv iota. rewrite R2. cbn [bind]. apply Z.eqb_neq in NU. rewrite NU. reflexivity.
  - destruct P as (N & _ & ->). apply PLACE; [now left|lia|]. intros w IV IO EW. exists w. rewrite (EW N). split; [reflexivity|now left].
  - destruct P as (N & _). apply PLACE; [now left|lia|]. intros w IV IO EW. exists w. cbn [op_of]. auto.
  - destruct P as (u & E & N & _). apply (PAREN u); auto; [lia|]. intros w IV IO. exists w. cbn [op_of]. auto.
  - destruct P as (lo & hi & _ & _ & _ & _ & N). apply PLACE; [now left|lia|]. intros w IV IO EW. exists w. cbn [op_of]. auto.
  - destruct P as (u & lo & hi & E & _ & _ & _ & _ & N). apply (PAREN u); auto; [lia|]. intros w IV IO. exists w. cbn [op_of]. auto.
  - destruct P as (u & x & -> & -> & BX & EV & SG). split; [apply open_starts|].
    destruct (parse_signedZ a addr [] u v [] (41 :: b ++ rest) PL RX SG (Forall_nil _) (Forall_nil _)) as (b' & w & B' & PI & IV & IO).
    { apply CL. exact []. }
    exists b, (op_of (K_idx r) w). split; [exact B|]. split; [|split; [exists w; auto|reflexivity]]. apply OPEN.
    replace ((map (conv (Some k)) (reg_text r) ++ u ++ [41]) ++ b ++ rest) with (map (conv (Some k)) (reg_text r) ++ u ++ 41 :: b ++ rest) by now rewrite <- !app_assoc.
    assert (SU : exists c z, u = c :: z /\ (c = 43 \/ c = 45)) by (destruct SG as (z & n & _ & _ & [(-> & _)|(-> & _)]); eauto).
    destruct SU as (c & z & EU & CU).
    destruct (reg_read k r (u ++ 41 :: b ++ rest) (idx_regs _ KO)) as (ST & RR & NU & _). { rewrite EU. cbn [app peek]. destruct CU as [->| ->]; reflexivity. }
    pose proof (starts_skip [] _ (u ++ 41 :: b ++ rest) (Forall_nil _) ST) as SK. cbn [app] in SK. rewrite SK, RR. cbn [bind]. apply Z.eqb_neq in NU. rewrite NU. cbv zeta.
    replace (skipSpaces (u ++ 41 :: b ++ rest)) with (u ++ 41 :: b ++ rest) by (rewrite EU; cbn [app]; symmetry; apply skip_none; destruct CU as [->| ->]; reflexivity).
    replace (expect_char 41 (u ++ 41 :: b ++ rest)) with (@None text) by (rewrite EU; cbn [app expect_char]; destruct CU as [->| ->]; reflexivity).
    replace ((peek (u ++ 41 :: b ++ rest) =? 43) || (peek (u ++ 41 :: b ++ rest) =? 45)) with true by (rewrite EU; cbn [app peek]; destruct CU as [->| ->]; reflexivity).
    replace ((r =? REG_IX) || (r =? REG_IY)) with true by (cbn in KO; destruct KO as [<-|[<-|[]]]; reflexivity). cbn [andb].
    cbn [app] in PI. rewrite PI. cbn [bind]. change (hasError OK) with false. cbv iota. rewrite skip_blanks by exact B'. destruct (CL (b ++ rest) (b ++ rest)) as (-> & _ & ->). reflexivity.
  - destruct P as (x & _ & _ & _ & _ & N). apply PLACE; [now apply N|lia|]. intros w IV IO EW. exists w. cbn [op_of]. auto.
Qed.

(* ------------------------------------------------------------ bytes *)
Definition base (p : Z) : nat := if p =? 0 then 1 else 2.
Lemma part_operand addr p nb e o : ai_operandPos (mkAI (part addr (base p) nb) e p o) = Z.of_nat (base p + length nb).
Proof.
  unfold ai_operandPos, base. cbn [ai_insn ai_prefix]. rewrite part_len. destruct (Z.eqb_spec p 0) as [->|N]; cbn [negb andb].
  - destruct nb; cbn [length Nat.ltb Nat.leb]; [reflexivity|]. destruct (Z.eqb_spec (Z.of_nat (1 + S (length nb))) 0); lia.
  - destruct nb; cbn [length Nat.ltb Nat.leb]; [reflexivity|]. destruct (Z.ltb_spec (Z.of_nat (2 + S (length nb))) 2); [lia|].
    destruct (Z.eqb_spec (Z.of_nat (2 + S (length nb))) 0); lia.
Qed.
Lemma emit8 x z addr e p o nb : byte x -> u8 z = x -> (length nb <= 6)%nat ->
  ai_emitOperand8 z (mkAI (part addr (base p) nb) e p o) = mkAI (part addr (base p) (nb ++ [x])) e p o.
Proof.
  intros X U L. unfold ai_emitOperand8. rewrite U, part_operand. cbn [ai_insn]. rewrite part_byte; [reflexivity|exact X|]. unfold base. destruct (p =? 0); lia.
Qed.
Lemma emit16 lo hi z addr e p o nb : byte lo -> byte hi -> u16 z = lo + 256 * hi -> (length nb <= 6)%nat ->
  ai_emitOperand16 z (mkAI (part addr (base p) nb) e p o) = mkAI (part addr (base p) (nb ++ [lo; hi])) e p o.
Proof.
  intros X Y U L. unfold ai_emitOperand16. rewrite U, part_operand. cbn [ai_insn]. rewrite part_le; [reflexivity|exact Y|exact X|]. unfold base. destruct (p =? 0); lia.
Qed.
Lemma noerr i e p o : ai_setErrorIf OK (mkAI i e p o) = mkAI i e p o.
Proof. unfold ai_setErrorIf, setErrorIfAt. cbn. now rewrite andb_false_r. Qed.
(* modes without bytes *)
Definition emits (m : Z) : bool := existsb (Z.eqb m) [M_IM8; M_IOA; M_IDX; M_IM16; M_ABS; M_REL].
Lemma silent ixb op m other other' i i' p o e' p' o' j : emits m = false -> o_reg other = o_reg other' ->
  encodeOperand ixb op m other' (mkAI i' OK p o) = Val (mkAI j e' p' o') ->
  encodeOperand ixb op m other (mkAI i OK p o) = Val (mkAI i e' p' o').
Proof.
  unfold emits. cbn [existsb]. rewrite !orb_false_iff. intros (E1 & E2 & E3 & E4 & E5 & E6 & _) RO.
  unfold encodeOperand. cbv zeta. rewrite E1, E2, E3, E4, E5, E6, RO. cbn [orb].
  repeat match goal with |- context [if ?c then _ else _] => destruct c end;
    unfold encodeIndexReg, ai_embed, ai_setprefix, ai_setErrorIf; cbn [ai_insn ai_err ai_prefix ai_opc]; congruence.
Qed.
Definition fits (K : kind) (m : Z) : bool :=
  match K with
  | K_byte => m =? M_IM8
  | K_ioa => m =? M_IOA
  | K_word => m =? M_IM16
  | K_abs => m =? M_ABS
  | K_idx _ => m =? M_IDX
  | K_rel => m =? M_REL
  | _ => false
  end.
(* the prefix and the opcode after the operand [K] beside [K'] *)
Definition emb (K : kind) (m : Z) (K' : kind) (po : Z * Z) : option (Z * Z) :=
  let '(p, o) := po in
  match kwidth K with
  | O =>
    if emits m then None
    else match encodeOperand false (op_of K v_undef) m (op_of K' v_undef) (mkAI (new_insn 0) OK p o) with
         | Val (mkAI _ OK p' o') => Some (p', o')
         | _ => None
         end
  | _ => if fits K m then Some (match K with K_idx r => if r =? REG_IX then PREFIX_IX else PREFIX_IY | _ => p end, o) else None
  end.
Lemma op_reg K w w' : o_reg (op_of K w) = o_reg (op_of K w').
Proof. destruct K; reflexivity. Qed.
Lemma op_same K w w' : kwidth K = 0%nat -> op_of K w = op_of K w'.
Proof. destruct K; cbn; try discriminate; reflexivity. Qed.
Lemma op_err K w : o_err (op_of K w) = OK.
Proof. destruct K; cbn [op_of]; try reflexivity; [now destruct (r =? REG_C)|now destruct (c =? CC_C)]. Qed.
Lemma emit_piece d K k addr bs t nb v m op K' other p o p' o' nb0 :
  piece d K k addr bs t nb v -> kind_ok K -> emb K m K' (p, o) = Some (p', o') -> reads K v op -> o_reg other = o_reg (op_of K' v_undef) ->
  0 <= addr < 2^16 -> (length nb0 <= 4)%nat -> (K = K_rel -> length bs = 1%nat) ->
  encodeOperand false op m other (mkAI (part addr (base p) nb0) OK p o) = Val (mkAI (part addr (base p) (nb0 ++ nb)) OK p' o').
Proof.
  intros P KO E (w & -> & RW) RO AR LN REL. pose proof (piece_range _ _ _ _ _ _ _ _ KO P) as VR. unfold emb in E.
  destruct (kwidth K) eqn:W.
  - destruct (emits m) eqn:EM; [discriminate|].
    destruct (encodeOperand false (op_of K v_undef) m (op_of K' v_undef) (mkAI (new_insn 0) OK p o)) as [[j e1 p1 o1]| | | |] eqn:EN; try discriminate.
    destruct e1; try discriminate. injection E as -> ->. rewrite (op_same K w v_undef W). rewrite (silent _ _ _ other (op_of K' v_undef) (part addr (base p) nb0) (new_insn 0) p o OK p' o' j EM RO EN).
    assert (nb = []) as -> by (destruct K; cbn [kwidth] in W; try discriminate; cbn [piece] in P; tauto). now rewrite app_nil_r.
  - destruct (fits K m) eqn:F; [|discriminate]. injection E as <- <-. destruct RW as [RW|(IV & IO)]; [congruence|].
    unfold encodeOperand. cbv zeta. rewrite op_err, noerr.
    destruct K; cbn [fits kwidth] in *; try discriminate; apply Z.eqb_eq in F; subst m; cbn [piece lowest op_of o_val o_reg o_err] in *.
    + destruct P as (_ & -> & B). cbn [Z.eqb M_IM8 Pos.eqb]. unfold overflowUint8. rewrite (over w v) by (auto; lia). unfold byte in B.
      destruct (Z.ltb_spec 255 v); [lia|]. rewrite (get_unsigned w v) by (auto; lia). rewrite (emit8 v); [reflexivity|exact B|unfold u8; apply Z.mod_small; exact B|lia].
    + destruct P as (u & _ & _ & -> & B). cbn [Z.eqb M_IM8 M_IOA Pos.eqb]. rewrite (over w v) by (auto; lia). unfold byte in B.
      destruct (Z.ltb_spec 255 v); [lia|]. rewrite (get_unsigned w v) by (auto; lia). rewrite (emit8 v); [reflexivity|exact B|unfold u8; apply Z.mod_small; exact B|lia].
    + destruct P as (lo & hi & -> & BL & BH & EV & _). cbn [Z.eqb M_IM8 M_IM16 M_ABS M_IOA M_IDX R_IDX I_IDX Pos.eqb orb].
      rewrite (get_unsigned w v) by (auto; lia). rewrite (emit16 lo hi); [reflexivity|exact BL|exact BH| |lia]. unfold u16. rewrite Z.mod_small by lia. lia.
    + destruct P as (u & lo & hi & _ & -> & BL & BH & EV & _). cbn [Z.eqb M_IM8 M_IM16 M_ABS M_IOA M_IDX R_IDX I_IDX Pos.eqb orb].
      rewrite (get_unsigned w v) by (auto; lia). rewrite (emit16 lo hi); [reflexivity|exact BL|exact BH| |lia]. unfold u16. rewrite Z.mod_small by lia. lia.
    + destruct P as (u & x & _ & -> & BX & EV & _). cbn [Z.eqb M_IM8 M_IM16 M_ABS M_IOA M_IDX R_IDX I_IDX Pos.eqb orb]. pose proof (int8_range x).
      unfold overflowInt8. rewrite (over_signed w v) by (auto; lia). rewrite (emit8 x); [|exact BX|apply low8_int8; auto; lia|lia].
      unfold encodeIndexReg, ai_setprefix. cbn [ai_insn ai_err ai_opc]. reflexivity.
    + destruct P as (x & -> & X & EV & CK & _). cbn [Z.eqb M_IM8 M_IM16 M_ABS M_IOA M_IDX R_IDX I_IDX M_REL Pos.eqb orb].
      unfold encodeRelative. cbv zeta. cbn [ai_insn ai_err o_err o_val]. change (isOK OK) with true. cbn [negb]. rewrite (get_unsigned w v) by (auto; lia).
      replace (i_addr (part addr (base p) nb0)) with addr by (destruct nb0; reflexivity).
      rewrite REL in EV by reflexivity. change (Z.of_nat 1) with 1 in EV. replace (addr + 1 + 1) with (addr + 2) in EV by lia.
      rewrite EV in CK. destruct (rel_target (addr + 2) x ltac:(lia) CK) as (TG & TR). rewrite TG in EV.
      replace (u32 (addr + 2)) with (addr + 2) by (unfold u32; symmetry; apply Z.mod_small; lia). pose proof (int8_range x).
      rewrite branch_near by (try change (2^16) with 65536; try change (2^(16-1)) with 32768; lia).
      replace (v - (addr + 2)) with (int8 x) by lia.
      destruct (C30_delta (int8 x) 8 ltac:(lia)) as (far & -> & FAR). assert (far = false) as -> by (apply FAR; change (2^(8-1)) with 128; lia).
      unfold ai_seterr. cbn [ai_insn ai_opc ai_prefix]. rewrite (emit8 x); [reflexivity|exact X| |lia].
      unfold u8. change (2^8) with 256. now apply int8_back.
Qed.

(* ------------------------------------------------------------ every opcode *)
Definition kind_okb (K : kind) : bool :=
  match K with
  | K_name r => existsb (Z.eqb r) regs
  | K_ind r => existsb (Z.eqb r) [REG_BC; REG_DE; REG_HL; REG_SP; REG_IX; REG_IY; REG_C]
  | K_cc c => existsb (Z.eqb c) ccs
  | K_idx r => existsb (Z.eqb r) [REG_IX; REG_IY]
  | K_val x => (0 <=? x) && (x <? 256)
  | _ => true
  end.
Lemma kind_okb_ok K : kind_okb K = true -> kind_ok K.
Proof.
  assert (X : forall r l, existsb (Z.eqb r) l = true -> In r l).
  { intros r l H. apply existsb_exists in H. destruct H as (x & I & E). apply Z.eqb_eq in E. now subst. }
  destruct K; cbn [kind_okb kind_ok]; auto; try (apply X). lia.
Qed.
Definition is_rel (K : kind) : bool := match K with K_rel => true | _ => false end.
Definition check_name (k : option bool) (nm : text) (K1 K2 : kind) : bool :=
  let nm := map (conv k) nm in
  plain_name sp_intel [] z80_directives nm && is_alpha (peek nm) && (negb (is_none K1) || is_none K2) && kind_okb K1 && kind_okb K2.
Definition check_one (k : option bool) (p o : Z) (nm : text) (K1 K2 : kind) : bool :=
  check_name k nm K1 K2 && negb (is_rel K1 && negb (p =? 0)) && negb (is_rel K2 && (negb (p =? 0) || negb (kwidth K1 =? 0)%nat)) &&
  match z80_searchName (map (conv k) nm) (o_mode (op_of K1 v_undef)) (o_mode (op_of K2 v_undef)) with
  | Val (OK, Some (p0, e)) =>
    negb (e_ixbit e) &&
    match emb K1 (e_dst e) K2 (p0, e_opc e) with
    | Some (p1, o1) =>
      Bool.eqb (p1 =? 0) (p0 =? 0) &&
      match emb K2 (e_src e) K1 (p1, o1) with
      | Some (p2, o2) => Bool.eqb (p2 =? 0) (p0 =? 0) && (p2 =? p) && (o2 =? o)
      | None => false
      end
    | None => false
    end
  | _ => false
  end.
Definition check_ix (k : option bool) (p x : Z) (nm : text) (K1 K2 : kind) : bool :=
  check_name k nm K1 K2 &&
  match z80_searchName (map (conv k) nm) (o_mode (op_of K1 v_undef)) (o_mode (op_of K2 v_undef)) with
  | Val (OK, Some (p0, e)) =>
    e_ixbit e && (p0 =? 0xCB) &&
    match K1, K2 with
    | K_val b, K_idx r => (e_dst e =? M_BIT) && (e_src e =? M_IDX) && (b <=? 7) && (u8 (Z.lor (e_opc e) (Z.shiftl (Z.land b 7) 3)) =? x) &&
        ((if r =? REG_IX then PREFIX_IX else PREFIX_IY) =? p)
    | K_idx r, K_none => (e_dst e =? M_IDX) && (e_src e =? M_NONE) && (e_opc e =? x) && ((if r =? REG_IX then PREFIX_IX else PREFIX_IY) =? p)
    | _, _ => false
    end
  | _ => false
  end.
Definition check (k : option bool) (p o : Z) : bool :=
  match look p o with
  | None => true
  | Some e =>
    if is_ixb e then
      forallb (fun x => match look 0xCB x with
                        | Some e => if decodeDataReg x =? REG_HL then let '(K1, K2) := ix_kinds p x e in check_ix k p x (entry_name e) K1 K2 else true
                        | None => true
                        end) all_bytes
    else
      let K2 := kind_of p o (e_src e) in
      Bool.eqb (is_none K2) (e_src e =? M_NONE) && check_one k p o (entry_name e) (kind_of p o (e_dst e)) K2
  end.
Lemma check_ok : forallb (fun k => forallb (fun p => forallb (check (Some k) p) all_bytes) pages) [false; true] = true.
Proof. vm_compute. reflexivity. Qed.
Lemma check_at k p o : In p pages -> byte o -> check (Some k) p o = true.
Proof.
  intros P O. pose proof check_ok as H. rewrite forallb_forall in H. specialize (H k ltac:(destruct k; cbn; auto)).
  rewrite forallb_forall in H. specialize (H p P). rewrite forallb_forall in H. apply H, all_in, O.
Qed.
Lemma more_piece d p o mode h t nb nm' : is_none (kind_of p o mode) = (mode =? M_NONE) -> R_more d p o mode h t nb nm' ->
  nm' = h_nm h /\ exists u v, piece d (kind_of p o mode) (h_case h) (h_addr h) (h_bs h) u nb v /\ t = sep (kind_of p o mode) ++ u.
Proof.
  intros N. unfold R_more, sep. rewrite N. destruct (mode =? M_NONE).
  - intros (-> & -> & ->). split; [reflexivity|]. exists [], 0. apply is_none_ok in N. rewrite N. cbn. auto.
  - intros (t1 & t2 & n1 & n2 & nm1 & -> & -> & (-> & -> & ->) & -> & v & P). rel_out. rewrite app_nil_r in P. split; [reflexivity|]. exists t2, v. auto.
Qed.
Lemma chain_two d p o k h t nb nm' : In p pages -> byte o -> h_case h = Some k -> R_chain d p o h t nb nm' ->
  exists nm K1 K2, nm' = firstn 11 (map (conv (Some k)) nm) /\
    (check_one (Some k) p o nm K1 K2 = true /\ two d (Some k) (h_addr h) (h_bs h) K1 K2 t nb \/
     exists v x, o = 0xCB /\ p <> 0 /\ byte v /\ byte x /\ nb = [v; x] /\ check_ix (Some k) p x nm K1 K2 = true /\ two d (Some k) (h_addr h) (h_bs h) K1 K2 t [v]).
Proof.
  intros PP O HC (e & L & Q). pose proof (check_at k p o PP O) as CK. pose proof (look_at p o PP O) as LO.
  unfold look_ok in LO. rewrite (look_val p o PP O), L in LO. unfold check in CK. rewrite L in CK. cbv zeta in CK.
  apply andb_true_iff in LO. destruct LO as (LO & _). apply andb_true_iff in LO. destruct LO as (_ & LI).
  destruct (is_ixb e) eqn:X.
  - cbn [negb orb] in LI. destruct Q as (t0 & tr & n0 & nr & nm1 & -> & -> & (-> & -> & ->) & v & x & e1 & -> & BV & BX & L1 & HL & -> & TW).
    rel_out. rewrite HC, app_nil_r in *. rewrite forallb_forall in CK. specialize (CK x (all_in x BX)). rewrite L1, HL in CK.
    change (REG_HL =? REG_HL) with true in CK. cbv iota in CK. destruct (ix_kinds p x e1) as [K1 K2]. cbn [fst snd] in TW.
    exists (entry_name e1), K1, K2. split; [reflexivity|]. right. exists v, x. split; [lia|]. split; [lia|]. auto.
  - rewrite andb_true_iff in CK. destruct CK as (N2 & CK). apply eqb_prop in N2.
    destruct Q as (t0 & tr & n0 & nr & nm1 & -> & -> & (-> & -> & ->) & t1 & t2 & n1 & n2 & nm2 & -> & -> & Q1 & Q2).
    rel_out. rewrite ?app_nil_r in *. rewrite HC in *.
    destruct (more_piece _ _ _ _ _ _ _ _ N2 Q2) as (-> & u2 & v2 & P2 & ->). rel_out. destruct Q1 as (-> & v1 & P1). rel_out. rewrite ?HC in *.
    exists (entry_name e), (kind_of p o (e_dst e)), (kind_of p o (e_src e)). split; [reflexivity|]. left. split; [exact CK|].
    exists t1, u2, n1, n2, v1, v2. cbn [app]. auto.
Qed.
Lemma piece_len d K k addr bs t n v : piece d K k addr bs t n v -> length n = kwidth K.
Proof.
  destruct K; cbn [piece kwidth]; [intros (_ & -> & _)|intros (_ & -> & _)|intros (_ & -> & _)|intros (_ & -> & _)|intros (_ & -> & _)|intros (_ & -> & _)|intros (? & _ & _ & -> & _)|
    intros (? & ? & -> & _)|intros (? & ? & ? & _ & -> & _)|intros (? & ? & _ & -> & _)|intros (? & -> & _)]; reflexivity.
Qed.
Lemma parse_two d k addr bs K1 K2 t nb a b rest :
  a_pl a = pl_z80 -> a_radix a = 10 -> kind_ok K1 -> kind_ok K2 -> (K1 = K_none -> K2 = K_none) -> (K2 = K_rel -> kwidth K1 = 0%nat) ->
  two d (Some k) addr bs K1 K2 t nb -> (length bs <= 2)%nat -> 0 <= addr < 2^16 -> blanks b -> last_rest rest ->
  exists t1 t2 n1 n2 v1 v2 o1 o2,
    piece d K1 (Some k) addr bs t1 n1 v1 /\ piece d K2 (Some k) addr (bs ++ n1) t2 n2 v2 /\
    nb = n1 ++ n2 /\ parseOperands a addr (skipSpaces (t ++ b ++ rest)) = Val (Two o1 o2 rest) /\
    reads K1 v1 o1 /\ reads K2 v2 o2.
Proof.
  intros PL RX R1 R2 NK REL (t1 & t2 & n1 & n2 & v1 & v2 & P1 & P2 & -> & ->) LB AR B LR.
  exists t1, t2, n1, n2, v1, v2. pose proof (last_tail _ LR) as TR.
  assert (RN : reads K_none 0 no_operand) by (exists v_undef; auto).
  assert (LS : skipSpaces rest = rest) by (apply (last_skip [] rest (Forall_nil _) LR)).
  destruct (is_none K1) eqn:NK1.
  { apply is_none_ok in NK1. specialize (NK NK1). subst K1 K2. cbn [piece] in P1, P2. destruct P1 as (-> & -> & ->). destruct P2 as (-> & -> & ->).
    exists no_operand, no_operand. split; [cbn; auto|]. split; [cbn; auto|]. split; [reflexivity|]. split; [|auto]. unfold sep. cbn [is_none app].
    rewrite last_skip by assumption. unfold parseOperands, parseOperand. cbv zeta. rewrite LS, PL. change (p_eol pl_z80) with eol_semicolon. unfold eol_semicolon. cbv zeta. rewrite LS.
    assert ((peek rest =? 0) || (peek rest =? 59) = true) as -> by (destruct LR as [->|(u & ->)]; reflexivity). cbn [bind o_err no_operand]. change (hasError OK) with false. cbv iota.
    rewrite LS, last_nocomma by assumption. reflexivity. }
  assert (NK1' : K1 <> K_none) by (intros ->; discriminate).
  unfold sep. destruct (is_none K2) eqn:NK2.
  - apply is_none_ok in NK2. subst K2. cbn [piece] in P2. destruct P2 as (-> & -> & ->). rewrite <- app_assoc. cbn [app].
    destruct (parse_piece d K1 k addr bs t1 n1 v1 a [] b rest PL RX NK1' R1 P1 LB AR (Forall_nil _) B TR) as (ST & b1 & o1 & B1 & PO1 & RD1 & E1).
    cbn [app] in PO1. exists o1, no_operand. split; [exact P1|]. split; [cbn; auto|]. split; [reflexivity|].
    split; [|split; [exact RD1|exact RN]].
    pose proof (starts_skip [] t1 (b ++ rest) (Forall_nil _) ST) as SK. cbn [app] in SK. rewrite SK.
    unfold parseOperands. rewrite PO1. cbn [bind]. rewrite E1. change (hasError OK) with false. cbv iota. cbv zeta.
    rewrite last_skip by assumption. rewrite last_nocomma by assumption. reflexivity.
  - assert (K2 <> K_none) as NK2' by (intros ->; discriminate).
    destruct (parse_piece d K1 k addr bs t1 n1 v1 a [] [] (44 :: 32 :: t2 ++ b ++ rest) PL RX NK1' R1 P1 LB AR (Forall_nil _) (Forall_nil _)) as (ST & b1 & o1 & B1 & PO1 & RD1 & E1).
    { right. eauto. }
    assert (P2' : exists bs', piece d K2 (Some k) addr bs' t2 n2 v2 /\ (length bs' <= 2)%nat).
    { destruct (is_rel K2) eqn:RL.
      - exists (bs ++ n1). split; [exact P2|]. destruct K2; try discriminate. specialize (REL eq_refl). rewrite app_length, (piece_len _ _ _ _ _ _ _ _ P1), REL. lia.
      - exists bs. split; [|exact LB]. destruct K2; try discriminate; exact P2. }
    destruct P2' as (bs' & P2' & LB').
    destruct (parse_piece d K2 k addr bs' t2 n2 v2 a [32] b rest PL RX NK2' R2 P2' LB' AR ltac:(repeat constructor) B TR) as (_ & b2 & o2 & B2 & PO2 & RD2 & E2).
    cbn [app] in PO1, PO2. exists o1, o2. split; [exact P1|]. split; [exact P2|]. split; [reflexivity|]. split; [|auto].
    replace ((t1 ++ [44; 32] ++ t2) ++ b ++ rest) with (t1 ++ 44 :: 32 :: t2 ++ b ++ rest) by now rewrite <- !app_assoc.
    pose proof (starts_skip [] t1 (44 :: 32 :: t2 ++ b ++ rest) (Forall_nil _) ST) as SK. cbn [app] in SK. rewrite SK.
    unfold parseOperands. rewrite PO1. cbn [bind]. rewrite E1. change (hasError OK) with false. cbv iota. cbv zeta.
    rewrite skip_blanks by exact B1. rewrite (skip_none 44) by reflexivity. cbn [expect_char]. change (44 =? 44) with true. cbv iota.
    rewrite PO2. cbn [bind]. rewrite E2. change (hasError OK) with false. cbv iota. now rewrite last_skip by assumption.
Qed.
Lemma check_name_ok k nm K1 K2 : check_name k nm K1 K2 = true ->
  plain_name sp_intel [] z80_directives (map (conv k) nm) = true /\ is_alpha (peek (map (conv k) nm)) = true /\ (K1 = K_none -> K2 = K_none) /\ kind_ok K1 /\ kind_ok K2 /\
  firstn 11 (map (conv k) nm) = map (conv k) nm.
Proof.
  unfold check_name. cbv zeta. rewrite !andb_true_iff. intros ((((PN & AL) & N) & KO1) & KO2). split; [exact PN|]. split; [exact AL|]. split.
  { intros ->. cbn in N. now apply is_none_ok. }
  split; [now apply kind_okb_ok|]. split; [now apply kind_okb_ok|].
  apply firstn_all2. unfold plain_name in PN. rewrite !andb_true_iff in PN. destruct PN as (((_ & L) & _) & _). now apply Nat.leb_le in L.
Qed.
Lemma encode_line a k nm K1 K2 indent gap t b rest addr i : check_name (Some k) nm K1 K2 = true ->
  a_pl a = pl_z80 -> a_aw a = 16 -> blanks indent -> blanks gap -> gap <> [] \/ t = [] -> blanks b -> last_rest rest -> checkAddr 16 addr false = OK ->
  z80_encodeImpl a addr (map (conv (Some k)) nm) (skipSpaces (t ++ b ++ rest)) (new_insn addr) = Val (i, rest) ->
  z80_encode a (indent ++ firstn 11 (map (conv (Some k)) nm) ++ gap ++ t ++ b ++ rest) addr = Val (L_insn i rest).
Proof.
  intros CK PL AW BI BG NG BB LR CA EN. destruct (check_name_ok _ _ _ _ CK) as (PN & AL & _ & _ & _ & LN). rewrite LN.
  unfold z80_encode. rewrite line_insn; [| | |exact BI|exact BG| |].
  - rewrite EN. cbn [bind]. reflexivity.
  - rewrite PL. exact PN.
  - intros z. rewrite PL. change (p_line pl_z80) with (p_eol pl_z80). apply starts_eol. destruct (map (conv (Some k)) nm) as [|c u]; [discriminate|]. cbn [peek] in AL.
    unfold starts. cbn [peek]. unfold is_alpha, is_upper, is_lower, is_space in *. repeat split; try discriminate; lia.
  - rewrite PL. apply name_ends; auto. intros c I. cbn in I. repeat (destruct I as [<-|I]; [reflexivity|]). contradiction.
  - rewrite AW. exact CA.
Qed.
Lemma encode_ok d k p o nm K1 K2 t nb a indent gap b rest addr :
  check_one (Some k) p o nm K1 K2 = true ->
  two d (Some k) addr (opcode_bytes p o) K1 K2 t nb -> In p pages -> byte o ->
  a_pl a = pl_z80 -> a_radix a = 10 -> a_aw a = 16 ->
  blanks indent -> blanks gap -> gap <> [] \/ t = [] -> blanks b -> last_rest rest -> 0 <= addr < 2^16 -> checkAddr 16 addr false = OK ->
  z80_encode a (indent ++ firstn 11 (map (conv (Some k)) nm) ++ gap ++ t ++ b ++ rest) addr =
  Val (L_insn (canon addr (opcode_bytes p o ++ nb)) rest).
Proof.
  intros CK TH PP BO PL RX AW BI BG NG BB LR AR CA. unfold check_one in CK. rewrite !andb_true_iff in CK. destruct CK as (((CN & RL1) & RL2) & CK).
  apply (encode_line a k nm K1 K2); auto. destruct (check_name_ok _ _ _ _ CN) as (PN & AL & NN & KO1 & KO2 & _).
  set (nm' := map (conv (Some k)) nm) in *.
  assert (LB : (length (opcode_bytes p o) <= 2)%nat) by (unfold opcode_bytes; destruct (p =? 0); cbn; lia).
  destruct (parse_two d k addr (opcode_bytes p o) K1 K2 t nb a b rest) as (t1 & t2 & n1 & n2 & v1 & v2 & o1 & o2 & P1 & P2 & -> & PO & (w1 & E1 & W1) & (w2 & E2 & W2)); auto.
  { intros ->. cbn [is_rel andb] in RL2. destruct (kwidth K1 =? 0)%nat eqn:E; [lia|]. rewrite orb_true_r in RL2. discriminate. }
  unfold z80_encodeImpl. rewrite PO. cbn [bind].
  assert (M1 : o_mode o1 = o_mode (op_of K1 v_undef)) by (rewrite E1; destruct K1; reflexivity).
  assert (M2 : o_mode o2 = o_mode (op_of K2 v_undef)) by (rewrite E2; destruct K2; reflexivity).
  rewrite M1, M2. destruct (z80_searchName nm' _ _) as [[er [[p0 e]|]]| | | |]; try discriminate.
  2:{ destruct er; discriminate. }
  destruct er; try discriminate. rewrite andb_true_iff in CK. destruct CK as (NX & CK). apply negb_true_iff in NX.
  cbn [bind i_err new_insn]. change (setErrorIfAt OK OK) with OK. change (isOK OK) with true. cbn [negb]. rewrite NX.
  destruct (emb K1 (e_dst e) K2 (p0, e_opc e)) as [[p1 q1]|] eqn:M1'; [|discriminate]. rewrite andb_true_iff in CK. destruct CK as (Z1 & CK).
  destruct (emb K2 (e_src e) K1 (p1, q1)) as [[p2 q2]|] eqn:M2'; [|discriminate]. rewrite !andb_true_iff in CK. destruct CK as ((Z2 & EP) & EO).
  apply Z.eqb_eq in EP, EO. subst p2 q2. apply eqb_prop in Z1, Z2.
  change (new_insn addr) with (part addr (base p0) []).
  assert (BASE : base p1 = base p0 /\ base p = base p0) by (unfold base; rewrite Z1, Z2; auto). destruct BASE as (BA1 & BA2).
  rewrite (emit_piece d K1 (Some k) addr (opcode_bytes p o) t1 n1 v1 (e_dst e) o1 K2 o2 p0 (e_opc e) p1 q1 []); auto.
  2:{ exists w1. auto. }
  2:{ rewrite E2. apply op_reg. }
  2:{ intros ->. cbn [is_rel andb] in RL1. unfold opcode_bytes. destruct (p =? 0); [reflexivity|discriminate]. }
  cbn [bind app]. rewrite <- BA1.
  assert (L1 : (length n1 <= 2)%nat) by (rewrite (piece_len _ _ _ _ _ _ _ _ P1); destruct K1; cbn; lia).
  assert (L2 : (length n2 <= 2)%nat) by (rewrite (piece_len _ _ _ _ _ _ _ _ P2); destruct K2; cbn; lia).
  rewrite (emit_piece d K2 (Some k) addr (opcode_bytes p o ++ n1) t2 n2 v2 (e_src e) o2 K1 o1 p1 q1 p o n1); auto.
  2:{ exists w2. auto. }
  2:{ rewrite E1. apply op_reg. }
  2:{ intros ->. cbn [is_rel andb] in RL2. unfold opcode_bytes. destruct (p =? 0); [|discriminate]. cbn [negb orb] in RL2. destruct (kwidth K1 =? 0)%nat eqn:EW; [|discriminate]. apply Nat.eqb_eq in EW.
      rewrite app_length, (piece_len _ _ _ _ _ _ _ _ P1), EW. reflexivity. }
  cbn [bind]. rewrite BA1, <- BA2.
  assert (BP : byte p) by (unfold byte; cbn in PP; lia).
  destruct (part_done p o addr (n1 ++ n2) BP BO ltac:(rewrite app_length; lia)) as (D1 & D2).
  unfold ai_emitInsn, ai_set, base, opcode_bytes. cbn [ai_insn ai_err ai_opc ai_prefix]. destruct (p =? 0); cbn [negb ai_insn ai_err ai_opc ai_prefix app].
  - rewrite D1. reflexivity.
  - rewrite D2. reflexivity.
Qed.
Lemma encode_ix d k p v x nm K1 K2 t a indent gap b rest addr :
  check_ix (Some k) p x nm K1 K2 = true ->
  two d (Some k) addr [p; 0xCB] K1 K2 t [v] -> p <> 0 -> In p pages -> byte v -> byte x ->
  a_pl a = pl_z80 -> a_radix a = 10 -> a_aw a = 16 ->
  blanks indent -> blanks gap -> gap <> [] \/ t = [] -> blanks b -> last_rest rest -> 0 <= addr < 2^16 -> checkAddr 16 addr false = OK ->
  z80_encode a (indent ++ firstn 11 (map (conv (Some k)) nm) ++ gap ++ t ++ b ++ rest) addr =
  Val (L_insn (canon addr [p; 0xCB; v; x]) rest).
Proof.
  intros CK TH NP PP BV BX PL RX AW BI BG NG BB LR AR CA. unfold check_ix in CK. rewrite andb_true_iff in CK. destruct CK as (CN & CK).
  apply (encode_line a k nm K1 K2); auto. destruct (check_name_ok _ _ _ _ CN) as (PN & AL & NN & KO1 & KO2 & _).
  set (nm' := map (conv (Some k)) nm) in *.
  destruct (z80_searchName nm' _ _) as [[er [[p0 e]|]]| | | |] eqn:SN; try discriminate.
  2:{ destruct er; discriminate. }
  destruct er; try discriminate. rewrite !andb_true_iff in CK. destruct CK as ((NX & E0) & CK). apply Z.eqb_eq in E0. subst p0.
  assert (K12 : (exists b0 r, K1 = K_val b0 /\ K2 = K_idx r) \/ exists r, K1 = K_idx r /\ K2 = K_none).
  { destruct K1; try discriminate; destruct K2; try discriminate; [left; eauto|right; eauto]. }
  destruct (parse_two d k addr [p; 0xCB] K1 K2 t [v] a b rest) as (t1 & t2 & n1 & n2 & v1 & v2 & o1 & o2 & P1 & P2 & EN & PO & (w1 & E1 & W1) & (w2 & E2 & W2)); auto.
  { intros ->. destruct K12 as [(? & ? & _ & ?)|(? & _ & ?)]; discriminate. }
  unfold z80_encodeImpl. rewrite PO. cbn [bind].
  assert (M1 : o_mode o1 = o_mode (op_of K1 v_undef)) by (rewrite E1; destruct K1; reflexivity).
  assert (M2 : o_mode o2 = o_mode (op_of K2 v_undef)) by (rewrite E2; destruct K2; reflexivity).
  rewrite M1, M2, SN. cbn [bind i_err new_insn]. change (setErrorIfAt OK OK) with OK. change (isOK OK) with true. cbn [negb]. rewrite NX.
  change (new_insn addr) with (part addr 2 []).
  assert (BP : byte p) by (unfold byte; cbn in PP; lia).
  assert (IX : forall r w, int_value w -> int_of w = int8 v -> (if r =? REG_IX then PREFIX_IX else PREFIX_IY) = p -> forall other,
     encodeOperand true (mkOp M_IDX r w OK) M_IDX other (mkAI (part addr 2 []) OK 0xCB x) = Val (mkAI (canon addr [p; 0xCB; v; x]) OK p 0xCB)).
  { intros r w IV IO EP other. unfold encodeOperand. cbv zeta. cbn [o_err o_val]. rewrite noerr. cbn [Z.eqb M_IM8 M_IOA M_IDX Pos.eqb]. pose proof (int8_range v).
    unfold overflowInt8. rewrite (over_signed w (int8 v)) by (auto; lia). unfold encodeIndexedBitOp. cbv zeta. cbn [ai_opc ai_prefix o_reg o_val].
    unfold ai_setopc, encodeIndexReg, ai_setprefix. cbn [ai_insn ai_err ai_prefix ai_opc]. rewrite EP.
    assert (B2 : base p = 2%nat) by (unfold base; destruct (Z.eqb_spec p 0); [contradiction|reflexivity]).
    pose proof (emit8 v (getUnsigned w) addr OK p 0xCB [] BV (low8_int8 _ _ IV IO BV) ltac:(cbn; lia)) as EA. rewrite B2 in EA. rewrite EA. cbn [app].
    pose proof (emit8 x x addr OK p 0xCB [v] BX ltac:(unfold u8; apply Z.mod_small; exact BX) ltac:(cbn; lia)) as EB. rewrite B2 in EB. rewrite EB. cbn [app].
    destruct (part_done p 0xCB addr [v; x] BP ltac:(unfold byte; lia) ltac:(cbn; lia)) as (_ & D2).
    unfold ai_emitInsn, ai_set. cbn [ai_insn ai_err ai_opc ai_prefix]. destruct (Z.eqb_spec p 0); [contradiction|]. cbn [negb ai_insn ai_err ai_opc ai_prefix]. rewrite D2. reflexivity. }
  destruct K12 as [(b0 & r & -> & ->)|(r & -> & ->)].
  - rewrite !andb_true_iff in CK. destruct CK as ((((C1 & C2) & C3) & C4) & C5). apply Z.eqb_eq in C1, C2, C4, C5. rewrite C1, C2.
    cbn [piece kind_ok] in *. destruct P1 as (_ & -> & ->). destruct P2 as (u & y & _ & -> & _ & -> & _). cbn [app] in EN. injection EN as <-.
    destruct W2 as [W2|(IV & IO)]; [discriminate|]. rewrite E1, E2. cbn [op_of].
    unfold encodeOperand at 1. cbv zeta. cbn [o_err o_val]. rewrite noerr.
    cbn [Z.eqb M_IM8 M_IM16 M_ABS M_IOA M_IDX R_IDX I_IDX M_REL M_CC4 M_CC8 M_R16 M_NOHL M_R16X M_STK I_PTR M_SRC M_SR8 M_DST M_DR8 R_R M_VEC M_BIT Pos.eqb orb].
    change (match R_R with Z.pos q => (18 =? q)%positive | _ => false end) with false. cbv iota. rewrite (over _ b0) by (cbn; lia). destruct (Z.ltb_spec 7 b0); [lia|].
    rewrite (get_unsigned _ b0) by (cbn; lia).
    unfold ai_embed. cbn [ai_insn ai_err ai_prefix ai_opc bind]. rewrite C4. rewrite (IX r w2 IV IO C5). cbn [bind]. reflexivity.
  - rewrite !andb_true_iff in CK. destruct CK as (((C1 & C2) & C4) & C5). apply Z.eqb_eq in C1, C2, C4, C5. rewrite C1, C2, C4.
    cbn [piece kind_ok] in *. destruct P2 as (_ & -> & ->). destruct P1 as (u & y & _ & -> & _ & -> & _). cbn [app] in EN. injection EN as <-.
    destruct W1 as [W1|(IV & IO)]; [discriminate|]. rewrite E1, E2. cbn [op_of].
    rewrite (IX r w1 IV IO C5). cbn [bind]. unfold encodeOperand. cbv zeta. cbn [o_err no_operand]. rewrite noerr. reflexivity.
Qed.

(* ------------------------------------------------------------ the disassembler *)
Section Whole.
Variables (d : disasm).
Hypothesis RD : reads_as d.
Let START : forall p o addr mem s, (p = 0 \/ pfx p = true) -> byte p -> byte o -> within addr mem 2 s -> decode_opcode d p o s = chain d p o (t_seterr OK s).
Proof.
  intros p o addr mem s Q BP BO (F & bs & E & _). apply chain_start; [now apply pages_in|exact BO|]. unfold bytes_in. rewrite E in F. now apply Forall_app in F.
Qed.
Let GOOD : forall p o, (p = 0 \/ pfx p = true) -> byte p -> byte o -> good (n_chain p o) (R_chain d p o) (chain d p o).
Proof. intros p o Q BP BO. now apply good_chain. Qed.
Let LEN : forall p o, (p = 0 \/ pfx p = true) -> byte p -> byte o -> (length (opcode_bytes p o) + n_chain p o <= 4)%nat.
Proof. intros p o Q BP BO. pose proof (chain_len p o (pages_in p Q) BO). unfold opcode_bytes. destruct (p =? 0); cbn; lia. Qed.
Let P0 : pfx 0 = false := eq_refl.
Lemma decode_eq mem addr size : z80_decode d mem addr size = dis_decode d (decode_impl pfx (decode_opcode d)) mem addr size.
Proof. reflexivity. Qed.
Lemma z80_total mem addr size : Forall byte mem -> exists r, z80_decode d mem addr size = Val r.
Proof. intros FM. rewrite decode_eq. exact (decode_total d pfx _ _ _ n_chain 4 START GOOD LEN ltac:(lia) mem addr size FM). Qed.
Lemma z80_within mem addr size r : Forall byte mem -> z80_decode d mem addr size = Val r ->
  exists m, mem = i_code (r_insn r) ++ m /\ (length (i_code (r_insn r)) <= 4)%nat.
Proof. intros FM. rewrite decode_eq. exact (decode_within d pfx _ _ _ n_chain 4 P0 START GOOD LEN ltac:(lia) mem addr size r FM). Qed.
Lemma z80_takes : takes d (z80_decodeImpl d) 4.
Proof. exact (decode_takes d pfx _ _ _ n_chain 4 P0 START GOOD LEN ltac:(lia)). Qed.
Lemma z80_accepts mem addr size r : Forall byte mem -> mem <> [] -> z80_decode d mem addr size = Val r -> i_err (r_insn r) = OK ->
  checkAddr 16 addr false = OK /\
  exists p o nb m, In p pages /\ byte o /\ mem = (opcode_bytes p o ++ nb) ++ m /\ (length (opcode_bytes p o ++ nb) <= 4)%nat /\
    r_insn r = canon addr (opcode_bytes p o ++ nb) /\
    R_chain d p o (mkH (Some (da_uppercase d)) addr (opcode_bytes p o) []) (r_operands r) nb (r_name r) /\
    forall m', Forall byte m' -> z80_decode d ((opcode_bytes p o ++ nb) ++ m') addr size = Val r.
Proof.
  intros FM NE H E. rewrite decode_eq in H.
  destruct (decode_accepts d pfx _ _ _ n_chain 4 P0 START GOOD LEN ltac:(lia) mem addr size r FM NE H E)
    as (CA & p & o & nb & m & PP & BP & BO & EM & L & RI & Q & FR).
  destruct RD as (_ & _ & AW & _). rewrite AW in CA. split; [exact CA|]. exists p, o, nb, m. split; [exact (pages_in p PP)|]. split; [exact BO|]. rewrite <- app_assoc. split; [exact EM|]. split; [exact L|]. split; [exact RI|]. split; [exact Q|]. intros m0. rewrite <- app_assoc. apply FR.
Qed.
Lemma z80_round mem addr size r a indent gap b rest :
  Forall byte mem -> mem <> [] -> z80_decode d mem addr size = Val r -> i_err (r_insn r) = OK ->
  a_pl a = pl_z80 -> a_radix a = 10 -> a_aw a = 16 -> 0 <= addr < 2^32 ->
  blanks indent -> blanks gap -> gap <> [] \/ r_operands r = [] -> blanks b -> last_rest rest ->
  z80_encode a (indent ++ r_name r ++ gap ++ r_operands r ++ b ++ rest) addr = Val (L_insn (r_insn r) rest).
Proof.
  intros FM NE H E PL RX AW AR BI BG NG BB LR. destruct (z80_accepts mem addr size r FM NE H E) as (CA & p & o & nb & m & PP & BO & _ & _ & RI & Q & _).
  destruct (chain_two d p o (da_uppercase d) (mkH (Some (da_uppercase d)) addr (opcode_bytes p o) []) (r_operands r) nb (r_name r) PP BO eq_refl Q) as (nm & K1 & K2 & NM & C).
  assert (AR' : 0 <= addr < 2^16) by (apply C31_addr in CA; [|lia|exact AR]; lia).
  rewrite RI, NM. destruct C as [(CK & TH)|(v & x & -> & NP & BV & BX & -> & CK & TH)].
  - apply (encode_ok d (da_uppercase d) p o nm K1 K2); auto.
  - cbn [h_addr h_bs] in TH. unfold opcode_bytes in *. destruct (Z.eqb_spec p 0); [contradiction|]. cbn [negb app] in *. apply (encode_ix d (da_uppercase d) p v x nm K1 K2); auto.
Qed.
End Whole.
