(** What the assembler of the 6502, the 65SC02, the 65C02 and the W65C02S emits is an instruction of
    its disassembler (C79). *)
From Coq Require Import String ZArith List Bool Lia ZifyBool.
From Verif Require Import M_Char M_Error M_Value M_Text M_StrBuffer M_Format M_Number M_Insn M_Config M_Operators
  M_Parsers M_Expr M_Directive M_Table M_Asm M_Dis M_Mos6502Defs T_Mos6502 M_Mos6502 S_Cpu P_StrBuffer P_Table P_Insn P_Config P_Value
  P_Room P_AsmText P_CpuShape P_CpuText P_CpuGood P_CpuSigned P_CpuRange P_CpuFine P_CpuFineOff P_CpuSearch P_Mos6502 P_Mos6502Round.
Import ListNotations.
Open Scope string_scope.
Open Scope list_scope.
Local Open Scope Z_scope.

(* the processors without banks *)
Definition small : list Z := [MOS6502; G65SC02; R65C02; W65C02S].
Definition kind8 (o m : Z) : kind := kind_of false false o m.
(* ------------------------------------------------------------ all instructions *)
Definition plain (K : kind) : bool := match K with K_none | K_reg _ | K_imm _ | K_abs | K_dpg => true | _ => false end.
Definition same_kind (a b : kind) : bool :=
  match a, b with
  | K_rel, K_rel => true
  | _, _ => plain a && plain b && (kwidth a =? kwidth b)%nat
  end.
(* the instruction of the table is the one of its opcode, with operands of the same bytes *)
Definition emits (ty : Z) (il : bool) (e : entry) : bool :=
  let o := e_opc e in
  (0 <=? o) && (o <? 256) && negb (is_bank e) && (kwidth (kind8 o (e_m3 e)) =? 0)%nat && plain (kind8 o (e_m3 e)) &&
  match look il ty o with
  | None => false
  | Some e' => negb (is_bank e') && same_kind (kind8 o (e_m1 e)) (kind8 o (e_m1 e')) && same_kind (kind8 o (e_m2 e)) (kind8 o (e_m2 e')) &&
      same_kind (kind8 o (e_m3 e)) (kind8 o (e_m3 e'))
  end.
Definition pages_of (ty : Z) : list epage := match cpu_pages ty with Val p => p | _ => [] end.
Lemma emits_all : forallb (fun ty => forallb (fun il => forallb (fun p => forallb (emits ty il) (p_items p)) (pages_of ty)) [false; true]) small = true.
Proof. vm_compute. reflexivity. Qed.
Lemma small_in ty : In ty small -> In ty types.
Proof. unfold small, types. cbn [In]. tauto. Qed.
Lemma small_bank ty : In ty small -> bankModel ty = false.
Proof. intros [<-|[<-|[<-|[<-|[]]]]]; reflexivity. Qed.
Lemma small_width ty : In ty small -> addressWidth ty = 16.
Proof. intros T. unfold addressWidth. now rewrite small_bank. Qed.

(* ------------------------------------------------------------ the bytes of an operand *)
Definition sat (K : kind) (addr : Z) (off : nat) (nb : list Z) : Prop :=
  match K with
  | K_rel => exists x, nb = [x] /\ checkAddr 16 (u32 (u32 (addr + Z.of_nat off + 1) + int8 x)) false = OK
  | _ => length nb = kwidth K
  end.
Lemma sat_len K addr off nb : sat K addr off nb -> length nb = kwidth K.
Proof. destruct K; cbn [sat]; auto. intros (x & -> & _). reflexivity. Qed.
Lemma same_sat a b addr off nb : same_kind a b = true -> sat a addr off nb -> sat b addr off nb.
Proof.
  intros H S. assert (W : plain a && plain b && (kwidth a =? kwidth b)%nat = true -> sat b addr off nb).
  { clear H. intros H. rewrite !andb_true_iff in H. destruct H as ((_ & P) & W). apply Nat.eqb_eq in W. apply sat_len in S. destruct b; try discriminate; cbn [sat]; congruence. }
  destruct a, b; cbn [same_kind] in H; auto.
Qed.
Lemma fineAt_le16 addr x y nb k g : (byte x -> byte y -> fineAt addr nb k (g (x + 256 * y))) -> fineAt addr (x :: y :: nb) k (fun s => let '(v, s) := t_uint16Le s in g v s).
Proof.
  intros G bs m nm out A B C. inversion A as [|? ? X A']; subst. inversion A' as [|? ? Y A'']; subst. cbn [app]. cbn [length] in C. rewrite t_word_at by (auto; lia).
  destruct (G X Y (bs ++ [x; y]) m nm out A'' B ltac:(rewrite app_length; cbn [length]; lia)) as (nm' & out' & E & Q).
  exists nm', out'. rewrite E, <- app_assoc. split; [reflexivity|exact Q].
Qed.
Lemma reg_adds r b : In r [REG_A; REG_X; REG_Y; REG_S] -> adds 1 b (outRegName r b).
Proof. intros [<-|[<-|[<-|[<-|[]]]]]; match goal with |- adds 1 b (outRegName ?r b) => change (adds (Z.of_nat (length (reg_text r))) b (out_text (reg_text r) b)) end; apply adds_text; vm_compute; repeat constructor; discriminate. Qed.
Section Dis.
Variable d : disasm.
Hypothesis NS : da_symtab d = None.
Hypothesis BP : brief_plugin (da_plug d).
Hypothesis AW : da_aw d = 16.
Hypothesis PC : printable (da_cursym d).
Lemma look_no v r : da_lookup d v r = Val None.
Proof. unfold da_lookup. now rewrite NS. Qed.
Lemma fine_letter addr off c : printable c -> fineOff addr off [] 1 (fun s => Val (t_put (letter c) s)).
Proof. intros C. apply fineOff_of, fineAt_of, fine_put. intros b. now apply adds_letter. Qed.
Lemma fine_put_if addr off b c : printable c -> fineOff addr off [] 1 (fun s => Val (put_if b c s)).
Proof.
  intros C. destruct b; [now apply fine_letter|]. apply (fineOff_le _ _ _ 0); [lia|]. apply fineOff_of, fineAt_of, fine_val.
Qed.
Lemma fine_two addr off b1 c1 b2 c2 : printable c1 -> printable c2 -> fineOff addr off [] 2 (put_two b1 c1 b2 c2).
Proof.
  intros C1 C2. apply (fineOff_seq addr off [] [] 1 1 (fun s => Val (put_if b1 c1 s)) (fun s => Val (put_if b2 c2 s))); now apply fine_put_if.
Qed.
Lemma fine_imm addr off nb : length nb = 1%nat -> fineOff addr off nb 28 (decodeImmediate d false).
Proof.
  intros L. destruct nb as [|x [|]]; try discriminate. unfold decodeImmediate. cbv zeta.
  change 28 with (1 + 27). apply (fineOff_seq addr off [] [x] 1 27 (fun s => Val (t_put (letter 35) s)) (fun s => let '(v, s) := t_byte s in t_print (dis_outHex d v 8 true) s)); [apply fine_letter; unfold printable; lia|].
  apply (fineOff_byte addr _ x [] 27 (fun v s => t_print (dis_outHex d v 8 true) s)). intros X. unfold byte in X. apply (fineOff_le _ _ _ 26); [lia|].
  apply fineOff_of, fineAt_of. apply fine_print. apply prints_hex; auto; lia.
Qed.
Lemma fine_dpg addr off nb : length nb = 1%nat -> fineOff addr off nb 28 (decodeDirectPage d).
Proof.
  intros L. destruct nb as [|x [|]]; try discriminate.
  unfold decodeDirectPage. apply (fineOff_byte addr off x [] 28 (fun zp s => bind (da_lookup d zp 0) (fun label => match label with Some l => Val (t_put (fun out => out_rtext l (letter 60 out)) s) | None => t_print (outAbsAddr d zp 8) s end))).
  intros X. unfold byte in X. rewrite look_no. cbn [bind]. apply fineOff_of, fineAt_of. apply (fine_le _ 26); [lia|]. apply fine_print. apply prints_abs; auto; lia.
Qed.
Lemma fine_abs addr off nb : length nb = 2%nat -> fineOff addr off nb 28 (decodeAbsolute d).
Proof.
  intros L. destruct nb as [|x [|y [|]]]; try discriminate. unfold decodeAbsolute. apply fineOff_of.
  apply (fineAt_le16 addr x y [] 28 (fun a s => bind (da_lookup d a 0) (fun label => match label with Some l => Val (t_put (fun out => out_rtext l (letter 62 out)) s) | None => t_print (outAbsAddr d a 16) (if a <? 0x100 then t_put (letter 62) s else s) end))).
  intros X Y. unfold byte in X, Y. rewrite look_no. cbn [bind]. set (v := _ + _). assert (V : 0 <= v < 2^32) by (unfold v; lia).
  assert (F : fine 0 26 (t_print (outAbsAddr d v 16))) by (apply fine_print; apply prints_abs; auto; lia).
  apply fineAt_of. destruct (v <? 256).
  - apply (fine_le _ (1 + 26)); [lia|]. apply (fine_seq 0 0 1 26 (fun s => Val (t_put (letter 62) s))); [apply fine_put; intros b; apply adds_letter; unfold printable; lia|exact F].
  - apply (fine_le _ 26); [lia|exact F].
Qed.
Lemma fine_rel ty addr off nb : bankModel ty = false -> sat K_rel addr off nb -> fineOff addr off nb 28 (decodeRelative d ty M_REL).
Proof.
  intros BM (x & -> & CK). unfold decodeRelative. rewrite BM. change (M_REL =? M_LREL) with false. change (M_REL =? M_REL) with true. cbv iota.
  assert (G : forall s, (let '(delta, s) := (let '(v, s) := t_byte s in (int8 v, s)) in
     let insn := d_insn (t_in s) in let base := u32 (i_addr insn + i_len insn) in let target := u32 (base + delta) in
     let e := checkAddr (da_aw d) target false in t_print (outRelAddr d target (i_addr insn) 8) (t_setErrorIf e s)) =
     let '(v, s) := t_byte s in (fun insn s => t_print (outRelAddr d (u32 (u32 (i_addr insn + i_len insn) + int8 v)) (i_addr insn) 8) (t_setErrorIf (checkAddr (da_aw d) (u32 (u32 (i_addr insn + i_len insn) + int8 v)) false) s)) (d_insn (t_in s)) s)
    by (intros s; destruct (t_byte s); reflexivity).
  intros bs m nm out A B C D. rewrite G. revert bs m nm out A B C D. fold (fineOff addr off [x] 28 (fun s => let '(v, s) := t_byte s in (fun insn s => t_print (outRelAddr d (u32 (u32 (i_addr insn + i_len insn) + int8 v)) (i_addr insn) 8) (t_setErrorIf (checkAddr (da_aw d) (u32 (u32 (i_addr insn + i_len insn) + int8 v)) false) s)) (d_insn (t_in s)) s)).
  apply (fineOff_byte addr off x [] _ (fun v s => (fun insn s => t_print (outRelAddr d (u32 (u32 (i_addr insn + i_len insn) + int8 v)) (i_addr insn) 8) (t_setErrorIf (checkAddr (da_aw d) (u32 (u32 (i_addr insn + i_len insn) + int8 v)) false) s)) (d_insn (t_in s)) s)).
  intros X. apply (fineOff_insn addr (S off) [] _ (fun insn s => t_print (outRelAddr d (u32 (u32 (i_addr insn + i_len insn) + int8 x)) (i_addr insn) 8) (t_setErrorIf (checkAddr (da_aw d) (u32 (u32 (i_addr insn + i_len insn) + int8 x)) false) s))). intros i IA IL. rewrite IA, IL. rewrite Nat2Z.inj_succ, <- Z.add_1_r, Z.add_assoc.
  apply (fineOff_check addr (S off) [] _ _ (t_print (outRelAddr d (u32 (u32 (addr + Z.of_nat off + 1) + int8 x)) addr 8))); [rewrite AW; exact CK|].
  apply fineOff_of, fineAt_of. apply fine_print. apply prints_rel; auto; try lia. apply Z.mod_pos_bound. lia.
Qed.
Lemma fine_operand ty opt addr off nb o m : bankModel ty = false -> plain (kind8 o m) || (match kind8 o m with K_rel => true | _ => false end) = true -> sat (kind8 o m) addr off nb -> fineOff addr off nb 28 (decodeOperand d ty opt o m).
Proof.
  intros BM. unfold decodeOperand, kind8, kind_of. cbv zeta. set (mode := baseMode m).
  assert (LI : forall x, longImmediate ty opt x = false) by (intros x; unfold longImmediate; unfold bankModel in BM; now rewrite BM).
  assert (RG : forall r, In r [REG_A; REG_X; REG_Y; REG_S] -> length nb = 0%nat -> fineOff addr off nb 28 (fun s => Val (t_put (outRegName r) s))).
  { intros r R L. destruct nb; [|discriminate]. apply (fineOff_le _ _ _ 1); [lia|]. apply fineOff_of, fineAt_of, fine_put. intros b. now apply reg_adds. }
  destruct (mode =? M_REGA); [intros _; apply RG; cbn; auto|].
  destruct (mode =? M_REGX); [intros _; apply RG; cbn; auto|].
  destruct (mode =? M_REGY); [intros _; apply RG; cbn; auto|].
  destruct (mode =? M_REGS); [intros _; apply RG; cbn; auto|].
  rewrite LI. destruct (mode =? M_IMA); [intros _; apply fine_imm|]. destruct (mode =? M_IMX); [intros _; apply fine_imm|]. destruct (mode =? M_IM8); [intros _; apply fine_imm|]. cbn [orb].
  destruct (mode =? M_ABS); [intros _; apply fine_abs|].
  destruct (mode =? M_ABSL); [discriminate|].
  destruct (mode =? M_DPG); [intros _; apply fine_dpg|].
  destruct (Z.eqb_spec mode M_REL) as [->|_]; [intros _; now apply fine_rel|]. cbn [orb].
  destruct (mode =? M_LREL); [discriminate|].
  intros _ L. destruct nb; [|discriminate]. apply fineOff_of, fineAt_of. apply (fine_le _ 0); [lia|]. apply fine_val.
Qed.
Definition fits (K : kind) : bool := plain K || match K with K_rel => true | _ => false end.
Lemma none_kind o : kind8 o M_NONE = K_none.
Proof. reflexivity. Qed.
Lemma fine_first ty opt addr off nb o e : bankModel ty = false -> fits (kind8 o (e_m1 e)) = true -> sat (kind8 o (e_m1 e)) addr off nb -> fineOff addr off nb 32 (first_op d ty opt o e).
Proof.
  intros BM K S. unfold first_op. destruct (Z.eqb_spec (e_m1 e) M_NONE) as [M|_].
  - rewrite M, none_kind in S. destruct nb; [|discriminate]. apply (fineOff_le _ _ _ 0); [lia|]. apply fineOff_of, fineAt_of, fine_val.
  - assert (P : printable 40 /\ printable 41 /\ printable 91 /\ printable 93) by (unfold printable; lia).
    apply (fineOff_seq addr off [] nb 2 30); [apply fine_two; tauto|]. cbn [length]. rewrite Nat.add_0_r. rewrite <- (app_nil_r nb) at 1.
    apply (fineOff_seq addr off nb [] 28 2); [now apply fine_operand|apply fine_two; tauto].
Qed.
Lemma fine_more ty opt addr off nb o m b1 b2 : bankModel ty = false -> fits (kind8 o m) = true -> sat (kind8 o m) addr off nb -> fineOff addr off nb 31 (more_op d ty opt o m b1 b2).
Proof.
  intros BM K S. unfold more_op. destruct (Z.eqb_spec m M_NONE) as [M|_].
  - rewrite M, none_kind in S. destruct nb; [|discriminate]. apply (fineOff_le _ _ _ 0); [lia|]. apply fineOff_of, fineAt_of, fine_val.
  - assert (P : printable 41 /\ printable 93 /\ printable 44) by (unfold printable; lia).
    apply (fineOff_seq addr off [] nb 1 30 (fun s => Val (t_put (letter 44) s))); [apply fine_letter; tauto|]. cbn [length]. rewrite Nat.add_0_r. rewrite <- (app_nil_r nb) at 1.
    apply (fineOff_seq addr off nb [] 28 2); [now apply fine_operand|apply fine_two; tauto].
Qed.
Definition sats (o : Z) (e : entry) (addr : Z) (off : nat) (nb : list Z) : Prop :=
  exists n1 n2 n3, nb = n1 ++ n2 ++ n3 /\ sat (kind8 o (e_m1 e)) addr off n1 /\ sat (kind8 o (e_m2 e)) addr (off + length n1) n2 /\
    sat (kind8 o (e_m3 e)) addr (off + length n1 + length n2) n3.
Lemma fine_chain ty opt addr off nb o e : bankModel ty = false -> look (op_indirectLong opt) ty o = Some e -> is_bank e = false ->
  fits (kind8 o (e_m1 e)) = true -> fits (kind8 o (e_m2 e)) = true -> fits (kind8 o (e_m3 e)) = true -> sats o e addr off nb -> fineOff addr off nb 127 (chain d ty opt o).
Proof.
  intros BM L NB F1 F2 F3 (n1 & n2 & n3 & -> & S1 & S2 & S3). unfold chain. rewrite L, NB.
  apply (fineOff_le _ _ _ (0 + (32 + (31 + 31)))); [lia|].
  apply (fineOff_seq addr off [] (n1 ++ n2 ++ n3) 0 _ (fun s => Val (t_readName (entry_name e) s))); [apply fineOff_of, fineAt_of, fine_name|]. cbn [length]. rewrite Nat.add_0_r.
  apply fineOff_seq; [now apply fine_first|]. apply fineOff_seq; now apply fine_more.
Qed.
End Dis.

(* ------------------------------------------------------------ the assembler *)
Lemma seterr_flag (b : bool) x i f o : (if b then ai_setErrorIf x (mkAI i f o) else mkAI i f o) = mkAI i (if b then setErrorIfAt f x else f) o.
Proof. destruct b; reflexivity. Qed.
Lemma seterr_unset (b : bool) x f : x <> OK -> (if b then setErrorIfAt f x else f) = OK -> b = false /\ f = OK.
Proof. intros NX. destruct b; intros H; [|auto]. apply seterr_ok in H. tauto. Qed.
Lemma byte_of z : byte (u8 z).
Proof. apply Z.mod_pos_bound. lia. Qed.
Lemma pos_at addr nb e o : ai_operandPos (mkAI (part addr 1 nb) e o) = Z.of_nat (1 + length nb).
Proof. unfold ai_operandPos. cbn [ai_insn]. rewrite <- (part_at addr 1 nb). reflexivity. Qed.
Lemma emit8 z addr nb e o : (length nb <= 8)%nat -> ai_emitOperand8 z (mkAI (part addr 1 nb) e o) = mkAI (part addr 1 (nb ++ [u8 z])) e o.
Proof.
  intros L. unfold ai_emitOperand8. rewrite pos_at. cbn [ai_insn]. rewrite part_byte by (auto using byte_of; lia). reflexivity.
Qed.
Lemma emit16 z addr nb e o : (length nb <= 8)%nat -> exists lo hi, byte lo /\ byte hi /\ ai_emitOperand16 z (mkAI (part addr 1 nb) e o) = mkAI (part addr 1 (nb ++ [lo; hi])) e o.
Proof.
  intros L. pose proof (Z.mod_pos_bound z 65536 ltac:(lia)) as M. exists ((z mod 65536) mod 256), ((z mod 65536) / 256).
  assert (X : byte ((z mod 65536) / 256)) by (unfold byte; split; [apply Z.div_pos; lia|apply Z.div_lt_upper_bound; lia]).
  assert (Y : byte ((z mod 65536) mod 256)) by (apply Z.mod_pos_bound; lia). split; [exact Y|]. split; [exact X|].
  unfold ai_emitOperand16. rewrite pos_at. cbn [ai_insn]. replace (u16 z) with ((z mod 65536) mod 256 + 256 * ((z mod 65536) / 256)) by (unfold u16; change (2^16) with 65536; pose proof (Z.div_mod (z mod 65536) 256); lia).
  rewrite part_le by (auto; lia). reflexivity.
Qed.
Definition emitted (K : kind) (addr : Z) (nb : list Z) (e : err) (o : Z) (i' : ainsn) : Prop :=
  exists e' nb', i' = mkAI (part addr 1 (nb ++ nb')) e' o /\ Forall byte nb' /\ (length nb' <= 2)%nat /\
    (e' = OK -> e = OK /\ (addr + Z.of_nat (1 + length (nb ++ nb')) <= 65536 -> sat K addr (1 + length nb) nb')).
Lemma emit_byte_as z K addr nb e f o : (length nb <= 8)%nat -> plain K = true -> kwidth K = 1%nat -> (f = OK -> e = OK) -> emitted K addr nb e o (ai_emitOperand8 z (mkAI (part addr 1 nb) f o)).
Proof.
  intros L P W F. rewrite emit8 by exact L. exists f, [u8 z]. split; [reflexivity|]. split; [constructor; [apply byte_of|constructor]|]. split; [cbn; lia|].
  intros H. split; [auto|]. intros _. destruct K; try discriminate; cbn [sat]; now rewrite W.
Qed.
Lemma emit_word_as z K addr nb e f o : (length nb <= 8)%nat -> plain K = true -> kwidth K = 2%nat -> (f = OK -> e = OK) -> emitted K addr nb e o (ai_emitOperand16 z (mkAI (part addr 1 nb) f o)).
Proof.
  intros L P W F. destruct (emit16 z addr nb f o L) as (lo & hi & B1 & B2 & ->). exists f, [lo; hi]. split; [reflexivity|]. split; [auto|]. split; [cbn; lia|].
  intros H. split; [auto|]. intros _. destruct K; try discriminate; cbn [sat]; now rewrite W.
Qed.
Lemma emit_imm op (w : bool) K addr nb e f o : (length nb <= 8)%nat -> plain K = true -> kwidth K = (if w then 2 else 1)%nat -> (f = OK -> e = OK) -> emitted K addr nb e o (emitImmediate op w (mkAI (part addr 1 nb) f o)).
Proof.
  intros L P W F. assert (FL : forall b : bool, (if b then setErrorIfAt f OVERFLOW_RANGE else f) = OK -> e = OK) by (intros b H; apply seterr_unset in H; [tauto|discriminate]).
  unfold emitImmediate. destruct w; cbv zeta; rewrite seterr_flag; [apply emit_word_as|apply emit_byte_as]; eauto.
Qed.
Lemma val_inj {A} (x y : A) : Val x = Val y -> x = y.
Proof. now intros [=]. Qed.
Lemma emit_form ty smart m op addr nb e o i' : In ty small -> 0 <= addr < 65536 -> (length nb <= 4)%nat -> fits (kind8 o m) = true ->
  encodeOperand (mkState ty false false) smart m op (mkAI (part addr 1 nb) e o) = Val i' -> emitted (kind8 o m) addr nb e o i'.
Proof.
  intros T A NB FT. pose proof (getUnsigned_range (o_val op)) as VR. unfold encodeOperand, kind8, kind_of in *. cbv zeta. cbn [st_longa st_longi st_cpu]. set (mode := baseMode m) in *. clearbody mode.
  assert (NONE : Val (mkAI (part addr 1 nb) e o) = Val i' -> forall K, plain K = true -> kwidth K = 0%nat -> emitted K addr nb e o i').
  { intros H K P W. injection H as <-. exists e, []. rewrite app_nil_r. split; [reflexivity|]. split; [constructor|]. split; [cbn; lia|]. intros ->. split; [reflexivity|]. intros _. destruct K; try discriminate; cbn [sat]; now rewrite W. }
  destruct (Z.eqb_spec mode M_REGA) as [X|_]; [rewrite X; intros H; now apply NONE|].
  destruct (Z.eqb_spec mode M_REGX) as [X|_]; [rewrite X; intros H; now apply NONE|].
  destruct (Z.eqb_spec mode M_REGY) as [X|_]; [rewrite X; intros H; now apply NONE|].
  destruct (Z.eqb_spec mode M_REGS) as [X|_]; [rewrite X; intros H; now apply NONE|].
  destruct (mode =? M_IMA); [intros H; apply val_inj in H; subst i'; apply emit_imm; auto; lia|].
  destruct (mode =? M_IMX); [intros H; apply val_inj in H; subst i'; apply emit_imm; auto; lia|].
  assert (FL : forall b : bool, (if b then setErrorIfAt e OVERFLOW_RANGE else e) = OK -> e = OK) by (intros b H; apply seterr_unset in H; [tauto|discriminate]).
  destruct (Z.eqb_spec mode M_IM8) as [X|_]; [rewrite X; intros H; apply val_inj in H; subst i'; apply emit_imm; auto; lia|].
  destruct (mode =? M_ABS); [rewrite seterr_flag; intros H; apply val_inj in H; subst i'; apply emit_imm; eauto; lia|].
  destruct (mode =? M_ABSL); [discriminate|].
  destruct (mode =? M_DPG); [rewrite seterr_flag; intros H; apply val_inj in H; subst i'; apply emit_imm; eauto; lia|].
  destruct (Z.eqb_spec mode M_REL) as [X|N1].
  { rewrite X. change (M_REL =? M_LREL) with false. cbn [orb]. unfold encodeRelative. cbv zeta. unfold checkBank. rewrite (small_bank ty T). change (M_REL =? M_REL) with true. unfold maySmartBranch. assert (N8 : (ty =? W65C816) = false) by (exact (small_bank ty T)).
    rewrite N8. cbn [andb]. rewrite andb_false_r. cbn [negb]. unfold short_branch. rewrite (small_width ty T). cbn [ai_insn ai_err]. rewrite part_len. assert (PA : i_addr (part addr 1 nb) = addr) by (destruct nb; reflexivity). rewrite PA.
    set (bs := M_Config.u32 _).
    assert (BS : bs = addr + Z.of_nat (1 + length nb) + 1).
    { unfold bs, M_Config.u32. destruct nb as [|y nb]; cbn [length Nat.ltb Nat.leb].
      - change (0 =? 0) with true. cbv iota. rewrite Z.mod_small; lia.
      - cbn [length] in NB. replace (Z.of_nat (1 + S (length nb)) =? 0) with false by lia. rewrite Z.mod_small; lia. }
    set (tg := if negb (isOK (o_err op)) then bs else getUnsigned (o_val op)).
    assert (TR : 0 <= tg < 2^32) by (unfold tg; destruct (negb _); lia).
    destruct (branchDelta 16 bs tg e) as [[dl e2]|] eqn:BD; [|discriminate]. change (overflowDelta dl 8) with (Some ((dl <? -128) || (128 <=? dl))). cbv iota beta.
    change (ai_seterr e2 (mkAI (part addr 1 nb) e o)) with (mkAI (part addr 1 nb) e2 o). rewrite seterr_flag, emit8 by lia.
    intros H. injection H as <-. eexists _, [_]. split; [reflexivity|]. split; [constructor; [apply byte_of|constructor]|]. split; [cbn; lia|].
    intros H. apply seterr_unset in H; [|discriminate]. destruct H as (FR & H). split.
    { unfold branchDelta in BD. destruct (signExtend _ 16) as [d0|]; [|discriminate]. injection BD as _ BD. rewrite H in BD. destruct (_ || _) in BD; repeat (apply seterr_ok in BD; destruct BD as (BD & _)); exact BD. }
    rewrite app_length. cbn [length]. intros FIT.
    destruct (branch_inv bs tg e ltac:(lia) TR) as (dl' & e2' & BD' & BI). rewrite BD in BD'. injection BD' as <- <-. destruct (BI H) as (_ & T1 & ->).
    cbn [sat]. eexists. split; [reflexivity|]. unfold u8. change (2^8) with 256. rewrite int8_delta by lia.
    replace (u32 (addr + Z.of_nat (1 + length nb) + 1)) with bs by (unfold u32; rewrite Z.mod_small; lia).
    replace (bs + (tg - bs)) with tg by lia. unfold u32. rewrite Z.mod_small by lia. apply C31_addr; [lia|lia|]. split; [change (2^16) with 65536; lia|discriminate]. }
  cbn [orb]. destruct (mode =? M_LREL); [discriminate|]. intros H. now apply NONE.
Qed.
Lemma search_in ty name m1 m2 m3 e : mos6502_searchName ty name m1 m2 m3 = Val (OK, Some e) -> exists q, In q (pages_of ty) /\ In e (p_items q).
Proof.
  unfold mos6502_searchName, search_entry, pages_of. destruct (cpu_pages ty) as [ps| | | |]; cbn [bind]; try discriminate.
  destruct (searchName entry_name name _ ps) as [[pg k|er]| | | |] eqn:SN; cbn [bind]; try discriminate.
  destruct (item_at ps pg) as [q| | | |] eqn:I1; cbn [bind]; try discriminate. destruct (item_at (p_items q) k) as [x| | | |] eqn:I2; cbn [bind]; try discriminate.
  intros H. injection H as <-. exists q. split; [eapply item_in, I1|eapply item_in, I2].
Qed.
Lemma search_none ty name m1 m2 m3 : mos6502_searchName ty name m1 m2 m3 = Val (OK, None) -> False.
Proof.
  intros SN. unfold mos6502_searchName, search_entry in SN.
  destruct (cpu_pages ty) as [ps| | | |]; cbn [bind] in SN; try discriminate. destruct (searchName _ _ _ ps) as [[pg k|er]| | | |] eqn:X; cbn [bind] in SN; try discriminate.
  - destruct (item_at ps pg) as [p| | | |]; cbn [bind] in SN; try discriminate. destruct (item_at (p_items p) k) as [x| | | |]; cbn [bind] in SN; discriminate.
  - injection SN as ->. apply (searchName_miss _ _ _ _ _ X eq_refl).
Qed.
Lemma parse_bad a loc scan e s : parseOperands a loc scan = Val (Bad e s) -> e = OK -> False.
Proof.
  intros H E. subst e. unfold parseOperands in H. cbv zeta in H.
  destruct (parseOperand a loc scan 0) as [[[o1 s1] i1]| | | |]; cbn [bind] in H; try discriminate.
  destruct (hasError (o_err o1)) eqn:E1; [injection H as H _; rewrite H in E1; discriminate|].
  destruct (match expect_char 44 (skipSpaces s1) with Some t => parseOperand a loc t i1 | None => Val (no_operand, skipSpaces s1, i1) end) as [[[o2 s2] i2]| | | |]; cbn [bind] in H; try discriminate.
  destruct (hasError (o_err o2)) eqn:E2; [injection H as H _; rewrite H in E2; discriminate|].
  destruct (negb (i2 =? 0)); [destruct (i2 =? 40); discriminate|].
  destruct (match expect_char 44 (skipSpaces s2) with Some t => parseOperand a loc t i2 | None => Val (no_operand, skipSpaces s2, i2) end) as [[[o3 s3] i3]| | | |]; cbn [bind] in H; try discriminate.
  destruct (hasError (o_err o3)) eqn:E3; [injection H as H _; rewrite H in E3; discriminate|discriminate].
Qed.
Lemma same_fits a b : same_kind a b = true -> fits a = true /\ fits b = true.
Proof. destruct a, b; cbn; intros H; rewrite ?andb_true_iff in H; try discriminate; auto; destruct H; discriminate. Qed.
Lemma mos6502_emitted ty smart a il line addr i rest : In ty small -> a_aw a = 16 -> 0 <= addr < 2^32 -> mos6502_encode (mkState ty false false) smart a line addr = Val (L_insn i rest) -> i_err i = OK -> addr + Z.of_nat (length (i_code i)) <= 65536 ->
  checkAddr 16 addr false = OK /\ exists o nb e, byte o /\ Forall byte nb /\ (length nb <= 3)%nat /\ i = canon addr (o :: nb) /\ look il ty o = Some e /\ is_bank e = false /\
    fits (kind8 o (e_m1 e)) = true /\ fits (kind8 o (e_m2 e)) = true /\ fits (kind8 o (e_m3 e)) = true /\ sats o e addr 1 nb.
Proof.
  intros T AW A H E FIT. destruct (encode_inv _ _ _ _ _ _ _ _ H E) as (CA & name & scan & IM). rewrite AW in CA. split; [exact CA|]. clear H.
  assert (AR : 0 <= addr < 65536) by (apply C31_addr in CA; [change (2^16) with 65536 in CA; lia|lia|lia]). clear A CA.
  unfold mos6502_encodeImpl in IM. cbn [st_cpu] in IM. destruct (hasOperand ty name) as [has| | | |]; cbn [bind] in IM; try discriminate.
  destruct (if has then parseOperands a addr scan else Val (Three no_operand no_operand no_operand scan)) as [[e0 s0|o1 o2 o3 s0]| | | |] eqn:PO; cbn [bind] in IM; try discriminate.
  { injection IM as <- _. cbn [i_seterr i_err] in E. destruct has; [exfalso; eapply parse_bad; eauto|discriminate]. }
  clear PO. cbv zeta in IM.
  destruct (mos6502_searchName ty name (o_mode o1) (o_mode o2) (o_mode o3)) as [[e' found]| | | |] eqn:SN; cbn [bind] in IM; try discriminate.
  destruct (isOK e') eqn:CK; cbn [negb] in IM.
  2: { injection IM as <- _. cbn [i_seterr i_err] in E. unfold notFound in E. destruct (_ && _); [discriminate|]. rewrite E in CK. discriminate. }
  apply isOK_e in CK. subst e'. destruct found as [en|]; [|exfalso; eapply search_none, SN].
  destruct (search_in _ _ _ _ _ _ SN) as (q & IQ & IE). clear SN.
  pose proof emits_all as CH. rewrite forallb_forall in CH. specialize (CH ty T). rewrite forallb_forall in CH. specialize (CH il ltac:(destruct il; cbn; auto)). rewrite forallb_forall in CH. specialize (CH q IQ). rewrite forallb_forall in CH. specialize (CH en IE). clear q IQ IE.
  unfold emits in CH. cbv zeta in CH. set (o := e_opc en) in *. rewrite !andb_true_iff in CH. destruct CH as (((((O1 & O2) & NB) & W3) & P3) & CH). assert (O : byte o) by (unfold byte; lia).
  destruct (look il ty o) as [ee|] eqn:LK; [|discriminate]. rewrite !andb_true_iff in CH. destruct CH as (((NB' & C1) & C2) & C3). apply negb_true_iff in NB, NB'. apply Nat.eqb_eq in W3.
  destruct (same_fits _ _ C1) as (F1 & F1'). destruct (same_fits _ _ C2) as (F2 & F2'). destruct (same_fits _ _ C3) as (F3 & F3').
  fold (is_bank en) in IM. rewrite NB in IM. change (new_insn addr) with (part addr 1 []) in IM.
  destruct (encodeOperand _ _ (e_m1 en) o1 _) as [i1| | | |] eqn:X1; cbn [bind] in IM; try discriminate.
  destruct (emit_form ty smart (e_m1 en) o1 addr [] _ o i1 T AR ltac:(cbn; lia) F1 X1) as (e1 & n1 & -> & BN1 & L1 & Q1). clear X1. cbn [app] in IM, Q1.
  destruct (encodeOperand _ _ (e_m2 en) o2 _) as [i2| | | |] eqn:X2; cbn [bind] in IM; try discriminate.
  destruct (emit_form ty smart (e_m2 en) o2 addr n1 _ o i2 T AR ltac:(lia) F2 X2) as (e2 & n2 & -> & BN2 & L2 & Q2). clear X2.
  destruct (part_done o o addr (n1 ++ n2) O O ltac:(rewrite app_length; lia)) as (D1 & _). unfold ai_emitInsn, ai_set in IM. cbn [ai_insn ai_err ai_opc] in IM. rewrite D1 in IM. injection IM as IM _.
  assert (ER : e2 = OK) by (rewrite <- IM in E; exact E). subst e2. destruct (Q2 eq_refl) as (E1 & S2). destruct (Q1 E1) as (_ & S1).
  assert (II : i = canon addr (o :: n1 ++ n2)) by (rewrite <- IM; reflexivity). rewrite II, canon_code in FIT. cbn [length] in FIT. rewrite app_length in *. cbn [length] in S1. rewrite Nat.add_0_r in S1.
  specialize (S1 ltac:(lia)). specialize (S2 ltac:(lia)).
  assert (S3 : sat (kind8 o (e_m3 en)) addr (1 + length n1 + length n2) []) by (destruct (kind8 o (e_m3 en)); try discriminate; cbn [sat]; now rewrite W3).
  apply (same_sat _ _ _ _ _ C1) in S1. apply (same_sat _ _ _ _ _ C2) in S2. apply (same_sat _ _ _ _ _ C3) in S3.
  exists o, (n1 ++ n2), ee. split; [exact O|]. split; [now rewrite Forall_app|]. split.
  { rewrite app_length. pose proof (look_at ty il (mkOpt false false il) o (small_in ty T) O) as LA. unfold look_ok, look in LA, LK.
    assert (LI : forall x, longImmediate ty (mkOpt false false il) x = false) by (intros x; unfold longImmediate; pose proof (small_bank ty T) as B8; unfold bankModel in B8; now rewrite B8). rewrite !LI in LA.
    destruct (find_opcode il ty o) as [r| | | |]; try discriminate. subst r. cbv zeta in LA. rewrite !andb_true_iff in LA. destruct LA as (_ & LA). apply Nat.leb_le in LA.
    rewrite (sat_len _ _ _ _ S1), (sat_len _ _ _ _ S2). unfold kind8. lia. }
  split; [exact II|]. split; [exact LK|]. split; [exact NB'|]. split; [exact F1'|]. split; [exact F2'|]. split; [exact F3'|]. exists n1, n2, []. rewrite app_nil_r. auto.
Qed.
Lemma mos6502_decodes d ty smart opt a line addr i rest m size : In ty small -> da_symtab d = None -> da_aw d = 16 -> printable (da_cursym d) -> brief_plugin (da_plug d) -> a_aw a = 16 -> 0 <= addr < 2^32 ->
  mos6502_encode (mkState ty false false) smart a line addr = Val (L_insn i rest) -> i_err i = OK -> addr + Z.of_nat (length (i_code i)) <= 65536 -> Forall byte m -> 128 <= size ->
  i_addr i = addr /\ Forall byte (i_code i) /\ (1 <= length (i_code i) <= 4)%nat /\
  exists r, mos6502_decode d ty opt (i_code i ++ m) addr size = Val r /\ r_insn r = i.
Proof.
  intros T NS AW PC BP AA A H E FIT BM SZ. destruct (mos6502_emitted ty smart a (op_indirectLong opt) line addr i rest T AA A H E FIT) as (CA & o & nb & e & BO & BN & LN & -> & LK & NB & F1 & F2 & F3 & S).
  rewrite canon_code. split; [reflexivity|]. split; [now constructor|]. split; [cbn [length]; lia|].
  pose proof (fine_chain d NS BP AW PC ty opt addr 1 nb o e (small_bank ty T) LK NB F1 F2 F3 S) as FI.
  destruct (fineOff_decode d (fun _ => false) (fun _ => decode_opcode d ty opt) (fun _ => chain d ty opt) 0 o nb m addr size 127) as (r & D & R); auto; try lia.
  - unfold byte; lia.
  - intros mem s W. apply chain_start; [now apply small_in|exact BO].
  - rewrite AW. exact CA.
  - exists r. split; [|exact R]. exact D.
Qed.
