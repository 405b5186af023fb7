(** What the assembler of the 8051 emits is an instruction of its disassembler (C79). *)
From Coq Require Import String ZArith List Bool Lia ZifyBool.
From Verif Require Import M_Char M_Error M_Value M_Text M_StrBuffer M_Format M_Number M_Insn M_Config M_Operators
  M_Parsers M_Expr M_Directive M_Table M_Asm M_Dis M_I8051Defs T_I8051 M_I8051 S_Cpu P_StrBuffer P_Table P_Insn P_Config P_Value
  P_Room P_AsmText P_CpuShape P_CpuText P_CpuGood P_CpuRange P_CpuFine P_CpuFineOff P_I8051.
Import ListNotations.
Open Scope string_scope.
Open Scope list_scope.
Local Open Scope Z_scope.

(* ------------------------------------------------------------ all instructions *)
Definition shorts (o : Z) : list (Z * kind) := map (fun h => (u8 (Z.lor o h), K_a11 0)) [0x00; 0x20; 0x40; 0x60; 0x80; 0xA0; 0xC0; 0xE0].
Definition may (o : Z) : bool := (o =? AJMP) || (o =? ACALL) || (o =? LJMP) || (o =? LCALL).
Definition to_short (o : Z) : Z := if o =? LJMP then AJMP else if o =? LCALL then ACALL else o.
Definition to_long (o : Z) : Z := if o =? AJMP then LJMP else if o =? ACALL then LCALL else o.
(* the opcodes that an operand can make, and the bytes that it adds *)
Definition outs (mode o : Z) : list (Z * kind) :=
  if mode =? M_REL then [(o, K_rel)]
  else if mode =? M_RREG then map (fun r => (u8 (Z.lor o r), K_none)) [0; 1; 2; 3; 4; 5; 6; 7]
  else if mode =? M_IDIRR then map (fun r => (u8 (Z.lor o r), K_none)) [0; 1]
  else if mode =? M_IMM8 then [(o, K_imm8)]
  else if mode =? M_ADR11 then shorts o ++ (if may o then shorts (to_short o) ++ [(to_long o, K_adr16)] else [])
  else if mode =? M_ADR16 then (o, K_adr16) :: (if may o then shorts (to_short o) ++ [(to_long o, K_adr16)] else [])
  else if mode =? M_IMM16 then [(o, K_imm16)]
  else if (mode =? M_ADR8) || (mode =? M_BITAD) || (mode =? M_NOTAD) then [(o, K_adr8 o)]
  else [(o, K_none)].
Definition plain (K : kind) : bool := match K with K_none | K_name _ | K_ind _ | K_idx _ => true | _ => false end.
Definition kind_eqb (a b : kind) : bool :=
  match a, b with
  | K_imm8, K_imm8 | K_imm16, K_imm16 | K_a11 _, K_a11 _ | K_adr16, K_adr16 | K_rel, K_rel => true
  | K_adr8 _, K_bit _ => true
  | K_adr8 x, K_adr8 y => (x =? y) || negb (y =? 0xE5)
  | _, _ => plain a && plain b
  end.
Definition is_byte (o : Z) : bool := (0 <=? o) && (o <? 256).
Definition emits (e : entry) : bool :=
  is_byte (e_opc e) &&
  if swapped e then match look (e_opc e) with Some e' => swapped e' | None => false end
  else forallb (fun '(o1, k1) => forallb (fun '(o2, k2) => forallb (fun '(o, k3) =>
    is_byte o && match look o with
    | Some e' => negb (swapped e') && kind_eqb k1 (kind_of o (e_m1 e')) && kind_eqb k2 (kind_of o (e_m2 e')) && kind_eqb k3 (kind_of o (e_m3 e'))
    | None => false
    end) (outs (e_m3 e) o2)) (outs (e_m2 e) o1)) (outs (e_m1 e) (e_opc e)).
Definition pages : list epage := match cpu_pages with Val p => p | _ => [] end.
Lemma emits_all : forallb (fun p => forallb emits (p_items p)) pages = true.
Proof. vm_compute. reflexivity. Qed.

(* ------------------------------------------------------------ the disassembler *)
(* [off] bytes come before *)
Definition sat (K : kind) (addr : Z) (off : nat) (nb : list Z) : Prop :=
  match K with
  | K_none | K_name _ | K_ind _ | K_idx _ => nb = []
  | K_imm8 | K_a11 _ | K_bit _ => exists x, nb = [x]
  | K_adr8 o => exists x, nb = [x] /\ invalidDirect o x = false
  | K_imm16 | K_adr16 => exists hi lo, nb = [hi; lo]
  | K_rel => exists x, nb = [x] /\ checkAddr 16 (u32 (u32 (addr + Z.of_nat off + 1) + int8 x)) false = OK
  end.
Lemma sat_len K addr off nb : sat K addr off nb -> length nb = kwidth K.
Proof.
  destruct K; cbn [sat kwidth]; intros H; subst; try reflexivity; try (destruct H as (x & ->); reflexivity); try (destruct H as (x & -> & _); reflexivity);
    destruct H as (x & y & ->); reflexivity.
Qed.
Lemma reg_adds r b : adds 5 b (outRegName r b).
Proof.
  assert (Q : (length (reg_text r) <= 5)%nat /\ Forall printable (reg_text r)).
  { unfold reg_text. destruct (name_of r REG_ENTRIES) as [t|] eqn:N; [|cbn; split; [lia|constructor]].
    assert (H : forallb (fun e => (length (name_text e) <=? 5)%nat && forallb (fun c => (32 <=? c) && (c <=? 126)) (name_text e)) REG_ENTRIES = true) by (vm_compute; reflexivity).
    assert (G : exists e, In e REG_ENTRIES /\ t = name_text e).
    { clear H. unfold name_of in N. destruct (searchByNumber _ _ _) as [k|]; [|discriminate]. destruct (nth_error REG_ENTRIES k) as [e|] eqn:NE; [|discriminate]. injection N as <-. exists e. split; [eapply nth_error_In, NE|reflexivity]. }
    destruct G as (e & IN & ->). rewrite forallb_forall in H. specialize (H e IN). apply andb_prop in H. destruct H as (H1 & H2). apply Nat.leb_le in H1. split; [exact H1|]. now apply printable_text. }
  destruct Q as (L & P). unfold outRegName. unfold reg_text in *. destruct (name_of r REG_ENTRIES) as [t|]; [|apply adds_refl; lia].
  apply (adds_le (Z.of_nat (length t))); [lia|]. now apply adds_text.
Qed.
(* how many letters an operand needs *)
Definition cost (K : kind) : Z := match K with K_none => 0 | K_name _ | K_ind _ | K_idx _ => 12 | K_bit _ => 54 | _ => 28 end.
Definition cost_ok (o : Z) : bool :=
  match look o with Some e => cost (kind_of o (e_m1 e)) + (2 + cost (kind_of o (e_m2 e)) + (2 + cost (kind_of o (e_m3 e)))) <=? 127 | None => true end.
Lemma cost_check : forallb cost_ok all_bytes = true.
Proof. vm_compute. reflexivity. Qed.
Lemma cost_at o : byte o -> cost_ok o = true.
Proof. intros O. pose proof cost_check as H. rewrite forallb_forall in H. apply H, all_in, O. Qed.
Section Dis.
Variable d : disasm.
Hypothesis NS : da_symtab d = None.
Hypothesis BP : brief_plugin (da_plug d).
Hypothesis AW : da_aw d = 16.
Hypothesis PC : printable (da_cursym d).
Lemma fine_put40 addr off k k' f : k <= k' -> (forall b, adds k b (f b)) -> fineOff addr off [] k' (fun s => Val (t_put f s)).
Proof. intros K F. apply fineOff_of, fineAt_of. apply (fine_le _ k); [exact K|]. now apply fine_put. Qed.
Lemma fine_abs addr off v width : 0 <= v < 2^32 -> 0 <= width <= 16 -> fineOff addr off [] 26 (t_print (outAbsAddr d v width)).
Proof. intros V W. apply fineOff_of, fineAt_of. apply fine_print. apply prints_abs; auto; lia. Qed.
Lemma fine_hex addr off v bits relax : 0 <= v < 2^32 -> -16 <= bits <= 16 -> fineOff addr off [] 26 (t_print (dis_outHex d v bits relax)).
Proof. intros V W. apply fineOff_of, fineAt_of. apply fine_print. now apply prints_hex. Qed.
Lemma fine_letter addr off c : printable c -> fineOff addr off [] 1 (fun s => Val (t_put (letter c) s)).
Proof. intros C. apply fineOff_of, fineAt_of, fine_put. intros b. now apply adds_letter. Qed.
Lemma land_low x m : 0 <= x -> 0 <= m -> 0 <= Z.land x m <= m.
Proof.
  intros X M. split; [apply Z.land_nonneg; lia|].
  assert (E : m - Z.land x m = Z.ldiff m (Z.land x m)).
  { apply Z.sub_nocarry_ldiff. apply Z.bits_inj'. intros n N. rewrite Z.ldiff_spec, Z.land_spec, Z.bits_0. destruct (Z.testbit x n), (Z.testbit m n); reflexivity. }
  assert (0 <= Z.ldiff m (Z.land x m)) by (apply Z.ldiff_nonneg; lia). lia.
Qed.
Lemma lor_bound x y : 0 <= x < 2^32 -> 0 <= y < 2^32 -> 0 <= Z.lor x y < 2^32.
Proof.
  intros X Y. assert (N : 0 <= Z.lor x y) by (apply Z.lor_nonneg; lia). split; [exact N|].
  destruct (Z.eq_dec (Z.lor x y) 0) as [->|NZ]; [lia|]. apply Z.log2_lt_pow2; [lia|]. rewrite Z.log2_lor by lia.
  assert (L : forall z, 0 <= z < 2^32 -> Z.log2 z < 32) by (intros z Hz; destruct (Z.eq_dec z 0) as [->|]; [cbn; lia|apply Z.log2_lt_pow2; lia]).
  apply Z.max_lub_lt; now apply L.
Qed.
Lemma fine_operand addr off nb o mode : byte o -> sat (kind_of o mode) addr off nb -> fineOff addr off nb (cost (kind_of o mode)) (decodeOperand d o mode).
Proof.
  intros O. unfold decodeOperand, kind_of.
  assert (IR : forall r b, adds 6 b (outRegName r (letter 64 b))) by (intros r b; change 6 with (1 + 5); apply (adds_trans 1 5 b (letter 64 b)); [apply adds_letter; unfold printable; lia|apply reg_adds]).
  assert (RG : forall r, fineOff addr off [] 12 (fun s => Val (t_put (outRegName r) s))) by (intros r; apply (fine_put40 _ _ 5); [lia|apply reg_adds]).
  assert (RI : forall r, fineOff addr off [] 12 (fun s => Val (t_put (outRegName r) (t_put (letter 64) s)))) by (intros r; apply (fine_put40 addr off 6 12 (fun b => outRegName r (letter 64 b))); [lia|]; intros b; apply IR).
  assert (ID : forall r, fineOff addr off [] 12 (fun s => Val (t_put (fun out => outRegName r (letter 43 (outRegName REG_A (letter 64 out)))) s))).
  { intros r. apply (fine_put40 _ _ (6 + (1 + 5))); [lia|]. intros b. apply (adds_trans 6 (1 + 5) b (outRegName REG_A (letter 64 b))); [apply IR|]. apply (adds_trans 1 5 _ (letter 43 (outRegName REG_A (letter 64 b)))); [apply adds_letter; unfold printable; lia|apply reg_adds]. }
  destruct (mode =? M_REL).
  { intros (x & -> & CK). unfold decodeRelative. apply (fineOff_byte addr off x [] _ (fun v s => (fun insn s => t_print (outRelAddr d (u32 (u32 (i_addr insn + i_len insn) + int8 v)) (i_addr insn) 8) (t_setErrorIf (checkAddr (da_aw d) (u32 (u32 (i_addr insn + i_len insn) + int8 v)) false) s)) (d_insn (t_in s)) s)).
    intros X. apply (fineOff_insn addr (S off) [] _ (fun insn s => t_print (outRelAddr d (u32 (u32 (i_addr insn + i_len insn) + int8 x)) (i_addr insn) 8) (t_setErrorIf (checkAddr (da_aw d) (u32 (u32 (i_addr insn + i_len insn) + int8 x)) false) s))). intros i IA IL. rewrite IA, IL. rewrite Nat2Z.inj_succ, <- Z.add_1_r, Z.add_assoc.
    apply (fineOff_check addr (S off) [] _ _ (t_print (outRelAddr d (u32 (u32 (addr + Z.of_nat off + 1) + int8 x)) addr 8))); [rewrite AW; exact CK|].
    apply fineOff_of, fineAt_of. apply fine_print. apply prints_rel; auto; try lia. apply Z.mod_pos_bound. lia. }
  destruct (mode =? M_AREG); [intros ->; apply RG|].
  destruct (mode =? M_RREG) eqn:MR; [|destruct (mode =? M_IDIRR) eqn:MI]; cbn [orb].
  { intros ->. unfold decodeRReg. apply Z.eqb_eq in MR. subst mode. change (M_RREG =? M_IDIRR) with false. cbv iota. apply RG. }
  { intros ->. unfold decodeRReg. rewrite MI. apply RI. }
  destruct (mode =? M_CREG); [intros ->; apply RG|].
  destruct (mode =? M_IDIRD); [intros ->; apply RI|].
  destruct (mode =? M_DREG); [intros ->; apply RG|]. destruct (mode =? M_ABREG); [intros ->; apply RG|].
  destruct (mode =? M_ADR8) eqn:M8; [|destruct (mode =? M_ADR11) eqn:M11; [|destruct (mode =? M_ADR16) eqn:M16]]; cbn [orb]; unfold decodeAddress.
  { rewrite M8. intros (x & -> & IV). apply fineOff_byte. intros X. unfold byte in X. rewrite IV. apply (fineOff_le _ _ _ 26); [cbn; lia|]. apply fine_abs; lia. }
  { rewrite M8, M11. intros (x & ->). apply (fineOff_byte addr off x [] _ (fun v s => (fun insn => t_print (outAbsAddr d (Z.lor (Z.lor (Z.land (u32 (i_addr insn + i_len insn)) 0xF800) (Z.shiftl (Z.land o 0xE0) 3)) v) 0)) (d_insn (t_in s)) s)).
    intros X. apply (fineOff_insn addr (S off) [] _ (fun insn => t_print (outAbsAddr d (Z.lor (Z.lor (Z.land (u32 (i_addr insn + i_len insn)) 0xF800) (Z.shiftl (Z.land o 0xE0) 3)) x) 0))). intros i IA IL. unfold byte in X, O. apply (fineOff_le _ _ _ 26); [cbn; lia|]. apply fine_abs; [|lia].
    apply lor_bound; [|lia]. apply lor_bound.
    - set (w := u32 _). assert (W : 0 <= w < 2^32) by (apply Z.mod_pos_bound; lia). pose proof (land_low w 0xF800). lia.
    - rewrite Z.shiftl_mul_pow2 by lia. pose proof (land_low o 0xE0). lia. }
  { rewrite M8, M11. intros (hi & lo & ->). apply fineOff_of. apply fineAt_be. intros X Y. unfold byte in X, Y. apply fineAt_of. apply (fine_le _ 26); [cbn; lia|]. apply fine_print. apply prints_abs; auto; lia. }
  assert (BT : forall x, fineOff addr off [x] 53 (fun s => let '(val8, s) := t_byte s in
      bind (t_print (outAbsAddr d (u8 (if negb (Z.land val8 0x80 =? 0) then Z.ldiff val8 7 else Z.shiftr val8 3 + 0x20)) 8) s) (fun s => t_print (dis_outHex d (Z.land val8 7) 3 true) (t_put (letter 46) s)))).
  { intros x. apply (fineOff_byte addr off x [] 53 (fun val8 s => bind (t_print (outAbsAddr d (u8 (if negb (Z.land val8 0x80 =? 0) then Z.ldiff val8 7 else Z.shiftr val8 3 + 0x20)) 8) s) (fun s => t_print (dis_outHex d (Z.land val8 7) 3 true) (t_put (letter 46) s)))).
    intros X. unfold byte in X. change 53 with (26 + (1 + 26)). apply (fineOff_seq addr (S off) [] [] 26).
    - set (w := u8 _). assert (W : 0 <= w < 2^8) by (apply Z.mod_pos_bound; lia). apply fine_abs; lia.
    - apply (fineOff_seq addr _ [] [] 1 26 (fun s => Val (t_put (letter 46) s)) (t_print (dis_outHex d (Z.land x 7) 3 true))); [apply fine_letter; unfold printable; lia|]. apply fine_hex; [|lia]. pose proof (land_low x 7). lia. }
  destruct (mode =? M_NOTAD) eqn:MN; [|destruct (mode =? M_BITAD) eqn:MB]; cbn [orb]; unfold decodeBitAddr.
  1,2: rewrite MN; intros (x & ->).
  { change (cost (K_bit true)) with (1 + 53). pose proof (BT x) as B. rewrite <- (Nat.add_0_r off) in B. exact (fineOff_seq addr off [] [x] 1 53 (fun s => Val (t_put (letter 47) s)) _ (fine_letter addr off 47 ltac:(unfold printable; lia)) B). }
  { apply (fineOff_le _ _ _ 53); [cbn; lia|]. apply BT. }
  destruct (mode =? M_IMM8) eqn:I8; [|destruct (mode =? M_IMM16) eqn:I16]; cbn [orb]; unfold decodeImmediate.
  { rewrite I8. intros (x & ->). change (cost K_imm8) with (1 + 27). apply (fineOff_seq addr off [] [x] 1 27 (fun s => Val (t_put (letter 35) s)) (fun s => let '(v, s) := t_byte s in t_print (dis_outHex d v 8 true) s)); [apply fine_letter; unfold printable; lia|].
    apply (fineOff_byte addr _ x [] 27 (fun v s => t_print (dis_outHex d v 8 true) s)). intros X. unfold byte in X. apply (fineOff_le _ _ _ 26); [lia|]. apply fine_hex; lia. }
  { rewrite I8. intros (hi & lo & ->). change (cost K_imm16) with (1 + 27). apply (fineOff_seq addr off [] [hi; lo] 1 27 (fun s => Val (t_put (letter 35) s)) (fun s => let '(v, s) := t_uint16Be s in t_print (outAbsAddr d v 0) s)); [apply fine_letter; unfold printable; lia|].
    apply fineOff_of. apply fineAt_be. intros X Y. unfold byte in X, Y. apply fineAt_of. apply (fine_le _ 26); [lia|]. apply fine_print. apply prints_abs; auto; lia. }
  destruct (mode =? M_INDXD); [intros ->; apply ID|]. destruct (mode =? M_INDXP); [intros ->; apply ID|].
  intros ->. apply fineOff_of, fineAt_of. apply fine_val.
Qed.
Lemma fine_more addr off nb o mode : byte o -> sat (kind_of o mode) addr off nb -> fineOff addr off nb (2 + cost (kind_of o mode)) (more_op d o mode).
Proof.
  intros O S. unfold more_op. destruct (Z.eqb_spec mode M_NONE) as [->|_].
  - assert (N : nb = []) by exact S. rewrite N. apply (fineOff_le _ _ _ 0); [cbn; lia|]. apply fineOff_of, fineAt_of, fine_val.
  - apply (fineOff_seq addr off [] nb 2 _ (fun s => Val (t_put comma s))); [apply fineOff_of, fineAt_of, fine_put, comma_adds|]. cbn [length]. rewrite Nat.add_0_r. now apply fine_operand.
Qed.
Lemma fine_mov addr off x y : fineOff addr off [x; y] 54 (mov d).
Proof.
  apply (fineOff_byte addr off x [y] 54 (fun src s => let '(dst, s) := t_byte s in bind (t_print (outAbsAddr d dst 8) s) (fun s => bind (Val (t_put comma s)) (t_print (outAbsAddr d src 8))))).
  intros X. apply (fineOff_byte addr (S off) y [] 54 (fun dst s => bind (t_print (outAbsAddr d dst 8) s) (fun s => bind (Val (t_put comma s)) (t_print (outAbsAddr d x 8))))). intros Y. unfold byte in X, Y.
  change 54 with (26 + (2 + 26)). apply (fineOff_seq addr _ [] [] 26); [apply fine_abs; lia|]. apply (fineOff_seq addr _ [] [] 2 26 (fun s => Val (t_put comma s))); [apply fineOff_of, fineAt_of, fine_put, comma_adds|]. apply fine_abs; lia.
Qed.
(* the bytes of the operands of an instruction *)
Definition sats (o : Z) (e : entry) (addr : Z) (nb : list Z) : Prop :=
  if swapped e then exists x y, nb = [x; y]
  else exists n1 n2 n3, nb = n1 ++ n2 ++ n3 /\ sat (kind_of o (e_m1 e)) addr 1 n1 /\ sat (kind_of o (e_m2 e)) addr (1 + length n1) n2 /\
    sat (kind_of o (e_m3 e)) addr (1 + length n1 + length n2) n3.
Lemma fine_chain addr nb o e : byte o -> look o = Some e -> sats o e addr nb -> fineOff addr 1 nb 127 (chain d o).
Proof.
  intros O L. pose proof (cost_at o O) as C. unfold cost_ok in C. rewrite L in C. unfold sats, chain. rewrite L. destruct (swapped e).
  - intros (x & y & ->). apply (fineOff_le _ _ _ (0 + 54)); [lia|]. apply (fineOff_seq addr 1 [] [x; y] 0 54 (fun s => Val (t_readName (entry_name e) s))); [apply fineOff_of, fineAt_of, fine_name|]. apply fine_mov.
  - intros (n1 & n2 & n3 & -> & S1 & S2 & S3).
    apply (fineOff_le _ _ _ (0 + (cost (kind_of o (e_m1 e)) + ((2 + cost (kind_of o (e_m2 e))) + (2 + cost (kind_of o (e_m3 e))))))); [lia|].
    apply (fineOff_seq addr 1 [] (n1 ++ n2 ++ n3) 0 _ (fun s => Val (t_readName (entry_name e) s))); [apply fineOff_of, fineAt_of, fine_name|]. cbn [length]. rewrite Nat.add_0_r.
    apply fineOff_seq; [now apply fine_operand|]. apply fineOff_seq; now apply fine_more.
Qed.
End Dis.

(* ------------------------------------------------------------ the assembler *)
Lemma seterr_flag (b : bool) x f i o : (if b then ai_setErrorIf x (mkAI i f o) else mkAI i f o) = mkAI i (if b then setErrorIfAt f x else f) o.
Proof. destruct b; reflexivity. Qed.
Lemma seterr_unset (b : bool) x f : x <> OK -> (if b then setErrorIfAt f x else f) = OK -> b = false /\ f = OK.
Proof. intros NX. destruct b; intros H; [|auto]. apply seterr_ok in H. tauto. Qed.
Lemma byte_of z : byte (u8 z).
Proof. apply Z.mod_pos_bound. lia. Qed.
Lemma emit_word z addr nb e o : (length nb <= 8)%nat -> exists hi lo, byte hi /\ byte lo /\ ai_emitOperand16 z (mkAI (part addr 1 nb) e o) = mkAI (part addr 1 (nb ++ [hi; lo])) e o.
Proof.
  intros L. pose proof (Z.mod_pos_bound z 65536 ltac:(lia)) as M. exists ((z mod 65536) / 256), ((z mod 65536) mod 256).
  assert (X : byte ((z mod 65536) / 256)) by (unfold byte; split; [apply Z.div_pos; lia|apply Z.div_lt_upper_bound; lia]).
  assert (Y : byte ((z mod 65536) mod 256)) by (apply Z.mod_pos_bound; lia). split; [exact X|]. split; [exact Y|]. apply emit16; auto.
  unfold u16. change (2^16) with 65536. pose proof (Z.div_mod (z mod 65536) 256). lia.
Qed.
Lemma emit_short target addr nb e o : (length nb <= 8)%nat -> exists o' x, byte x /\ In (o', K_a11 0) (shorts o) /\
  short_jump target (mkAI (part addr 1 nb) e o) = mkAI (part addr 1 (nb ++ [x])) e o'.
Proof.
  intros L. unfold short_jump, ai_embed. cbn [ai_insn ai_err ai_opc]. set (p := page target).
  assert (P : Z.land (Z.shiftr p 3) 0xE0 = 32 * ((p / 256) mod 8)).
  { change 0xE0 with (Z.shiftl (Z.ones 3) 5). change 8 with (2^3) at 1. rewrite <- (Z.land_ones (p / 256) 3) by lia. change 256 with (2^8). change 32 with (2^5). rewrite <- Z.shiftr_div_pow2, (Z.mul_comm (2^5)), <- Z.shiftl_mul_pow2 by lia.
    apply Z.bits_inj'. intros i I. rewrite Z.land_spec, !Z.shiftr_spec, !Z.shiftl_spec by lia. rewrite Z.land_spec. destruct (Z.ltb_spec i 5) as [LT|LT].
    - rewrite (Z.testbit_neg_r (Z.ones 3)) by lia. rewrite (Z.testbit_neg_r (Z.shiftr p 8)) by lia. now rewrite andb_false_r.
    - rewrite !Z.shiftr_spec by lia. replace (i - 5 + 8) with (i + 3) by lia. reflexivity. }
  pose proof (Z.mod_pos_bound (p / 256) 8 ltac:(lia)) as Q. set (q := (p / 256) mod 8) in *.
  exists (u8 (Z.lor o (Z.land (Z.shiftr p 3) 0xE0))), (u8 target). split; [apply byte_of|]. split.
  - unfold shorts. apply in_map_iff. exists (32 * q). rewrite P. split; [reflexivity|].
    assert (C : q = 0 \/ q = 1 \/ q = 2 \/ q = 3 \/ q = 4 \/ q = 5 \/ q = 6 \/ q = 7) by lia. clear - C. destruct C as [-> |[-> |[-> |[-> |[-> |[-> |[-> | ->]]]]]]]; cbn; auto 10.
  - apply emit8; auto. apply byte_of.
Qed.
Definition reg_fits (mode : Z) (op : operand) : Prop := (mode = M_RREG -> 0 <= o_reg op < 8) /\ (mode = M_IDIRR -> 0 <= o_reg op < 2).
Lemma emit_form smart mode op addr nb e o i' : 0 <= addr < 65536 -> (length nb <= 6)%nat -> reg_fits mode op ->
  encodeOperand smart mode op (mkAI (part addr 1 nb) e o) = Val i' ->
  exists e' o' nb', i' = mkAI (part addr 1 (nb ++ nb')) e' o' /\ Forall byte nb' /\ (length nb' <= 2)%nat /\
    (e' = OK -> e = OK /\ exists K, In (o', K) (outs mode o) /\ (addr + Z.of_nat (1 + length (nb ++ nb')) <= 65536 -> sat K addr (1 + length nb) nb')).
Proof.
  intros A NB (RF & IF). pose proof (getUnsigned_range (o_val op)) as VR. unfold encodeOperand. cbv zeta.
  change (ai_setErrorIf (o_err op) (mkAI (part addr 1 nb) e o)) with (mkAI (part addr 1 nb) (setErrorIfAt e (o_err op)) o).
  set (e1 := setErrorIfAt e (o_err op)). assert (E1 : e1 = OK -> e = OK /\ o_err op = OK) by apply seterr_ok.
  unfold outs.
  destruct (Z.eqb_spec mode M_REL) as [->|N1].
  { unfold encodeRelative. cbv zeta. cbn [ai_insn ai_err]. rewrite part_len. assert (PA : i_addr (part addr 1 nb) = addr) by (destruct nb; reflexivity). rewrite PA.
    set (base := M_Config.u32 _). 
    assert (BS : base = addr + Z.of_nat (2 + length nb)).
    { unfold base. destruct nb as [|y nb]; cbn [length Nat.ltb Nat.leb]; [unfold M_Config.u32; rewrite Z.mod_small; cbn; lia|].
      replace (Z.of_nat (1 + S (length nb)) =? 0) with false by lia. unfold M_Config.u32. rewrite Z.mod_small; cbn [length] in NB; lia. }
    set (tg := if negb (isOK (o_err op)) then base else getUnsigned (o_val op)).
    assert (TR : 0 <= tg < 2^32) by (unfold tg; destruct (negb _); [cbn [length] in *; lia|lia]).
    destruct (branchDelta 16 base tg e1) as [[dl e2]|] eqn:BD; [|discriminate]. change (overflowDelta dl 8) with (Some ((dl <? -128) || (128 <=? dl))). cbv iota beta.
    change (ai_seterr e2 (mkAI (part addr 1 nb) e1 o)) with (mkAI (part addr 1 nb) e2 o). rewrite seterr_flag, (emit8 (u8 dl)) by (auto using byte_of; lia).
    intros H. injection H as <-. eexists _, o, [_]. split; [reflexivity|]. split; [constructor; [apply byte_of|constructor]|]. split; [cbn; lia|].
    intros H. apply seterr_unset in H; [|discriminate]. destruct H as (FR & H). split.
    { unfold branchDelta in BD. destruct (signExtend _ 16) as [d0|]; [|discriminate]. injection BD as _ BD. rewrite H in BD. destruct (_ || _) in BD; repeat (apply seterr_ok in BD; destruct BD as (BD & _)); first [exact BD|now apply E1]. }
    exists K_rel. split; [now left|]. rewrite app_length. cbn [length]. intros FIT.
    destruct (branch_inv base tg e1 ltac:(lia) TR) as (dl' & e2' & BD' & BI). rewrite BD in BD'. injection BD' as <- <-. destruct (BI H) as (_ & T & ->).
    cbn [sat]. eexists. split; [reflexivity|]. unfold u8. change (2^8) with 256. rewrite int8_delta by lia.
    replace (u32 (addr + Z.of_nat (1 + length nb) + 1)) with base by (unfold u32; rewrite Z.mod_small; lia).
    replace (base + (tg - base)) with tg by lia. unfold u32. rewrite Z.mod_small by lia. apply C31_addr; [lia|lia|]. split; [change (2^16) with 65536; lia|discriminate]. }
  destruct (Z.eqb_spec mode M_RREG) as [->|N2].
  { cbn [orb]. intros H. injection H as <-. exists e1, (u8 (Z.lor o (encodeRRegName (o_reg op)))), []. rewrite app_nil_r. split; [reflexivity|]. split; [constructor|]. split; [cbn; lia|]. intros H. split; [now apply E1|].
    exists K_none. split; [|reflexivity]. specialize (RF eq_refl). apply in_map_iff. exists (o_reg op). split; [|cbn; lia]. replace (encodeRRegName (o_reg op)) with (o_reg op); [reflexivity|]. symmetry. apply Z.mod_small. change (2^8) with 256. lia. }
  destruct (Z.eqb_spec mode M_IDIRR) as [->|N3].
  { cbn [orb]. intros H. injection H as <-. exists e1, (u8 (Z.lor o (encodeRRegName (o_reg op)))), []. rewrite app_nil_r. split; [reflexivity|]. split; [constructor|]. split; [cbn; lia|]. intros H. split; [now apply E1|].
    exists K_none. split; [|reflexivity]. specialize (IF eq_refl). apply in_map_iff. exists (o_reg op). split; [|cbn; lia]. replace (encodeRRegName (o_reg op)) with (o_reg op); [reflexivity|]. symmetry. apply Z.mod_small. change (2^8) with 256. lia. }
  cbn [orb]. destruct (Z.eqb_spec mode M_IMM8) as [->|N4].
  { rewrite seterr_flag. rewrite (emit8 (u8 (getUnsigned (o_val op)))) by (auto using byte_of; lia). intros H. injection H as <-. eexists _, o, [_]. split; [reflexivity|]. split; [constructor; [apply byte_of|constructor]|]. split; [cbn; lia|].
    intros H. apply seterr_unset in H; [|discriminate]. split; [now apply E1|]. exists K_imm8. split; [now left|]. intros _. cbn [sat]. eauto. }
  assert (JMP : forall md, (md = M_ADR11 \/ md = M_ADR16) -> Val (encodeJump smart md op (mkAI (part addr 1 nb) e1 o)) = Val i' ->
    exists e' o' nb', i' = mkAI (part addr 1 (nb ++ nb')) e' o' /\ Forall byte nb' /\ (length nb' <= 2)%nat /\
    (e' = OK -> e = OK /\ exists K, In (o', K) (if md =? M_ADR11 then shorts o ++ (if may o then shorts (to_short o) ++ [(to_long o, K_adr16)] else []) else (o, K_adr16) :: (if may o then shorts (to_short o) ++ [(to_long o, K_adr16)] else [])) /\
      (addr + Z.of_nat (1 + length (nb ++ nb')) <= 65536 -> sat K addr (1 + length nb) nb'))).
  { intros md MD H. unfold encodeJump in H. cbv zeta in H.
    set (tg := if negb (isOK (o_err op)) then _ else _) in H.
    set (bl := negb (block _ =? block tg)) in H. change (maySmartBranch (mkAI (part addr 1 nb) e1 o)) with (may o) in H.
    assert (SH : forall oo f, exists o' x, byte x /\ In (o', K_a11 0) (shorts oo) /\ short_jump tg (mkAI (part addr 1 nb) f oo) = mkAI (part addr 1 (nb ++ [x])) f o') by (intros oo f; apply emit_short; lia).
    assert (LG : forall oo, exists hi lo, byte hi /\ byte lo /\ long_jump op (mkAI (part addr 1 nb) e1 oo) = mkAI (part addr 1 (nb ++ [hi; lo])) e1 oo) by (intros oo; apply emit_word; lia).
    destruct ((md =? M_ADR11) && negb (smart && may o)) eqn:C1.
    - rewrite seterr_flag in H. destruct (SH o (if bl then setErrorIfAt e1 OPERAND_TOO_FAR else e1)) as (o' & x & BX & IN & EQ). rewrite EQ in H. injection H as <-.
      eexists _, o', [x]. split; [reflexivity|]. split; [now constructor|]. split; [cbn; lia|]. intros H. apply seterr_unset in H; [|discriminate]. split; [now apply E1|].
      exists (K_a11 0). apply andb_prop in C1. destruct C1 as (-> & _). split; [apply in_or_app; now left|]. intros _. cbn [sat]. eauto.
    - destruct ((md =? M_ADR16) && negb (smart && may o)) eqn:C2.
      + destruct (LG o) as (hi & lo & B1 & B2 & EQ). rewrite EQ in H. injection H as <-. eexists _, o, [hi; lo]. split; [reflexivity|]. split; [auto|]. split; [cbn; lia|]. intros H. split; [now apply E1|].
        exists K_adr16. apply andb_prop in C2. destruct C2 as (C2 & _). apply Z.eqb_eq in C2. subst md. split; [now left|]. intros _. cbn [sat]. eauto.
      + assert (MY : may o = true) by (destruct MD as [-> | ->]; [change (M_ADR11 =? M_ADR11) with true in C1; destruct (may o); [reflexivity|now rewrite andb_false_r in C1]|change (M_ADR16 =? M_ADR16) with true in C2; destruct (may o); [reflexivity|now rewrite andb_false_r in C2]]).
        rewrite MY.
        assert (TL : longJump (mkAI (part addr 1 nb) e1 o) = mkAI (part addr 1 nb) e1 (to_long o)) by (unfold longJump, to_long; cbn [ai_opc]; destruct (o =? AJMP); [reflexivity|]; destruct (o =? ACALL); reflexivity).
        assert (TS : shortJump (mkAI (part addr 1 nb) e1 o) = mkAI (part addr 1 nb) e1 (to_short o)) by (unfold shortJump, to_short; cbn [ai_opc]; destruct (o =? LJMP); [reflexivity|]; destruct (o =? LCALL); reflexivity).
        rewrite TL, TS in H. destruct (negb (isOK (o_err op)) || bl).
        * destruct (LG (to_long o)) as (hi & lo & B1 & B2 & EQ). rewrite EQ in H. injection H as <-. eexists _, _, [hi; lo]. split; [reflexivity|]. split; [auto|]. split; [cbn; lia|]. intros H. split; [now apply E1|].
          exists K_adr16. split; [|intros _; cbn [sat]; eauto]. destruct (md =? M_ADR11); [apply in_or_app; right|right]; apply in_or_app; right; now left.
        * destruct (SH (to_short o) e1) as (o' & x & BX & IN & EQ). rewrite EQ in H. injection H as <-. eexists _, o', [x]. split; [reflexivity|]. split; [now constructor|]. split; [cbn; lia|]. intros H. split; [now apply E1|].
          exists (K_a11 0). split; [|intros _; cbn [sat]; eauto]. destruct (md =? M_ADR11); [apply in_or_app; right|right]; apply in_or_app; now left. }
  destruct (Z.eqb_spec mode M_ADR11) as [->|N5]; [cbn [orb]; exact (JMP M_ADR11 (or_introl eq_refl))|].
  destruct (Z.eqb_spec mode M_ADR16) as [->|N6]; [cbn [orb]; exact (JMP M_ADR16 (or_intror eq_refl))|]. clear JMP. cbn [orb].
  destruct (Z.eqb_spec mode M_IMM16) as [->|N7].
  { destruct (emit_word (getUnsigned (o_val op)) addr nb e1 o ltac:(lia)) as (hi & lo & B1 & B2 & EQ). rewrite EQ. intros H. injection H as <-. eexists _, o, [hi; lo]. split; [reflexivity|]. split; [auto|]. split; [cbn; lia|]. intros H. split; [now apply E1|].
    exists K_imm16. split; [now left|]. intros _. cbn [sat]. eauto. }
  destruct ((mode =? M_ADR8) || (mode =? M_BITAD) || (mode =? M_NOTAD)) eqn:MM.
  { rewrite seterr_flag. cbn [ai_opc]. rewrite seterr_flag. rewrite (emit8 (u8 (getUnsigned (o_val op)))) by (auto using byte_of; lia). intros H. injection H as <-. eexists _, o, [_]. split; [reflexivity|]. split; [constructor; [apply byte_of|constructor]|]. split; [cbn; lia|].
    intros H. apply seterr_unset in H; [|discriminate]. destruct H as (IV & H). apply seterr_unset in H; [|destruct (mode =? M_ADR8); discriminate]. destruct H as (OV & H). split; [now apply E1|].
    exists (K_adr8 o). split; [now left|]. intros _. cbn [sat]. eexists. split; [reflexivity|]. apply fits_unsigned in OV; [|lia]. unfold u8. change (2^8) with 256. rewrite Z.mod_small by lia. exact IV. }
  intros H. injection H as <-. exists e1, o, []. rewrite app_nil_r. split; [reflexivity|]. split; [constructor|]. split; [cbn; lia|]. intros H. split; [now apply E1|]. exists K_none. split; [now left|]. reflexivity.
Qed.
Lemma fits_other mode reg v e : mode <> M_RREG -> mode <> M_IDIRR -> reg_fits mode (mkOp mode reg v e).
Proof. intros A B. split; intros C; contradiction. Qed.
Ltac fit := apply fits_other; discriminate.
Lemma register_fits indir reg scan p op t : register_operand indir reg scan p = Val (op, t) -> reg_fits (o_mode op) op.
Proof.
  unfold register_operand. cbv zeta. destruct (if indir && (reg =? REG_A) then expect_char 43 p else None) as [q|].
  { destruct (parseRegName q) as [[b u]| | | |]; cbn [bind]; try discriminate. destruct (b =? REG_DPTR); [|destruct (b =? REG_PC)]; intros H; injection H as <- _; fit. }
  destruct indir.
  { destruct ((reg =? REG_R0) || (reg =? REG_R1)) eqn:R; [|destruct (reg =? REG_DPTR)]; intros H; injection H as <- _; try fit.
    split; intros _; cbn [o_reg]; apply orb_prop in R; destruct R as [R|R]; apply Z.eqb_eq in R; subst; unfold REG_R0, REG_R1; lia. }
  destruct (isRReg reg) eqn:R.
  { intros H. injection H as <- _. unfold isRReg in R. split; intros C; [cbn [o_reg]; lia|discriminate]. }
  destruct (reg =? REG_A); [|destruct (reg =? REG_C); [|destruct (reg =? REG_DPTR); [|destruct (reg =? REG_AB)]]]; intros H; injection H as <- _; fit.
Qed.
Lemma operand_fits a loc scan op t : parseOperand a loc scan = Val (op, t) -> reg_fits (o_mode op) op.
Proof.
  unfold parseOperand. cbv zeta. destruct (p_eol _ _) as [[] p]; [intros H; injection H as <- _; fit|].
  destruct (expect_char 35 p) as [q|].
  { destruct (parseInteger a loc q OK 0) as [[[v e] u]| | | |]; cbn [bind]; try discriminate. destruct (hasError e); intros H; injection H as <- _; fit. }
  destruct (match expect_char 64 p with Some q => (true, q) | None => (false, p) end) as [indir q]. destruct (indir && is_space (peek q)); [intros H; injection H as <- _; fit|].
  destruct (parseRegName q) as [[r u]| | | |]; cbn [bind]; try discriminate. destruct (negb (r =? REG_UNDEF)); [apply register_fits|].
  destruct indir; [intros H; injection H as <- _; fit|]. unfold address_operand. destruct (match expect_char 47 q with Some p => (true, p) | None => (false, q) end) as [bn w].
  destruct (parseInteger a loc (skipSpaces w) OK 46) as [[[v e] x]| | | |]; cbn [bind]; try discriminate. destruct (hasError e); [intros H; injection H as <- _; fit|].
  destruct (expect_char 46 x) as [y|]; [|intros H; injection H as <- _; destruct bn; fit].
  cbv zeta. destruct (parseInteger a loc y OK 0) as [[[bv be] z]| | | |]; cbn [bind]; try discriminate. destruct (overflow bv 7 0); [intros H; injection H as <- _; fit|].
  destruct (_ || _); intros H; injection H as <- _; destruct bn; fit.
Qed.
Lemma no_fits : reg_fits M_NONE no_operand.
Proof. fit. Qed.
Lemma operands_fit a loc scan r : parseOperands a loc scan = Val r ->
  match r with Bad e _ => e <> OK | Three o1 o2 o3 _ => reg_fits (o_mode o1) o1 /\ reg_fits (o_mode o2) o2 /\ reg_fits (o_mode o3) o3 end.
Proof.
  unfold parseOperands. destruct (parseOperand a loc scan) as [[o1 s1]| | | |] eqn:P1; cbn [bind]; try discriminate. apply operand_fits in P1.
  destruct (hasError (o_err o1)) eqn:H1; [intros H; injection H as <-; intros C; rewrite C in H1; discriminate|]. cbv zeta.
  assert (MORE : forall s o t, match expect_char 44 s with Some s => bind (parseOperand a loc s) (fun '(o, s) => Val (o, if hasError (o_err o) then s else skipSpaces s)) | None => Val (no_operand, s) end = Val (o, t) -> reg_fits (o_mode o) o).
  { intros s o t. destruct (expect_char 44 s) as [u|]; [|intros H; injection H as <- _; apply no_fits].
    destruct (parseOperand a loc u) as [[o' w]| | | |] eqn:P; cbn [bind]; try discriminate. intros H. injection H as <- _. eapply operand_fits, P. }
  match goal with |- bind ?x _ = _ -> _ => destruct x as [[o2 s2]| | | |] eqn:P2 end; cbn [bind]; try discriminate. apply MORE in P2.
  destruct (hasError (o_err o2)) eqn:H2; [intros H; injection H as <-; intros C; rewrite C in H2; discriminate|].
  match goal with |- bind ?x _ = _ -> _ => destruct x as [[o3 s3]| | | |] eqn:P3 end; cbn [bind]; try discriminate. apply MORE in P3.
  destruct (hasError (o_err o3)) eqn:H3; [intros H; injection H as <-; intros C; rewrite C in H3; discriminate|]. intros H. injection H as <-. auto.
Qed.
Lemma search_in name m1 m2 m3 e' e : i8051_searchName name m1 m2 m3 = Val (e', Some e) -> acceptModes m1 m2 m3 e = true /\ exists p, In p pages /\ In e (p_items p).
Proof.
  unfold i8051_searchName, search_entry, pages. destruct cpu_pages as [ps| | | |]; cbn [bind]; try discriminate.
  destruct (searchName entry_name name _ ps) as [[pg k|er]| | | |] eqn:SN; cbn [bind]; try discriminate.
  destruct (searchName_found _ _ _ _ _ _ SN) as (p & x & NP & NE & _ & AC).
  assert (I1 : @item_at epage ps pg = Val p) by (unfold item_at; change (@nth_error epage ps pg) with (@nth_error (M_Table.page unit entry) ps pg); rewrite NP; reflexivity).
  rewrite I1. cbn [bind]. unfold item_at. rewrite NE. cbn [bind]. intros H. injection H as _ <-. split; [exact AC|].
  exists p. split; [eapply nth_error_In, NP|]. eapply nth_error_In, NE.
Qed.
Lemma search_none name m1 m2 m3 : i8051_searchName name m1 m2 m3 = Val (OK, None) -> False.
Proof.
  intros SN. unfold i8051_searchName, search_entry in SN.
  destruct cpu_pages as [ps| | | |]; cbn [bind] in SN; try discriminate. destruct (searchName _ _ _ ps) as [[pg k|er]| | | |] eqn:X; cbn [bind] in SN; try discriminate.
  - destruct (item_at ps pg) as [p| | | |]; cbn [bind] in SN; try discriminate. destruct (item_at (p_items p) k) as [x| | | |]; cbn [bind] in SN; discriminate.
  - injection SN as ->. apply (searchName_miss _ _ _ _ _ X eq_refl).
Qed.
Lemma accept_fits m op : acceptMode (o_mode op) m = true -> reg_fits (o_mode op) op -> reg_fits m op.
Proof.
  intros A (R & I). unfold acceptMode in A. split; intros ->.
  - destruct (Z.eqb_spec (o_mode op) M_RREG) as [E|_]; [auto|]. destruct (o_mode op =? M_IMM16); [discriminate|]. destruct (o_mode op =? M_ADR16); discriminate.
  - destruct (Z.eqb_spec (o_mode op) M_IDIRR) as [E|_]; [auto|]. destruct (o_mode op =? M_IMM16); [discriminate|]. destruct (o_mode op =? M_ADR16); discriminate.
Qed.
Lemma kind_sat a k addr off nb : kind_eqb a k = true -> sat a addr off nb -> sat k addr off nb.
Proof.
  unfold kind_eqb. destruct a, k; cbn [plain andb sat]; try discriminate; auto; try solve [intros _ (x & -> & _); eauto].
  intros L (x & -> & X). exists x. split; [reflexivity|]. unfold invalidDirect in *. destruct (Z.eqb_spec opc opc0) as [->|]; [exact X|]. cbn [orb] in L. now destruct (opc0 =? 0xE5).
Qed.
Lemma i8051_emitted smart a line addr i rest : a_aw a = 16 -> 0 <= addr < 2^32 -> i8051_encode smart a line addr = Val (L_insn i rest) -> i_err i = OK -> addr + Z.of_nat (length (i_code i)) <= 65536 ->
  checkAddr 16 addr false = OK /\ exists o nb e, byte o /\ Forall byte nb /\ (length nb <= 2)%nat /\ i = canon addr (o :: nb) /\ look o = Some e /\ sats o e addr nb.
Proof.
  intros AW A H E FIT. destruct (encode_inv _ _ _ _ _ _ _ _ H E) as (CA & name & scan & IM). rewrite AW in CA. split; [exact CA|]. clear H.
  assert (AR : 0 <= addr < 65536) by (apply C31_addr in CA; [change (2^16) with 65536 in CA; lia|lia|lia]). clear A CA.
  unfold i8051_encodeImpl in IM. destruct (parseOperands a addr scan) as [[e0 s0|o1 o2 o3 s0]| | | |] eqn:PO; cbn [bind] in IM; try discriminate.
  { injection IM as <- _. cbn [i_seterr i_err] in E. apply operands_fit in PO. contradiction. }
  apply operands_fit in PO. destruct PO as (F1 & F2 & F3).
  destruct (i8051_searchName name (o_mode o1) (o_mode o2) (o_mode o3)) as [[e' found]| | | |] eqn:SN; cbn [bind] in IM; try discriminate.
  change (i_err (new_insn addr)) with OK in IM. cbv zeta in IM.
  destruct (isOK (setErrorIfAt OK e')) eqn:CK; cbn [negb] in IM; [|injection IM as <- _; cbn [i_seterr i_err] in E; rewrite E in CK; discriminate].
  apply isOK_e in CK. apply seterr_ok in CK. destruct CK as (_ & ->).
  destruct found as [en|]; [|exfalso; eapply search_none, SN].
  destruct (search_in _ _ _ _ _ _ SN) as (AC & p & IP & IE). clear SN. unfold acceptModes in AC. rewrite !andb_true_iff in AC. destruct AC as ((A1 & A2) & A3).
  apply (accept_fits _ _ A1) in F1. apply (accept_fits _ _ A2) in F2. apply (accept_fits _ _ A3) in F3. clear A1 A2 A3.
  pose proof emits_all as CH. rewrite forallb_forall in CH. specialize (CH p IP). rewrite forallb_forall in CH. specialize (CH en IE). clear p IP IE.
  unfold emits in CH. apply andb_prop in CH. destruct CH as (B0 & CH). unfold is_byte in B0.
  assert (DONE : forall n err o s, (length n <= 6)%nat -> byte o ->
    (let ai := ai_emitInsn (mkAI (part addr 1 n) err o) in Val (i_seterr (ai_err ai) (ai_insn ai), s)) = Val (i, rest) -> err = OK /\ i = canon addr (o :: n)).
  { intros n er o s L O Q. unfold ai_emitInsn, ai_set in Q. cbn [ai_insn ai_err ai_opc] in Q. destruct (part_done 0 o addr n ltac:(unfold byte; lia) O ltac:(lia)) as (D1 & _). rewrite D1 in Q.
    injection Q as Q _. assert (ER : er = OK) by (rewrite <- Q in E; exact E). split; [exact ER|]. rewrite <- Q, ER. reflexivity. }
  assert (ERR : forall n err o s, (let ai := ai_emitInsn (mkAI (part addr 1 n) err o) in Val (i_seterr (ai_err ai) (ai_insn ai), s)) = Val (i, rest) -> err = OK).
  { intros n er o s Q. unfold ai_emitInsn, ai_set in Q. cbn [ai_insn ai_err ai_opc] in Q. injection Q as Q _. rewrite <- Q in E. exact E. }
  change (new_insn addr) with (part addr 1 []) in IM.
  fold (swapped en) in IM. destruct (swapped en) eqn:SW.
  - change (ai_setErrorIf (o_err o1) (mkAI (part addr 1 []) OK (e_opc en))) with (mkAI (part addr 1 []) (setErrorIfAt OK (o_err o1)) (e_opc en)) in IM.
    unfold swapped in SW. apply andb_prop in SW. destruct SW as (M1 & M2). apply Z.eqb_eq in M1, M2. rewrite M1 in *. rewrite M2 in *.
    destruct (encodeOperand smart M_ADR8 o2 _) as [i1| | | |] eqn:X1; cbn [bind] in IM; try discriminate.
    destruct (emit_form smart M_ADR8 o2 addr [] _ (e_opc en) i1 AR ltac:(cbn; lia) F2 X1) as (e1 & p1 & n1 & -> & BN1 & L1 & Q1). clear X1. cbn [app] in IM, Q1.
    destruct (encodeOperand smart M_ADR8 o1 _) as [i2| | | |] eqn:X2; cbn [bind] in IM; try discriminate.
    destruct (emit_form smart M_ADR8 o1 addr n1 e1 p1 i2 AR ltac:(lia) F1 X2) as (e2 & p2 & n2 & -> & BN2 & L2 & Q2). clear X2.
    destruct (Q2 (ERR _ _ _ _ IM)) as (E1 & K2 & I2 & S2). destruct (Q1 E1) as (E0 & K1 & I1 & S1).
    destruct I1 as [I1|[]]. injection I1 as <- <-. destruct I2 as [I2|[]]. injection I2 as <- <-.
    destruct (DONE (n1 ++ n2) e2 (e_opc en) s0 ltac:(rewrite app_length; lia) ltac:(unfold byte; lia) IM) as (_ & II). rewrite II, canon_code in FIT. cbn [length] in FIT.
    destruct (S1 ltac:(rewrite app_length in FIT; lia)) as (x & -> & _). destruct (S2 ltac:(lia)) as (y & -> & _).
    destruct (look (e_opc en)) as [ee|] eqn:LK; [|discriminate].
    exists (e_opc en), ([x] ++ [y]), ee. split; [unfold byte; lia|]. split; [now apply Forall_app|]. split; [cbn; lia|]. split; [exact II|]. split; [exact LK|]. unfold sats. rewrite CH. exists x, y. reflexivity.
  - destruct (encodeOperand smart (e_m1 en) o1 _) as [i1| | | |] eqn:X1; cbn [bind] in IM; try discriminate.
    destruct (emit_form smart (e_m1 en) o1 addr [] _ (e_opc en) i1 AR ltac:(cbn; lia) F1 X1) as (e1 & p1 & n1 & -> & BN1 & L1 & Q1). clear X1. cbn [app] in IM, Q1.
    destruct (encodeOperand smart (e_m2 en) o2 _) as [i2| | | |] eqn:X2; cbn [bind] in IM; try discriminate.
    destruct (emit_form smart (e_m2 en) o2 addr n1 e1 p1 i2 AR ltac:(lia) F2 X2) as (e2 & p2 & n2 & -> & BN2 & L2 & Q2). clear X2.
    destruct (encodeOperand smart (e_m3 en) o3 _) as [i3| | | |] eqn:X3; cbn [bind] in IM; try discriminate.
    destruct (emit_form smart (e_m3 en) o3 addr (n1 ++ n2) e2 p2 i3 AR ltac:(rewrite app_length; lia) F3 X3) as (e3 & o & n3 & -> & BN3 & L3 & Q3). clear X3.
    destruct (Q3 (ERR _ _ _ _ IM)) as (E2 & K3 & I3 & S3). destruct (Q2 E2) as (E1 & K2 & I2 & S2). destruct (Q1 E1) as (E0 & K1 & I1 & S1).
    rewrite forallb_forall in CH. specialize (CH _ I1). cbv beta iota in CH. rewrite forallb_forall in CH. specialize (CH _ I2). cbv beta iota in CH. rewrite forallb_forall in CH. specialize (CH _ I3). cbv beta iota in CH.
    apply andb_prop in CH. destruct CH as (BO & CH). unfold is_byte in BO. assert (O : byte o) by (unfold byte; lia).
    destruct (look o) as [ee|] eqn:LK; [|discriminate]. rewrite !andb_true_iff in CH. destruct CH as (((SW' & C1) & C2) & C3).
    destruct (DONE ((n1 ++ n2) ++ n3) e3 o s0 ltac:(rewrite !app_length; lia) O IM) as (_ & II). rewrite II, canon_code in FIT. cbn [length] in FIT. rewrite !app_length in FIT. rewrite !app_length in S3. rewrite app_length in S2.
    rewrite <- app_assoc in II.
    assert (T1 : sat (kind_of o (e_m1 ee)) addr 1 n1) by (eapply kind_sat; [exact C1|]; apply S1; lia).
    assert (T2 : sat (kind_of o (e_m2 ee)) addr (1 + length n1) n2) by (eapply kind_sat; [exact C2|]; apply S2; lia).
    assert (T3 : sat (kind_of o (e_m3 ee)) addr (1 + length n1 + length n2) n3) by (eapply kind_sat; [exact C3|]; rewrite <- Nat.add_assoc; apply S3; lia).
    exists o, (n1 ++ n2 ++ n3), ee. split; [exact O|]. split; [now rewrite !Forall_app|]. split.
    { rewrite !app_length, (sat_len _ _ _ _ T1), (sat_len _ _ _ _ T2), (sat_len _ _ _ _ T3). pose proof (look_at o O) as LO. unfold look_ok in LO. unfold look in LK. destruct (find_opcode o) as [r| | | |]; try discriminate. subst r. lia. }
    split; [exact II|]. split; [exact LK|]. unfold sats. destruct (swapped ee); [discriminate|]. exists n1, n2, n3. auto.
Qed.
Lemma i8051_decodes d smart a line addr i rest m size : da_symtab d = None -> da_aw d = 16 -> printable (da_cursym d) -> brief_plugin (da_plug d) -> a_aw a = 16 -> 0 <= addr < 2^32 ->
  i8051_encode smart a line addr = Val (L_insn i rest) -> i_err i = OK -> addr + Z.of_nat (length (i_code i)) <= 65536 -> Forall byte m -> 128 <= size ->
  i_addr i = addr /\ Forall byte (i_code i) /\ (1 <= length (i_code i) <= 3)%nat /\
  exists r, i8051_decode d (i_code i ++ m) addr size = Val r /\ r_insn r = i.
Proof.
  intros NS AW PC BP AA A H E FIT BM SZ. destruct (i8051_emitted smart a line addr i rest AA A H E FIT) as (CA & o & nb & e & BO & BN & LN & -> & LK & S).
  rewrite canon_code. split; [reflexivity|]. split; [now constructor|]. split; [cbn [length]; lia|].
  pose proof (fine_chain d NS BP AW PC addr nb o e BO LK S) as FI.
  destruct (fineOff_decode d (fun _ => false) (fun _ o => decode_opcode d o) (fun _ o => chain d o) 0 o nb m addr size 127 (or_introl (conj eq_refl eq_refl)) ltac:(unfold byte; lia) BO) as (r & D & R); auto; try lia.
  - intros mem s _. now apply chain_start.
  - rewrite AW. exact CA.
  - exists r. split; [|exact R]. exact D.
Qed.
