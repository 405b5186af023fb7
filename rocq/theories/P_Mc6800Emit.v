(** What the assembler of the 6800 family emits is an instruction of its disassembler (C79). *)
From Coq Require Import String ZArith List Bool Lia ZifyBool.
From Verif Require Import M_Char M_Error M_Value M_Text M_StrBuffer M_Format M_Number M_Insn M_Config M_Operators
  M_Parsers M_Expr M_Directive M_Table M_Asm M_Dis M_Mc6800Defs T_Mc6800 M_Mc6800 S_Cpu P_StrBuffer P_Table P_Insn P_Config P_Value
  P_Room P_AsmText P_CpuShape P_CpuText P_CpuGood P_CpuRange P_CpuFine P_CpuFineOff P_CpuSearch P_Mc6800.
Import ListNotations.
Open Scope string_scope.
Open Scope list_scope.
Local Open Scope Z_scope.

(* ------------------------------------------------------------ all instructions *)
Definition generic (mode : Z) : bool := (mode =? M_GN8) || (mode =? M_GN16).
(* the opcodes that an operand can make, and the bytes that it adds; [imm]: it can be an immediate one *)
Definition outs (imm : bool) (mode o : Z) : list (Z * kind) :=
  if generic mode then
    [(u8 (Z.lor o 0x10), K_dir); (u8 (Z.lor o 0x20), K_dir); (u8 (Z.lor o 0x30), K_ext)] ++ if imm then [(o, if mode =? M_GN16 then K_ext else K_dir)] else []
  else if mode =? M_GMEM then [(o, K_dir); (u8 (Z.lor o 0x70), K_ext)]
  else if (mode =? M_DIR) || (mode =? M_IDX) || (mode =? M_IDY) then [(o, K_dir)]
  else if mode =? M_EXT then [(o, K_ext)]
  else if mode =? M_REL then [(o, K_rel)]
  else if (mode =? M_IM8) || (mode =? M_IM16) || (mode =? M_BMM) then [(o, if mode =? M_IM16 then K_ext else K_dir)]
  else if mode =? M_BIT then [(o, K_dir)]
  else [(o, K_none)].
Definition one_byte (K : kind) : bool := match K with K_dir | K_idx _ | K_im8 | K_bit => true | _ => false end.
Definition two_bytes (K : kind) : bool := match K with K_ext | K_im16 => true | _ => false end.
Definition kind_eqb (a b : kind) : bool :=
  match a, b with K_none, K_none | K_rel, K_rel => true | K_dir, _ => one_byte b | K_ext, _ => two_bytes b | _, _ => false end.
Definition is_byte (o : Z) : bool := (0 <=? o) && (o <? 256).
(* the name of the entry with an immediate operand only is an instruction *)
Definition immediate (ty : Z) (e : entry) : bool :=
  negb ((e_m2 e =? M_NONE) && (e_m3 e =? M_NONE)) || match mc6800_searchName ty (entry_name e) M_IM16 M_NONE M_NONE with Val (OK, _) => true | _ => false end.
Definition rel_ok (p : Z) (k1 k2 k3 : kind) : bool :=
  (p =? 0) || negb (is_rel k1) && (negb (is_rel k2) || negb (kwidth k1 =? 0)%nat) && (negb (is_rel k3) || negb (kwidth k1 + kwidth k2 =? 0)%nat).
Definition emits (ty p : Z) (e : entry) : bool :=
  e_undef e ||
  is_byte (e_opc e) && existsb (Z.eqb p) prefixes && ((p =? 0) || pfx ty p) &&
  forallb (fun '(o1, k1) => forallb (fun '(o2, k2) => forallb (fun '(o, k3) =>
    is_byte o && (negb (p =? 0) || negb (pfx ty o)) && rel_ok p k1 k2 k3 &&
    match look ty p o with
    | Some (e', _) => negb (e_undef e') && kind_eqb k1 (kind_of o (e_m1 e')) && kind_eqb k2 (kind_of o (e_m2 e')) && kind_eqb k3 (kind_of o (e_m3 e'))
    | None => false
    end) (outs true (e_m3 e) o2)) (outs true (e_m2 e) o1)) (outs (immediate ty e) (e_m1 e) (e_opc e)).
Definition pages (ty : Z) : list epage := match cpu_pages ty with Val p => p | _ => [] end.
Lemma emits_all : forallb (fun ty => forallb (fun p => forallb (emits ty (p_info p)) (p_items p)) (pages ty)) types = true.
Proof. vm_compute. reflexivity. Qed.
Lemma names_all : forallb (fun ty => forallb (fun p : epage => forallb (fun e => no_zero (entry_name e)) (p_items p)) (pages ty)) types = true.
Proof. vm_compute. reflexivity. Qed.

(* ------------------------------------------------------------ the disassembler *)
(* [off] bytes come before *)
Definition sat (K : kind) (addr : Z) (off : nat) (nb : list Z) : Prop :=
  match K with
  | K_none => nb = []
  | K_dir | K_idx _ | K_im8 | K_bit => exists x, nb = [x]
  | K_ext | K_im16 => exists hi lo, nb = [hi; lo]
  | K_rel => exists x, nb = [x] /\ checkAddr 16 (u32 (u32 (addr + Z.of_nat off + 1) + int8 x)) false = OK
  end.
Lemma sat_len K addr off nb : sat K addr off nb -> length nb = kwidth K.
Proof.
  destruct K; cbn [sat kwidth]; intros H; subst; try reflexivity; try (destruct H as (x & ->); reflexivity); try (destruct H as (x & -> & _); reflexivity);
    destruct H as (x & y & ->); reflexivity.
Qed.
Section Dis.
Variable d : disasm.
Hypothesis NS : da_symtab d = None.
Hypothesis BP : brief_plugin (da_plug d).
Hypothesis AW : da_aw d = 16.
Hypothesis PC : printable (da_cursym d).
Lemma look_no v r : da_lookup d v r = Val None.
Proof. unfold da_lookup. now rewrite NS. Qed.
Lemma fine_hex addr off v bits relax : 0 <= v < 2^32 -> -16 <= bits <= 16 -> fineOff addr off [] 26 (t_print (dis_outHex d v bits relax)).
Proof. intros V W. apply fineOff_of, fineAt_of. apply fine_print. now apply prints_hex. Qed.
Lemma fine_letter addr off c : printable c -> fineOff addr off [] 1 (fun s => Val (t_put (letter c) s)).
Proof. intros C. apply fineOff_of, fineAt_of, fine_put. intros b. now apply adds_letter. Qed.
Lemma fine_dir addr off x : fineOff addr off [x] 28 (decodeDirectPage d).
Proof.
  unfold decodeDirectPage. apply (fineOff_byte addr off x [] 28 (fun dir s => bind (da_lookup d dir 0) (fun label => match label with Some l => Val (t_put (fun out => out_rtext l (letter 60 out)) s) | None => t_print (outAbsAddr d dir 8) s end))).
  intros X. unfold byte in X. rewrite look_no. cbn [bind]. apply fineOff_of, fineAt_of. apply (fine_le _ 26); [lia|]. apply fine_print. apply prints_abs; auto; lia.
Qed.
Lemma fine_ext addr off hi lo : fineOff addr off [hi; lo] 28 (decodeExtended d).
Proof.
  unfold decodeExtended. apply fineOff_of.
  apply (fineAt_be addr hi lo [] 28 (fun a s => bind (da_lookup d a 0) (fun label => match label with Some l => Val (t_put (fun out => out_rtext l (letter 62 out)) s) | None => t_print (outAbsAddr d a 0) (if a <? 0x100 then t_put (letter 62) s else s) end))).
  intros X Y. unfold byte in X, Y. rewrite look_no. cbn [bind]. set (v := _ + _). assert (V : 0 <= v < 2^32) by (unfold v; lia).
  assert (F : fine 0 26 (t_print (outAbsAddr d v 0))) by (apply fine_print; apply prints_abs; auto; lia).
  apply fineAt_of. destruct (v <? 256).
  - apply (fine_le _ (1 + 26)); [lia|]. apply (fine_seq 0 0 1 26 (fun s => Val (t_put (letter 62) s))); [apply fine_put; intros b; apply adds_letter; unfold printable; lia|exact F].
  - apply (fine_le _ 26); [lia|exact F].
Qed.
Lemma fine_idx addr off x r : printable r -> fineOff addr off [x] 28 (fun s => let '(v, s) := t_byte s in
    bind (t_print (dis_outDec d v 8) s) (fun s => Val (t_put (fun out => outRegName r (letter 44 out)) s))).
Proof.
  intros R. apply (fineOff_byte addr off x [] 28 (fun v s => bind (t_print (dis_outDec d v 8) s) (fun s => Val (t_put (fun out => outRegName r (letter 44 out)) s)))).
  intros X. unfold byte in X. change 28 with (26 + 2). apply (fineOff_seq addr (S off) [] [] 26 2).
  - apply fineOff_of, fineAt_of, fine_print. apply prints_dec; auto; lia.
  - apply fineOff_of, fineAt_of. apply fine_put. intros b. change 2 with (1 + 1). apply (adds_trans 1 1 b (letter 44 b)); apply adds_letter; [unfold printable; lia|exact R].
Qed.
Lemma fine_im8 addr off x : fineOff addr off [x] 28 (fun s => let s := t_put (letter 35) s in let '(v, s) := t_byte s in t_print (dis_outHex d v 8 true) s).
Proof.
  change 28 with (1 + 27). apply (fineOff_seq addr off [] [x] 1 27 (fun s => Val (t_put (letter 35) s)) (fun s => let '(v, s) := t_byte s in t_print (dis_outHex d v 8 true) s)); [apply fine_letter; unfold printable; lia|].
  apply (fineOff_byte addr _ x [] 27 (fun v s => t_print (dis_outHex d v 8 true) s)). intros X. unfold byte in X. apply (fineOff_le _ _ _ 26); [lia|]. apply fine_hex; lia.
Qed.
Lemma fine_im16 addr off hi lo : fineOff addr off [hi; lo] 28 (fun s => let s := t_put (letter 35) s in let '(v, s) := t_uint16Be s in t_print (dis_outHex d v 16 true) s).
Proof.
  change 28 with (1 + 27). apply (fineOff_seq addr off [] [hi; lo] 1 27 (fun s => Val (t_put (letter 35) s)) (fun s => let '(v, s) := t_uint16Be s in t_print (dis_outHex d v 16 true) s)); [apply fine_letter; unfold printable; lia|].
  apply fineOff_of. apply fineAt_be. intros X Y. unfold byte in X, Y. apply fineAt_of. apply (fine_le _ 26); [lia|]. apply fine_print. apply prints_hex; auto; lia.
Qed.
Lemma fine_rel addr off nb : sat K_rel addr off nb -> fineOff addr off nb 28 (decodeRelative d).
Proof.
  intros (x & -> & CK). unfold decodeRelative. apply (fineOff_byte addr off x [] _ (fun v s => (fun insn s => t_print (outRelAddr d (u32 (u32 (i_addr insn + i_len insn) + int8 v)) (i_addr insn) 8) (t_setErrorIf (checkAddr (da_aw d) (u32 (u32 (i_addr insn + i_len insn) + int8 v)) false) s)) (d_insn (t_in s)) s)).
  intros X. apply (fineOff_insn addr (S off) [] _ (fun insn s => t_print (outRelAddr d (u32 (u32 (i_addr insn + i_len insn) + int8 x)) (i_addr insn) 8) (t_setErrorIf (checkAddr (da_aw d) (u32 (u32 (i_addr insn + i_len insn) + int8 x)) false) s))). intros i IA IL. rewrite IA, IL. rewrite Nat2Z.inj_succ, <- Z.add_1_r, Z.add_assoc.
  apply (fineOff_check addr (S off) [] _ _ (t_print (outRelAddr d (u32 (u32 (addr + Z.of_nat off + 1) + int8 x)) addr 8))); [rewrite AW; exact CK|].
  apply fineOff_of, fineAt_of. apply fine_print. apply prints_rel; auto; try lia. apply Z.mod_pos_bound. lia.
Qed.
Lemma fine_operand ty p addr off nb o mode : mode <> M_BMM -> sat (kind_of o mode) addr off nb -> fineOff addr off nb 28 (decodeOperand d ty p o mode).
Proof.
  intros NB. unfold decodeOperand, kind_of. cbv zeta.
  assert (RP : printable (if mode =? M_IDY then REG_Y else REG_X)) by (destruct (mode =? M_IDY); unfold printable, REG_X, REG_Y; lia).
  assert (DIR : sat K_dir addr off nb -> fineOff addr off nb 28 (decodeDirectPage d)) by (intros (x & ->); apply fine_dir).
  assert (EXT : sat K_ext addr off nb -> fineOff addr off nb 28 (decodeExtended d)) by (intros (x & y & ->); apply fine_ext).
  assert (IDX : forall r, sat (K_idx r) addr off nb -> fineOff addr off nb 28 (fun s => let '(v, s) := t_byte s in
    bind (t_print (dis_outDec d v 8) s) (fun s => Val (t_put (fun out => outRegName (if mode =? M_IDY then REG_Y else REG_X) (letter 44 out)) s)))) by (intros r (x & ->); now apply fine_idx).
  assert (I8 : sat K_im8 addr off nb -> fineOff addr off nb 28 (fun s => let s := t_put (letter 35) s in let '(v, s) := t_byte s in t_print (dis_outHex d v 8 true) s)) by (intros (x & ->); apply fine_im8).
  assert (I16 : sat K_im16 addr off nb -> fineOff addr off nb 28 (fun s => let s := t_put (letter 35) s in let '(v, s) := t_uint16Be s in t_print (dis_outHex d v 16 true) s)) by (intros (x & y & ->); apply fine_im16).
  destruct (mode =? M_DIR); [exact DIR|].
  destruct (mode =? M_GMEM); [destruct (_ =? 0x60); [exact (IDX _)|exact EXT]|].
  destruct (mode =? M_EXT); [exact EXT|].
  destruct (_ || _); [exact (IDX _)|].
  destruct (mode =? M_REL); [apply fine_rel|].
  destruct (mode =? M_GN8); [destruct (_ =? 0x10); [exact DIR|]; destruct (_ =? 0x20); [exact (IDX _)|]; destruct (_ =? 0x30); [exact EXT|exact I8]|].
  destruct (mode =? M_IM8); [exact I8|].
  destruct (mode =? M_GN16); [destruct (_ =? 0x10); [exact DIR|]; destruct (_ =? 0x20); [exact (IDX _)|]; destruct (_ =? 0x30); [exact EXT|exact I16]|].
  destruct (mode =? M_IM16); [exact I16|].
  destruct (Z.eqb_spec mode M_BMM); [contradiction|].
  intros ->. apply fineOff_of, fineAt_of. apply (fine_le _ 0); [lia|]. apply fine_val.
Qed.
Lemma fine_bmm addr off x o al : fineOff addr off [x] 28 (bmm d o al).
Proof.
  unfold bmm. apply (fineOff_byte addr off x [] 28 (fun v s => if 0 <=? bit_of o v then bind (Val (t_readName al s)) (t_print (dis_outHex d (bit_of o v) 3 true))
   else bind (Val (t_put (letter 35) s)) (t_print (dis_outHex d v 8 true)))).
  intros X. unfold byte in X. destruct (Z.leb_spec 0 (bit_of o x)) as [L|L].
  - apply (fineOff_le _ _ _ (0 + 26)); [lia|]. apply (fineOff_seq addr (S off) [] [] 0 26 (fun s => Val (t_readName al s)) (t_print (dis_outHex d (bit_of o x) 3 true))); [apply fineOff_of, fineAt_of, fine_name|].
    pose proof (bit_range o x). apply fine_hex; lia.
  - apply (fineOff_le _ _ _ (1 + 26)); [lia|]. apply (fineOff_seq addr (S off) [] [] 1 26 (fun s => Val (t_put (letter 35) s)) (t_print (dis_outHex d x 8 true))); [apply fine_letter; unfold printable; lia|]. apply fine_hex; lia.
Qed.
Lemma fine_more ty p addr off nb o mode : mode <> M_BMM -> sat (kind_of o mode) addr off nb -> fineOff addr off nb 30 (more_op d ty p o mode).
Proof.
  intros NB S. unfold more_op. destruct (Z.eqb_spec mode M_NONE) as [->|_].
  - assert (N : nb = []) by exact S. rewrite N. apply (fineOff_le _ _ _ 0); [lia|]. apply fineOff_of, fineAt_of, fine_val.
  - apply (fineOff_seq addr off [] nb 2 28 (fun s => Val (t_put comma s))); [apply fineOff_of, fineAt_of, fine_put, comma_adds|]. cbn [length]. rewrite Nat.add_0_r. now apply fine_operand.
Qed.
(* the bytes of the operands of an instruction, after [off] bytes *)
Definition sats (o : Z) (e : entry) (addr : Z) (off : nat) (nb : list Z) : Prop :=
  exists n1 n2 n3, nb = n1 ++ n2 ++ n3 /\ sat (kind_of o (e_m1 e)) addr off n1 /\ sat (kind_of o (e_m2 e)) addr (off + length n1) n2 /\
    sat (kind_of o (e_m3 e)) addr (off + length n1 + length n2) n3.
Lemma fine_chain ty p addr off nb o e al : In ty types -> In p prefixes -> byte o -> look ty p o = Some (e, al) -> e_undef e = false -> sats o e addr off nb -> fineOff addr off nb 127 (chain d ty p o).
Proof.
  intros T P O L U (n1 & n2 & n3 & -> & S1 & S2 & S3). unfold chain. rewrite L, U.
  pose proof (look_at ty p o T P O) as LO. unfold look_ok, look in LO, L.
  destruct (find_opcode ty p o) as [[[items i]|]| | | |]; try discriminate. destruct (nth_error items i) as [e'|]; [|discriminate].
  injection L as -> <-. rewrite U in LO. cbn [orb] in LO. rewrite !andb_true_iff in LO. destruct LO as ((((AL & N2) & N3) & _) & _). apply negb_true_iff, Z.eqb_neq in N2, N3.
  apply (fineOff_le _ _ _ (0 + (28 + (30 + 30)))); [lia|].
  apply (fineOff_seq addr off [] (n1 ++ n2 ++ n3) 0 _ (fun s => Val (t_readName (entry_name e) s))); [apply fineOff_of, fineAt_of, fine_name|]. cbn [length]. rewrite Nat.add_0_r.
  apply fineOff_seq; [|apply fineOff_seq; now apply fine_more].
  unfold op1. destruct (Z.eqb_spec (e_m1 e) M_BMM) as [B|B]; [|now apply fine_operand].
  rewrite B in S1. destruct S1 as (x & ->). apply fine_bmm.
Qed.
End Dis.

(* ------------------------------------------------------------ the assembler *)
Lemma seterr_flag (b : bool) x i f p o : (if b then ai_setErrorIf x (mkAI i f p o) else mkAI i f p o) = mkAI i (if b then setErrorIfAt f x else f) p o.
Proof. destruct b; reflexivity. Qed.
Lemma seterr_unset (b : bool) x f : x <> OK -> (if b then setErrorIfAt f x else f) = OK -> b = false /\ f = OK.
Proof. intros NX. destruct b; intros H; [|auto]. apply seterr_ok in H. tauto. Qed.
Lemma byte_of z : byte (u8 z).
Proof. apply Z.mod_pos_bound. lia. Qed.
Lemma emit_word z addr p nb e o : (length nb <= 8)%nat -> exists hi lo, byte hi /\ byte lo /\ ai_emitOperand16 z (mkAI (part addr (base p) nb) e p o) = mkAI (part addr (base p) (nb ++ [hi; lo])) e p o.
Proof.
  intros L. pose proof (Z.mod_pos_bound z 65536 ltac:(lia)) as M. exists ((z mod 65536) / 256), ((z mod 65536) mod 256).
  assert (X : byte ((z mod 65536) / 256)) by (unfold byte; split; [apply Z.div_pos; lia|apply Z.div_lt_upper_bound; lia]).
  assert (Y : byte ((z mod 65536) mod 256)) by (apply Z.mod_pos_bound; lia). split; [exact X|]. split; [exact Y|]. apply emit16; auto.
  unfold u16. change (2^16) with 65536. pose proof (Z.div_mod (z mod 65536) 256). lia.
Qed.
(* the modes that the assembler reads *)
Definition written : list Z := [M_NONE; M_IM16; M_IDX; M_IDY; M_DIR; M_EXT; M_BIT].
Definition emitted_as (imm : bool) (mode : Z) (addr p : Z) (nb : list Z) (e : err) (o : Z) (i' : ainsn) : Prop :=
  exists e' o' nb', i' = mkAI (part addr (base p) (nb ++ nb')) e' p o' /\ Forall byte nb' /\ (length nb' <= 2)%nat /\
    (e' = OK -> e = OK /\ exists K, In (o', K) (outs imm mode o) /\
       (addr + Z.of_nat (base p + length (nb ++ nb')) <= 65536 -> (is_rel K = true -> p = 0 \/ nb <> []) -> sat K addr (base p + length nb) nb')).
Lemma base_le p : (1 <= base p <= 2)%nat.
Proof. unfold base. destruct (negb _); lia. Qed.
Lemma emit_form imm mode op addr p nb e o i' : 0 <= addr < 65536 -> (length nb <= 6)%nat -> In (o_mode op) written -> acceptMode (o_mode op) mode = true -> (o_mode op = M_IM16 -> generic mode = true -> imm = true) ->
  emitOperand mode op (mkAI (part addr (base p) nb) e p o) = Val i' -> emitted_as imm mode addr p nb e o i'.
Proof.
  intros A NB WR AC IM. pose proof (base_le p) as BL. pose proof (getUnsigned_range (o_val op)) as VR. unfold emitOperand. cbv zeta.
  change (ai_setErrorIf (o_err op) (mkAI (part addr (base p) nb) e p o)) with (mkAI (part addr (base p) nb) (setErrorIfAt e (o_err op)) p o).
  set (e1 := setErrorIfAt e (o_err op)). assert (E1 : e1 = OK -> e = OK /\ o_err op = OK) by apply seterr_ok.
  unfold emitted_as, outs. fold (generic mode).
  (* a byte, with an error or not *)
  assert (ONE : forall z f o1 K L, In (o1, K) L -> one_byte K = true -> (f = OK -> e1 = OK) -> Val (ai_emitOperand8 z (mkAI (part addr (base p) nb) f p o1)) = Val i' ->
    exists e' o' nb', i' = mkAI (part addr (base p) (nb ++ nb')) e' p o' /\ Forall byte nb' /\ (length nb' <= 2)%nat /\
    (e' = OK -> e = OK /\ exists K, In (o', K) L /\ (addr + Z.of_nat (base p + length (nb ++ nb')) <= 65536 -> (is_rel K = true -> p = 0 \/ nb <> []) -> sat K addr (base p + length nb) nb'))).
  { intros z f o1 K L IN OB FE H. rewrite (emit8 (u8 z)) in H by (auto using byte_of; lia). injection H as <-. exists f, o1, [u8 z]. split; [reflexivity|]. split; [constructor; [apply byte_of|constructor]|]. split; [cbn; lia|].
    intros F. split; [now apply E1, FE|]. exists K. split; [exact IN|]. intros _ _. destruct K; try discriminate; cbn [sat]; eauto. }
  assert (TWO : forall z o1 K L, In (o1, K) L -> two_bytes K = true -> Val (ai_emitOperand16 z (mkAI (part addr (base p) nb) e1 p o1)) = Val i' ->
    exists e' o' nb', i' = mkAI (part addr (base p) (nb ++ nb')) e' p o' /\ Forall byte nb' /\ (length nb' <= 2)%nat /\
    (e' = OK -> e = OK /\ exists K, In (o', K) L /\ (addr + Z.of_nat (base p + length (nb ++ nb')) <= 65536 -> (is_rel K = true -> p = 0 \/ nb <> []) -> sat K addr (base p + length nb) nb'))).
  { intros z o1 K L IN OB H. destruct (emit_word z addr p nb e1 o1 ltac:(lia)) as (hi & lo & B1 & B2 & EQ). rewrite EQ in H. injection H as <-. exists e1, o1, [hi; lo]. split; [reflexivity|]. split; [auto|]. split; [cbn; lia|].
    intros F. split; [now apply E1|]. exists K. split; [exact IN|]. intros _ _. destruct K; try discriminate; cbn [sat]; eauto. }
  assert (FL : forall b : bool, (if b then setErrorIfAt e1 OVERFLOW_RANGE else e1) = OK -> e1 = OK) by (intros b H; apply seterr_unset in H; [tauto|discriminate]).
  assert (IMM : forall m L, In (o, if (m =? M_GN16) || (m =? M_IM16) then K_ext else K_dir) L -> Val (emitImmediate m op (mkAI (part addr (base p) nb) e1 p o)) = Val i' ->
    exists e' o' nb', i' = mkAI (part addr (base p) (nb ++ nb')) e' p o' /\ Forall byte nb' /\ (length nb' <= 2)%nat /\
    (e' = OK -> e = OK /\ exists K, In (o', K) L /\ (addr + Z.of_nat (base p + length (nb ++ nb')) <= 65536 -> (is_rel K = true -> p = 0 \/ nb <> []) -> sat K addr (base p + length nb) nb'))).
  { intros m L IN H. unfold emitImmediate in H. destruct ((m =? M_GN16) || (m =? M_IM16)); [exact (TWO _ _ K_ext L IN eq_refl H)|]. rewrite seterr_flag in H. exact (ONE _ _ _ K_dir L IN eq_refl (FL _) H). }
  destruct (generic mode) eqn:GN.
  { destruct ((o_mode op =? M_DIR) || (o_mode op =? M_BIT)) eqn:M1; [apply (ONE _ e1 _ K_dir); auto; cbn; auto|].
    destruct ((o_mode op =? M_IDX) || (o_mode op =? M_IDY)) eqn:M2; [rewrite seterr_flag; unfold ai_embed; cbn [ai_insn ai_err ai_prefix ai_opc]; apply (ONE _ _ _ K_dir); eauto; cbn; auto|].
    destruct (o_mode op =? M_EXT) eqn:M3; [apply (TWO _ _ K_ext); auto; cbn; auto|].
    assert (MI : o_mode op = M_IM16).
    { clear - WR AC GN M1 M2 M3. destruct WR as [W|[W|[W|[W|[W|[W|[W|[]]]]]]]]; rewrite <- W in *; try discriminate; try reflexivity.
      unfold generic in GN. unfold acceptMode in AC. destruct (Z.eqb_spec M_NONE mode) as [<-|]; [discriminate|]. rewrite GN in AC. discriminate. }
    rewrite (IM MI eq_refl). apply IMM. cbn [app In]. right. right. right. left. f_equal. unfold generic in GN. destruct (mode =? M_GN16) eqn:G; [reflexivity|]. destruct (mode =? M_IM16) eqn:G'; [apply Z.eqb_eq in G'; subst; discriminate|reflexivity]. }
  destruct (mode =? M_GMEM).
  { destruct (o_mode op =? M_IDX); [rewrite seterr_flag; apply (ONE _ _ _ K_dir); eauto; cbn; auto|]. apply (TWO _ _ K_ext); auto; cbn; auto. }
  destruct ((mode =? M_DIR) || (mode =? M_IDX) || (mode =? M_IDY)); [rewrite seterr_flag; apply (ONE _ _ _ K_dir); eauto; cbn; auto|].
  destruct (mode =? M_EXT); [apply (TWO _ _ K_ext); auto; cbn; auto|].
  destruct (Z.eqb_spec mode M_REL) as [->|N1].
  { clear ONE TWO IMM. unfold emitRelative. cbv zeta. cbn [ai_insn ai_err]. rewrite part_len. assert (PA : i_addr (part addr (base p) nb) = addr) by (destruct nb; reflexivity). rewrite PA.
    set (bs := M_Config.u32 _).
    assert (BR : 0 <= bs < 65536 + 16).
    { unfold bs. destruct nb as [|y nb]; cbn [length Nat.ltb Nat.leb].
      - unfold M_Config.u32. rewrite Z.mod_small; cbn; lia.
      - replace (Z.of_nat (base p + S (length nb)) =? 0) with false by lia. unfold M_Config.u32. rewrite Z.mod_small; cbn [length] in NB; lia. }
    assert (BS : p = 0 \/ nb <> [] -> bs = addr + Z.of_nat (base p + length nb) + 1).
    { intros Q. unfold bs. destruct nb as [|y nb]; cbn [length Nat.ltb Nat.leb].
      - destruct Q as [->|Q]; [|congruence]. unfold M_Config.u32. rewrite Z.mod_small; cbn; lia.
      - replace (Z.of_nat (base p + S (length nb)) =? 0) with false by lia. unfold M_Config.u32. rewrite Z.mod_small; cbn [length] in NB; lia. }
    set (tg := if negb (isOK (o_err op)) then bs else getUnsigned (o_val op)).
    assert (TR : 0 <= tg < 2^32) by (unfold tg; destruct (negb _); lia).
    destruct (branchDelta 16 bs tg e1) as [[dl e2]|] eqn:BD; [|discriminate]. change (overflowDelta dl 8) with (Some ((dl <? -128) || (128 <=? dl))). cbv iota beta.
    change (ai_seterr e2 (mkAI (part addr (base p) nb) e1 p o)) with (mkAI (part addr (base p) nb) e2 p o). rewrite seterr_flag, (emit8 (u8 dl)) by (auto using byte_of; lia).
    intros H. injection H as <-. eexists _, o, [_]. split; [reflexivity|]. split; [constructor; [apply byte_of|constructor]|]. split; [cbn; lia|].
    intros H. apply seterr_unset in H; [|discriminate]. destruct H as (FR & H). split.
    { unfold branchDelta in BD. destruct (signExtend _ 16) as [d0|]; [|discriminate]. injection BD as _ BD. rewrite H in BD. destruct (_ || _) in BD; repeat (apply seterr_ok in BD; destruct BD as (BD & _)); first [exact BD|now apply E1]. }
    exists K_rel. split; [now left|]. rewrite app_length. cbn [length]. intros FIT Q. specialize (BS (Q eq_refl)).
    destruct (branch_inv bs tg e1 ltac:(lia) TR) as (dl' & e2' & BD' & BI). rewrite BD in BD'. injection BD' as <- <-. destruct (BI H) as (_ & T & ->).
    cbn [sat]. eexists. split; [reflexivity|]. unfold u8. change (2^8) with 256. rewrite int8_delta by lia.
    replace (u32 (addr + Z.of_nat (base p + length nb) + 1)) with bs by (unfold u32; rewrite Z.mod_small; lia).
    replace (bs + (tg - bs)) with tg by lia. unfold u32. rewrite Z.mod_small by lia. apply C31_addr; [lia|lia|]. split; [change (2^16) with 65536; lia|discriminate]. }
  destruct ((mode =? M_IM8) || (mode =? M_IM16) || (mode =? M_BMM)).
  { apply IMM. left. f_equal. unfold generic in GN. destruct (mode =? M_GN16); [now rewrite orb_true_r in GN|reflexivity]. }
  destruct (mode =? M_BIT).
  { unfold emitBitNumber. cbn [ai_opc]. apply (ONE _ _ _ K_dir); auto; cbn; auto. }
  intros H. injection H as <-. exists e1, o, []. rewrite app_nil_r. split; [reflexivity|]. split; [constructor|]. split; [cbn; lia|]. intros H. split; [now apply E1|]. exists K_none. split; [now left|]. intros _ _. reflexivity.
Qed.
Lemma operand_written a loc scan op t : parseOperand a loc scan = Val (op, t) -> In (o_mode op) written.
Proof.
  unfold parseOperand. cbv zeta. set (s := skipSpaces scan). destruct (peek s =? 44); [intros H; injection H as <- _; cbn; auto|].
  destruct (expect_char 35 s) as [q|].
  { destruct (parseInteger a loc q OK 0) as [[[v e] u]| | | |]; cbn [bind]; try discriminate. destruct (hasError e); intros H; injection H as <- _; cbn; auto. }
  destruct (match expect_char 60 s with Some p => (8, p) | None => match expect_char 62 s with Some p => (16, p) | None => (0, s) end end) as [size q].
  destruct (parseInteger a loc q OK 0) as [[[v e] u]| | | |]; cbn [bind]; try discriminate. destruct (hasError e); [intros H; injection H as <- _; cbn; auto|].
  destruct (match expect_char 44 (skipSpaces u) with Some q => parseRegName (skipSpaces q) | None => (REG_UNDEF, u) end) as [r w].
  destruct (negb (r =? REG_UNDEF)); intros H; injection H as <- _; cbn [o_mode].
  - destruct (r =? REG_X); cbn; auto 10.
  - destruct (size =? 0); [destruct (overflowUint8 v); [|destruct (overflow v 7 0)]|destruct (size =? 8)]; cbn; auto 10.
Qed.
Lemma operands_written a loc scan r : parseOperands a loc scan = Val r ->
  match r with Bad e _ => e <> OK | Three o1 o2 o3 _ => In (o_mode o1) written /\ In (o_mode o2) written /\ In (o_mode o3) written end.
Proof.
  unfold parseOperands. destruct (parseOperand a loc scan) as [[o1 s1]| | | |] eqn:P1; cbn [bind]; try discriminate. apply operand_written in P1.
  destruct (hasError (o_err o1)) eqn:H1; [intros H; injection H as <-; intros C; rewrite C in H1; discriminate|]. cbv zeta.
  assert (MORE : forall s o t, match expect_char 44 (skipSpaces s) with Some s => parseOperand a loc s | None => Val (no_operand, skipSpaces s) end = Val (o, t) -> In (o_mode o) written).
  { intros s o t. destruct (expect_char 44 (skipSpaces s)) as [u|]; [apply operand_written|intros H; injection H as <- _; cbn; auto]. }
  match goal with |- bind ?x _ = _ -> _ => destruct x as [[o2 s2]| | | |] eqn:P2 end; cbn [bind]; try discriminate. apply MORE in P2.
  destruct (hasError (o_err o2)) eqn:H2; [intros H; injection H as <-; intros C; rewrite C in H2; discriminate|].
  match goal with |- bind ?x _ = _ -> _ => destruct x as [[o3 s3]| | | |] eqn:P3 end; cbn [bind]; try discriminate. apply MORE in P3.
  destruct (hasError (o_err o3)) eqn:H3; [intros H; injection H as <-; intros C; rewrite C in H3; discriminate|]. intros H. injection H as <-. auto.
Qed.
Lemma search_in ty name m1 m2 m3 p e : mc6800_searchName ty name m1 m2 m3 = Val (OK, Some (p, e)) ->
  acceptModes m1 m2 m3 e = true /\ e_undef e = false /\ strcasecmp name (entry_name e) = 0 /\ exists q, In q (pages ty) /\ p_info q = p /\ In e (p_items q).
Proof.
  unfold mc6800_searchName, search_entry, pages. destruct (cpu_pages ty) as [ps| | | |]; cbn [bind]; try discriminate.
  destruct (searchName entry_name name _ ps) as [[pg k|er]| | | |] eqn:SN; cbn [bind]; try discriminate.
  destruct (searchName_found _ _ _ _ _ _ SN) as (q & x & NP & NE & NM & AC).
  assert (I1 : @item_at epage ps pg = Val q) by (unfold item_at; change (@nth_error epage ps pg) with (@nth_error (M_Table.page Z entry) ps pg); rewrite NP; reflexivity).
  rewrite I1. cbn [bind]. unfold item_at. rewrite NE. cbn [bind]. destruct (e_undef x) eqn:U; intros H; [discriminate|]. injection H as <- <-. split; [exact AC|]. split; [exact U|]. split; [exact NM|].
  exists q. split; [eapply nth_error_In, NP|]. split; [reflexivity|]. eapply nth_error_In, NE.
Qed.
Lemma search_none ty name m1 m2 m3 : mc6800_searchName ty name m1 m2 m3 = Val (OK, None) -> False.
Proof.
  intros SN. unfold mc6800_searchName, search_entry in SN.
  destruct (cpu_pages ty) as [ps| | | |]; cbn [bind] in SN; try discriminate. destruct (searchName _ _ _ ps) as [[pg k|er]| | | |] eqn:X; cbn [bind] in SN; try discriminate.
  - destruct (item_at ps pg) as [p| | | |]; cbn [bind] in SN; try discriminate. destruct (item_at (p_items p) k) as [x| | | |]; cbn [bind] in SN; discriminate.
  - injection SN as ->. apply (searchName_miss _ _ _ _ _ X eq_refl).
Qed.
(* the search does not depend on the case of the name *)
Lemma search_same ty name n m1 m2 m3 : In ty types -> no_zero n = true -> strcasecmp name n = 0 -> mc6800_searchName ty name m1 m2 m3 = mc6800_searchName ty n m1 m2 m3.
Proof.
  intros T Z0 S. pose proof names_all as H. rewrite forallb_forall in H. specialize (H ty T). unfold mc6800_searchName, search_entry. unfold pages in H.
  destruct (cpu_pages ty) as [ps| | | |]; try reflexivity. cbn [bind].
  rewrite (searchName_case entry_name name n (fun _ => acceptModes m1 m2 m3) ps); auto.
  intros p a IP IA. rewrite forallb_forall in H. specialize (H p IP). rewrite forallb_forall in H. exact (H a IA).
Qed.
Lemma accept_none m : In m written -> acceptMode m M_NONE = true -> m = M_NONE.
Proof. intros [W|[W|[W|[W|[W|[W|[W|[]]]]]]]]; rewrite <- W; try discriminate; reflexivity. Qed.
Lemma immediate_ok ty name p e m2 m3 : In ty types -> In m2 written -> In m3 written -> mc6800_searchName ty name M_IM16 m2 m3 = Val (OK, Some (p, e)) -> immediate ty e = true.
Proof.
  intros T W2 W3 S. destruct (search_in _ _ _ _ _ _ _ S) as (AC & _ & NM & q & IQ & _ & IE). unfold immediate.
  destruct (Z.eqb_spec (e_m2 e) M_NONE) as [E2|]; [|reflexivity]. destruct (Z.eqb_spec (e_m3 e) M_NONE) as [E3|]; [|reflexivity]. cbn [andb negb orb].
  unfold acceptModes in AC. rewrite !andb_true_iff, E2, E3 in AC. destruct AC as ((_ & A2) & A3). apply accept_none in A2; [|exact W2]. apply accept_none in A3; [|exact W3]. subst m2 m3.
  rewrite <- (search_same ty name); [now rewrite S|exact T| |exact NM].
  pose proof names_all as H. rewrite forallb_forall in H. specialize (H ty T). rewrite forallb_forall in H. specialize (H q IQ). rewrite forallb_forall in H. exact (H e IE).
Qed.
Lemma kind_sat a k addr off nb : kind_eqb a k = true -> sat a addr off nb -> sat k addr off nb.
Proof. unfold kind_eqb. destruct a, k; cbn [one_byte two_bytes sat]; try discriminate; auto. Qed.
Lemma mc6800_emitted ty a line addr i rest : In ty types -> a_aw a = 16 -> 0 <= addr < 2^32 -> mc6800_encode ty a line addr = Val (L_insn i rest) -> i_err i = OK -> addr + Z.of_nat (length (i_code i)) <= 65536 ->
  checkAddr 16 addr false = OK /\ exists p o nb e al, In p prefixes /\ ((p = 0 /\ pfx ty o = false) \/ (p <> 0 /\ pfx ty p = true)) /\ byte o /\ Forall byte nb /\
    (length (opcode_bytes p o) + length nb <= 5)%nat /\ i = canon addr (opcode_bytes p o ++ nb) /\ look ty p o = Some (e, al) /\ e_undef e = false /\ sats o e addr (base p) nb.
Proof.
  intros T AW A H E FIT. destruct (encode_inv _ _ _ _ _ _ _ _ H E) as (CA & name & scan & IM). rewrite AW in CA. split; [exact CA|]. clear H.
  assert (AR : 0 <= addr < 65536) by (apply C31_addr in CA; [change (2^16) with 65536 in CA; lia|lia|lia]). clear A CA.
  unfold mc6800_encodeImpl in IM. destruct (hasOperand ty name) as [has| | | |]; cbn [bind] in IM; try discriminate.
  destruct (if has then parseOperands a addr scan else Val (Three no_operand no_operand no_operand scan)) as [[e0 s0|o1 o2 o3 s0]| | | |] eqn:PO; cbn [bind] in IM; try discriminate.
  { injection IM as <- _. cbn [i_seterr i_err] in E. destruct has; [apply operands_written in PO; contradiction|discriminate]. }
  assert (WR : In (o_mode o1) written /\ In (o_mode o2) written /\ In (o_mode o3) written).
  { destruct has; [now apply operands_written in PO|]. injection PO as <- <- <- _. cbn. auto. }
  clear PO. destruct WR as (W1 & W2 & W3). cbv zeta in IM.
  destruct (mc6800_searchName ty name (o_mode o1) (o_mode o2) (o_mode o3)) as [[e' found]| | | |] eqn:SN; cbn [bind] in IM; try discriminate.
  change (i_err (new_insn addr)) with OK in IM.
  destruct (isOK (setErrorIfAt OK e')) eqn:CK; cbn [negb] in IM; [|injection IM as <- _; cbn [i_seterr i_err] in E; rewrite E in CK; discriminate].
  apply isOK_e in CK. apply seterr_ok in CK. destruct CK as (_ & ->).
  destruct found as [[p en]|]; [|exfalso; eapply search_none, SN].
  destruct (search_in _ _ _ _ _ _ _ SN) as (AC & UN & _ & q & IQ & IP & IE). unfold acceptModes in AC. rewrite !andb_true_iff in AC. destruct AC as ((A1 & A2) & A3).
  assert (IMM : o_mode o1 = M_IM16 -> generic (e_m1 en) = true -> immediate ty en = true) by (intros Q _; rewrite Q in SN; eapply immediate_ok; [exact T|exact W2|exact W3|exact SN]).
  clear SN.
  pose proof emits_all as CH. rewrite forallb_forall in CH. specialize (CH ty T). rewrite forallb_forall in CH. specialize (CH q IQ). rewrite forallb_forall in CH. specialize (CH en IE). rewrite IP in CH. clear q IQ IP IE.
  unfold emits in CH. rewrite UN in CH. cbn [orb] in CH. rewrite !andb_true_iff in CH. destruct CH as (((B0 & PI) & PX) & CH).
  assert (INP : In p prefixes) by (apply existsb_exists in PI; destruct PI as (y & Y & EQ); apply Z.eqb_eq in EQ; now subst y).
  assert (BP : byte p) by (clear - INP; unfold byte; cbn in INP; lia).
  assert (DONE : forall n err o s, (length n <= 6)%nat -> byte o ->
    (let ai := ai_emitInsn (mkAI (part addr (base p) n) err p o) in Val (i_seterr (ai_err ai) (ai_insn ai), s)) = Val (i, rest) -> err = OK /\ i = canon addr (opcode_bytes p o ++ n)).
  { intros n er o s L O Q. destruct (part_done p o addr n BP O ltac:(lia)) as (D1 & D2). unfold ai_emitInsn, base, opcode_bytes, ai_set in *. cbn [ai_prefix ai_insn ai_err ai_opc] in Q.
    destruct (negb (p =? 0)); cbn [ai_prefix ai_insn ai_err ai_opc app] in Q; [rewrite D2 in Q|rewrite D1 in Q];
    injection Q as Q _; (assert (ER : er = OK) by (rewrite <- Q in E; exact E)); (split; [exact ER|]); rewrite <- Q, ER; reflexivity. }
  assert (ERR : forall n err o s, (let ai := ai_emitInsn (mkAI (part addr (base p) n) err p o) in Val (i_seterr (ai_err ai) (ai_insn ai), s)) = Val (i, rest) -> err = OK).
  { intros n er o s Q. unfold ai_emitInsn, ai_set in Q. cbn [ai_prefix ai_insn ai_err ai_opc] in Q. destruct (negb (p =? 0)); cbn [ai_prefix ai_insn ai_err ai_opc] in Q; injection Q as Q _; rewrite <- Q in E; exact E. }
  change (new_insn addr) with (part addr (base p) []) in IM.
  destruct (emitOperand (e_m1 en) o1 _) as [i1| | | |] eqn:X1; cbn [bind] in IM; try discriminate.
  destruct (emit_form (immediate ty en) (e_m1 en) o1 addr p [] _ (e_opc en) i1 AR ltac:(cbn; lia) W1 A1 IMM X1) as (e1 & p1 & n1 & -> & BN1 & L1 & Q1). clear X1. cbn [app] in IM, Q1.
  destruct (emitOperand (e_m2 en) o2 _) as [i2| | | |] eqn:X2; cbn [bind] in IM; try discriminate.
  destruct (emit_form true (e_m2 en) o2 addr p n1 e1 p1 i2 AR ltac:(lia) W2 A2 ltac:(reflexivity) X2) as (e2 & p2 & n2 & -> & BN2 & L2 & Q2). clear X2.
  destruct (emitOperand (e_m3 en) o3 _) as [i3| | | |] eqn:X3; cbn [bind] in IM; try discriminate.
  destruct (emit_form true (e_m3 en) o3 addr p (n1 ++ n2) e2 p2 i3 AR ltac:(rewrite app_length; lia) W3 A3 ltac:(reflexivity) X3) as (e3 & o & n3 & -> & BN3 & L3 & Q3). clear X3.
  destruct (Q3 (ERR _ _ _ _ IM)) as (E2 & K3 & I3 & S3). destruct (Q2 E2) as (E1 & K2 & I2 & S2). destruct (Q1 E1) as (E0 & K1 & I1 & S1).
  rewrite forallb_forall in CH. specialize (CH _ I1). cbv beta iota in CH. rewrite forallb_forall in CH. specialize (CH _ I2). cbv beta iota in CH. rewrite forallb_forall in CH. specialize (CH _ I3). cbv beta iota in CH.
  rewrite !andb_true_iff in CH. destruct CH as (((BO & NP) & RO) & CH). unfold is_byte in BO. assert (O : byte o) by (unfold byte; lia).
  destruct (look ty p o) as [[ee al]|] eqn:LK; [|discriminate]. rewrite !andb_true_iff in CH. destruct CH as (((UE & C1) & C2) & C3). apply negb_true_iff in UE.
  destruct (DONE ((n1 ++ n2) ++ n3) e3 o (skipSpaces s0) ltac:(rewrite !app_length; lia) O IM) as (_ & II). rewrite II, canon_code, app_length, opcode_length in FIT. rewrite !app_length in FIT. rewrite !app_length in S3. rewrite app_length in S2. cbn [app length] in S1.
  rewrite <- app_assoc in II. rewrite Nat.add_0_r in S1. unfold rel_ok in RO.
  assert (RR : p = 0 \/ is_rel K1 = false /\ (is_rel K2 = true -> kwidth K1 <> 0%nat) /\ (is_rel K3 = true -> (kwidth K1 + kwidth K2)%nat <> 0%nat)).
  { clear - RO. destruct (Z.eqb_spec p 0) as [->|]; [now left|]. cbn [orb] in RO. rewrite !andb_true_iff in RO. destruct RO as ((R1 & R2) & R3). right. split; [now apply negb_true_iff|].
    split; intros Q; rewrite Q in *; cbn [negb orb] in *; lia. }
  clear RO.
  specialize (S1 ltac:(lia) ltac:(intros Q; destruct RR as [RR|(RR & _)]; [now left|rewrite RR in Q; discriminate])). pose proof (sat_len _ _ _ _ S1) as N1.
  specialize (S2 ltac:(lia) ltac:(intros Q; destruct RR as [RR|(_ & RR & _)]; [now left|right; intros ->; specialize (RR Q); cbn in N1; lia])). pose proof (sat_len _ _ _ _ S2) as N2.
  specialize (S3 ltac:(lia) ltac:(intros Q; destruct RR as [RR|(_ & _ & RR)]; [now left|right; intros NN; apply app_eq_nil in NN; destruct NN as (-> & ->); specialize (RR Q); cbn in N1, N2; lia])).
  apply (kind_sat _ _ _ _ _ C1) in S1. apply (kind_sat _ _ _ _ _ C2) in S2. apply (kind_sat _ _ _ _ _ C3) in S3. rewrite Nat.add_assoc in S3.
  exists p, o, (n1 ++ n2 ++ n3), ee, al. split; [exact INP|]. split.
  { clear - PX NP. destruct (Z.eqb_spec p 0) as [->|N]; [left|right]; cbn [negb orb] in *; split; auto. now apply negb_true_iff. }
  split; [exact O|]. split; [now rewrite !Forall_app|]. split.
  { rewrite !app_length, (sat_len _ _ _ _ S1), (sat_len _ _ _ _ S2), (sat_len _ _ _ _ S3). pose proof (chain_len ty p o T INP O) as CL. unfold n_chain in CL. rewrite LK, UE in CL. exact CL. }
  split; [exact II|]. split; [exact LK|]. split; [exact UE|]. exists n1, n2, n3. auto.
Qed.
Lemma mc6800_decodes d ty a line addr i rest m size : In ty types -> da_symtab d = None -> da_aw d = 16 -> printable (da_cursym d) -> brief_plugin (da_plug d) -> a_aw a = 16 -> 0 <= addr < 2^32 ->
  mc6800_encode ty a line addr = Val (L_insn i rest) -> i_err i = OK -> addr + Z.of_nat (length (i_code i)) <= 65536 -> Forall byte m -> 128 <= size ->
  i_addr i = addr /\ Forall byte (i_code i) /\ (1 <= length (i_code i) <= 5)%nat /\
  exists r, mc6800_decode d ty (i_code i ++ m) addr size = Val r /\ r_insn r = i.
Proof.
  intros T NS AW PC BP AA A H E FIT BM SZ. destruct (mc6800_emitted ty a line addr i rest T AA A H E FIT) as (CA & p & o & nb & e & al & IP & PO & BO & BN & LN & -> & LK & UE & S).
  assert (BY : byte p) by (clear - IP; unfold byte; cbn in IP; lia).
  assert (BC : Forall byte (opcode_bytes p o ++ nb)) by (apply Forall_app; split; [unfold opcode_bytes; destruct (negb _); cbn [app]; auto|exact BN]).
  rewrite canon_code. split; [reflexivity|]. split; [exact BC|]. split.
  { rewrite app_length. rewrite opcode_length in *. pose proof (base_le p). lia. }
  pose proof (fine_chain d NS BP AW PC ty p addr (base p) nb o e al T IP BO LK UE S) as FI. rewrite <- (opcode_length p o) in FI.
  destruct (fineOff_decode d (pfx ty) (decode_opcode d ty) (chain d ty) p o nb m addr size 127 PO BY BO) as (r & D & R); auto; try lia.
  - intros mem s W. eapply chain_start; eauto.
  - rewrite AW. exact CA.
  - exists r. split; [|exact R]. rewrite decode_eq; [now rewrite <- app_assoc|exact T|apply Forall_app; auto].
Qed.
