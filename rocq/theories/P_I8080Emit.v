(** What the assembler of the 8080 family emits is an instruction of its disassembler (C79). *)
From Coq Require Import String ZArith List Bool Lia ZifyBool.
From Verif Require Import M_Char M_Error M_Value M_Text M_StrBuffer M_Format M_Number M_Insn M_Config M_Operators
  M_Parsers M_Expr M_Directive M_Table M_Asm M_Dis M_I8080Defs T_I8080 M_I8080 S_Cpu P_StrBuffer P_Table P_Insn P_Config P_Value
  P_Room P_AsmText P_CpuShape P_CpuText P_CpuGood P_CpuSigned P_CpuFine P_I8080.
Import ListNotations.
Open Scope string_scope.
Open Scope list_scope.
Local Open Scope Z_scope.

Definition types : list Z := [I8080; I8085; V30EMU].
Definition both : list bool := [false; true].
Definition look (ty : Z) (zilog : bool) (p o : Z) : option entry := match i8080_searchOpCode ty zilog p o with Val r => r | _ => None end.
Definition n_of (e : entry) : nat := if e_dst e =? M_NONE then 0%nat else (Z.to_nat (width (e_dst e)) + if (e_src e =? M_NONE)%Z then 0 else Z.to_nat (width (e_src e)))%nat.

(* ------------------------------------------------------------ forms of operands *)
Definition entries_of (zilog : bool) := if zilog then ZILOG_ENTRIES else INTEL_ENTRIES.
Definition regs (zilog : bool) : list Z := map snd (entries_of zilog).
Definition ccs : list Z := map (fun e => encodeCcName (snd e)) CC_ENTRIES.
Definition forms (zilog : bool) : list (Z * Z) :=
  if zilog then
    [(M_NONE, REG_UNDEF); (R_C, REG_C); (M_CC, REG_UNDEF); (M_ABS, REG_UNDEF); (M_IM16, REG_UNDEF)] ++
    map (fun reg => (if (reg =? REG_B) || (reg =? REG_D) || (reg =? REG_E) || (reg =? REG_H) || (reg =? REG_L) then M_SRC else reg + R_BASE, reg)) (regs true) ++
    [(M_IDX, REG_BC); (M_IDX, REG_DE); (I_HL, REG_HL); (I_SP, REG_SP)]
  else
    [(M_NONE, REG_UNDEF); (M_IM16, REG_UNDEF)] ++
    map (fun reg => (if reg =? REG_H then R_H else if reg =? REG_SP then M_PTR else if reg =? REG_PSW then M_STK
                     else if (reg =? REG_B) || (reg =? REG_D) then M_IDX else M_SRC, reg)) (regs false).
Definition vecs (zilog : bool) : list Z := map (fun q => 8 * q) [0; 1; 2; 3; 4; 5; 6; 7].
Definition puts (zilog : bool) (mode reg : Z) : list Z :=
  if mode =? M_PTR then [Z.shiftl (encodePointerReg reg) 4]
  else if mode =? M_STK then [Z.shiftl (encodeStackReg reg) 4]
  else if mode =? M_IDX then [Z.shiftl (encodeIndexReg reg) 4]
  else if mode =? M_SRC then [encodeDataReg reg]
  else if mode =? M_DST then [Z.shiftl (encodeDataReg reg) 3]
  else if mode =? M_VEC then vecs zilog
  else if mode =? M_CC then map (fun c => Z.shiftl c 3) ccs
  else [0].
Definition accept (zilog : bool) : Z -> Z -> bool := if zilog then acceptZilogMode else acceptIntelMode.
Definition pages_of (ty : Z) (zilog : bool) : list epage := match cpu_pages ty zilog with Val p => p | _ => [] end.
Definition emits (ty : Z) (zilog : bool) (p : Z) (e : entry) : bool :=
  e_undef e && zilog ||
  (0 <=? e_opc e) && (e_opc e <? 256) && (width (e_dst e) + width (e_src e) <=? 2) && ((p =? 0) || (width (e_dst e) + width (e_src e) <=? 1)) && ((0 =? p) || i8080_isPrefix ty p && (p =? 0xED)) &&
  forallb (fun f1 => forallb (fun f2 =>
    forallb (fun x => forallb (fun y =>
      let o := u8 (Z.lor (u8 (Z.lor (e_opc e) x)) y) in
      match look ty zilog p o with
      | Some e' => (Z.of_nat (n_of e') =? width (e_dst e) + width (e_src e)) && (negb (p =? 0) || negb (i8080_isPrefix ty o))
      | None => false
      end)
      (puts zilog (e_src e) (snd f2))) (puts zilog (e_dst e) (snd f1)))
    (filter (fun f => accept zilog (fst f) (e_src e)) (forms zilog))) (filter (fun f => accept zilog (fst f) (e_dst e)) (forms zilog)).
Lemma emits_all : forallb (fun zilog => forallb (fun ty => forallb (fun p => forallb (emits ty zilog (p_info p)) (p_items p)) (pages_of ty zilog)) types) both = true.
Proof. vm_compute. reflexivity. Qed.

(* ------------------------------------------------------------ the disassembler *)
Lemma short_names (l : list (string * Z)) n t : forallb (fun e => (length (name_text e) <=? 3)%nat && forallb (fun c => (32 <=? c) && (c <=? 126)) (name_text e)) l = true ->
  name_of n l = Some t -> (length t <= 3)%nat /\ Forall printable t.
Proof.
  intros H N. unfold name_of in N. destruct (searchByNumber _ _ _) as [k|]; [|discriminate]. destruct (nth_error l k) as [e|] eqn:NE; [|discriminate]. injection N as <-.
  apply nth_error_In in NE. rewrite forallb_forall in H. specialize (H e NE). apply andb_prop in H. destruct H as (H1 & H2). apply Nat.leb_le in H1. split; [exact H1|]. now apply printable_text.
Qed.
Lemma reg_adds n ind b : adds 5 b (outRegName n ind b).
Proof.
  rewrite outReg_text. assert (Q : (length (reg_text n ind) <= 5)%nat /\ Forall printable (reg_text n ind)).
  { unfold reg_text. destruct (name_of n ZILOG_ENTRIES) as [t|] eqn:N; [|cbn; split; [lia|constructor]].
    apply short_names in N; [|vm_compute; reflexivity]. destruct N as (L & P). destruct ind; [|split; [lia|exact P]]. split; [cbn [length]; rewrite app_length; cbn [length]; lia|].
    constructor; [unfold printable; lia|]. apply Forall_app. split; [exact P|]. constructor; [unfold printable; lia|constructor]. }
  destruct Q as (L & P). apply (adds_le (Z.of_nat (length (reg_text n ind)))); [lia|]. now apply adds_text.
Qed.
Lemma cc_adds n b : adds 5 b (outCcName n b).
Proof.
  rewrite outCc_text. assert (Q : (length (cc_text n) <= 5)%nat /\ Forall printable (cc_text n)).
  { unfold cc_text. destruct (name_of n CC_ENTRIES) as [t|] eqn:N; [|cbn; split; [lia|constructor]].
    apply short_names in N; [|vm_compute; reflexivity]. destruct N as (L & P). split; [lia|exact P]. }
  destruct Q as (L & P). apply (adds_le (Z.of_nat (length (cc_text n)))); [lia|]. now apply adds_text.
Qed.
Lemma data_adds zilog n b : adds 5 b (outDataReg zilog n b).
Proof. unfold outDataReg. destruct (_ && _); apply reg_adds. Qed.
Lemma paren_adds zilog c b : printable c -> adds 1 b (paren zilog c b).
Proof. intros P. unfold paren. destruct zilog; [now apply adds_letter|apply adds_refl; lia]. Qed.
Section Dis.
Variable d : disasm.
Hypothesis NS : da_symtab d = None.
Hypothesis BP : brief_plugin (da_plug d).
Hypothesis AW : da_aw d = 16.
Lemma fine_operand zilog o mode : byte o -> fine (Z.to_nat (width mode)) 40 (decodeOperand d zilog o mode).
Proof.
  intros O. assert (V7 : 0 <= Z.land (Z.shiftr o 3) 7 <= 7) by apply land7.
  unfold decodeOperand, width.
  destruct (mode =? M_IM8) eqn:E1.
  { cbn [orb]. apply (fine_byte 0). intros v V. apply (fine_le _ 26); [lia|]. apply fine_print. apply prints_hex; auto; unfold byte in V; lia. }
  destruct (mode =? M_IOA) eqn:E2.
  { cbn [orb]. apply (fine_le _ (1 + (26 + 1))); [lia|]. apply (fine_seq 0 1 1 (26 + 1) (fun s => Val (t_put (paren zilog 40) s)) (fun s => let '(v, s) := t_byte s in bind (t_print (dis_outHex d v 8 false) s) (fun s => Val (t_put (paren zilog 41) s)))).
    - apply fine_put. intros b. apply paren_adds. unfold printable; lia.
    - apply (fine_byte 0). intros v V. apply (fine_seq 0 0 26 1); [apply fine_print; apply prints_hex; auto; unfold byte in V; lia|].
      apply fine_put. intros b. apply paren_adds. unfold printable; lia. }
  cbn [orb]. destruct (mode =? M_IM16) eqn:E3.
  { cbn [orb]. apply (fine_le16 0). intros v V. apply (fine_le _ 26); [lia|]. apply fine_print. apply prints_hex; auto; lia. }
  cbn [orb]. destruct (mode =? M_ABS) eqn:E4.
  { apply (fine_le _ (1 + (26 + 1))); [lia|]. apply (fine_seq 0 2 1 (26 + 1) (fun s => Val (t_put (paren zilog 40) s)) (fun s => let '(v, s) := t_uint16Le s in bind (t_print (outAbsAddr d v 0) s) (fun s => Val (t_put (paren zilog 41) s)))).
    - apply fine_put. intros b. apply paren_adds. unfold printable; lia.
    - apply (fine_le16 0). intros v V. apply (fine_seq 0 0 26 1); [apply fine_print; apply prints_abs; auto; lia|].
      apply fine_put. intros b. apply paren_adds. unfold printable; lia. }
  change (Z.to_nat 0) with 0%nat.
  repeat match goal with
  | |- fine _ _ (fun s => if ?b then _ else _) => destruct b; [first
      [apply (fine_le _ 5); [lia|apply fine_put; intros; first [apply reg_adds|apply cc_adds|apply data_adds]]|idtac]|]
  end.
  - apply (fine_le _ 26); [lia|]. apply fine_print. apply prints_hex; auto; lia.
  - apply (fine_le _ 26); [lia|]. apply fine_print. apply prints_hex; auto; lia.
  - apply (fine_le _ 0); [lia|]. apply fine_val.
Qed.
Definition chain (ty : Z) (zilog : bool) (p o : Z) : step :=
  match look ty zilog p o with
  | None => fun s => Val (t_setErrorIf UNKNOWN_INSTRUCTION s)
  | Some e => fun s => bind (Val (t_readName (entry_name e) s)) (fun s =>
      if e_dst e =? M_NONE then Val s
      else bind (decodeOperand d zilog o (e_dst e) s) (fun s =>
        if e_src e =? M_NONE then Val s else bind (Val (t_put comma s)) (decodeOperand d zilog o (e_src e))))
  end.
Lemma chain_start ty zilog p o s : In ty types -> In p [0; 0xED] -> byte o -> decode_opcode d ty zilog p o s = chain ty zilog p o (t_seterr OK s).
Proof.
  intros T P O. unfold decode_opcode, chain, look. cbv zeta. destruct (search_val ty zilog p o T P O) as (r & ->). cbn [bind]. destruct r; reflexivity.
Qed.
Lemma width_pos m : 0 <= width m.
Proof. unfold width. destruct (_ || _); [lia|]. destruct (_ || _); lia. Qed.
Lemma fine_chain ty zilog p o e : byte o -> look ty zilog p o = Some e -> fine (n_of e) 82 (chain ty zilog p o).
Proof.
  intros O L. unfold n_of, chain, entry_width. rewrite L. change 82 with (0 + 82).
  apply (fine_seq 0 _ 0 82 (fun s => Val (t_readName (entry_name e) s))); [apply fine_name|].
  destruct (Z.eqb_spec (e_dst e) M_NONE) as [_|_]; [apply (fine_le _ 0); [lia|]; apply fine_val|].
  change 82 with (40 + (2 + 40)).
  apply (fine_seq _ _ 40 (2 + 40)); [now apply fine_operand|]. destruct (Z.eqb_spec (e_src e) M_NONE) as [_|_].
  - apply (fine_le _ 0); [lia|]. apply fine_val.
  - apply (fine_seq 0 _ 2 40 (fun s => Val (t_put comma s))); [apply fine_put; apply comma_adds|now apply fine_operand].
Qed.
End Dis.

(* ------------------------------------------------------------ the assembler: operands *)
Lemma reg_in zilog s r t : parseRegName zilog s = Val (r, t) -> r = REG_UNDEF \/ In r (regs zilog).
Proof.
  unfold parseRegName. fold (entries_of zilog). cbv zeta. destruct (searchText name_text s (entries_of zilog)) as [[[k|] u]| | | |]; cbn [bind]; try discriminate; intros H; [|injection H as <- _; now left].
  destruct (item_at (entries_of zilog) k) as [e| | | |] eqn:IA; cbn [bind] in H; try discriminate. injection H as <- _. right. apply in_map. eapply item_in, IA.
Qed.
Lemma cc_in s c t : parseCcName s = Val (c, t) -> c = CC_UNDEF \/ In (encodeCcName c) ccs.
Proof.
  unfold parseCcName. destruct (searchText name_text s CC_ENTRIES) as [[[k|] u]| | | |]; cbn [bind]; try discriminate; intros H; [|injection H as <- _; now left].
  destruct (item_at CC_ENTRIES k) as [e| | | |] eqn:IA; cbn [bind] in H; try discriminate. injection H as <- _. right. unfold ccs. apply (in_map (fun e => encodeCcName (snd e))). eapply item_in, IA.
Qed.
Definition formed (zilog : bool) (op : operand) : Prop := o_err op = OK ->
  In (o_mode op, o_reg op) (forms zilog) /\ (o_mode op = M_CC \/ o_mode op = R_C -> zilog = true -> In (u16 (getUnsigned (o_val op))) ccs).
Lemma cc_val c : In c ccs -> In (u16 (getUnsigned (setUnsigned c))) ccs.
Proof. intros I. assert (H : forallb (fun c => existsb (Z.eqb (u16 (getUnsigned (setUnsigned c)))) ccs) ccs = true) by (vm_compute; reflexivity). rewrite forallb_forall in H. specialize (H c I). apply existsb_exists in H. destruct H as (x & X & E). apply Z.eqb_eq in E. now rewrite E. Qed.
Lemma plain_form zilog op : In (o_mode op, o_reg op) (forms zilog) -> o_mode op <> M_CC -> o_mode op <> R_C -> formed zilog op.
Proof. intros I N1 N2 _. split; [exact I|]. intros [C|C]; contradiction. Qed.
Lemma error_form zilog op : hasError (o_err op) = true -> formed zilog op.
Proof. intros H E. rewrite E in H. discriminate. Qed.
Ltac done H := injection H as <- _; first [apply error_form; assumption|apply error_form; reflexivity|apply plain_form; [cbn; tauto|discriminate|discriminate]|idtac].
Lemma zilog_form a loc scan op t : parseZilogOperand a loc scan = Val (op, t) -> formed true op.
Proof.
  unfold parseZilogOperand. cbv zeta. destruct (p_eol _ _) as [eol p]. destruct eol; [intros H; done H|].
  destruct (parseRegName true p) as [[r u]| | | |] eqn:PR; cbn [bind]; try discriminate. apply reg_in in PR.
  destruct (r =? REG_C) eqn:RC.
  { intros H. done H. intros _. split; [cbn; tauto|]. intros _ _. apply cc_val. vm_compute. tauto. }
  destruct (parseCcName p) as [[c w]| | | |] eqn:PC; cbn [bind]; try discriminate. apply cc_in in PC.
  destruct (Z.eqb_spec c CC_UNDEF) as [_|NC]; cbn [negb].
  2:{ destruct PC as [->|PC]; [contradiction|]. intros H. done H. intros _. split; [cbn; tauto|]. intros _ _. now apply cc_val. }
  destruct (Z.eqb_spec r REG_UNDEF) as [U|U]; cbn [negb].
  2:{ destruct PR as [->|PR]; [contradiction|]. intros H. injection H as <- _. intros _. cbn [o_mode o_reg o_val]. split.
      - unfold forms. apply in_or_app. right. apply in_or_app. left. apply in_map_iff. exists r. auto.
      - intros C _. exfalso. clear - C RC PR. assert (X : forallb (fun r => (r =? REG_C) || let m := if (r =? REG_B) || (r =? REG_D) || (r =? REG_E) || (r =? REG_H) || (r =? REG_L) then M_SRC else r + R_BASE in negb (m =? M_CC) && negb (m =? R_C)) (regs true) = true) by (vm_compute; reflexivity).
        rewrite forallb_forall in X. specialize (X r PR). rewrite RC in X. cbv zeta in X. cbn [orb] in X. apply andb_prop in X. lia. }
  destruct (expect_char 40 p) as [q|].
  2:{ destruct (parseInteger a loc p OK 0) as [[[v e] z]| | | |]; cbn [bind]; try discriminate. destruct (hasError e) eqn:HE; intros H; done H. }
  destruct (parseRegName true (skipSpaces q)) as [[r2 u2]| | | |]; cbn [bind]; try discriminate. destruct (r2 =? REG_UNDEF).
  - destruct (parseInteger a loc (skipSpaces q) OK 41) as [[[v e] z]| | | |]; cbn [bind]; try discriminate. destruct (hasError e) eqn:HE; [intros H; done H|].
    destruct (expect_char 41 (skipSpaces z)); intros H; done H.
  - destruct (expect_char 41 (skipSpaces u2)); [|intros H; done H]. destruct ((r2 =? REG_BC) || (r2 =? REG_DE)) eqn:K1.
    { intros H. rewrite orb_true_iff, !Z.eqb_eq in K1. destruct K1 as [->| ->]; (injection H as <- _; apply plain_form; [vm_compute; tauto|discriminate|discriminate]). }
    destruct ((r2 =? REG_HL) || (r2 =? REG_SP)) eqn:K2; [|intros H; done H].
    intros H. rewrite orb_true_iff, !Z.eqb_eq in K2. destruct K2 as [->| ->]; (injection H as <- _; apply plain_form; [vm_compute; tauto|discriminate|discriminate]).
Qed.
Lemma intel_form a loc scan op t : parseIntelOperand a loc scan = Val (op, t) -> formed false op.
Proof.
  unfold parseIntelOperand. cbv zeta. destruct (p_eol _ _) as [eol p]. destruct eol; [intros H; done H|].
  destruct (parseRegName false p) as [[r u]| | | |] eqn:PR; cbn [bind]; try discriminate. apply reg_in in PR.
  destruct (Z.eqb_spec r REG_UNDEF) as [U|U]; cbn [negb].
  - destruct (parseInteger a loc p OK 0) as [[[v e] z]| | | |]; cbn [bind]; try discriminate. destruct (hasError e) eqn:HE; intros H; done H.
  - destruct PR as [->|PR]; [contradiction|]. intros H. injection H as <- _. intros _. cbn [o_mode o_reg]. split; [|discriminate].
    unfold forms. apply in_or_app. right. apply in_map_iff. exists r. auto.
Qed.
Lemma parse_form zilog a loc scan op t : parseOperand zilog a loc scan = Val (op, t) -> formed zilog op.
Proof. destruct zilog; [apply zilog_form|apply intel_form]. Qed.

(* ------------------------------------------------------------ the assembler: bytes *)
Definition base (p : Z) : nat := if p =? 0 then 1 else 2.
Lemma part_operand addr p nb e o : ai_operandPos (mkAI (part addr (base p) nb) e p o) = Z.of_nat (base p + length nb).
Proof.
  unfold ai_operandPos, base. cbn [ai_insn ai_prefix]. rewrite part_len. destruct (Z.eqb_spec p 0) as [->|N]; cbn [negb andb];
  (destruct nb; cbn [length Nat.ltb Nat.leb]; [reflexivity|]; match goal with |- context [?x =? 0] => destruct (Z.eqb_spec x 0); lia end).
Qed.
Lemma emit8 z addr e p o nb : (length nb <= 6)%nat -> ai_emitOperand8 z (mkAI (part addr (base p) nb) e p o) = mkAI (part addr (base p) (nb ++ [z mod 256])) e p o.
Proof.
  intros L. unfold ai_emitOperand8. rewrite part_operand. cbn [ai_insn]. unfold ai_set. cbn [ai_err ai_prefix ai_opc].
  assert (X : byte (z mod 256)) by (apply Z.mod_pos_bound; lia).
  rewrite <- part_byte; [|exact X|unfold base; destruct (p =? 0); lia]. unfold emitByte_at. change (2^8) with 256. now rewrite Zmod_mod.
Qed.
Lemma emit16 z addr e p o nb : 0 <= z < 65536 -> (length nb <= 6)%nat -> ai_emitOperand16 z (mkAI (part addr (base p) nb) e p o) = mkAI (part addr (base p) (nb ++ [z mod 256; z / 256])) e p o.
Proof.
  intros R L. unfold ai_emitOperand16. rewrite part_operand. cbn [ai_insn]. unfold ai_set. cbn [ai_err ai_prefix ai_opc].
  assert (X : byte (z mod 256)) by (apply Z.mod_pos_bound; lia). assert (Y : byte (z / 256)) by (unfold byte; split; [apply Z.div_pos; lia|apply Z.div_lt_upper_bound; lia]).
  rewrite <- (part_le (z mod 256) (z / 256)); [|exact Y|exact X|unfold base; destruct (p =? 0); lia]. replace (z mod 256 + 256 * (z / 256)) with z by (pose proof (Z.div_mod z 256); lia). reflexivity.
Qed.
Lemma land_mid z n k : 0 <= n -> 0 <= k -> Z.land z (Z.shiftl (Z.ones k) n) = (z / 2^n) mod 2^k * 2^n.
Proof.
  intros N K. rewrite <- Z.land_ones, <- Z.shiftr_div_pow2, <- Z.shiftl_mul_pow2 by lia. apply Z.bits_inj'. intros i I.
  rewrite Z.land_spec, !Z.shiftl_spec, Z.land_spec by lia. destruct (Z.ltb_spec i n).
  - rewrite !(Z.testbit_neg_r _ (i - n)) by lia. now rewrite andb_false_r.
  - rewrite Z.shiftr_spec by lia. now replace (i - n + n) with i by lia.
Qed.
Lemma vec_in z : In (Z.shiftl (Z.land z 7) 3) (vecs false).
Proof.
  change 7 with (Z.ones 3). rewrite Z.land_ones, Z.shiftl_mul_pow2 by lia. apply in_map_iff. set (q := z mod 2^3). exists q. split; [change (2^3) with 8; lia|].
  assert (0 <= q < 8) by (apply Z.mod_pos_bound; lia). cbn. lia.
Qed.
Lemma vec_in_z z : 0 <= z < 65536 -> Z.land z (Z.lnot 0x38) = 0 -> In z (vecs true).
Proof.
  intros R H. assert (X : z = Z.land z 0x38).
  { transitivity (Z.land z (-1)); [now rewrite Z.land_m1_r|]. change (-1) with (Z.lor (Z.lnot 0x38) 0x38). rewrite Z.land_lor_distr_r, H. apply Z.lor_0_l. }
  change 0x38 with (Z.shiftl (Z.ones 3) 3) in X. rewrite land_mid in X by lia. set (q := (z / 2^3) mod 2^3) in X. apply in_map_iff. exists q. split; [change (2^3) with 8 in X; lia|].
  assert (0 <= q < 8) by (apply Z.mod_pos_bound; lia). cbn. lia.
Qed.
Lemma emit_form zilog mode op addr p nb e o : byte o -> width mode + Z.of_nat (length nb) <= 2 -> (mode = M_CC -> o_err op = OK -> In (u16 (getUnsigned (o_val op))) ccs) ->
  exists x e' nb', encodeOperand zilog op mode (mkAI (part addr (base p) nb) e p o) = mkAI (part addr (base p) (nb ++ nb')) e' p (u8 (Z.lor o x)) /\
    Z.of_nat (length nb') = width mode /\ Forall byte nb' /\ (e' = OK -> e = OK /\ o_err op = OK /\ In x (puts zilog mode (o_reg op))).
Proof.
  intros O LN CC. assert (NO : u8 (Z.lor o 0) = o) by (rewrite Z.lor_0_r; unfold u8; apply Z.mod_small; exact O).
  assert (V16 : 0 <= u16 (getUnsigned (o_val op)) < 65536) by (apply Z.mod_pos_bound; lia).
  assert (L6 : (length nb <= 6)%nat) by (pose proof (width_pos mode); lia).
  unfold encodeOperand. cbv zeta. change (ai_setErrorIf (o_err op) (mkAI (part addr (base p) nb) e p o)) with (mkAI (part addr (base p) nb) (setErrorIfAt e (o_err op)) p o).
  set (e1 := setErrorIfAt e (o_err op)). assert (E1 : e1 = OK -> e = OK /\ o_err op = OK) by apply seterr_ok. clearbody e1.
  set (w := u16 (getUnsigned (o_val op))) in *. clearbody w.
  assert (STEP : forall x, In x (puts zilog mode (o_reg op)) -> width mode = 0 -> exists x' e' nb', ai_embed x (mkAI (part addr (base p) nb) e1 p o) = mkAI (part addr (base p) (nb ++ nb')) e' p (u8 (Z.lor o x')) /\
    Z.of_nat (length nb') = width mode /\ Forall byte nb' /\ (e' = OK -> e = OK /\ o_err op = OK /\ In x' (puts zilog mode (o_reg op)))).
  { intros x I W. exists x, e1, []. rewrite app_nil_r, W. repeat split; auto; apply E1; assumption. }
  destruct (Z.eqb_spec mode M_IOA) as [->|N1].
  { assert (G : forall i ee, i = mkAI (part addr (base p) nb) ee p o -> (ee = OK -> e1 = OK) -> exists x e' nb', ai_emitOperand8 w (if overflowUint8 (o_val op) then ai_setErrorIf OVERFLOW_RANGE i else i) = mkAI (part addr (base p) (nb ++ nb')) e' p (u8 (Z.lor o x)) /\
      Z.of_nat (length nb') = width M_IOA /\ Forall byte nb' /\ (e' = OK -> e = OK /\ o_err op = OK /\ In x (puts zilog M_IOA (o_reg op)))).
    { intros i ee -> EE. exists 0, (if overflowUint8 (o_val op) then setErrorIfAt ee OVERFLOW_RANGE else ee), [w mod 256]. rewrite NO. split; [destruct (overflowUint8 _); apply emit8; exact L6|].
      split; [reflexivity|]. split; [constructor; [apply Z.mod_pos_bound; lia|constructor]|]. intros H. assert (K : ee = OK) by (destruct (overflowUint8 _); [apply seterr_ok in H; tauto|exact H]). apply EE, E1 in K. split; [tauto|]. split; [tauto|]. now left. }
    destruct (overflow _ _ _); eapply G; try reflexivity; auto. intros H. apply seterr_ok in H. tauto. }
  destruct (Z.eqb_spec mode M_IM8) as [->|N2].
  { exists 0, (if overflowUint8 (o_val op) then setErrorIfAt e1 OVERFLOW_RANGE else e1), [w mod 256]. rewrite NO. split; [destruct (overflowUint8 _); apply emit8; exact L6|].
    split; [reflexivity|]. split; [constructor; [apply Z.mod_pos_bound; lia|constructor]|]. intros H. assert (K : e1 = OK) by (destruct (overflowUint8 _); [apply seterr_ok in H; tauto|exact H]). apply E1 in K. split; [tauto|]. split; [tauto|]. now left. }
  destruct ((mode =? M_IM16) || (mode =? M_ABS)) eqn:C3.
  { exists 0, e1, [w mod 256; w / 256]. rewrite NO. split; [now apply emit16|].
    split; [rewrite orb_true_iff, !Z.eqb_eq in C3; destruct C3 as [->| ->]; reflexivity|]. split.
    { constructor; [apply Z.mod_pos_bound; lia|]. constructor; [|constructor]. split; [apply Z.div_pos; lia|apply Z.div_lt_upper_bound; lia]. }
    intros H. apply E1 in H. split; [tauto|]. split; [tauto|]. rewrite orb_true_iff, !Z.eqb_eq in C3; destruct C3 as [->| ->]; now left. }
  assert (W0 : width mode = 0) by (unfold width; replace (mode =? M_IM8) with false by lia; replace (mode =? M_IOA) with false by lia; cbn [orb]; now rewrite C3).
  unfold puts in STEP |- *.
  destruct (mode =? M_PTR); [apply STEP; [now left|exact W0]|]. destruct (mode =? M_STK); [apply STEP; [now left|exact W0]|].
  destruct (mode =? M_IDX); [apply STEP; [now left|exact W0]|]. destruct (mode =? M_SRC); [apply STEP; [now left|exact W0]|]. destruct (mode =? M_DST); [apply STEP; [now left|exact W0]|].
  destruct (mode =? M_VEC).
  { destruct zilog.
    - destruct (Z.eqb_spec (Z.land w (Z.lnot 0x38)) 0) as [Z0|Z0]; cbn [negb].
      + exact (STEP w (vec_in_z w V16 Z0) W0).
      + eexists; exists (setErrorIfAt e1 ILLEGAL_OPERAND), []. rewrite app_nil_r, W0. split; [reflexivity|]. split; [reflexivity|]. split; [constructor|]. intros H. apply seterr_ok in H. destruct H; discriminate.
    - exists (Z.shiftl (Z.land w 7) 3), (if overflow (o_val op) 7 0 then setErrorIfAt e1 OVERFLOW_RANGE else e1), []. rewrite app_nil_r, W0. split; [destruct (overflow _ _ _); reflexivity|]. split; [reflexivity|]. split; [constructor|].
      intros H. assert (K : e1 = OK) by (destruct (overflow _ _ _); [apply seterr_ok in H; tauto|exact H]). apply E1 in K. split; [tauto|]. split; [tauto|]. apply vec_in. }
  destruct (Z.eqb_spec mode M_CC) as [->|_].
  { exists (Z.shiftl w 3), e1, []. rewrite app_nil_r, W0. split; [reflexivity|]. split; [reflexivity|]. split; [constructor|]. intros H. apply E1 in H. destruct H as (H1 & H2). split; [exact H1|]. split; [exact H2|].
    apply (in_map (fun c => Z.shiftl c 3)). now apply CC. }
  exists 0, e1, []. rewrite app_nil_r, NO, W0. split; [reflexivity|]. split; [reflexivity|]. split; [constructor|]. intros H. apply E1 in H. split; [tauto|]. split; [tauto|]. now left.
Qed.

(* ------------------------------------------------------------ all instructions *)
Lemma search_in ty zilog name dst src e' p e : i8080_searchName ty zilog name dst src = Val (e', Some (p, e)) -> e' = OK ->
  exists pg, In pg (pages_of ty zilog) /\ p = p_info pg /\ In e (p_items pg) /\ acceptModes zilog dst src e = true /\ zilog && e_undef e = false.
Proof.
  unfold i8080_searchName, pages_of. destruct (cpu_pages ty zilog) as [pages| | | |]; cbn [bind]; try discriminate.
  destruct (searchName entry_name name _ pages) as [[pg k|er]| | | |] eqn:SN; cbn [bind]; try discriminate.
  destruct (searchName_found _ _ _ _ _ _ SN) as (q & x & NP & NE & _ & AC).
  assert (I1 : @item_at epage pages pg = Val q) by (unfold item_at; change (@nth_error epage pages pg) with (@nth_error (M_Table.page Z entry) pages pg); rewrite NP; reflexivity).
  rewrite I1. cbn [bind]. unfold item_at. rewrite NE. cbn [bind]. intros H E. injection H as H <- <-.
  exists q. split; [eapply nth_error_In, NP|]. split; [reflexivity|]. split; [eapply nth_error_In, NE|]. split; [exact AC|]. destruct (zilog && e_undef x); [subst e'; discriminate|reflexivity].
Qed.
Lemma search_some ty zilog name dst src : i8080_searchName ty zilog name dst src = Val (OK, None) -> False.
Proof.
  unfold i8080_searchName. destruct (cpu_pages ty zilog) as [pages| | | |]; cbn [bind]; try discriminate. destruct (searchName _ _ _ pages) as [[pg k|er]| | | |] eqn:X; cbn [bind]; try discriminate.
  - destruct (item_at pages pg) as [p| | | |]; cbn [bind]; try discriminate. destruct (item_at (p_items p) k) as [x| | | |]; cbn [bind]; discriminate.
  - intros H. injection H as ->. apply (searchName_miss _ _ _ _ _ X eq_refl).
Qed.
Lemma accept_cc zilog m : accept zilog m M_CC = true -> m = M_CC \/ zilog = true /\ m = R_C.
Proof.
  unfold accept, acceptZilogMode, acceptIntelMode. destruct zilog; repeat match goal with |- context [if ?b then _ else _] => destruct b eqn:? end; intros H; try discriminate; vm_compute in H; try discriminate; lia.
Qed.
Lemma i8080_emitted ty zilog a line addr i rest : In ty types -> i8080_encode ty zilog a line addr = Val (L_insn i rest) -> i_err i = OK ->
  checkAddr (a_aw a) addr false = OK /\ exists p o nb e, In p [0; 0xED] /\ (p = 0 /\ i8080_isPrefix ty o = false \/ p <> 0 /\ i8080_isPrefix ty p = true) /\ byte o /\ Forall byte nb /\
    i = canon addr (P_CpuGood.opcode_bytes p o ++ nb) /\ look ty zilog p o = Some e /\ n_of e = length nb /\ (length (P_CpuGood.opcode_bytes p o ++ nb) <= 3)%nat.
Proof.
  intros T H E. destruct (encode_inv _ _ _ _ _ _ _ _ H E) as (CA & name & scan & IM). split; [exact CA|]. clear H.
  unfold i8080_encodeImpl in IM. destruct (parseOperand zilog a addr scan) as [[o1 s1]| | | |] eqn:P1; cbn [bind] in IM; try discriminate.
  destruct (hasError (o_err o1)) eqn:H1; [injection IM as <- _; cbn [i_seterr i_err] in E; rewrite E in H1; discriminate|]. cbv zeta in IM. apply parse_form in P1.
  assert (Q : exists o2 s2, formed zilog o2 /\ bind (i8080_searchName ty zilog name (o_mode o1) (o_mode o2)) (fun '(e, found) =>
          let err := setErrorIfAt (i_err (new_insn addr)) e in
          if negb (isOK err) then Val (i_seterr err (new_insn addr), s2)
          else
            match found with
            | None => Val (new_insn addr, s2)
            | Some (prefix, e) =>
              let ai := mkAI (new_insn addr) OK prefix (e_opc e) in
              let ai := encodeOperand zilog o1 (e_dst e) ai in
              let ai := encodeOperand zilog o2 (e_src e) ai in
              let ai := ai_emitInsn ai in
              Val (i_seterr (ai_err ai) (ai_insn ai), s2)
            end) = Val (i, rest)).
  { destruct (expect_char 44 (skipSpaces s1)) as [s2|].
    - destruct (parseOperand zilog a addr s2) as [[o2 s3]| | | |] eqn:P2; cbn [bind] in IM; try discriminate. exists o2, (skipSpaces s3). split; [eapply parse_form, P2|exact IM].
    - cbn [bind] in IM. exists no_operand, (skipSpaces s1). split; [|exact IM]. apply plain_form; [destruct zilog; cbn; tauto|discriminate|discriminate]. }
  destruct Q as (o2 & s2 & P2 & Q). clear IM.
  destruct (i8080_searchName ty zilog name (o_mode o1) (o_mode o2)) as [[e' found]| | | |] eqn:SN; cbn [bind] in Q; try discriminate.
  change (i_err (new_insn addr)) with OK in Q. cbv zeta in Q.
  destruct (isOK (setErrorIfAt OK e')) eqn:CK; cbn [negb] in Q; [|injection Q as <- _; cbn [i_seterr i_err] in E; rewrite E in CK; discriminate].
  apply isOK_e in CK. apply seterr_ok in CK. destruct CK as (_ & ->).
  destruct found as [[p en]|]; [|exfalso; eapply search_some, SN].
  destruct (search_in ty zilog name _ _ _ _ _ SN eq_refl) as (pg & IP & -> & IE & AC & UD).
  pose proof emits_all as CH. rewrite forallb_forall in CH. specialize (CH zilog ltac:(destruct zilog; cbn; auto)). rewrite forallb_forall in CH. specialize (CH ty T). rewrite forallb_forall in CH. specialize (CH pg IP).
  rewrite forallb_forall in CH. specialize (CH en IE). unfold emits in CH. rewrite (andb_comm _ zilog), UD in CH. cbn [orb] in CH.
  rewrite !andb_true_iff in CH. destruct CH as (((((B0 & B1) & TK) & TK2) & PF) & CH).
  set (p := p_info pg) in *. unfold acceptModes in AC. fold (accept zilog) in AC. apply andb_prop in AC. destruct AC as (A1 & A2).
  change (new_insn addr) with (part addr (base p) []) in Q.
  assert (CC : forall op m, formed zilog op -> accept zilog (o_mode op) m = true -> m = M_CC -> o_err op = OK -> In (u16 (getUnsigned (o_val op))) ccs).
  { intros op m F A -> OE. destruct (F OE) as (IF & C). apply accept_cc in A. destruct zilog; [apply C; [tauto|reflexivity]|].
    exfalso. destruct A as [A|(A & _)]; [|discriminate]. rewrite A in IF. clear - IF. assert (X : forallb (fun f => negb (fst f =? M_CC)) (forms false) = true) by (vm_compute; reflexivity).
    rewrite forallb_forall in X. specialize (X _ IF). discriminate. }
  pose proof (width_pos (e_dst en)) as W1. pose proof (width_pos (e_src en)) as W2.
  destruct (emit_form zilog (e_dst en) o1 addr p [] OK (e_opc en) ltac:(unfold byte; lia) ltac:(cbn [length]; lia) (CC o1 _ P1 A1)) as (x1 & e1 & n1 & E1 & L1 & BN1 & K1).
  destruct (emit_form zilog (e_src en) o2 addr p n1 e1 (u8 (Z.lor (e_opc en) x1)) ltac:(apply Z.mod_pos_bound; lia) ltac:(lia) (CC o2 _ P2 A2)) as (x2 & e2 & n2 & E2 & L2 & BN2 & K2).
  rewrite E1 in Q. cbn [app] in Q. rewrite E2 in Q. set (o := u8 (Z.lor (u8 (Z.lor (e_opc en) x1)) x2)) in *. assert (BO : byte o) by (apply Z.mod_pos_bound; lia).
  assert (PE : In p [0; 0xED] /\ (p = 0 \/ p <> 0 /\ i8080_isPrefix ty p = true)).
  { apply orb_true_iff in PF. destruct PF as [PF|PF]; [apply Z.eqb_eq in PF; rewrite <- PF; cbn; auto|]. apply andb_prop in PF. destruct PF as (PF & PE). apply Z.eqb_eq in PE. rewrite PE in PF |- *. split; [cbn; auto|]. right. split; [lia|exact PF]. }
  assert (FIN : ai_emitInsn (mkAI (part addr (base p) (n1 ++ n2)) e2 p o) = mkAI (canon addr (P_CpuGood.opcode_bytes p o ++ (n1 ++ n2))) e2 p o).
  { assert (BPP : byte p) by (unfold byte; destruct PE as ([PE|[PE|[]]] & _); rewrite <- PE; lia). assert (LNN : (length (n1 ++ n2) <= 60)%nat) by (rewrite app_length; lia).
    destruct (part_done p o addr (n1 ++ n2) BPP BO LNN) as (D1 & D2).
    unfold ai_emitInsn, base, P_CpuGood.opcode_bytes. cbn [ai_prefix]. destruct (p =? 0); cbn [negb ai_insn ai_opc ai_set ai_err ai_prefix app]; [rewrite D1|rewrite D2]; reflexivity. }
  rewrite FIN in Q. cbn [ai_insn ai_err] in Q. injection Q as Q _. rewrite <- Q in E |- *. cbn [i_seterr i_err] in E. destruct (K2 E) as (K3 & K4 & I2). destruct (K1 K3) as (_ & K5 & I1).
  rewrite forallb_forall in CH. specialize (CH (o_mode o1, o_reg o1)). cbn [fst snd] in CH. rewrite filter_In in CH. cbn [fst] in CH. specialize (CH (conj (proj1 (P1 K5)) A1)).
  rewrite forallb_forall in CH. specialize (CH (o_mode o2, o_reg o2)). cbn [fst snd] in CH. rewrite filter_In in CH. cbn [fst] in CH. specialize (CH (conj (proj1 (P2 K4)) A2)).
  rewrite forallb_forall in CH. specialize (CH x1 I1). rewrite forallb_forall in CH. specialize (CH x2 I2). cbv zeta in CH. fold o in CH.
  destruct (look ty zilog p o) as [ee|] eqn:LK; [|discriminate]. apply andb_prop in CH. destruct CH as (NN & PX).
  exists p, o, (n1 ++ n2), ee. split; [tauto|]. split; [destruct PE as (_ & [->|PE]); [left; split; [reflexivity|]; cbn [Z.eqb negb orb] in PX; now apply negb_true_iff|right; exact PE]|].
  split; [exact BO|]. split; [now apply Forall_app|]. split; [rewrite E; reflexivity|]. split; [exact LK|]. split; [rewrite app_length; lia|].
  rewrite !app_length. unfold P_CpuGood.opcode_bytes. destruct (p =? 0) eqn:PZ; cbn [negb app length]; [lia|]. cbn [orb] in TK2. lia.
Qed.
Lemma i8080_decodes d ty zilog a line addr i rest m size : reads_as d -> brief_plugin (da_plug d) -> In ty types -> a_aw a = 16 ->
  i8080_encode ty zilog a line addr = Val (L_insn i rest) -> i_err i = OK -> Forall byte m -> 83 <= size ->
  i_addr i = addr /\ Forall byte (i_code i) /\ (1 <= length (i_code i) <= 3)%nat /\
  exists r, i8080_decode d ty zilog (i_code i ++ m) addr size = Val r /\ r_insn r = i.
Proof.
  intros (NS & _ & AW) BP T AA H E BM SZ. destruct (i8080_emitted ty zilog a line addr i rest T H E) as (CA & p & o & nb & e & IP & PO & BO & BN & -> & LK & NC & LL).
  rewrite canon_code. split; [reflexivity|]. assert (BPP : byte p) by (unfold byte; destruct IP as [<-|[<-|[]]]; lia).
  split; [apply Forall_app; split; [unfold P_CpuGood.opcode_bytes; destruct (negb _); cbn [app]; repeat constructor; unfold byte in *; lia|exact BN]|].
  split; [split; [unfold P_CpuGood.opcode_bytes; rewrite !app_length; cbn [length]; lia|exact LL]|].
  pose proof (fine_chain d NS BP AW ty zilog p o e BO LK) as FI. rewrite NC in FI.
  assert (LN : (length nb <= 60)%nat) by (rewrite app_length in LL; lia).
  destruct (fine_decode d (i8080_isPrefix ty) (decode_opcode d ty zilog) (chain d ty zilog) p o nb m addr size 82 PO BPP BO) as (r & D & R); auto; try lia.
  - intros mem s _. now apply chain_start.
  - rewrite AW, <- AA. exact CA.
  - exists r. split; [|exact R]. rewrite <- app_assoc. exact D.
Qed.
