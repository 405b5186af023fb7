(** What the assembler of the 8048 family emits is an instruction of its disassembler (C79). *)
From Coq Require Import String ZArith List Bool Lia ZifyBool.
From Verif Require Import M_Char M_Error M_Value M_Text M_StrBuffer M_Format M_Number M_Insn M_Config M_Operators
  M_Parsers M_Expr M_Directive M_Table M_Asm M_Dis M_I8048Defs T_I8048 M_I8048 S_Cpu P_StrBuffer P_Table P_Insn P_Config P_Value
  P_Room P_AsmText P_CpuShape P_CpuText P_CpuGood P_CpuFine P_I8048.
Import ListNotations.
Open Scope string_scope.
Open Scope list_scope.
Local Open Scope Z_scope.

(* ------------------------------------------------------------ the disassembler *)
Lemma reg_adds r b : adds 5 b (outRegName r b).
Proof.
  rewrite reg_out. assert (Q : (length (reg_text r) <= 5)%nat /\ Forall printable (reg_text r)).
  { unfold reg_text. destruct (name_of r REG_ENTRIES) as [t|] eqn:N; [|cbn; split; [lia|constructor]].
    assert (H : forallb (fun e => (length (name_text e) <=? 5)%nat && forallb (fun c => (32 <=? c) && (c <=? 126)) (name_text e)) REG_ENTRIES = true) by (vm_compute; reflexivity).
    assert (G : exists e, In e REG_ENTRIES /\ t = name_text e).
    { clear H. unfold name_of in N. destruct (searchByNumber _ _ _) as [k|]; [|discriminate]. destruct (nth_error REG_ENTRIES k) as [e|] eqn:NE; [|discriminate]. injection N as <-. exists e. split; [eapply nth_error_In, NE|reflexivity]. }
    destruct G as (e & IN & ->). rewrite forallb_forall in H. specialize (H e IN). apply andb_prop in H. destruct H as (H1 & H2). apply Nat.leb_le in H1. split; [exact H1|]. now apply printable_text. }
  destruct Q as (L & P). apply (adds_le (Z.of_nat (length (reg_text r)))); [lia|]. now apply adds_text.
Qed.
Lemma sign_adds c b : 32 <= c <= 126 -> adds 1 b (letter c b).
Proof. intros C. now apply adds_letter. Qed.
Lemma fine_reg r : fine 0 5 (fun s => Val (t_put (outRegName r) s)).
Proof. apply fine_put. apply reg_adds. Qed.
Lemma fine_ind r c : 32 <= c <= 126 -> fine 0 (1 + 5) (fun s => Val (t_put (outRegName r) (t_put (letter c) s))).
Proof. intros C. apply (fine_seq 0 0 1 5 (fun s => Val (t_put (letter c) s)) (fun s => Val (t_put (outRegName r) s))); [apply fine_put; intros b; now apply sign_adds|apply fine_reg]. Qed.
Section Dis.
Variable d : disasm.
Hypothesis NS : da_symtab d = None.
Hypothesis BP : brief_plugin (da_plug d).
Hypothesis AW : da_aw d = 12.
Lemma fine_operand o mode : byte o -> fine (kwidth (kind_of o mode)) 40 (decodeOperand d o mode).
Proof.
  intros O. unfold decodeOperand, kind_of. cbv zeta.
  repeat match goal with
  | |- fine _ _ (fun s => if ?b then _ else _) => destruct b; [first
      [apply (fine_le _ 5); [lia|apply fine_reg]|apply (fine_le _ (1 + 5)); [lia|apply fine_ind; lia]|idtac]|]
  end.
  - apply (fine_insn 1 40 (fun i s => let '(v, s) := t_byte s in t_print (outAbsAddr d (Z.lor (Z.ldiff (u32 (i_addr i + 1)) 255) v) 0) s)). intros i.
    apply (fine_byte 0). intros v V. apply (fine_le _ 26); [lia|]. apply fine_print. apply prints_abs; auto; try lia. apply page8_pos. exact V.
  - apply (fine_byte 0). intros v V. apply (fine_le _ 26); [lia|]. apply fine_print. apply prints_abs; auto; try lia.
    pose proof (jump11_range o v O V). unfold jump11 in *. lia.
  - apply (fine_le _ 26); [lia|]. apply fine_print. apply prints_dec; auto; try lia. pose proof (bitn_range o O). lia.
  - apply (fine_le _ (1 + 26)); [lia|]. apply (fine_seq 0 1 1 26 (fun s => Val (t_put (letter 35) s)) (fun s => let '(v, s) := t_byte s in t_print (dis_outDec d v 8) s)).
    + apply fine_put. intros b. apply sign_adds. lia.
    + apply (fine_byte 0). intros v V. apply fine_print. apply prints_dec; auto; unfold byte in V; lia.
  - apply (fine_le _ (1 + 26)); [lia|]. apply (fine_seq 0 1 1 26 (fun s => Val (t_put (letter 35) s)) (fun s => let '(v, s) := t_byte s in t_print (dis_outHex d v 8 false) s)).
    + apply fine_put. intros b. apply sign_adds. lia.
    + apply (fine_byte 0). intros v V. apply fine_print. apply prints_hex; auto; unfold byte in V; lia.
  - apply (fine_le _ 0); [lia|]. apply fine_val.
Qed.
Lemma fine_chain ty o e : byte o -> look ty o = Some e -> fine (n_chain ty o) 82 (chain d ty o).
Proof.
  intros O L. unfold n_chain, chain. rewrite L. change 82 with (0 + (40 + 42)).
  apply (fine_seq 0 _ 0 (40 + 42) (fun s => Val (t_readName (entry_name e) s))); [apply fine_name|].
  apply (fine_seq _ _ 40 42); [now apply fine_operand|]. unfold more_op. destruct (Z.eqb_spec (e_src e) M_NONE) as [->|_].
  - apply (fine_le _ 0); [lia|]. change (kwidth (kind_of o M_NONE)) with 0%nat. apply fine_val.
  - apply (fine_seq 0 _ 2 40 (fun s => Val (t_put comma s))); [apply fine_put; apply comma_adds|now apply fine_operand].
Qed.
End Dis.

(* ------------------------------------------------------------ the assembler: operands *)
Definition forms : list (Z * Z) := [(M_NONE, REG_UNDEF); (M_IMM8, REG_UNDEF); (M_AD11, REG_UNDEF)] ++
  flat_map (fun r => flat_map (fun ind => match register_operand ind r [] [] with Val (op, _) => if hasError (o_err op) then [] else [(o_mode op, o_reg op)] | _ => [] end) [false; true]) regs.
Definition formed (op : operand) : Prop := In (o_mode op, o_reg op) forms.
Lemma register_form ind r scan p op t : In r regs -> register_operand ind r scan p = Val (op, t) -> hasError (o_err op) = false -> formed op.
Proof.
  intros R H E. unfold formed, forms. apply in_or_app. right. apply in_flat_map. exists r. split; [exact R|]. apply in_flat_map. exists ind. split; [destruct ind; cbn; auto|].
  assert (Q : exists op', register_operand ind r [] [] = Val (op', []) /\ op' = op).
  { clear R. unfold register_operand in *. cbv zeta in *. revert H. repeat match goal with |- context [if ?b then _ else _] => destruct b end; intros H; injection H as <- _; eauto; discriminate. }
  destruct Q as (op' & -> & ->). rewrite E. cbn. auto.
Qed.
Lemma parse_form a loc scan op t : parseOperand a loc scan = Val (op, t) -> hasError (o_err op) = false -> formed op.
Proof.
  unfold parseOperand. cbv zeta. destruct (p_eol _ _) as [eol p]. destruct eol; [intros H _; injection H as <- _; now left|].
  destruct (expect_char 35 p) as [q|].
  { destruct (parseInteger a loc q OK 0) as [[[v e] u]| | | |]; cbn [bind]; try discriminate. destruct (hasError e) eqn:HE; intros H E; injection H as <- _; [cbn in E; congruence|]. right. now left. }
  destruct (match expect_char 64 p with Some p0 => (true, p0) | None => (false, p) end) as [ind q].
  destruct (ind && is_space (peek q)); [intros H E; injection H as <- _; discriminate|].
  destruct (parseRegName q) as [[r z]| | | |] eqn:PR; cbn [bind]; try discriminate. rewrite reg_parse in PR. apply parse_name_in in PR.
  destruct (Z.eqb_spec r REG_UNDEF) as [U|U]; cbn [negb].
  - destruct ind; [intros H E; injection H as <- _; discriminate|].
    destruct (parseInteger a loc q OK 0) as [[[v e] u]| | | |]; cbn [bind]; try discriminate. destruct (hasError e) eqn:HE; intros H E; injection H as <- _; [cbn in E; congruence|]. do 2 right. now left.
  - destruct PR as [PR|PR]; [contradiction|]. intros H E. exact (register_form ind r _ _ op t PR H E).
Qed.
Lemma parse_both a loc scan o1 o2 t : parseOperands a loc scan = Val (Two o1 o2 t) -> formed o1 /\ formed o2.
Proof.
  unfold parseOperands. destruct (parseOperand a loc scan) as [[p1 s1]| | | |] eqn:P1; cbn [bind]; try discriminate.
  destruct (hasError (o_err p1)) eqn:H1; [discriminate|]. pose proof (parse_form _ _ _ _ _ P1 H1) as F1. destruct (expect_char 44 (skipSpaces s1)) as [s2|].
  - destruct (parseOperand a loc s2) as [[p2 s3]| | | |] eqn:P2; cbn [bind]; try discriminate. destruct (hasError (o_err p2)) eqn:H2; [discriminate|].
    pose proof (parse_form _ _ _ _ _ P2 H2) as F2. intros H. injection H as <- <- _. auto.
  - intros H. injection H as <- <- _. split; [exact F1|]. now left.
Qed.

(* ------------------------------------------------------------ the assembler: bytes *)
Definition banks : list Z := map (fun q => 32 * q) [0; 1; 2; 3; 4; 5; 6; 7].
(* what an operand puts into the opcode *)
Definition puts (mode reg : Z) : list Z :=
  if (mode =? M_IR) || (mode =? M_IR3) || (mode =? M_R) then [encodeRRegName reg]
  else if (mode =? M_P12) || (mode =? M_PEXT) then [encodePortName reg]
  else if mode =? M_AD08 then [0]
  else if (mode =? M_AD11) || (mode =? M_BITN) then banks
  else if mode =? M_F then [if reg =? REG_F1 then 0x20 else 0]
  else if mode =? M_RB then [if reg =? REG_RB1 then 0x10 else 0]
  else if mode =? M_MB then [if reg =? REG_MB1 then 0x10 else 0]
  else [0].
Definition takes (mode : Z) : nat := if existsb (Z.eqb mode) [M_AD08; M_AD11; M_IMM8; M_BIT8] then 1 else 0.
Lemma bank_in z : 0 <= z -> In (Z.land (Z.shiftr z 3) 0xE0) banks.
Proof.
  intros Z0. change 0xE0 with (Z.shiftl (Z.ones 3) 5). rewrite land_mid by lia. apply in_map_iff. set (q := (Z.shiftr z 3 / 2 ^ 5) mod 2 ^ 3).
  exists q. split; [change (2^5) with 32; lia|]. assert (0 <= q < 8) by (apply Z.mod_pos_bound; lia). assert (q = 0 \/ q = 1 \/ q = 2 \/ q = 3 \/ q = 4 \/ q = 5 \/ q = 6 \/ q = 7) by lia. cbn. lia.
Qed.
Lemma bit_in z : In (Z.shiftl (Z.land z 7) 5) banks.
Proof.
  change 7 with (Z.ones 3). rewrite Z.land_ones, Z.shiftl_mul_pow2 by lia. apply in_map_iff. set (q := z mod 2^3). exists q. split; [change (2^5) with 32; lia|].
  assert (0 <= q < 8) by (apply Z.mod_pos_bound; lia). cbn. lia.
Qed.
Lemma emit_form mode op addr nb e o : byte o -> (takes mode + length nb <= 1)%nat -> exists x e' nb', In x (puts mode (o_reg op)) /\ length nb' = takes mode /\ Forall byte nb' /\
  encodeOperand mode op (mkAI (part addr 1 nb) e o) = mkAI (part addr 1 (nb ++ nb')) e' (u8 (Z.lor o x)).
Proof.
  intros O LN. assert (NO : u8 (Z.lor o 0) = o) by (rewrite Z.lor_0_r; unfold u8; apply Z.mod_small; exact O).
  assert (ER : forall e i, exists e', ai_setErrorIf e i = mkAI (ai_insn i) e' (ai_opc i)) by (intros; eexists; reflexivity).
  assert (EM : forall v e o nb, nb = [] -> exists x, byte x /\ ai_emitOperand8 v (mkAI (part addr 1 nb) e o) = mkAI (part addr 1 (nb ++ [x])) e o).
  { intros v e0 o0 nb0 ->. exists (u8 v). split; [apply Z.mod_pos_bound; lia|]. apply (emit8 (u8 v) v); [apply Z.mod_pos_bound; lia|reflexivity]. }
  assert (U0 : 0 <= getUnsigned (o_val op)) by (unfold getUnsigned; repeat match goal with |- context [match ?x with _ => _ end] => destruct x end; try lia; apply Z.mod_pos_bound; lia).
  unfold encodeOperand, puts in *. cbv zeta. destruct (ER (o_err op) (mkAI (part addr 1 nb) e o)) as (e1 & ->). cbn [ai_insn ai_opc].
  assert (NIL : takes mode = 1%nat -> nb = []) by (intros T; destruct nb; [reflexivity|cbn [length] in LN; lia]).
  destruct ((mode =? M_IR) || (mode =? M_IR3) || (mode =? M_R)) eqn:C1.
  { assert (T : takes mode = 0%nat) by (rewrite !orb_true_iff, !Z.eqb_eq in C1; destruct C1 as [[->| ->]| ->]; reflexivity).
    eexists; exists e1, []. rewrite app_nil_r, T. split; [now left|]. repeat split; auto. }
  destruct ((mode =? M_P12) || (mode =? M_PEXT)) eqn:C2.
  { assert (T : takes mode = 0%nat) by (rewrite !orb_true_iff, !Z.eqb_eq in C2; destruct C2 as [->| ->]; reflexivity).
    eexists; exists e1, []. rewrite app_nil_r, T. split; [now left|]. repeat split; auto. }
  destruct (Z.eqb_spec mode M_AD08) as [->|N3].
  { cbn [orb]. specialize (NIL eq_refl). unfold encodeAddress. change (M_AD08 =? M_AD08) with true. cbv iota zeta. set (c := negb _). destruct (EM (getUnsigned (o_val op)) (if c then setErrorIfAt e1 OPERAND_TOO_FAR else e1) o nb NIL) as (x & X & E).
    exists 0. eexists; exists [x]. split; [now left|]. split; [reflexivity|]. split; [auto|]. rewrite NO. rewrite <- E. destruct c; reflexivity. }
  destruct (Z.eqb_spec mode M_AD11) as [->|N4].
  { cbn [orb]. specialize (NIL eq_refl). unfold encodeAddress. change (M_AD11 =? M_AD08) with false. cbv iota zeta. set (c := negb _). set (z := Z.land _ _).
    destruct (EM (getUnsigned (o_val op)) (if c then setErrorIfAt e1 OVERFLOW_RANGE else e1) (u8 (Z.lor o z)) nb NIL) as (x & X & E).
    exists z. eexists; exists [x]. split; [now apply bank_in|]. split; [reflexivity|]. split; [auto|]. rewrite <- E. destruct c; reflexivity. }
  cbn [orb]. destruct ((mode =? M_IMM8) || (mode =? M_BIT8)) eqn:C5.
  { assert (T : takes mode = 1%nat /\ mode =? M_BITN = false /\ mode =? M_F = false /\ mode =? M_RB = false /\ mode =? M_MB = false)
      by (rewrite !orb_true_iff, !Z.eqb_eq in C5; destruct C5 as [->| ->]; repeat split; reflexivity).
    destruct T as (T & -> & -> & -> & ->). specialize (NIL T). set (c := overflowUint8 _). destruct (EM (getUnsigned (o_val op)) (if c then setErrorIfAt e1 OVERFLOW_RANGE else e1) o nb NIL) as (x & X & E).
    exists 0. eexists; exists [x]. rewrite T. split; [now left|]. split; [reflexivity|]. split; [auto|]. rewrite NO. rewrite <- E. destruct c; reflexivity. }
  destruct (Z.eqb_spec mode M_BITN) as [->|N6].
  { set (c := overflow _ _ _). exists (Z.shiftl (Z.land (getUnsigned (o_val op)) 7) 5), (if c then setErrorIfAt e1 ILLEGAL_BIT_NUMBER else e1), []. rewrite app_nil_r. split; [apply bit_in|].
    repeat split; auto. destruct c; reflexivity. }
  assert (T : takes mode = 0%nat).
  { unfold takes. cbn [existsb]. rewrite orb_false_iff in C5. destruct C5 as (-> & ->). replace (mode =? M_AD08) with false by lia. replace (mode =? M_AD11) with false by lia. reflexivity. }
  rewrite T. destruct (mode =? M_F); [eexists; exists e1, []; rewrite app_nil_r; split; [now left|]; repeat split; auto|].
  destruct (mode =? M_RB); [eexists; exists e1, []; rewrite app_nil_r; split; [now left|]; repeat split; auto|].
  destruct (mode =? M_MB); [eexists; exists e1, []; rewrite app_nil_r; split; [now left|]; repeat split; auto|].
  exists 0, e1, []. rewrite app_nil_r, NO. split; [now left|]. repeat split; auto.
Qed.

(* ------------------------------------------------------------ all instructions *)
Definition pages_of (ty : Z) : list epage := match cpu_pages ty with Val p => p | _ => [] end.
Definition emits (ty : Z) (e : entry) (f1 f2 : Z * Z) : bool :=
  if acceptModes (fst f1) (fst f2) e then
    (0 <=? e_opc e) && (e_opc e <? 256) && (takes (e_dst e) + takes (e_src e) <=? 1)%nat &&
    forallb (fun x => forallb (fun y =>
      let o := u8 (Z.lor (u8 (Z.lor (e_opc e) x)) y) in
      match look ty o with Some _ => (n_chain ty o =? takes (e_dst e) + takes (e_src e))%nat | None => false end)
      (puts (e_src e) (snd f2))) (puts (e_dst e) (snd f1))
  else true.
Lemma emits_all : forallb (fun ty => forallb (fun p => forallb (fun e => forallb (fun f1 => forallb (emits ty e f1) forms) forms) (p_items p)) (pages_of ty)) types = true.
Proof. vm_compute. reflexivity. Qed.
Lemma search_in ty name dst src e' e : In ty types -> i8048_searchName ty name dst src = Val (e', Some e) ->
  exists p, In p (pages_of ty) /\ In e (p_items p) /\ acceptModes dst src e = true.
Proof.
  intros T. unfold i8048_searchName, search_entry, pages_of. destruct (cpu_pages ty) as [pages| | | |]; cbn [bind]; try discriminate.
  destruct (searchName entry_name name _ pages) as [[pg k|er]| | | |] eqn:SN; cbn [bind]; try discriminate.
  destruct (searchName_found _ _ _ _ _ _ SN) as (p & x & NP & NE & _ & AC).
  assert (I1 : @item_at epage pages pg = Val p) by (unfold item_at; change (@nth_error epage pages pg) with (@nth_error (M_Table.page unit entry) pages pg); rewrite NP; reflexivity).
  rewrite I1. cbn [bind]. unfold item_at. rewrite NE. cbn [bind]. intros H. injection H as _ <-.
  exists p. split; [eapply nth_error_In, NP|]. split; [eapply nth_error_In, NE|exact AC].
Qed.
Lemma i8048_emitted ty a line addr i rest : In ty types -> i8048_encode ty a line addr = Val (L_insn i rest) -> i_err i = OK ->
  checkAddr (a_aw a) addr false = OK /\ exists o nb e, byte o /\ Forall byte nb /\ i = canon addr (o :: nb) /\ look ty o = Some e /\ n_chain ty o = length nb.
Proof.
  intros T H E. destruct (encode_inv _ _ _ _ _ _ _ _ H E) as (CA & name & scan & IM). split; [exact CA|]. clear H.
  unfold i8048_encodeImpl in IM. destruct (parseOperands a addr scan) as [[e0 s0|o1 o2 s0]| | | |] eqn:PO; cbn [bind] in IM; try discriminate.
  { injection IM as <- _. cbn [i_seterr i_err] in E. subst e0. exfalso. clear - PO. unfold parseOperands in PO.
    destruct (parseOperand a addr scan) as [[p1 s1]| | | |]; cbn [bind] in PO; try discriminate. destruct (hasError (o_err p1)) eqn:H1.
    - injection PO as PO _. rewrite PO in H1. discriminate.
    - destruct (expect_char 44 _) as [s2|]; [|discriminate]. destruct (parseOperand a addr s2) as [[p2 s3]| | | |]; cbn [bind] in PO; try discriminate.
      destruct (hasError (o_err p2)) eqn:H2; [|discriminate]. injection PO as PO _. rewrite PO in H2. discriminate. }
  destruct (parse_both _ _ _ _ _ _ PO) as (F1 & F2).
  destruct (i8048_searchName ty name (o_mode o1) (o_mode o2)) as [[e' found]| | | |] eqn:SN; cbn [bind] in IM; try discriminate.
  change (i_err (new_insn addr)) with OK in IM. cbv zeta in IM.
  destruct (isOK (setErrorIfAt OK e')) eqn:CK; cbn [negb] in IM; [|injection IM as <- _; cbn [i_seterr i_err] in E; rewrite E in CK; discriminate].
  destruct found as [en|].
  2:{ exfalso. apply isOK_e in CK. apply seterr_ok in CK. destruct CK as (_ & ->). clear - SN. unfold i8048_searchName, search_entry in SN.
      destruct (cpu_pages ty) as [pages| | | |]; cbn [bind] in SN; try discriminate. destruct (searchName _ _ _ pages) as [[pg k|er]| | | |] eqn:X; cbn [bind] in SN; try discriminate.
      - destruct (item_at pages pg) as [p| | | |]; cbn [bind] in SN; try discriminate. destruct (item_at (p_items p) k) as [x| | | |]; cbn [bind] in SN; discriminate.
      - injection SN as ->. apply (searchName_miss _ _ _ _ _ X eq_refl). }
  destruct (search_in ty name _ _ _ _ T SN) as (p & IP & IE & AC).
  pose proof emits_all as CH. rewrite forallb_forall in CH. specialize (CH ty T). rewrite forallb_forall in CH. specialize (CH p IP).
  rewrite forallb_forall in CH. specialize (CH en IE). rewrite forallb_forall in CH. specialize (CH _ F1). rewrite forallb_forall in CH. specialize (CH _ F2).
  unfold emits in CH. cbn [fst snd] in CH. rewrite AC in CH. rewrite !andb_true_iff in CH. destruct CH as (((B0 & B1) & TK) & CH). apply Nat.leb_le in TK.
  change (new_insn addr) with (part addr 1 []) in IM.
  destruct (emit_form (e_dst en) o1 addr [] OK (e_opc en) ltac:(unfold byte; lia) ltac:(cbn [length]; lia)) as (x1 & e1 & n1 & X1 & L1 & BN1 & E1).
  destruct (emit_form (e_src en) o2 addr n1 e1 (u8 (Z.lor (e_opc en) x1)) ltac:(apply Z.mod_pos_bound; lia) ltac:(lia)) as (x2 & e2 & n2 & X2 & L2 & BN2 & E2).
  rewrite E1 in IM. cbn [app] in IM. rewrite E2 in IM. rewrite forallb_forall in CH. specialize (CH x1 X1). rewrite forallb_forall in CH. specialize (CH x2 X2). cbv zeta in CH.
  set (o := u8 (Z.lor (u8 (Z.lor (e_opc en) x1)) x2)) in *. assert (BO : byte o) by (apply Z.mod_pos_bound; lia).
  destruct (look ty o) as [ee|] eqn:LK; [|discriminate]. apply Nat.eqb_eq in CH.
  exists o, (n1 ++ n2), ee. split; [exact BO|]. split; [now apply Forall_app|]. split; [|split; [exact LK|rewrite app_length; lia]].
  destruct (part_done 0 o addr (n1 ++ n2) ltac:(unfold byte; lia) BO ltac:(rewrite app_length; lia)) as (D1 & _).
  unfold ai_emitInsn, ai_set in IM. cbn [ai_insn ai_err ai_opc] in IM. rewrite D1 in IM. injection IM as IM _. rewrite <- IM in E |- *. cbn [i_seterr i_err] in E. rewrite E. reflexivity.
Qed.
Lemma i8048_decodes d ty a line addr i rest m size : reads_as d -> brief_plugin (da_plug d) -> In ty types -> a_aw a = 12 ->
  i8048_encode ty a line addr = Val (L_insn i rest) -> i_err i = OK -> Forall byte m -> 83 <= size ->
  i_addr i = addr /\ Forall byte (i_code i) /\ (1 <= length (i_code i) <= 2)%nat /\
  exists r, i8048_decode d ty (i_code i ++ m) addr size = Val r /\ r_insn r = i.
Proof.
  intros (NS & _ & AW) BP T AA H E BM SZ. destruct (i8048_emitted ty a line addr i rest T H E) as (CA & o & nb & e & BO & BN & -> & LK & NC).
  rewrite canon_code. split; [reflexivity|]. split; [now constructor|]. pose proof (chain_len ty o T BO) as CL. split; [cbn [length]; lia|].
  pose proof (fine_chain d NS BP AW ty o e BO LK) as FI. rewrite NC in FI.
  destruct (fine_decode d (fun _ => false) (fun _ o => decode_opcode d ty o) (fun _ o => chain d ty o) 0 o nb m addr size 82 (or_introl (conj eq_refl eq_refl)) ltac:(unfold byte; lia) BO) as (r & D & R); auto; try lia.
  - intros mem s _. now apply chain_start.
  - rewrite AW, <- AA. exact CA.
  - exists r. split; [|exact R]. rewrite (decode_eq d ty). exact D.
Qed.
