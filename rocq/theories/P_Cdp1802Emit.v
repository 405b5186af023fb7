(** What the assembler of the CDP1802 family emits is an instruction of its disassembler (C79). *)
From Coq Require Import String ZArith List Bool Lia ZifyBool.
From Verif Require Import M_Char M_Error M_Value M_Text M_StrBuffer M_Format M_Number M_Insn M_Config M_Operators
  M_Parsers M_Expr M_Directive M_Table M_Asm M_Dis M_Cdp1802Defs T_Cdp1802 M_Cdp1802 S_Cpu P_StrBuffer P_Table P_Insn P_Config P_Value
  P_Room P_AsmText P_CpuShape P_CpuText P_CpuGood P_CpuRange P_CpuFine P_Cdp1802.
Import ListNotations.
Open Scope string_scope.
Open Scope list_scope.
Local Open Scope Z_scope.

(* ------------------------------------------------------------ all instructions *)
Definition one_to (n : nat) : list Z := map Z.of_nat (seq 1 n).
Definition merged (o : Z) (l : list Z) : list (Z * nat) := map (fun x => (u8 (Z.lor o x), 0%nat)) l.
(* the opcodes that the first operand can make, and how many bytes it adds *)
Definition outs (mode o : Z) : list (Z * nat) :=
  if (mode =? M_REG1) || (mode =? M_REGN) then merged o (0 :: one_to 15)
  else if mode =? M_IOAD then merged o (0 :: one_to 7)
  else if (mode =? M_IMM8) || (mode =? M_PAGE) then [(o, 1%nat)]
  else if mode =? M_ADDR then [(o, 2%nat)]
  else if (mode =? M_SHRT) || (mode =? M_LONG) then
    [(o, if mode =? M_LONG then 2%nat else 1%nat); (u8 (Z.lor 0x30 (Z.land o 0xF)), 1%nat); (u8 (Z.lor 0xC0 (Z.land o 0xF)), 2%nat)]
  else [(o, 0%nat)].
(* NBR and NLBR, and INP of no value *)
Definition never (p o : Z) (w w2 : nat) : bool :=
  (p =? 0) && (w2 =? 0)%nat && ((o =? 0x38) && (w =? 1)%nat || (o =? 0xC8) && (w =? 2)%nat || (o =? 0x68) && (w =? 0)%nat).
Definition is_byte (o : Z) : bool := (0 <=? o) && (o <? 256).
Definition second_width (e : entry) : nat := if e_m2 e =? M_ADDR then 2 else 0.
Definition emits (ct p : Z) (e : entry) : bool :=
  is_byte (e_opc e) && existsb (Z.eqb p) pages && ((p =? 0) || pfx ct p) &&
  forallb (fun '(o, w) => never p o w (second_width e) ||
    is_byte o && (negb (p =? 0) || negb (pfx ct o)) &&
    match look ct p o with
    | Some e' => (kwidth (kind_of o (e_m1 e')) =? w)%nat && (kwidth (kind_of o (e_m2 e')) =? second_width e)%nat
    | None => false
    end) (outs (e_m1 e) (e_opc e)).
Definition table_pages (ct : Z) : list epage := match cpu_pages ct with Val p => p | _ => [] end.
Lemma emits_all : forallb (fun ct => forallb (fun p => forallb (emits ct (p_info p)) (p_items p)) (table_pages ct)) types = true.
Proof. vm_compute. reflexivity. Qed.

(* ------------------------------------------------------------ the disassembler *)
Lemma reg_adds n b : 0 <= n < 16 -> adds 10 b (outRegName n b).
Proof.
  intros N. unfold outRegName, out_sdec. replace (int8 n) with n by (unfold int8; rewrite Z.mod_small; lia).
  replace (n <? 0) with false by lia. unfold out_dec. cbv zeta. set (b1 := letter 82 b).
  apply (adds_trans 1 9 b b1); [apply adds_letter; unfold printable; lia|].
  assert (DG : forall c b, 48 <= c <= 57 -> adds 1 b (letter c b)) by (intros c b2 C; apply adds_letter; unfold printable; lia).
  destruct (Z.ltb_spec n 10) as [L|L].
  - assert (E : dec_loop (S (Z.to_nat (Z.log2 n))) 0 n b1 = (0, letter (n + 48) b1)) by (cbn [dec_loop]; rewrite Z.mod_small, Z.div_small by lia; reflexivity).
    rewrite E. cbn [zeros Z.to_nat]. apply adds_reverse. apply (adds_le 1); [lia|]. apply DG. lia.
  - assert (E : dec_loop (S (Z.to_nat (Z.log2 n))) 0 n b1 = (0, letter 49 (letter (n - 10 + 48) b1))).
    { assert (LG : Z.log2 n = 3) by (apply Z.log2_unique; lia). rewrite LG. change (Z.to_nat 3) with 3%nat. cbn [dec_loop].
      assert (DV : n / 10 = 1) by (symmetry; apply (Z.div_unique _ _ _ (n - 10)); lia).
      assert (MD : n mod 10 = n - 10) by (symmetry; apply (Z.mod_unique _ _ 1); lia). rewrite DV, MD. reflexivity. }
    rewrite E. cbn [zeros Z.to_nat]. apply adds_reverse. apply (adds_le (1 + 1)); [lia|]. eapply adds_trans; apply DG; lia.
Qed.
Section Dis.
Variable d : disasm.
Hypothesis NS : da_symtab d = None.
Hypothesis BP : brief_plugin (da_plug d).
Hypothesis AW : da_aw d = 16.
Lemma fine_abs addr v : 0 <= v < 65536 -> fineAt addr [] 40 (t_print (outAbsAddr d v 0)).
Proof. intros V. apply fineAt_of. apply (fine_le _ 26); [lia|]. apply fine_print. apply prints_abs; auto; lia. Qed.
Lemma fine_hex addr v bits relax : 0 <= v < 2^32 -> -16 <= bits <= 16 -> fineAt addr [] 40 (t_print (dis_outHex d v bits relax)).
Proof. intros V B. apply fineAt_of. apply (fine_le _ 26); [lia|]. apply fine_print. now apply prints_hex. Qed.
Lemma fine_operand ur addr nb o mode : length nb = kwidth (kind_of o mode) -> fineAt addr nb 40 (decodeOperand d ur o mode).
Proof.
  pose proof (land_range o 4 ltac:(lia)) as R4. change (Z.ones 4) with 15 in R4. pose proof (land_range o 3 ltac:(lia)) as R3. change (Z.ones 3) with 7 in R3.
  unfold decodeOperand, kind_of. change 0xF with 15.
  destruct ((mode =? M_REG1) || (mode =? M_REGN)).
  { intros L. destruct nb; [|discriminate]. destruct ur; apply fineAt_of.
    - apply (fine_le _ 10); [lia|]. apply fine_put. intros b. apply reg_adds. lia.
    - apply (fine_le _ 26); [lia|]. apply fine_print. apply prints_dec; auto; lia. }
  destruct (mode =? M_IMM8).
  { destruct nb as [|x [|y nb]]; try discriminate. intros _. apply fineAt_byte. intros X. unfold byte in X. apply fine_hex; lia. }
  destruct (mode =? M_IOAD).
  { intros L. destruct nb; [|discriminate]. apply fine_hex; lia. }
  destruct ((mode =? M_ADDR) || (mode =? M_LONG)).
  { destruct nb as [|x [|y [|z nb]]]; try discriminate. intros _. apply fineAt_be. intros X Y. unfold byte in X, Y. apply fine_abs. lia. }
  destruct ((mode =? M_PAGE) || (mode =? M_SHRT)).
  { destruct nb as [|x [|y nb]]; try discriminate. intros _. apply (fineAt_byte addr x [] 40 (fun v s => t_print (outAbsAddr d (inpage (i_addr (d_insn (t_in s)) + 2) v) 0) s)). intros X.
    apply (fineAt_addr addr [] 40 (fun a s => t_print (outAbsAddr d (inpage (a + 2) x) 0) s)). apply fine_abs. apply inpage_range. }
  intros L. destruct nb; [|discriminate]. apply fineAt_of. apply (fine_le _ 0); [lia|]. apply fine_val.
Qed.
Lemma fine_chain ct ur p addr nb1 nb2 o e : look ct p o = Some e -> length nb1 = kwidth (kind_of o (e_m1 e)) -> length nb2 = kwidth (kind_of o (e_m2 e)) -> fineAt addr (nb1 ++ nb2) 82 (chain d ct ur p o).
Proof.
  intros L S1 S2. unfold chain. rewrite L. change 82 with (0 + (40 + 42)).
  apply (fineAt_seq addr [] (nb1 ++ nb2) 0 (40 + 42) (fun s => Val (t_readName (entry_name e) s))); [apply fineAt_of; apply fine_name|].
  apply fineAt_seq; [now apply fine_operand|]. unfold more_op. destruct (Z.eqb_spec (e_m2 e) M_NONE) as [E|_].
  - rewrite E in S2. destruct nb2; [|discriminate]. apply fineAt_of. apply (fine_le _ 0); [lia|]. apply fine_val.
  - apply (fineAt_seq addr [] nb2 2 40 (fun s => Val (t_put comma s))); [apply fineAt_of; apply fine_put; apply comma_adds|now apply fine_operand].
Qed.
End Dis.

(* ------------------------------------------------------------ the assembler *)
Lemma seterr_flag (b : bool) x i f p o : (if b then ai_setErrorIf x (mkAI i f p o) else mkAI i f p o) = mkAI i (if b then setErrorIfAt f x else f) p o.
Proof. destruct b; reflexivity. Qed.
Lemma byte_of z : byte (u8 z).
Proof. apply Z.mod_pos_bound. lia. Qed.
Lemma emit_word z addr bs e p o : (length bs <= 8)%nat -> exists hi lo, byte hi /\ byte lo /\ ai_emitUint16 z (mkAI (canon addr bs) e p o) = mkAI (canon addr (bs ++ [hi; lo])) e p o.
Proof.
  intros L. pose proof (Z.mod_pos_bound z 65536 ltac:(lia)) as M. exists ((z mod 65536) / 256), ((z mod 65536) mod 256).
  assert (X : byte ((z mod 65536) / 256)) by (unfold byte; split; [apply Z.div_pos; lia|apply Z.div_lt_upper_bound; lia]).
  assert (Y : byte ((z mod 65536) mod 256)) by (apply Z.mod_pos_bound; lia). split; [exact X|]. split; [exact Y|]. apply emitW; auto; [|lia].
  unfold u16. change (2^16) with 65536. pose proof (Z.div_mod (z mod 65536) 256). lia.
Qed.
(* what has been written, and what it says when there is no error *)
Definition emitted_as (mode : Z) (addr p o : Z) (e : err) (i' : ainsn) : Prop :=
  exists e' o' nb, i' = mkAI (canon addr (opcode_bytes p o' ++ nb)) e' p o' /\ Forall byte nb /\ (length nb <= 2)%nat /\
    (e' = OK -> e = OK /\ In (o', length nb) (outs mode o)).
Lemma merged_in o v l : In v l -> In (u8 (Z.lor o v), length (@nil Z)) (merged o l).
Proof. intros I. unfold merged. apply in_map_iff. exists v. auto. Qed.
Lemma one_to_in n v : 1 <= v <= Z.of_nat n -> In v (one_to n).
Proof. intros V. unfold one_to. apply in_map_iff. exists (Z.to_nat v). split; [lia|]. apply in_seq. lia. Qed.
Lemma upto_in n v : 0 <= v <= Z.of_nat n -> In v (0 :: one_to n).
Proof. intros V. destruct (Z.eq_dec v 0) as [->|N]; [now left|]. right. apply one_to_in. lia. Qed.
Lemma emit_form sm mode op addr p o e i' : 0 <= addr < 65536 -> byte p -> byte o ->
  emitOperand sm mode op (mkAI (canon addr []) e p o) = i' -> emitted_as mode addr p o e i'.
Proof.
  intros A BP BO. unfold emitOperand. cbv zeta.
  change (ai_setErrorIf (o_err op) (mkAI (canon addr []) e p o)) with (mkAI (canon addr []) (setErrorIfAt e (o_err op)) p o).
  set (e1 := setErrorIfAt e (o_err op)). assert (E1 : e1 = OK -> e = OK /\ o_err op = OK) by apply seterr_ok.
  unfold emitted_as.
  assert (REG : forall f v, (f = OK -> e1 = OK) -> emit_register op v (mkAI (canon addr []) f p o) = i' ->
    exists e' o' nb, i' = mkAI (canon addr (opcode_bytes p o' ++ nb)) e' p o' /\ Forall byte nb /\ (length nb <= 2)%nat /\
      (e' = OK -> e = OK /\ In (o', length nb) (merged o (0 :: one_to 15)))).
  { intros f v FE. unfold emit_register. set (w := if negb (isOK (o_err op)) then setUnsigned 7 else v). destruct (overflow w 15 0) eqn:OV.
    - unfold ai_setErrorIf, ai_embed. cbn [ai_insn ai_err ai_prefix ai_opc]. rewrite emitI by auto using byte_of. intros <-. eexists _, _, []. rewrite app_nil_r. split; [reflexivity|]. split; [constructor|]. split; [cbn; lia|].
      intros H. apply seterr_ok in H. destruct H as (_ & H). discriminate.
    - unfold ai_embed. cbn [ai_insn ai_err ai_prefix ai_opc]. rewrite emitI by auto using byte_of. intros <-. eexists _, _, []. rewrite app_nil_r. split; [reflexivity|]. split; [constructor|]. split; [cbn; lia|].
      intros H. split; [now apply E1, FE|]. apply fits_unsigned in OV; [|lia]. apply merged_in, upto_in. lia. }
  unfold outs.
  destruct (mode =? M_REG1); cbn [orb].
  { set (w := if negb (isOK (o_err op)) then setUnsigned 7 else o_val op). destruct (isZero w); apply REG; [|auto]. intros H. apply seterr_ok in H. destruct H as (_ & H). discriminate. }
  destruct (mode =? M_REGN); [now apply REG|].
  assert (INTRA : forall target f o1 L, byte o1 -> In (o1, 1%nat) L -> (f = OK -> e1 = OK) -> intra_page target (mkAI (canon addr []) f p o1) = i' ->
    exists e' o' nb, i' = mkAI (canon addr (opcode_bytes p o' ++ nb)) e' p o' /\ Forall byte nb /\ (length nb <= 2)%nat /\ (e' = OK -> e = OK /\ In (o', length nb) L)).
  { intros tg f o1 L B1 IN FE. unfold intra_page. rewrite emitI by auto. rewrite (emitB (u8 tg)) by (auto using byte_of; pose proof (opcode_len p o1); lia). intros <-. eexists _, _, [_]. split; [reflexivity|].
    split; [constructor; [apply byte_of|constructor]|]. split; [cbn; lia|]. intros H. split; [now apply E1, FE|exact IN]. }
  assert (INTER : forall f o1 L, byte o1 -> In (o1, 2%nat) L -> (f = OK -> e1 = OK) -> inter_page op (mkAI (canon addr []) f p o1) = i' ->
    exists e' o' nb, i' = mkAI (canon addr (opcode_bytes p o' ++ nb)) e' p o' /\ Forall byte nb /\ (length nb <= 2)%nat /\ (e' = OK -> e = OK /\ In (o', length nb) L)).
  { intros f o1 L B1 IN FE. unfold inter_page. cbv zeta. unfold ai_setErrorIf. cbn [ai_insn ai_err ai_prefix ai_opc]. rewrite emitI by auto.
    destruct (emit_word (getUnsigned (o_val op)) addr (opcode_bytes p o1) (setErrorIfAt f (checkAddr 16 (getUnsigned (o_val op)) false)) p o1 ltac:(pose proof (opcode_len p o1); lia)) as (hi & lo & H1 & H2 & ->). intros <-. eexists _, _, [_; _]. split; [reflexivity|].
    split; [auto|]. split; [cbn; lia|]. intros H. apply seterr_ok in H. split; [now apply E1, FE|exact IN]. }
  destruct (Z.eqb_spec mode M_IMM8) as [->|N1].
  { change (M_IMM8 =? M_IOAD) with false. cbn [orb]. rewrite seterr_flag. apply INTRA; [exact BO|now left|]. intros H. destruct (overflowUint8 (o_val op)); [apply seterr_ok in H; tauto|exact H]. }
  cbn [orb].
  destruct (Z.eqb_spec mode M_IOAD) as [->|N2].
  { change ((M_IOAD =? M_PAGE) || (M_IOAD =? M_ADDR) || (M_IOAD =? M_SHRT) || (M_IOAD =? M_LONG)) with false. cbv iota.
    set (w := if negb (isOK (o_err op)) then setUnsigned 1 else o_val op). destruct (isZero w || overflow w 7 0) eqn:OV.
    - unfold ai_setErrorIf, ai_embed. cbn [ai_insn ai_err ai_prefix ai_opc]. rewrite emitI by auto using byte_of. intros <-. eexists _, _, []. rewrite app_nil_r. split; [reflexivity|]. split; [constructor|]. split; [cbn; lia|].
      intros H. apply seterr_ok in H. destruct H as (_ & H). discriminate.
    - apply orb_false_iff in OV. destruct OV as (_ & OV). unfold ai_embed. cbn [ai_insn ai_err ai_prefix ai_opc]. rewrite emitI by auto using byte_of. intros <-. eexists _, _, []. rewrite app_nil_r. split; [reflexivity|]. split; [constructor|]. split; [cbn; lia|].
      intros H. split; [now apply E1|]. apply fits_unsigned in OV; [|lia]. apply merged_in, upto_in. lia. }
  destruct ((mode =? M_PAGE) || (mode =? M_ADDR) || (mode =? M_SHRT) || (mode =? M_LONG)) eqn:BR.
  { unfold encodePage. cbv zeta. set (tg := if negb (isOK (o_err op)) then _ else _). set (ck := checkAddr_in 16 tg _ 8 false). unfold ai_setErrorIf, interBranch, intraBranch, ai_setopc. cbn [ai_insn ai_err ai_prefix ai_opc].
    assert (FE : setErrorIfAt e1 ck = OK -> e1 = OK) by (intros H; apply seterr_ok in H; tauto).
    destruct (Z.eqb_spec mode M_PAGE) as [->|P1]; [cbn [orb]; apply INTRA; auto; now left|]. cbn [orb].
    destruct (Z.eqb_spec mode M_ADDR) as [->|P2]; [change (M_ADDR =? M_SHRT) with false; cbn [andb orb]; apply INTER; auto; now left|]. cbn [orb] in *.
    rewrite BR. destruct (Z.eqb_spec mode M_SHRT) as [->|P3].
    - change (M_SHRT =? M_LONG) with false. destruct sm; cbn [andb orb negb].
      + destruct (negb (isOK (o_err op)) || negb (isOK ck)); [apply INTER|apply INTRA]; auto using byte_of; cbn; auto.
      + apply INTRA; auto. now left.
    - cbn [orb] in BR. rewrite BR. destruct sm; cbn [andb orb negb].
      + destruct (negb (isOK (o_err op)) || negb (isOK ck)); [apply INTER|apply INTRA]; auto using byte_of; cbn; auto.
      + apply INTER; auto. now left. }
  apply orb_false_iff in BR. destruct BR as (BR & B4). apply orb_false_iff in BR. destruct BR as (BR & B3). apply orb_false_iff in BR. destruct BR as (B1 & B2). rewrite B1, B2, B3, B4. cbn [orb].
  rewrite emitI by auto. intros <-. eexists _, _, []. rewrite app_nil_r. split; [reflexivity|]. split; [constructor|]. split; [cbn; lia|]. intros H. split; [now apply E1|now left].
Qed.
Lemma search_in ct name m1 m2 p e : cdp1802_searchName ct name m1 m2 = Val (OK, Some (p, e)) ->
  exists q, In q (table_pages ct) /\ p_info q = p /\ In e (p_items q).
Proof.
  unfold cdp1802_searchName, table_pages. destruct (cpu_pages ct) as [ps| | | |]; cbn [bind]; try discriminate.
  destruct (searchName entry_name name _ ps) as [[pg k|er]| | | |] eqn:SN; cbn [bind]; try discriminate.
  destruct (searchName_found _ _ _ _ _ _ SN) as (q & x & NP & NE & _ & AC).
  assert (I1 : @item_at epage ps pg = Val q) by (unfold item_at; change (@nth_error epage ps pg) with (@nth_error (M_Table.page Z entry) ps pg); rewrite NP; reflexivity).
  rewrite I1. cbn [bind]. unfold item_at. rewrite NE. cbn [bind]. intros H. injection H as <- <-.
  exists q. split; [eapply nth_error_In, NP|]. split; [reflexivity|]. eapply nth_error_In, NE.
Qed.
Lemma search_none ct name m1 m2 : cdp1802_searchName ct name m1 m2 = Val (OK, None) -> False.
Proof.
  intros SN. unfold cdp1802_searchName in SN.
  destruct (cpu_pages ct) as [ps| | | |]; cbn [bind] in SN; try discriminate. destruct (searchName _ _ _ ps) as [[pg k|er]| | | |] eqn:X; cbn [bind] in SN; try discriminate.
  - destruct (item_at ps pg) as [p| | | |]; cbn [bind] in SN; try discriminate. destruct (item_at (p_items p) k) as [x| | | |]; cbn [bind] in SN; discriminate.
  - injection SN as ->. apply (searchName_miss _ _ _ _ _ X eq_refl).
Qed.
(* the lines that are excluded *)
Definition normal (code : list Z) : Prop := code <> [0x68] /\ (forall x, code <> [0x38; x]) /\ (forall x y, code <> [0xC8; x; y]).
Lemma cdp1802_emitted a ct uA sm line addr i rest : In ct types -> a_aw a = 16 -> 0 <= addr < 2^32 -> cdp1802_encode a ct uA sm line addr = Val (L_insn i rest) -> i_err i = OK -> normal (i_code i) ->
  checkAddr 16 addr false = OK /\ exists p o nb1 nb2 e, In p pages /\ (p = 0 /\ pfx ct o = false \/ p <> 0 /\ pfx ct p = true) /\ byte o /\ Forall byte (nb1 ++ nb2) /\
    i = canon addr (opcode_bytes p o ++ nb1 ++ nb2) /\ look ct p o = Some e /\ length nb1 = kwidth (kind_of o (e_m1 e)) /\ length nb2 = kwidth (kind_of o (e_m2 e)).
Proof.
  intros T AW A H E NO. destruct (encode_inv _ _ _ _ _ _ _ _ H E) as (CA & name & scan & IM). rewrite AW in CA. split; [exact CA|]. clear H.
  assert (AR : 0 <= addr < 65536) by (apply C31_addr in CA; [change (2^16) with 65536 in CA; lia|lia|lia]). clear A CA.
  unfold cdp1802_encodeImpl in IM.
  destruct (parseOperands a uA addr scan) as [[e0 s0|o1 o2 s0]| | | |] eqn:PO; cbn [bind] in IM; try discriminate.
  { injection IM as <- _. cbn [i_seterr i_err] in E. subst e0. exfalso. clear - PO. unfold parseOperands in PO.
    destruct (parseOperand a uA addr scan) as [[[e1 p1] s1]| | | |]; cbn [bind] in PO; try discriminate. destruct (negb (isOK e1) && hasError (o_err p1)) eqn:H1.
    - injection PO as PO _. rewrite PO, andb_false_r in H1. discriminate.
    - destruct (expect_char 44 _) as [s2|]; [|discriminate]. destruct (parseOperand a uA addr s2) as [[[e2 p2] s3]| | | |]; cbn [bind] in PO; try discriminate.
      destruct (negb (isOK e2) && hasError (o_err p2)) eqn:H2; [|discriminate]. injection PO as PO _. rewrite PO, andb_false_r in H2. discriminate. }
  destruct (cdp1802_searchName ct name (o_mode o1) (o_mode o2)) as [[e' found]| | | |] eqn:SN; cbn [bind] in IM; try discriminate.
  change (i_err (new_insn addr)) with OK in IM. cbv zeta in IM.
  destruct (isOK (setErrorIfAt OK e')) eqn:CK; cbn [negb] in IM; [|injection IM as <- _; cbn [i_seterr i_err] in E; rewrite E in CK; discriminate].
  apply isOK_e in CK. apply seterr_ok in CK. destruct CK as (_ & ->).
  destruct found as [[p en]|]; [|exfalso; eapply search_none, SN].
  destruct (search_in _ _ _ _ _ _ SN) as (q & IQ & QP & IE).
  pose proof emits_all as CH. rewrite forallb_forall in CH. specialize (CH ct T). rewrite forallb_forall in CH. specialize (CH q IQ). rewrite forallb_forall in CH. specialize (CH en IE). rewrite QP in CH.
  unfold emits in CH. rewrite !andb_true_iff in CH. destruct CH as (((B0 & IP) & PX) & CH). unfold is_byte in B0.
  assert (INP : In p pages) by (apply existsb_exists in IP; destruct IP as (x & I & X); apply Z.eqb_eq in X; now subst x).
  assert (BY : byte p) by (clear - INP; unfold byte; cbn in INP; lia).
  rewrite canon_new in IM.
  destruct (emit_form sm (e_m1 en) o1 addr p (e_opc en) OK _ AR BY ltac:(unfold byte; lia) eq_refl) as (e1 & o & n1 & X1 & BN1 & L1 & Q1). rewrite X1 in IM. clear X1.
  assert (FIN : exists n2, Forall byte n2 /\ length n2 = second_width en /\ e1 = OK /\ i = canon addr (opcode_bytes p o ++ n1 ++ n2)).
  { unfold second_width. destruct (e_m2 en =? M_ADDR).
    - unfold ai_setErrorIf in IM. cbn [ai_insn ai_err ai_prefix ai_opc] in IM.
      destruct (emit_word (getUnsigned (o_val o2)) addr (opcode_bytes p o ++ n1) (setErrorIfAt e1 (o_err o2)) p o ltac:(rewrite app_length; pose proof (opcode_len p o); lia)) as (hi & lo & H1 & H2 & X). rewrite X in IM. cbn [ai_insn ai_err] in IM.
      injection IM as IM _. assert (ER : setErrorIfAt e1 (o_err o2) = OK) by (rewrite <- IM in E; exact E). exists [hi; lo]. split; [auto|]. split; [reflexivity|]. split; [now apply seterr_ok in ER|]. rewrite <- IM, ER, <- app_assoc. reflexivity.
    - cbn [ai_insn ai_err] in IM. injection IM as IM _. assert (ER : e1 = OK) by (rewrite <- IM in E; exact E). exists []. split; [constructor|]. split; [reflexivity|]. split; [exact ER|]. rewrite <- IM, ER, app_nil_r. reflexivity. }
  destruct FIN as (n2 & BN2 & L2 & E1 & II). destruct (Q1 E1) as (_ & I1).
  rewrite forallb_forall in CH. specialize (CH _ I1). cbv beta iota in CH. apply orb_prop in CH. destruct CH as [CH|CH].
  { exfalso. rewrite II, canon_code in NO. clear - NO CH L2 L1 PX IE. unfold never in CH. rewrite !andb_true_iff in CH. destruct CH as ((P0 & W2) & CH). apply Z.eqb_eq in P0. apply Nat.eqb_eq in W2. rewrite W2 in L2. subst p. destruct n2; [|discriminate].
    rewrite app_nil_r in NO. change (opcode_bytes 0 o) with [o] in NO. cbn [app] in NO. destruct NO as (N1 & N2 & N3). rewrite !orb_true_iff, !andb_true_iff, !Nat.eqb_eq, !Z.eqb_eq in CH.
    destruct CH as [[(-> & W)|(-> & W)]|(-> & W)]; destruct n1 as [|x [|y [|z n1]]]; try discriminate; [eapply N2|eapply N3|apply N1]; reflexivity. }
  rewrite !andb_true_iff in CH. destruct CH as ((BO & NP) & CH). unfold is_byte in BO.
  destruct (look ct p o) as [ee|] eqn:LK; [|discriminate]. apply andb_prop in CH. destruct CH as (C1 & C2). apply Nat.eqb_eq in C1, C2.
  exists p, o, n1, n2, ee. split; [exact INP|]. split.
  { clear - PX NP. destruct (Z.eqb_spec p 0) as [->|N]; [left|right]; cbn [negb orb] in *; split; auto. now apply negb_true_iff. }
  split; [unfold byte; lia|]. split; [now apply Forall_app|]. split; [exact II|]. split; [exact LK|]. split; congruence.
Qed.
Lemma cdp1802_decodes d ct ur uA sm a line addr i rest m size : In ct types -> da_symtab d = None -> da_aw d = 16 -> brief_plugin (da_plug d) -> a_aw a = 16 -> 0 <= addr < 2^32 ->
  cdp1802_encode a ct uA sm line addr = Val (L_insn i rest) -> i_err i = OK -> normal (i_code i) -> Forall byte m -> 128 <= size ->
  i_addr i = addr /\ Forall byte (i_code i) /\ (1 <= length (i_code i) <= 4)%nat /\
  exists r, cdp1802_decode d ct ur (i_code i ++ m) addr size = Val r /\ r_insn r = i.
Proof.
  intros T NS AW BP AA A H E NO BM SZ. destruct (cdp1802_emitted a ct uA sm line addr i rest T AA A H E NO) as (CA & p & o & n1 & n2 & e & IP & PO & BO & BN & -> & LK & S1 & S2).
  assert (BY : byte p) by (clear - IP; unfold byte; cbn in IP; lia).
  assert (BC : Forall byte (opcode_bytes p o ++ n1 ++ n2)) by (apply Forall_app; split; [unfold opcode_bytes; destruct (negb _); cbn [app]; auto|exact BN]).
  assert (LN : (length (n1 ++ n2) <= 2)%nat) by (rewrite app_length, S1, S2; pose proof (chain_len ct p o T IP BO) as CL; unfold n_chain in CL; now rewrite LK in CL).
  rewrite canon_code. split; [reflexivity|]. split; [exact BC|]. split.
  { rewrite app_length. pose proof (opcode_len p o). assert (1 <= length (opcode_bytes p o))%nat by (unfold opcode_bytes; destruct (negb _); cbn; lia). lia. }
  pose proof (fine_chain d NS BP AW ct ur p addr n1 n2 o e LK S1 S2) as FI.
  destruct (fineAt_decode d (pfx ct) (decode_opcode d ct ur) (chain d ct ur) p o (n1 ++ n2) m addr size 82 PO BY BO) as (r & D & R); auto; try lia.
  - intros mem s _. now apply chain_start.
  - rewrite AW. exact CA.
  - exists r. split; [|exact R]. rewrite decode_eq; [now rewrite <- app_assoc|exact T|apply Forall_app; auto].
Qed.
