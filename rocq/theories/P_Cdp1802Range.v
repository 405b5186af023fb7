(** The CDP1802 family: what the instructions with a number give for every value. *)
From Coq Require Import String ZArith List Bool Lia ZifyBool.
From Verif Require Import M_Char M_Error M_Value M_Text M_StrBuffer M_Format M_Number M_Insn M_Config M_Operators
  M_Parsers M_Expr M_Directive M_Table T_Tables M_Asm M_Dis M_Cdp1802Defs T_Cdp1802 M_Cdp1802
  S_Value S_Number S_Expr S_ExprTree S_Table S_Cpu S_Cdp1802 P_StrBuffer P_Number P_NumberRead
  P_ExprRead P_ExprTree P_ExprCase P_Table P_TableData P_Insn P_Config P_Value P_Directive P_AsmText P_CpuShape P_CpuGood P_CpuText P_CpuRange P_Cdp1802.
Import ListNotations.
Open Scope string_scope.
Open Scope list_scope.
Local Open Scope Z_scope.

Lemma loop_digits p : forall v l v' l' z, regNumber_loop p v l = (v', l', z) -> exists n, p = n ++ z /\ Forall (fun d => is_digit d = true) n /\ (n = [] -> v' = v /\ l' = l) /\ v' = decimal v n.
Proof.
  induction p as [|c p IH]; intros v l v' l' z; cbn [regNumber_loop].
  - intros H. injection H as <- <- <-. exists []. cbn. auto.
  - destruct (is_digit c && (v <? 1000)) eqn:E.
    + intros H. destruct (IH _ _ _ _ _ H) as (n & -> & F & _ & DV). apply andb_true_iff in E. exists (c :: n). cbn [app]. split; [reflexivity|].
      split; [constructor; tauto|]. split; [discriminate|exact DV].
    + intros H. injection H as <- <- <-. exists []. cbn. auto.
Qed.
Lemma reg_none s : starts_number s -> parseRegName s = None.
Proof.
  intros (_ & H). unfold parseRegName. destruct (iexpect 82 s) as [p|] eqn:X; [|reflexivity]. unfold parseRegNumber.
  destruct (regNumber_loop p 0 0) as [[v l] z] eqn:L. destruct (isIdLetter (peek z)) eqn:I; [reflexivity|].
  destruct (loop_digits _ _ _ _ _ _ L) as (n & -> & F & N0 & DV).
  destruct (_ || _) eqn:B; [reflexivity|]. destruct ((0 <=? v) && (v <? 16)) eqn:V16; [|reflexivity]. exfalso. apply H.
  destruct s as [|c s]; [discriminate|]. cbn [iexpect] in X. destruct (Z.eqb_spec (to_upper c) (to_upper 82)) as [E|]; [|discriminate]. injection X as ->.
  exists c, n, z. split; [reflexivity|]. split.
  { unfold to_upper, is_lower in E. change ((97 <=? 82) && (82 <=? 122)) with false in E. cbv iota in E. destruct ((97 <=? c) && (c <=? 122)); lia. }
  split; [intros E'; destruct (N0 E') as (-> & ->); discriminate|]. split; [exact F|]. unfold isIdLetter in I. apply orb_false_iff in I. split; [tauto|]. split; [apply Z.eqb_neq; tauto|]. rewrite <- DV. lia.
Qed.
Lemma parse_number a ur loc b0 e s rest v : a_pl a = pl_cdp1802 -> a_radix a = 10 -> blanks b0 -> starts_number s ->
  derives fam_1802 (mkC loc (a_symbol a) (a_function a) 0) e s rest -> well_nested e -> value_slots e <= 8 -> operator_slots e <= 8 ->
  tail rest -> value_of e = Val (OK, v) ->
  exists b, blanks b /\ parseOperand a ur loc (b0 ++ s) = Val (OK, mkOp M_ADDR v OK, b ++ rest).
Proof.
  intros PL RX B0 SN D W VS OS T V. destruct (parse_value fam_1802 a loc [] e s rest v) as (b & B & X); auto.
  { cbn. auto 20. } { apply Forall_nil. }
  cbn [app] in X. exists b. split; [exact B|]. unfold parseOperand. cbv zeta.
  assert (ST : starts s).
  { destruct SN as (SN & _). destruct s as [|c s]; [destruct SN|]. unfold starts. cbn [peek]. split; [discriminate|]. tauto. }
  pose proof (starts_skip b0 s [] B0 ST) as SK. rewrite !app_nil_r in SK. rewrite SK, PL. change (p_eol pl_cdp1802) with eol_semicolon.
  pose proof (starts_more s [] ST) as SM. rewrite app_nil_r in SM. rewrite SM. cbv iota. rewrite reg_none by exact SN.
  replace (if ur then None else None) with (@None (Z * text)) by now destruct ur. rewrite X. reflexivity.
Qed.

(* ------------------------------------------------------------ the line *)
Definition pre (l : list Z) : Z := match l with [p] => p | _ => 0 end.
Definition form_ok (ct m m2 : Z) (f : form) : bool :=
  plain_name sp_rca [] cdp1802_directives (mnemonic f) && is_alpha (peek (mnemonic f)) && (0 <=? opcode f) && (opcode f <? 256) &&
  match prefix f with [] => true | [p] => (0 <? p) && (p <? 256) | _ => false end &&
  match cdp1802_searchName ct (mnemonic f) M_ADDR (if m2 =? M_NONE then M_NONE else M_ADDR) with
  | Val (OK, Some (p, e')) => (p =? pre (prefix f)) && (e_opc e' =? opcode f) && (e_m1 e' =? m) && (e_m2 e' =? m2)
  | _ => false
  end.
Definition fin (sm : bool) (addr : Z) (f : form) (m : Z) (v : value) : ainsn :=
  emitOperand sm m (mkOp M_ADDR v OK) (mkAI (canon addr []) OK (pre (prefix f)) (opcode f)).
Lemma form_opens ct sm ur m m2 f a indent gap ops addr :
  form_ok ct m m2 f = true -> a_pl a = pl_cdp1802 -> a_aw a = 16 -> blanks indent -> blanks gap -> gap <> [] -> checkAddr 16 addr false = OK ->
  cdp1802_encode a ct ur sm (indent ++ mnemonic f ++ gap ++ ops) addr =
  bind (cdp1802_encodeImpl a ct ur sm addr (mnemonic f) (skipSpaces ops) (new_insn addr)) (fun '(i, scan) => Val (L_insn i scan)).
Proof.
  intros FK PL AW BI BG NG CA. unfold form_ok in FK. rewrite !andb_true_iff in FK. destruct FK as (((((PN & AL) & O1) & O2) & PF) & FK).
  unfold cdp1802_encode. rewrite line_insn; [reflexivity| | |exact BI|exact BG| |].
  - rewrite PL. exact PN.
  - intros z. rewrite PL. now apply plain_rca.
  - rewrite PL. destruct gap as [|c gap]; [congruence|]. inversion BG as [|? ? C ?]; subst. cbn [app peek]. apply space_cases in C.
    destruct C as [->|[->|[->|[->|[->| ->]]]]]; reflexivity.
  - rewrite AW. exact CA.
Qed.
Lemma form_encode ct sm ur m f a indent gap ops scan rest addr v :
  form_ok ct m M_NONE f = true ->
  a_pl a = pl_cdp1802 -> a_aw a = 16 ->
  blanks indent -> blanks gap -> gap <> [] -> checkAddr 16 addr false = OK ->
  parseOperand a ur addr (skipSpaces ops) = Val (OK, mkOp M_ADDR v OK, scan) -> skipSpaces scan = rest -> last_rest rest ->
  cdp1802_encode a ct ur sm (indent ++ mnemonic f ++ gap ++ ops) addr =
  Val (L_insn (i_seterr (ai_err (fin sm addr f m v)) (ai_insn (fin sm addr f m v))) rest).
Proof.
  intros FK PL AW BI BG NG CA PO SK LR. rewrite (form_opens ct sm ur m M_NONE f) by assumption. unfold form_ok in FK. rewrite !andb_true_iff in FK. destruct FK as (((((PN & AL) & O1) & O2) & PF) & FK).
  change (if M_NONE =? M_NONE then M_NONE else M_ADDR) with M_NONE in FK.
  unfold cdp1802_encodeImpl.
  assert (PS : parseOperands a ur addr (skipSpaces ops) = Val (Two (mkOp M_ADDR v OK) no_operand rest)).
  { unfold parseOperands. rewrite PO. cbn [bind]. change (isOK OK) with true. cbn [negb andb]. cbv zeta. rewrite SK.
    rewrite last_nocomma by exact LR. reflexivity. }
  rewrite PS. cbn [bind o_mode no_operand].
  destruct (cdp1802_searchName ct (mnemonic f) M_ADDR M_NONE) as [[er [[p e']|]]| | | |]; try discriminate.
  2:{ destruct er; discriminate. }
  destruct er; try discriminate. rewrite !andb_true_iff in FK. destruct FK as (((F0 & F1) & F2) & F3).
  apply Z.eqb_eq in F0, F1, F2, F3. cbn [bind i_err new_insn]. change (setErrorIfAt OK OK) with OK. change (isOK OK) with true. cbn [negb]. cbv zeta.
  rewrite F0, F1, F2, F3. reflexivity.
Qed.
Lemma form_double ct sm ur m f a indent gap ops scan1 scan2 rest addr v w :
  form_ok ct m M_ADDR f = true ->
  a_pl a = pl_cdp1802 -> a_aw a = 16 ->
  blanks indent -> blanks gap -> gap <> [] -> checkAddr 16 addr false = OK ->
  parseOperand a ur addr (skipSpaces ops) = Val (OK, mkOp M_ADDR v OK, scan1) -> skipSpaces scan1 = 44 :: scan2 ->
  parseOperand a ur addr scan2 = Val (OK, mkOp M_ADDR w OK, rest) -> 
  cdp1802_encode a ct ur sm (indent ++ mnemonic f ++ gap ++ ops) addr =
  let ai := ai_emitUint16 (getUnsigned w) (ai_setErrorIf OK (fin sm addr f m v)) in
  Val (L_insn (i_seterr (ai_err ai) (ai_insn ai)) (skipSpaces rest)).
Proof.
  intros FK PL AW BI BG NG CA PO SK PO2. rewrite (form_opens ct sm ur m M_ADDR f) by assumption. unfold form_ok in FK. rewrite !andb_true_iff in FK. destruct FK as (((((PN & AL) & O1) & O2) & PF) & FK).
  change (if M_ADDR =? M_NONE then M_NONE else M_ADDR) with M_ADDR in FK.
  unfold cdp1802_encodeImpl.
  assert (PS : parseOperands a ur addr (skipSpaces ops) = Val (Two (mkOp M_ADDR v OK) (mkOp M_ADDR w OK) (skipSpaces rest))).
  { unfold parseOperands. rewrite PO. cbn [bind]. change (isOK OK) with true. cbn [negb andb]. cbv zeta. rewrite SK.
    cbn [expect_char]. change (44 =? 44) with true. cbv iota. rewrite PO2. reflexivity. }
  rewrite PS. cbn [bind o_mode].
  destruct (cdp1802_searchName ct (mnemonic f) M_ADDR M_ADDR) as [[er [[p e']|]]| | | |]; try discriminate.
  2:{ destruct er; discriminate. }
  destruct er; try discriminate. rewrite !andb_true_iff in FK. destruct FK as (((F0 & F1) & F2) & F3).
  apply Z.eqb_eq in F0, F1, F2, F3. cbn [bind i_err new_insn]. change (setErrorIfAt OK OK) with OK. change (isOK OK) with true. cbn [negb]. cbv zeta.
  rewrite F0, F1, F2, F3. reflexivity.
Qed.

(* ------------------------------------------------------------ the bytes *)
Definition good_form (f : form) : Prop := byte (opcode f) /\ (prefix f = [] \/ exists p, prefix f = [p] /\ byte p /\ p <> 0).
Lemma form_good ct m m2 f : form_ok ct m m2 f = true -> good_form f.
Proof.
  unfold form_ok. rewrite !andb_true_iff. intros (((((_ & _) & O1) & O2) & PF) & _). split; [unfold byte; lia|].
  destruct (prefix f) as [|p [|? ?]]; try discriminate; [auto|]. right. exists p. unfold byte. split; [reflexivity|]. lia.
Qed.
Lemma emit_form addr e f o : good_form f -> byte o -> ai_emitInsn (mkAI (canon addr []) e (pre (prefix f)) o) = mkAI (canon addr (prefix f ++ [o])) e (pre (prefix f)) o.
Proof.
  intros (_ & P) O. assert (BP : byte (pre (prefix f))) by (destruct P as [->|(p & -> & B & _)]; [unfold byte; cbn; lia|exact B]).
  rewrite emitI by assumption. do 2 f_equal. unfold opcode_bytes. destruct P as [->|(p & -> & B & N)]; [reflexivity|].
  cbn [pre app]. apply Z.eqb_neq in N. rewrite N. reflexivity.
Qed.
Lemma fail_er (b : bool) e i e0 p o : (if b then ai_setErrorIf e (mkAI i e0 p o) else mkAI i e0 p o) = mkAI i (er1 b e0 e) p o.
Proof. now destruct b. Qed.
Lemma pre_len f : good_form f -> (length (prefix f) <= 1)%nat.
Proof. intros (_ & [->|(p & -> & _)]); cbn; lia. Qed.
(* what the fields of the instruction are *)
Definition gives (ai : ainsn) (bs : list Z) (e : err) : Prop := exists p o addr, ai = mkAI (canon addr bs) e p o.
Lemma gives_code ai bs e : gives ai bs e -> i_code (i_seterr (ai_err ai) (ai_insn ai)) = bs /\ i_err (i_seterr (ai_err ai) (ai_insn ai)) = e.
Proof.
  intros (p & o & addr & ->). cbn [ai_err ai_insn]. split; [|reflexivity]. unfold i_code, i_seterr. cbn [i_len i_bytes]. fold (i_code (canon addr bs)). apply canon_code.
Qed.
Lemma fin_imm8 sm addr f v : good_form f -> int_value v ->
  gives (fin sm addr f M_IMM8 v) (prefix f ++ [opcode f; int_of v mod 256]) (if (-128 <=? int_of v) && (int_of v <=? 255) then OK else OVERFLOW_RANGE).
Proof.
  intros G IV. pose proof (pre_len f G) as PL. unfold fin, emitOperand. cbv zeta. cbn [o_err o_val]. rewrite noerr.
  cbn [Z.eqb M_REGN M_REG1 M_IMM8 Pos.eqb]. unfold overflowUint8. rewrite (over_b v 255 (-128)) by (exact IV || lia). rewrite fail_er, emit_form by (auto; apply G).
  rewrite (emitB (int_of v mod 256)); [|apply mod_byte|now apply low8|rewrite app_length; cbn; lia]. rewrite <- app_assoc. cbn [app].
  do 3 eexists. f_equal. now destruct (_ && _).
Qed.
Lemma embed_reg o n x : 0 <= n <= 8 -> byte o -> Z.land o (Z.ones n) = 0 -> 0 <= x < 2^n -> u8 (Z.lor o x) = o + x /\ byte (o + x).
Proof.
  intros N O L X. rewrite (lor_add o n) by (lia || assumption). unfold byte in *.
  assert (OB : o + x < 256).
  { assert (exists k, o = k * 2^n) as (k & ->). { rewrite Z.land_ones in L by lia. exists (o / 2^n). pose proof (Z.div_mod o (2^n)). lia. }
    assert (256 = 2^(8-n) * 2^n) as E by (rewrite <- Z.pow_add_r by lia; replace (8 - n + n) with 8 by lia; reflexivity).
    assert (k < 2^(8-n)). { apply (Z.mul_lt_mono_pos_r (2^n)); [apply Z.pow_pos_nonneg; lia|]. lia. }
    assert (k * 2^n + 2^n <= 256); [|lia]. rewrite E. replace (k * 2^n + 2^n) with ((k + 1) * 2^n) by lia. apply Z.mul_le_mono_nonneg_r; lia. }
  split; [|lia]. unfold u8. apply Z.mod_small. lia.
Qed.
Definition the_reg (v : Z) : Z := if (0 <=? v) && (v <=? 15) then v else 7.
Lemma fin_emit addr f v e : good_form f -> int_value v -> Z.land (opcode f) (Z.ones 4) = 0 ->
  gives (emit_register (mkOp M_ADDR v OK) v (mkAI (canon addr []) e (pre (prefix f)) (opcode f))) (prefix f ++ [opcode f + the_reg (int_of v)])
    (er1 (negb ((0 <=? int_of v) && (int_of v <=? 15))) e ILLEGAL_REGISTER).
Proof.
  intros G IV L. unfold emit_register. cbv zeta. cbn [o_err]. change (isOK OK) with true. cbn [negb]. rewrite (over_b v 15 0) by (exact IV || lia).
  unfold the_reg. destruct ((0 <=? int_of v) && (int_of v <=? 15)) eqn:R; cbn [negb er1].
  - rewrite (get_unsigned v (int_of v)) by (auto; lia). unfold ai_embed. cbn [ai_insn ai_err ai_prefix ai_opc].
    destruct (embed_reg (opcode f) 4 (int_of v) ltac:(lia) (proj1 G) L ltac:(lia)) as (-> & B). rewrite emit_form by assumption. do 3 eexists. reflexivity.
  - unfold ai_embed, ai_setErrorIf. cbn [ai_insn ai_err ai_prefix ai_opc]. change (getUnsigned (setUnsigned 7)) with 7.
    destruct (embed_reg (opcode f) 4 7 ltac:(lia) (proj1 G) L ltac:(lia)) as (-> & B). rewrite emit_form by assumption. do 3 eexists. reflexivity.
Qed.
Lemma fin_reg sm addr f v : good_form f -> int_value v -> Z.land (opcode f) (Z.ones 4) = 0 ->
  gives (fin sm addr f M_REGN v) (prefix f ++ [opcode f + the_reg (int_of v)]) (if (0 <=? int_of v) && (int_of v <=? 15) then OK else ILLEGAL_REGISTER).
Proof.
  intros G IV L. unfold fin, emitOperand. cbv zeta. cbn [o_err o_val]. rewrite noerr. cbn [Z.eqb M_REGN M_REG1 M_IMM8 Pos.eqb].
  pose proof (fin_emit addr f v OK G IV L) as H. destruct (_ && _); exact H.
Qed.
Lemma zero_is v : int_value v -> v_type v <> V_UNDEF -> isZero v = (int_of v =? 0).
Proof.
  intros IV NU. destruct (Z.eqb_spec (int_of v) 0) as [E|E].
  - unfold isZero, isUndefined, int_value, int_of in *. destruct v as [ty bits]. cbn [v_type v_bits] in *. destruct ty; try congruence; cbn; try lia; tauto.
  - pose proof (zero_flag v IV E) as H. apply orb_false_iff in H. tauto.
Qed.
Lemma fin_load sm addr f v : good_form f -> int_value v -> v_type v <> V_UNDEF -> Z.land (opcode f) (Z.ones 4) = 0 ->
  gives (fin sm addr f M_REG1 v) (prefix f ++ [opcode f + (if (1 <=? int_of v) && (int_of v <=? 15) then int_of v else 7)])
    (if int_of v =? 0 then REGISTER_NOT_ALLOWED else if (1 <=? int_of v) && (int_of v <=? 15) then OK else ILLEGAL_REGISTER).
Proof.
  intros G IV NU L. unfold fin, emitOperand. cbv zeta. cbn [o_err o_val]. rewrite noerr. change (M_REG1 =? M_REG1) with true. change (isOK OK) with true. cbn [negb]. cbv iota.
  rewrite zero_is by assumption. destruct (Z.eqb_spec (int_of v) 0) as [E|E].
  - rewrite E. cbn [Z.leb Z.compare andb]. unfold ai_setErrorIf. cbn [ai_insn ai_err ai_prefix ai_opc].
    unfold emit_register. cbn [o_err]. change (isOK OK) with true. cbn [negb]. change (overflow (setUnsigned 7) 15 0) with false. cbv iota.
    unfold ai_embed. cbn [ai_insn ai_err ai_prefix ai_opc]. change (getUnsigned (setUnsigned 7)) with 7.
    destruct (embed_reg (opcode f) 4 7 ltac:(lia) (proj1 G) L ltac:(lia)) as (-> & B). rewrite emit_form by assumption. do 3 eexists. reflexivity.
  - pose proof (fin_emit addr f v OK G IV L) as H. unfold the_reg in H.
    replace ((1 <=? int_of v) && (int_of v <=? 15)) with ((0 <=? int_of v) && (int_of v <=? 15)) by lia. destruct (_ && _); exact H.
Qed.
Lemma fin_device sm addr f v : good_form f -> int_value v -> v_type v <> V_UNDEF -> Z.land (opcode f) (Z.ones 3) = 0 ->
  gives (fin sm addr f M_IOAD v) (prefix f ++ [opcode f + (if (1 <=? int_of v) && (int_of v <=? 7) then int_of v else 1)])
    (if (1 <=? int_of v) && (int_of v <=? 7) then OK else OPERAND_NOT_ALLOWED).
Proof.
  intros G IV NU L. unfold fin, emitOperand. cbv zeta. cbn [o_err o_val]. rewrite noerr. cbn [Z.eqb M_REGN M_REG1 M_IMM8 M_PAGE M_ADDR M_SHRT M_LONG M_IOAD Pos.eqb orb].
  change (isOK OK) with true. cbn [negb]. rewrite zero_is, (over_b v 7 0) by (assumption || lia).
  destruct ((1 <=? int_of v) && (int_of v <=? 7)) eqn:R.
  - replace ((int_of v =? 0) || negb ((0 <=? int_of v) && (int_of v <=? 7))) with false by lia. unfold ai_embed. cbn [ai_insn ai_err ai_prefix ai_opc].
    rewrite (get_unsigned v (int_of v)) by (auto; lia). destruct (embed_reg (opcode f) 3 (int_of v) ltac:(lia) (proj1 G) L ltac:(lia)) as (-> & B). rewrite emit_form by assumption. do 3 eexists. reflexivity.
  - replace ((int_of v =? 0) || negb ((0 <=? int_of v) && (int_of v <=? 7))) with true by lia. unfold ai_embed, ai_setErrorIf. cbn [ai_insn ai_err ai_prefix ai_opc].
    change (getUnsigned (setUnsigned 1)) with 1. destruct (embed_reg (opcode f) 3 1 ltac:(lia) (proj1 G) L ltac:(lia)) as (-> & B). rewrite emit_form by assumption. do 3 eexists. reflexivity.
Qed.
(* branches *)
Lemma intra_gives addr f v e o : good_form f -> byte o -> int_value v ->
  gives (intra_page (getUnsigned v) (mkAI (canon addr []) e (pre (prefix f)) o)) (prefix f ++ [o; int_of v mod 256]) e.
Proof.
  intros G O IV. pose proof (pre_len f G). unfold intra_page. rewrite emit_form by assumption.
  rewrite (emitB (int_of v mod 256)); [|apply mod_byte|now apply low8|rewrite app_length; cbn; lia]. rewrite <- app_assoc. do 3 eexists. reflexivity.
Qed.
Lemma inter_gives addr f v o : good_form f -> byte o -> int_value v ->
  gives (inter_page (mkOp M_ADDR v OK) (mkAI (canon addr []) OK (pre (prefix f)) o)) (prefix f ++ [o; int_of v / 256 mod 256; int_of v mod 256]) (checkAddr 16 (getUnsigned v) false).
Proof.
  intros G O IV. pose proof (pre_len f G). unfold inter_page. cbv zeta. cbn [o_val]. unfold ai_setErrorIf. cbn [ai_insn ai_err ai_prefix ai_opc]. rewrite emit_form by assumption.
  rewrite (emitW (int_of v / 256 mod 256) (int_of v mod 256)); [|apply mod_byte|apply mod_byte|now apply low16|rewrite app_length; cbn; lia]. rewrite <- app_assoc.
  do 3 eexists. f_equal. unfold setErrorIfAt, setError. change (isOK OK) with true. cbn [andb]. destruct (isOK (checkAddr _ _ _)) eqn:X; [apply isOK_e in X; now rewrite X|reflexivity].
Qed.
Lemma set_it e i p o : ai_setErrorIf e (mkAI i OK p o) = mkAI i e p o.
Proof.
  unfold ai_setErrorIf. cbn [ai_insn ai_err ai_prefix ai_opc]. f_equal. unfold setErrorIfAt, setError. change (isOK OK) with true. cbn [andb].
  destruct (isOK e) eqn:X; [apply isOK_e in X; now rewrite X|reflexivity].
Qed.
Section Branch.
Variables (addr : Z) (f : form) (v : value).
Hypotheses (G : good_form f) (IV : int_value v) (AR : 0 <= addr < 2^16).
Let base : u32 (addr + 2) = addr + 2.
Proof. unfold u32. apply Z.mod_small. lia. Qed.
Let page_err := checkAddr_in 16 (getUnsigned v) (addr + 2) 8 false.
Lemma page_ok : 0 <= int_of v < 2^32 -> (page_err = OK <-> int_of v < 65536 /\ same_page (int_of v) (addr + 2)).
Proof.
  intros R. unfold page_err. rewrite (get_unsigned v (int_of v)) by auto. unfold same_page. rewrite C31_segment by lia. change (2^16) with 65536. change (2^8) with 256.
  split; [tauto|]. intros (A & B). split; [exact A|]. split; [discriminate|exact B].
Qed.
Lemma addr_ok : 0 <= int_of v < 2^32 -> (checkAddr 16 (getUnsigned v) false = OK <-> int_of v < 65536).
Proof.
  intros R. rewrite (get_unsigned v (int_of v)) by auto. rewrite (proj1 (C31_addr 16 (int_of v) false ltac:(lia) R)). change (2^16) with 65536.
  split; [tauto|]. intros A. split; [exact A|discriminate].
Qed.
Lemma fin_page sm m : m = M_PAGE \/ m = M_SHRT /\ sm = false -> gives (fin sm addr f m v) (prefix f ++ [opcode f; int_of v mod 256]) page_err.
Proof.
  intros M. unfold fin, emitOperand. cbv zeta. cbn [o_err o_val]. rewrite noerr.
  assert (EP : encodePage sm m (mkOp M_ADDR v OK) (mkAI (canon addr []) OK (pre (prefix f)) (opcode f)) =
     intra_page (getUnsigned v) (mkAI (canon addr []) page_err (pre (prefix f)) (opcode f))).
  { unfold encodePage. cbv zeta. cbn [ai_insn canon i_addr o_err o_val]. change (isOK OK) with true. cbn [negb]. rewrite base.
    destruct M as [->|(-> & ->)]; cbn [Z.eqb M_PAGE M_SHRT Pos.eqb orb andb negb]; unfold page_err; now rewrite set_it. }
  destruct M as [->|(-> & ->)]; cbn [Z.eqb M_REGN M_REG1 M_IMM8 M_PAGE M_ADDR M_SHRT M_LONG M_IOAD Pos.eqb orb]; rewrite EP; apply intra_gives; auto; apply G.
Qed.
Lemma fin_long sm m : m = M_ADDR \/ m = M_LONG /\ sm = false ->
  gives (fin sm addr f m v) (prefix f ++ [opcode f; int_of v / 256 mod 256; int_of v mod 256]) (checkAddr 16 (getUnsigned v) false).
Proof.
  intros M. unfold fin, emitOperand. cbv zeta. cbn [o_err o_val]. rewrite noerr.
  assert (EP : encodePage sm m (mkOp M_ADDR v OK) (mkAI (canon addr []) OK (pre (prefix f)) (opcode f)) =
     inter_page (mkOp M_ADDR v OK) (mkAI (canon addr []) OK (pre (prefix f)) (opcode f))).
  { unfold encodePage. cbv zeta. destruct M as [->|(-> & ->)]; reflexivity. }
  destruct M as [->|(-> & ->)]; cbn [Z.eqb M_REGN M_REG1 M_IMM8 M_PAGE M_ADDR M_SHRT M_LONG M_IOAD Pos.eqb orb]; rewrite EP; apply inter_gives; auto; apply G.
Qed.
Lemma low_digit o k : byte o -> Z.land k 15 = 0 -> 0 <= k < 256 -> u8 (Z.lor k (Z.land o 15)) = k + o mod 16 /\ byte (k + o mod 16).
Proof.
  intros O K R. change 15 with (Z.ones 4) in *. rewrite (Z.land_ones o 4) by lia. change (2^4) with 16.
  apply (embed_reg k 4); [lia|exact R|exact K|]. apply Z.mod_pos_bound. lia.
Qed.
Lemma fin_smart m : m = M_SHRT \/ m = M_LONG ->
  (page_err = OK -> gives (fin true addr f m v) (prefix f ++ [0x30 + condition f; int_of v mod 256]) OK) /\
  (page_err <> OK -> gives (fin true addr f m v) (prefix f ++ [0xC0 + condition f; int_of v / 256 mod 256; int_of v mod 256]) (checkAddr 16 (getUnsigned v) false)).
Proof.
  intros M. unfold fin, emitOperand. cbv zeta. cbn [o_err o_val]. rewrite noerr. unfold condition.
  assert (EP : encodePage true m (mkOp M_ADDR v OK) (mkAI (canon addr []) OK (pre (prefix f)) (opcode f)) =
     if isOK page_err then intra_page (getUnsigned v) (mkAI (canon addr []) OK (pre (prefix f)) (u8 (Z.lor 0x30 (Z.land (opcode f) 0xF))))
     else inter_page (mkOp M_ADDR v OK) (mkAI (canon addr []) OK (pre (prefix f)) (u8 (Z.lor 0xC0 (Z.land (opcode f) 0xF))))).
  { unfold encodePage. cbv zeta. cbn [ai_insn canon i_addr o_err o_val]. change (isOK OK) with true. cbn [negb]. rewrite base. fold page_err.
    destruct M as [->| ->]; cbn [Z.eqb M_PAGE M_SHRT M_LONG M_ADDR Pos.eqb orb andb negb]; now destruct (isOK page_err). }
  assert (EM : emitOperand true m (mkOp M_ADDR v OK) (mkAI (canon addr []) OK (pre (prefix f)) (opcode f)) = encodePage true m (mkOp M_ADDR v OK) (mkAI (canon addr []) OK (pre (prefix f)) (opcode f))).
  { unfold emitOperand. cbv zeta. cbn [o_err o_val]. rewrite noerr. destruct M as [->| ->]; reflexivity. }
  unfold emitOperand in EM. cbv zeta in EM. cbn [o_err o_val] in EM. rewrite noerr in EM. rewrite EM, EP.
  destruct (low_digit (opcode f) 0x30 (proj1 G) eq_refl ltac:(lia)) as (E3 & B3). destruct (low_digit (opcode f) 0xC0 (proj1 G) eq_refl ltac:(lia)) as (EC & BC). rewrite E3, EC.
  split; intros X.
  - rewrite X. change (isOK OK) with true. cbv iota. now apply intra_gives.
  - destruct (isOK page_err) eqn:Y; [apply isOK_e in Y; congruence|]. now apply inter_gives.
Qed.
End Branch.

(* ------------------------------------------------------------ all forms *)
Definition all_forms (ct : Z) : list (Z * list form) := [(M_IMM8, byte_forms ct); (M_REGN, register_forms ct); (M_REG1, load_forms); (M_IOAD, device_forms);
  (M_PAGE, page_forms ct); (M_SHRT, short_forms); (M_LONG, long_forms); (M_ADDR, address_forms)].
Lemma forms_ok : forallb (fun ct => forallb (fun '(m, l) => forallb (form_ok ct m M_NONE) l) (all_forms ct) && forallb (form_ok ct M_REGN M_ADDR) (double_forms ct)) cdp_types = true.
Proof. vm_compute. reflexivity. Qed.
Definition low_bits (m : Z) : Z := if m =? M_IOAD then 3 else 4.
Lemma low_ok : forallb (fun ct => forallb (fun '(m, l) => negb ((m =? M_REGN) || (m =? M_REG1) || (m =? M_IOAD)) || forallb (fun f => Z.land (opcode f) (Z.ones (low_bits m)) =? 0) l) (all_forms ct)
  && forallb (fun f => Z.land (opcode f) (Z.ones 4) =? 0) (double_forms ct)) cdp_types = true.
Proof. vm_compute. reflexivity. Qed.
Section Ranges.
Variables (symbol : text -> option value) (function : text -> option functor) (indent gap b0 : text)
  (e : expr) (s rest : text) (v : value) (addr ct : Z) (ur sm : bool).
Hypotheses (CT : In ct cdp_types) (BI : blanks indent) (BG : blanks gap) (NG : gap <> []) (B0 : blanks b0) (AR : 0 <= addr < 2^16).
Let a := cdp1802_asm symbol function 10.
Hypotheses (D : derives fam_1802 (mkC addr symbol function 0) e s rest) (W : well_nested e) (VS : value_slots e <= 8) (OS : operator_slots e <= 8)
  (V : value_of e = Val (OK, v)) (SN : starts_number s).
Let CA : checkAddr 16 addr false = OK.
Proof. apply (proj1 (C31_addr 16 addr false ltac:(lia) ltac:(lia))). split; [exact (proj2 AR)|discriminate]. Qed.
Let SKIP : forall t, parseOperand a ur addr (skipSpaces t) = parseOperand a ur addr t.
Proof. intros t. unfold parseOperand. now rewrite skip_skip. Qed.
Lemma range_line m l f bs er : In (m, l) (all_forms ct) -> In f l -> last_rest rest ->
  (good_form f -> gives (fin sm addr f m v) bs er) ->
  exists i, cdp1802_encode a ct ur sm (indent ++ mnemonic f ++ gap ++ b0 ++ s) addr = Val (L_insn i rest) /\ i_code i = bs /\ i_err i = er.
Proof.
  intros IL IF LR H. pose proof forms_ok as FO. rewrite forallb_forall in FO. specialize (FO _ CT). apply andb_true_iff in FO. destruct FO as (FO & _).
  rewrite forallb_forall in FO. specialize (FO _ IL). cbv beta iota in FO. rewrite forallb_forall in FO. specialize (FO f IF).
  destruct (parse_number a ur addr b0 e s rest v eq_refl eq_refl B0 SN D W VS OS (last_tail _ LR) V) as (b & BB & PO).
  specialize (H (form_good _ _ _ _ FO)).
  rewrite (form_encode ct sm ur m f a indent gap (b0 ++ s) (b ++ rest) rest addr v FO eq_refl eq_refl BI BG NG CA ltac:(rewrite SKIP; exact PO) (last_skip b rest BB LR) LR).
  eexists. split; [reflexivity|]. now apply gives_code.
Qed.
Lemma form_low m l f : In (m, l) (all_forms ct) -> In f l -> In m [M_REGN; M_REG1; M_IOAD] -> Z.land (opcode f) (Z.ones (low_bits m)) = 0.
Proof.
  intros IL IF IM. pose proof low_ok as H. rewrite forallb_forall in H. specialize (H _ CT). apply andb_true_iff in H. destruct H as (H & _).
  rewrite forallb_forall in H. specialize (H _ IL). cbv beta iota in H. apply orb_true_iff in H. destruct H as [H|H].
  - cbn in IM. destruct IM as [<-|[<-|[<-|[]]]]; discriminate.
  - rewrite forallb_forall in H. now apply Z.eqb_eq, H.
Qed.
Lemma double_line f b1 e2 s2 rest2 w : In f (double_forms ct) -> int_value v -> int_value w -> rest = 44 :: b1 ++ s2 -> blanks b1 ->
  derives fam_1802 (mkC addr symbol function 0) e2 s2 rest2 -> well_nested e2 -> value_slots e2 <= 8 -> operator_slots e2 <= 8 ->
  value_of e2 = Val (OK, w) -> starts_number s2 -> last_rest rest2 ->
  exists i, cdp1802_encode a ct ur sm (indent ++ mnemonic f ++ gap ++ b0 ++ s) addr = Val (L_insn i rest2) /\
    i_code i = prefix f ++ [opcode f + the_reg (int_of v); int_of w / 256 mod 256; int_of w mod 256] /\
    i_err i = (if (0 <=? int_of v) && (int_of v <=? 15) then OK else ILLEGAL_REGISTER).
Proof.
  intros IF IV IW ER B1 D2 W2 VS2 OS2 V2 SN2 LR. pose proof forms_ok as FO. rewrite forallb_forall in FO. specialize (FO _ CT). apply andb_true_iff in FO. destruct FO as (_ & FO).
  rewrite forallb_forall in FO. specialize (FO f IF). pose proof (form_good _ _ _ _ FO) as G.
  pose proof low_ok as H. rewrite forallb_forall in H. specialize (H _ CT). apply andb_true_iff in H. destruct H as (_ & H). rewrite forallb_forall in H. specialize (H f IF). apply Z.eqb_eq in H.
  assert (T : tail rest) by (right; exists 44, (b1 ++ s2); auto).
  destruct (parse_number a ur addr b0 e s rest v eq_refl eq_refl B0 SN D W VS OS T V) as (b & BB & PO).
  destruct (parse_number a ur addr b1 e2 s2 rest2 w eq_refl eq_refl B1 SN2 D2 W2 VS2 OS2 (last_tail _ LR) V2) as (b' & BB' & PO2).
  assert (SK : skipSpaces (b ++ rest) = 44 :: b1 ++ s2) by (rewrite skip_blanks by exact BB; rewrite ER; now apply skip_none).
  rewrite (form_double ct sm ur M_REGN f a indent gap (b0 ++ s) (b ++ rest) (b1 ++ s2) (b' ++ rest2) addr v w FO eq_refl eq_refl BI BG NG CA ltac:(rewrite SKIP; exact PO) SK PO2).
  cbv zeta. rewrite (last_skip b' rest2 BB' LR).
  destruct (fin_reg sm addr f v G IV H) as (p & o & ad & ->). pose proof (pre_len f G). rewrite noerr.
  rewrite (emitW (int_of w / 256 mod 256) (int_of w mod 256)); [|apply mod_byte|apply mod_byte|now apply low16|rewrite app_length; cbn; lia].
  rewrite <- app_assoc. eexists. split; [reflexivity|]. apply gives_code. do 3 eexists. reflexivity.
Qed.
End Ranges.
