(** The 6502 family: what the instructions with a number give for every value. *)
From Coq Require Import String ZArith List Bool Lia ZifyBool.
From Verif Require Import M_Char M_Error M_Value M_Text M_StrBuffer M_Format M_Number M_Insn M_Config M_Operators
  M_Parsers M_Expr M_Directive M_Table T_Tables M_Asm M_Dis M_Mos6502Defs T_Mos6502 M_Mos6502
  S_Value S_Number S_Expr S_ExprTree S_Table S_Cpu S_Mos6502 P_StrBuffer P_Number P_NumberRead
  P_ExprRead P_ExprTree P_ExprCase P_Table P_TableData P_Insn P_Config P_Value P_Directive P_AsmText P_CpuShape P_CpuGood P_CpuText P_CpuRange
  P_Mos6502 P_Mos6502Asm P_Mos6502Round.
Import ListNotations.
Open Scope string_scope.
Open Scope list_scope.
Local Open Scope Z_scope.

(* ------------------------------------------------------------ reading *)
Lemma reg_none s : starts_number s -> parseRegName s = Val (REG_UNDEF, s).
Proof. intros (_ & H). rewrite reg_parse. apply (parse_name_none _ _ ["A"; "S"; "X"; "Y"]); [vm_compute; reflexivity..|exact H]. Qed.
Lemma number_start s : starts_number s -> exists c u, s = c :: u /\ is_space c = false /\ c <> 0 /\ c <> 35 /\ c <> 40 /\ c <> 91 /\ c <> 60 /\ c <> 62 /\ c <> 59.
Proof.
  intros (H & _). destruct s as [|c u]; [destruct H|]. exists c, u. destruct H as (A & B & C). cbn in B.
  split; [reflexivity|]. split; [exact A|]. repeat split; try exact C; intros ->; apply B; auto 10.
Qed.
Definition vmode (z : Z) : Z := if (0 <=? z) && (z <=? 65535) then if (0 <=? z) && (z <=? 255) then M_DPG else M_ABS else M_ABSL.
Lemma select v : int_value v -> selectMode 0 v OK = vmode (int_of v).
Proof.
  intros IV. unfold selectMode, vmode. cbn [Z.eqb]. rewrite !over_b by (exact IV || lia). change (isOK OK) with true. rewrite andb_true_r.
  destruct ((0 <=? int_of v) && (int_of v <=? 65535)); [|reflexivity]. now destruct ((0 <=? int_of v) && (int_of v <=? 255)).
Qed.
Lemma vmode_in z : In (vmode z) [M_DPG; M_ABS; M_ABSL].
Proof. unfold vmode. destruct (_ && _); [destruct (_ && _)|]; cbn; auto. Qed.
Lemma not_eol c u : is_space c = false -> c <> 0 -> c <> 59 -> fst (eol_star (c :: u)) = false.
Proof.
  intros A B C. unfold eol_star. cbv zeta. rewrite skip_none by exact A. cbn [peek fst]. destruct (Z.eqb_spec c 32) as [->|]; [discriminate A|].
  apply Z.eqb_neq in B, C. now rewrite B, C.
Qed.
Section Read.
Variables (a : asm) (loc : Z).
Hypotheses (PL : a_pl a = pl_mos6502) (RX : a_radix a = 10).
Let EOL : forall c u, is_space c = false -> c <> 0 -> c <> 59 -> fst (p_eol (a_pl a) (c :: u)) = false.
Proof. intros. rewrite PL. now apply not_eol. Qed.
Lemma op_plain b0 s rest v : blanks b0 -> starts_number s -> expression fam_6502 loc (a_symbol a) (a_function a) s rest v ->
  match rest with [] => True | c :: _ => c = 44 \/ c = 59 end ->
  int_value v /\ exists b, blanks b /\ parseOperand a loc (b0 ++ s) 0 = Val (mkOp (vmode (int_of v)) v OK, b ++ rest, 0).
Proof.
  intros B0 SN E T. destruct (parse_until fam_6502 a loc 0 s rest v) as (IV & b & B & X); auto; [cbn; auto 20|cbn; auto|destruct rest; tauto|].
  split; [exact IV|]. exists b. split; [exact B|]. destruct (number_start s SN) as (c & u & -> & SP & C0 & C35 & C40 & C91 & C60 & C62 & C59).
  unfold parseOperand. cbv zeta. rewrite skip_blanks by exact B0. rewrite (skip_none c) by exact SP. rewrite EOL by assumption.
  apply Z.eqb_neq in C35, C40, C91, C60, C62. cbn [expect_char]. rewrite C35. unfold parseOpenIndirect. cbn [expect_char]. rewrite C40, C91. cbn [Z.eqb].
  rewrite (skip_none c) by exact SP. rewrite reg_none by exact SN. cbn [bind]. change (REG_UNDEF =? REG_UNDEF) with true. cbn [negb].
  unfold parseSizeOverride. cbn [expect_char]. rewrite C60, C62. rewrite X. cbn [bind]. change (hasError OK) with false. cbv iota. cbn [o_mode o_val o_err].
  rewrite select by exact IV. do 3 f_equal. f_equal. destruct (vmode_in (int_of v)) as [<-|[<-|[<-|[]]]]; reflexivity.
Qed.
Lemma op_open b0 b1 s rest v : blanks b0 -> blanks b1 -> starts_number s -> expression_until 41 fam_6502 loc (a_symbol a) (a_function a) s rest v ->
  match rest with [] => False | c :: _ => c = 44 \/ c = 41 end ->
  int_value v /\ exists b, blanks b /\
    parseOperand a loc (b0 ++ 40 :: b1 ++ s) 0 =
    Val (mkOp (16 + vmode (int_of v)) v OK, match rest with c :: z => if c =? 41 then z else rest | [] => [] end, if peek rest =? 41 then 0 else 41).
Proof.
  intros B0 B1 SN E T. destruct (parse_until fam_6502 a loc 41 s rest v) as (IV & b & B & X); auto; [cbn; auto 20|cbn; auto|destruct rest; [auto|destruct T; auto; right; right; lia]|].
  split; [exact IV|]. exists b. split; [exact B|]. destruct (number_start s SN) as (c & u & -> & SP & C0 & C35 & C40 & C91 & C60 & C62 & C59).
  unfold parseOperand. cbv zeta. rewrite skip_blanks by exact B0. rewrite (skip_none 40) by reflexivity. rewrite EOL by (reflexivity || discriminate).
  cbn [expect_char Z.eqb Pos.eqb]. unfold parseOpenIndirect. cbn [expect_char Z.eqb Pos.eqb negb].
  rewrite skip_blanks by exact B1. rewrite (skip_none c) by exact SP. rewrite reg_none by exact SN. cbn [bind]. change (REG_UNDEF =? REG_UNDEF) with true. cbn [negb].
  apply Z.eqb_neq in C60, C62.
  unfold parseSizeOverride. cbn [expect_char]. rewrite C60, C62. rewrite X. cbn [bind]. change (hasError OK) with false. cbv iota. cbn [o_mode o_val o_err].
  rewrite select by exact IV. change (41 =? 0) with false. cbv iota. unfold parseCloseIndirect. rewrite skip_blanks by exact B.
  assert (EM : embedFlags I_FLAG (vmode (int_of v)) = 16 + vmode (int_of v)) by (destruct (vmode_in (int_of v)) as [<-|[<-|[<-|[]]]]; reflexivity).
  rewrite EM. destruct rest as [|d rest]; [destruct T|]. destruct T as [->| ->]; rewrite skip_none by reflexivity; reflexivity.
Qed.
Lemma op_reg b0 c z r : blanks b0 -> In (c, r) [(88, REG_X); (120, REG_X); (89, REG_Y); (121, REG_Y)] -> isNameLetter (peek z) = false ->
  parseOperand a loc (b0 ++ c :: z) 0 = Val (mkOp (regName2AddrMode r) v_undef OK, z, 0) /\
  (forall b z', blanks b -> z = b ++ 41 :: z' -> parseOperand a loc (b0 ++ c :: z) 41 = Val (mkOp (16 + regName2AddrMode r) v_undef OK, z', 0)).
Proof.
  intros B0 CR NL.
  assert (RD : parseRegName (c :: z) = Val (r, z) /\ is_space c = false /\ c <> 0 /\ c <> 59 /\ (c =? 35) = false /\ (c =? 40) = false /\ (c =? 91) = false /\ (r =? REG_UNDEF) = false).
  { destruct (reg_read false REG_X z ltac:(cbn; auto) NL) as (_ & R1 & _). destruct (reg_read true REG_X z ltac:(cbn; auto) NL) as (_ & R2 & _).
    destruct (reg_read false REG_Y z ltac:(cbn; auto) NL) as (_ & R3 & _). destruct (reg_read true REG_Y z ltac:(cbn; auto) NL) as (_ & R4 & _).
    cbn in CR. destruct CR as [CR|[CR|[CR|[CR|[]]]]]; injection CR as <- <-; (split; [assumption|]); repeat split; try reflexivity; discriminate. }
  destruct RD as (RD & SP & C0 & C59 & C35 & C40 & C91 & RU).
  assert (RM : regName2AddrMode r = M_REGX \/ regName2AddrMode r = M_REGY).
  { cbn in CR. destruct CR as [CR|[CR|[CR|[CR|[]]]]]; injection CR as _ <-; cbn; auto. }
  assert (G : forall ind, ind = 0 \/ ind = 41 -> parseOperand a loc (b0 ++ c :: z) ind =
    let fl := if ind =? 0 then 0 else 16 in
    let op := mkOp (fl + regName2AddrMode r) v_undef OK in
    if ind =? 0 then Val (op, z, 0) else match parseCloseIndirect z ind with None => Val (mkOp (o_mode op) v_undef UNKNOWN_OPERAND, c :: z, ind) | Some (p, i) => Val (op, p, i) end).
  { intros ind IND. unfold parseOperand. cbv zeta. rewrite skip_blanks by exact B0. rewrite !(skip_none c) by exact SP. rewrite EOL by assumption.
    cbn [expect_char]. rewrite C35. unfold parseOpenIndirect. cbn [expect_char]. rewrite C40, C91.
    rewrite (skip_none c) by exact SP. rewrite RD. cbn [bind]. rewrite RU. cbn [negb o_mode o_val o_err].
    destruct IND as [->| ->]; cbn [Z.eqb Pos.eqb]; destruct RM as [-> | ->]; reflexivity. }
  split; [rewrite G by auto; reflexivity|]. intros b z' B ->. rewrite G by auto. cbv zeta. change (41 =? 0) with false. cbv iota.
  unfold parseCloseIndirect. rewrite skip_blanks by exact B. rewrite skip_none by reflexivity. reflexivity.
Qed.
(* the operands of an instruction with an address *)
Definition second (w : way) : Z := match w with Plain => M_NONE | WithX => M_REGX | WithY => M_REGY | InX => I_REGX | InY => M_REGY end.
Definition bracket (w : way) : Z := match w with InX | InY => 16 | _ => 0 end.
Lemma end_nolet b rest : blanks b -> last_rest rest -> isNameLetter (peek (b ++ rest)) = false.
Proof. intros B R. apply tail_noname; [exact B|now apply last_tail]. Qed.
Lemma ops_read w b0 t rest v : blanks b0 -> last_rest rest -> written w loc (a_symbol a) (a_function a) t rest v ->
  int_value v /\ exists scan, skipSpaces scan = rest /\
    parseOperands a loc (skipSpaces (b0 ++ t)) = Val (Three (mkOp (bracket w + vmode (int_of v)) v OK) (mkOp (second w) v_undef OK) no_operand scan).
Proof.
  intros B0 LR H.
  assert (TL : match rest with [] => True | c :: _ => c = 44 \/ c = 59 end) by (destruct LR as [->|(u & ->)]; auto).
  assert (LS : forall b, blanks b -> skipSpaces (b ++ rest) = rest) by (intros; now apply last_skip).
  pose proof (LS [] (Forall_nil _)) as LS0. cbn [app] in LS0.
  assert (ONE : forall o1 b, blanks b -> o_err o1 = OK -> parseOperand a loc (b0 ++ t) 0 = Val (o1, b ++ rest, 0) ->
    parseOperands a loc (skipSpaces (b0 ++ t)) = Val (Three o1 no_operand no_operand rest)).
  { intros o1 b B E1 P. unfold parseOperands. rewrite operand_skip, P. cbn [bind]. rewrite E1. change (hasError OK) with false. cbv iota zeta. rewrite LS by exact B.
    rewrite last_nocomma by exact LR. cbn [bind]. change (hasError (o_err no_operand)) with false. change (0 =? 0) with true. cbn [negb]. rewrite LS0, last_nocomma by exact LR. reflexivity. }
  assert (TWO : forall o1 o2 p i z b, blanks b -> o_err o1 = OK -> o_err o2 = OK -> parseOperand a loc (b0 ++ t) 0 = Val (o1, p, i) -> skipSpaces p = 44 :: z ->
    parseOperand a loc z i = Val (o2, b ++ rest, 0) -> parseOperands a loc (skipSpaces (b0 ++ t)) = Val (Three o1 o2 no_operand rest)).
  { intros o1 o2 p i z b B E1 E2 P SK Q. unfold parseOperands. rewrite operand_skip, P. cbn [bind]. rewrite E1. change (hasError OK) with false. cbv iota zeta. rewrite SK.
    cbn [expect_char Z.eqb Pos.eqb]. rewrite Q. cbn [bind]. rewrite E2. change (hasError OK) with false. change (0 =? 0) with true. cbn [negb]. rewrite LS by exact B.
    rewrite last_nocomma by exact LR. reflexivity. }
  destruct w; cbn [written second bracket] in *.
  - destruct H as (SN & E). destruct (op_plain b0 t rest v B0 SN E TL) as (IV & b & B & P). split; [exact IV|]. exists rest. split; [exact LS0|]. eapply ONE; eauto.
  - destruct H as (SN & b1 & c & b2 & B1 & C & B2 & E). destruct (op_plain b0 t _ v B0 SN E (or_introl eq_refl)) as (IV & b & B & P). split; [exact IV|]. exists rest. split; [exact LS0|].
    destruct (op_reg b1 c (b2 ++ rest) REG_X B1) as (Q & _); [cbn in *; destruct C as [<-|[<-|[]]]; auto|now apply end_nolet|].
    eapply TWO; [exact B2| | |exact P| |exact Q]; try reflexivity. rewrite skip_blanks by exact B. now apply skip_none.
  - destruct H as (SN & b1 & c & b2 & B1 & C & B2 & E). destruct (op_plain b0 t _ v B0 SN E (or_introl eq_refl)) as (IV & b & B & P). split; [exact IV|]. exists rest. split; [exact LS0|].
    destruct (op_reg b1 c (b2 ++ rest) REG_Y B1) as (Q & _); [cbn in *; destruct C as [<-|[<-|[]]]; auto|now apply end_nolet|].
    eapply TWO; [exact B2| | |exact P| |exact Q]; try reflexivity. rewrite skip_blanks by exact B. now apply skip_none.
  - destruct H as (b1 & s & b2 & c & b3 & b4 & -> & B1 & SN & B2 & C & B3 & B4 & E).
    destruct (op_open b0 b1 s _ v B0 B1 SN E (or_introl eq_refl)) as (IV & b & B & P). split; [exact IV|]. exists rest. split; [exact LS0|].
    destruct (op_reg b2 c (b3 ++ 41 :: b4 ++ rest) REG_X B2) as (_ & Q); [cbn in *; destruct C as [<-|[<-|[]]]; auto| |].
    { destruct b3 as [|d b3]; [reflexivity|]. cbn [app peek]. inversion B3 as [|? ? D ?]; subst. apply space_cases in D. destruct D as [->|[->|[->|[->|[->| ->]]]]]; reflexivity. }
    eapply TWO; [exact B4| | |exact P| |exact (Q b3 _ B3 eq_refl)]; reflexivity.
  - destruct H as (b1 & s & b2 & b3 & c & b4 & -> & B1 & SN & B2 & B3 & C & B4 & E).
    destruct (op_open b0 b1 s _ v B0 B1 SN E (or_intror eq_refl)) as (IV & b & B & P). split; [exact IV|]. exists rest. split; [exact LS0|].
    destruct (op_reg b3 c (b4 ++ rest) REG_Y B3) as (Q & _); [cbn in *; destruct C as [<-|[<-|[]]]; auto|now apply end_nolet|].
    eapply TWO; [exact B4| | |exact P| |exact Q]; try reflexivity. cbn [peek Z.eqb Pos.eqb]. rewrite skip_blanks by exact B2. reflexivity.
Qed.
Lemma imm_read b0 t rest v : blanks b0 -> last_rest rest -> immediate loc (a_symbol a) (a_function a) t rest v ->
  int_value v /\ exists scan, skipSpaces scan = rest /\
    parseOperands a loc (skipSpaces (b0 ++ t)) = Val (Three (mkOp M_IMA v OK) no_operand no_operand scan).
Proof.
  intros B0 LR (s & -> & NB & E).
  assert (TL : match rest with [] => True | c :: _ => c = 44 \/ c = 59 \/ (c = 0 /\ c <> 0) end) by (destruct LR as [->|(u & ->)]; auto).
  pose proof (last_skip [] rest (Forall_nil _) LR) as LS0. cbn [app] in LS0.
  destruct (parse_until fam_6502 a loc 0 s rest v) as (IV & b & B & X); auto; [cbn; auto 20|cbn; auto|].
  split; [exact IV|]. exists rest. split; [exact LS0|].
  assert (P : parseOperand a loc (b0 ++ 35 :: s) 0 = Val (mkOp M_IMA v OK, b ++ rest, 0)).
  { unfold parseOperand. cbv zeta. rewrite skip_blanks by exact B0. rewrite (skip_none 35) by reflexivity. rewrite EOL by (reflexivity || discriminate). cbn [expect_char Z.eqb Pos.eqb].
    assert (expect_char 60 s = None /\ expect_char 62 s = None) as (E1 & E2).
    { destruct s as [|c s]; [auto|]. cbn [peek] in NB. cbn in NB. cbn [expect_char]. destruct (Z.eqb_spec c 60); [exfalso; apply NB; auto|]. destruct (Z.eqb_spec c 62); [exfalso; apply NB; auto|]. auto. }
    rewrite E1, E2, X. reflexivity. }
  unfold parseOperands. rewrite operand_skip, P. cbn [bind o_err]. change (hasError OK) with false. cbv iota zeta. rewrite last_skip by assumption.
  rewrite last_nocomma by exact LR. cbn [bind]. change (hasError (o_err no_operand)) with false. change (0 =? 0) with true. cbn [negb]. rewrite LS0, last_nocomma by exact LR. reflexivity.
Qed.
(* a bracket that is not closed *)
Lemma op_unclosed (sq : bool) b0 b1 s rest v : let o := if sq then 91 else 40 in let c := if sq then 93 else 41 in
  blanks b0 -> blanks b1 -> starts_number s -> last_rest rest -> expression_until c fam_6502 loc (a_symbol a) (a_function a) s rest v ->
  exists e, parseOperands a loc (skipSpaces (b0 ++ o :: b1 ++ s)) = Val (Bad e rest) /\ In e [MISSING_CLOSING_PAREN; MISSING_CLOSING_BRACKET].
Proof.
  intros o cl B0 B1 SN LR E.
  assert (CL : cl = 41 \/ cl = 93) by (unfold cl; destruct sq; auto).
  assert (TL : match rest with [] => True | c :: _ => c = 44 \/ c = 59 \/ (c = cl /\ c <> 0) end) by (destruct LR as [->|(u & ->)]; auto).
  destruct (parse_until fam_6502 a loc cl s rest v) as (IV & b & B & X); auto; [cbn; auto 20|cbn; destruct CL as [-> | ->]; auto|].
  pose proof (last_skip b rest B LR) as LS. pose proof (last_skip [] rest (Forall_nil _) LR) as LS0. cbn [app] in LS0.
  destruct (number_start s SN) as (c & u & -> & SP & C0 & C35 & C40 & C91 & C60 & C62 & C59). apply Z.eqb_neq in C60, C62.
  assert (O : is_space o = false /\ o <> 0 /\ o <> 59 /\ (o =? 35) = false) by (unfold o; destruct sq; repeat split; discriminate). destruct O as (OS & O0 & O59 & O35).
  assert (P : parseOperand a loc (b0 ++ o :: b1 ++ c :: u) 0 = Val (mkOp (embedFlags (if sq then L_FLAG else I_FLAG) (vmode (int_of v))) v OK, rest, cl)).
  { unfold parseOperand. cbv zeta. rewrite skip_blanks by exact B0. rewrite (skip_none o) by exact OS. rewrite EOL by assumption.
    cbn [expect_char]. rewrite O35.
    assert (PO : parseOpenIndirect (o :: b1 ++ c :: u) 0 = Some (b1 ++ c :: u, if sq then L_FLAG else I_FLAG, cl)) by (unfold o, cl; destruct sq; reflexivity).
    rewrite PO. rewrite skip_blanks by exact B1. rewrite (skip_none c) by exact SP. rewrite reg_none by exact SN. cbn [bind]. change (REG_UNDEF =? REG_UNDEF) with true. cbn [negb].
    unfold parseSizeOverride. cbn [expect_char]. rewrite C60, C62. rewrite X. cbn [bind]. change (hasError OK) with false. cbv iota. cbn [o_mode o_val o_err].
    rewrite select by exact IV. replace (cl =? 0) with false by lia. unfold parseCloseIndirect. rewrite LS.
    destruct LR as [->|(w & ->)]; reflexivity. }
  unfold parseOperands. rewrite operand_skip, P. cbn [bind o_err]. change (hasError OK) with false. cbv iota zeta. rewrite LS0, last_nocomma by exact LR. cbn [bind].
  change (hasError (o_err no_operand)) with false. cbv iota. replace (cl =? 0) with false by lia. cbn [negb]. eexists. split; [reflexivity|].
  destruct CL as [-> | ->]; cbn; auto.
Qed.
End Read.

(* ------------------------------------------------------------ the line *)
Definition name_ok (ty : Z) (nm : text) : bool :=
  plain_name sp_mostek mos6502_specials mos6502_directives nm && is_alpha (peek nm) && match hasOperand ty nm with Val true => true | _ => false end.
Definition after (st : state) (smart : bool) (addr : Z) (nm : text) (o1 o2 o3 : operand) : res insn :=
  bind (mos6502_searchName (st_cpu st) nm (o_mode o1) (o_mode o2) (o_mode o3)) (fun '(e, found) =>
    if negb (isOK e) then Val (i_seterr (notFound (st_cpu st) (o_mode o1) (o_mode o2) (o_mode o3) e) (new_insn addr))
    else match found with
         | None => Val (new_insn addr)
         | Some e =>
           let ai := ai_setErrorIf (o_err o2) (ai_setErrorIf (o_err o1) (mkAI (new_insn addr) OK (e_opc e))) in
           bind (if (e_m1 e =? M_BANK) && (e_m2 e =? M_BANK) then
                   Val (ai_emitOperand8 (Z.shiftr (getUnsigned (o_val o1)) 16) (ai_emitOperand8 (Z.shiftr (getUnsigned (o_val o2)) 16) ai))
                 else bind (encodeOperand st smart (e_m1 e) o1 ai) (fun ai => encodeOperand st smart (e_m2 e) o2 ai)) (fun ai =>
             let ai := ai_emitInsn ai in Val (i_seterr (ai_err ai) (ai_insn ai)))
         end).
Lemma enc_line st smart a nm indent gap ops o1 o2 o3 scan rest addr :
  name_ok (st_cpu st) nm = true -> a_pl a = pl_mos6502 -> blanks indent -> blanks gap -> gap <> [] -> checkAddr (a_aw a) addr false = OK ->
  parseOperands a addr (skipSpaces ops) = Val (Three o1 o2 o3 scan) -> skipSpaces scan = rest ->
  mos6502_encode st smart a (indent ++ nm ++ gap ++ ops) addr = bind (after st smart addr nm o1 o2 o3) (fun i => Val (L_insn i rest)).
Proof.
  intros NK PL BI BG NG CA PO SK. unfold name_ok in NK. rewrite !andb_true_iff in NK. destruct NK as ((PN & AL) & HO).
  unfold mos6502_encode. rewrite line_insn; [| | |exact BI|exact BG| |exact CA].
  2:{ rewrite PL. exact PN. }
  2:{ intros z. rewrite PL. now apply plain_semicolon. }
  2:{ rewrite PL. destruct gap as [|c gap]; [congruence|]. inversion BG as [|? ? C ?]; subst. cbn [app peek]. apply space_cases in C.
      destruct C as [->|[->|[->|[->|[->| ->]]]]]; reflexivity. }
  unfold mos6502_encodeImpl, after. destruct (hasOperand (st_cpu st) nm) as [[]| | | |]; try discriminate. cbn [bind]. rewrite PO. cbn [bind]. cbv zeta. rewrite SK.
  destruct (mos6502_searchName _ _ _ _ _) as [[e f]| | | |]; try reflexivity. cbn [bind]. destruct (negb (isOK e)); [reflexivity|].
  destruct f as [e'|]; [|reflexivity]. destruct (if _ && _ then _ else _); reflexivity.
Qed.
Lemma fin_err addr opc nb e : byte opc -> (length nb <= 8)%nat ->
  let ai := ai_emitInsn (mkAI (part addr 1 nb) e opc) in
  i_code (i_seterr (ai_err ai) (ai_insn ai)) = opc :: nb /\ i_err (i_seterr (ai_err ai) (ai_insn ai)) = e.
Proof.
  intros O L. cbv zeta. unfold ai_emitInsn, ai_set. cbn [ai_insn ai_err ai_opc].
  destruct (part_done 0 opc addr nb ltac:(unfold byte; lia) O ltac:(lia)) as (D & _). rewrite D. split; [|reflexivity].
  unfold i_code, i_seterr. cbn [i_len i_bytes]. fold (i_code (canon addr (opc :: nb))). apply canon_code.
Qed.
Lemma fail_er (b : bool) e i e0 o : (if b then ai_setErrorIf e (mkAI i e0 o) else mkAI i e0 o) = mkAI i (er1 b e0 e) o.
Proof. now destruct b. Qed.
(* the entry is found, with its operand in [m] *)
Definition quiet2 (m : Z) : bool := (m =? M_NONE) || hasRegister m.
Definition finds (ty : Z) (nm : text) (m1 m2 opc m : Z) : bool :=
  match mos6502_searchName ty nm m1 m2 M_NONE with
  | Val (OK, Some e) => (e_opc e =? opc) && (baseMode (e_m1 e) =? m) && quiet2 (e_m2 e) && (0 <=? opc) && (opc <? 256)
  | _ => false
  end.
Definition misses (ty : Z) (nm : text) (m1 m2 : Z) : bool :=
  match mos6502_searchName ty nm m1 m2 M_NONE with
  | Val (e, _) => negb (isOK e) && negb (isOK (notFound ty m1 m2 M_NONE e))
  | _ => false
  end.
Lemma after_finds st smart addr nm m1 m2 opc m v nb e : finds (st_cpu st) nm m1 m2 opc m = true -> m <> M_BANK -> (length nb <= 8)%nat ->
  encodeOperand st smart m (mkOp m1 v OK) (mkAI (part addr 1 []) OK opc) = Val (mkAI (part addr 1 nb) e opc) ->
  exists i, after st smart addr nm (mkOp m1 v OK) (mkOp m2 v_undef OK) no_operand = Val i /\ i_code i = opc :: nb /\ i_err i = e.
Proof.
  intros F NB L E. unfold finds in F. unfold after. cbn [o_mode o_val o_err no_operand]. destruct (mos6502_searchName _ _ _ _ _) as [[er [x|]]| | | |]; try discriminate.
  2:{ destruct er; discriminate. }
  destruct er; try discriminate. rewrite !andb_true_iff in F. destruct F as ((((F1 & F2) & F3) & F4) & F5). apply Z.eqb_eq in F1, F2.
  cbn [bind]. change (isOK OK) with true. cbn [negb]. rewrite !noerr.
  destruct (Z.eqb_spec (e_m1 x) M_BANK) as [Q|_]. { rewrite Q in F2. exfalso. apply NB. rewrite <- F2. reflexivity. }
  cbn [andb]. change (new_insn addr) with (part addr 1 []). rewrite F1.
  assert (E' : encodeOperand st smart (e_m1 x) (mkOp m1 v OK) (mkAI (part addr 1 []) OK opc) = Val (mkAI (part addr 1 nb) e opc)).
  { rewrite <- E. unfold encodeOperand. rewrite F2. replace (baseMode m) with m; [reflexivity|]. rewrite <- F2. unfold baseMode. rewrite <- Z.land_assoc. reflexivity. }
  rewrite E'. cbn [bind].
  assert (E2 : forall i, encodeOperand st smart (e_m2 x) (mkOp m2 v_undef OK) i = Val i).
  { intros i. unfold quiet2, hasRegister in F3. unfold encodeOperand. cbv zeta.
    assert (B : baseMode (e_m2 x) = 0 \/ baseMode (e_m2 x) = 1 \/ baseMode (e_m2 x) = 2 \/ baseMode (e_m2 x) = 3 \/ baseMode (e_m2 x) = 4).
    { apply orb_true_iff in F3. destruct F3 as [F3|F3]; [apply Z.eqb_eq in F3; rewrite F3; auto|]. unfold M_REGA, M_REGS in F3. lia. }
    destruct B as [->|[->|[->|[->| ->]]]]; reflexivity. }
  rewrite E2. cbn [bind]. eexists. split; [reflexivity|]. apply fin_err; [unfold byte; lia|exact L].
Qed.
Lemma after_misses st smart addr nm m1 m2 v : misses (st_cpu st) nm m1 m2 = true ->
  exists i, after st smart addr nm (mkOp m1 v OK) (mkOp m2 v_undef OK) no_operand = Val i /\ i_code i = [] /\ i_err i <> OK.
Proof.
  intros F. unfold misses in F. unfold after. cbn [o_mode o_val o_err no_operand]. destruct (mos6502_searchName _ _ _ _ _) as [[er x]| | | |]; try discriminate.
  apply andb_true_iff in F. destruct F as (F1 & F2). cbn [bind]. rewrite F1. eexists. split; [reflexivity|]. split; [reflexivity|].
  cbn [i_err i_seterr]. intros E. rewrite E in F2. discriminate.
Qed.

(* ------------------------------------------------------------ addresses *)
Definition pick (wide : bool) (f : form) (vm : Z) : option (Z * Z) :=
  let long := match fm_long f with Some o => if wide then Some (o, M_ABSL) else None | None => None end in
  let abs := match fm_abs f with Some o => if vm =? M_ABSL then long else Some (o, M_ABS) | None => long end in
  match fm_zero f with Some o => if vm =? M_DPG then Some (o, M_DPG) else abs | None => abs end.
Definition form_ok (ty : Z) (f : form) : bool :=
  name_ok ty (s2l (fm_name f)) &&
  forallb (fun vm => match pick (ty =? W65C816) f vm with
                     | Some (opc, m) => finds ty (s2l (fm_name f)) (bracket (fm_way f) + vm) (second (fm_way f)) opc m
                     | None => misses ty (s2l (fm_name f)) (bracket (fm_way f) + vm) (second (fm_way f))
                     end) [M_DPG; M_ABS; M_ABSL].
Lemma forms_ok : forallb (fun ty => forallb (form_ok ty) address_forms) types = true.
Proof. vm_compute. reflexivity. Qed.
Lemma small_mod x : 0 <= x < 256 -> x mod 256 = x.
Proof. intros. now apply Z.mod_small. Qed.
Lemma enc_zero st smart m1 v addr opc : int_value v -> 0 <= int_of v < 256 ->
  encodeOperand st smart M_DPG (mkOp m1 v OK) (mkAI (part addr 1 []) OK opc) = Val (mkAI (part addr 1 [int_of v]) OK opc).
Proof.
  intros IV R. unfold encodeOperand. change (baseMode M_DPG) with M_DPG. cbn [Z.eqb Pos.eqb M_DPG M_IMA M_IMX M_ABS M_ABSL o_val]. unfold emitImmediate, overflowUint8. cbn [o_val].
  rewrite over_b by (exact IV || lia). replace ((-128 <=? int_of v) && (int_of v <=? 255)) with true by lia. cbn [negb].
  rewrite (emit8 (int_of v)); [reflexivity|exact R| |cbn; lia]. unfold u8. rewrite low8 by exact IV. now apply small_mod.
Qed.
Lemma enc_abs st smart m1 v addr opc : int_value v -> 0 <= int_of v < 65536 ->
  encodeOperand st smart M_ABS (mkOp m1 v OK) (mkAI (part addr 1 []) OK opc) = Val (mkAI (part addr 1 [int_of v mod 256; int_of v / 256]) OK opc).
Proof.
  intros IV R. unfold encodeOperand. change (baseMode M_ABS) with M_ABS. cbn [Z.eqb Pos.eqb M_DPG M_IMA M_IMX M_ABS M_ABSL o_val]. unfold emitImmediate, overflowUint16. cbn [o_val].
  rewrite over_b by (exact IV || lia). replace ((-32768 <=? int_of v) && (int_of v <=? 65535)) with true by lia. cbn [negb].
  assert (0 <= int_of v / 256 < 256) by (split; [apply Z.div_pos; lia|apply Z.div_lt_upper_bound; lia]).
  rewrite (emit16 (int_of v / 256) (int_of v mod 256)); [reflexivity|exact H|apply mod_byte| |cbn; lia]. unfold u16. rewrite low16 by exact IV. now rewrite (small_mod (int_of v / 256)).
Qed.
Lemma enc_long st smart m1 v addr opc : st_cpu st = W65C816 -> int_value v -> -2^31 <= int_of v < 2^32 -> exists x e,
  encodeOperand st smart M_ABSL (mkOp m1 v OK) (mkAI (part addr 1 []) OK opc) = Val (mkAI (part addr 1 [int_of v mod 256; int_of v / 256 mod 256; x]) e opc) /\
  (e = OK <-> 0 <= int_of v < 0x1000000) /\ (0 <= int_of v < 0x1000000 -> x = int_of v / 65536).
Proof.
  intros ST IV R. unfold encodeOperand. change (baseMode M_ABSL) with M_ABSL. cbn [Z.eqb Pos.eqb M_DPG M_IMA M_IMX M_ABS M_ABSL o_val]. rewrite ST. change (addressWidth W65C816) with 24. cbv zeta.
  rewrite fail_er.
  assert (U : getUnsigned v = int_of v mod 2^32) by (now apply getUnsigned_mod).
  rewrite (emit16 (int_of v / 256 mod 256) (int_of v mod 256)); [|apply mod_byte|apply mod_byte|unfold u16; now apply low16|cbn; lia]. cbn [app].
  rewrite (emit8 (u8 (Z.shiftr (getUnsigned v) 16))); [|apply mod_byte|reflexivity|cbn; lia]. do 2 eexists. split; [reflexivity|].
  destruct (C31_addr 24 (int_of v mod 2^32) false ltac:(lia) ltac:(apply Z.mod_pos_bound; lia)) as (C & _). rewrite U.
  assert (S : int_of v mod 2^32 < 2^24 <-> 0 <= int_of v < 16777216).
  { destruct (Z.ltb_spec (int_of v) 0).
    - replace (int_of v) with (int_of v + 2^32 + (-1) * 2^32) at 1 by lia. rewrite Z.mod_add by lia. rewrite Z.mod_small by lia. lia.
    - rewrite Z.mod_small by lia. lia. }
  split.
  - rewrite <- S. unfold er1. destruct (isOK (checkAddr 24 (int_of v mod 2^32) false)) eqn:K; cbn [negb].
    + apply isOK_e in K. split; [intros _; now apply C|reflexivity].
    + split; [discriminate|]. intros X. assert (NA : false = true -> Z.Even (int_of v mod 2^32)) by discriminate. rewrite (proj2 C (conj X NA)) in K. discriminate.
  - intros Q. rewrite Z.mod_small by lia. unfold u8. rewrite Z.shiftr_div_pow2 by lia. change (2^16) with 65536. change (2^8) with 256. apply small_mod.
    split; [apply Z.div_pos; lia|apply Z.div_lt_upper_bound; lia].
Qed.
Lemma vmode_cases z : (vmode z = M_DPG /\ 0 <= z < 256) \/ (vmode z = M_ABS /\ 256 <= z < 65536) \/ (vmode z = M_ABSL /\ (z < 0 \/ 65536 <= z)).
Proof. unfold vmode. destruct ((0 <=? z) && (z <=? 65535)) eqn:E; [destruct ((0 <=? z) && (z <=? 255)) eqn:E2|]; lia. Qed.
Section Ranges.
Variables (st : state) (smart : bool) (symbol : text -> option value) (function : text -> option functor) (indent gap b0 t rest : text) (v : value) (addr : Z).
Hypotheses (TY : In (st_cpu st) types) (BI : blanks indent) (BG : blanks gap) (NG : gap <> []) (B0 : blanks b0) (AR : 0 <= addr < 2 ^ addressWidth (st_cpu st)) (LR : last_rest rest).
Let a := mos6502_asm (st_cpu st) symbol function 10.
Let CA : checkAddr (a_aw a) addr false = OK.
Proof.
  pose proof (aw_cases (st_cpu st)). pose proof (aw_small (st_cpu st)). cbn [a a_aw mos6502_asm].
  apply (proj1 (C31_addr (addressWidth (st_cpu st)) addr false ltac:(lia) ltac:(lia))). split; [exact (proj2 AR)|discriminate].
Qed.
Lemma range_address f : In f address_forms -> written (fm_way f) addr symbol function t rest v -> (st_cpu st = W65C816 -> -2^31 <= int_of v < 2^32) ->
  exists i, mos6502_encode st smart a (indent ++ s2l (fm_name f) ++ gap ++ b0 ++ t) addr = Val (L_insn i rest) /\
    match code_for (st_cpu st =? W65C816) f (int_of v) with
    | Some code => i_err i = OK /\ i_code i = code
    | None => i_err i <> OK
    end.
Proof.
  intros F W R. destruct (ops_read a addr eq_refl eq_refl (fm_way f) b0 t rest v B0 LR W) as (IV & scan & SK & PO).
  pose proof forms_ok as FO. rewrite forallb_forall in FO. specialize (FO _ TY). rewrite forallb_forall in FO. specialize (FO _ F). unfold form_ok in FO.
  apply andb_true_iff in FO. destruct FO as (NK & FO). rewrite forallb_forall in FO. specialize (FO _ (vmode_in (int_of v))).
  set (nm := s2l (fm_name f)) in *. set (o1 := mkOp (bracket (fm_way f) + vmode (int_of v)) v OK) in *. set (o2 := mkOp (second (fm_way f)) v_undef OK) in *.
  assert (G : exists i, after st smart addr nm o1 o2 no_operand = Val i /\
    match code_for (st_cpu st =? W65C816) f (int_of v) with Some code => i_err i = OK /\ i_code i = code | None => i_err i <> OK end).
  2:{ destruct G as (i & G & H). exists i. split; [|exact H]. rewrite (enc_line st smart a nm indent gap (b0 ++ t) o1 o2 no_operand scan rest addr NK eq_refl BI BG NG CA PO SK). rewrite G. reflexivity. }
  assert (NONE : misses (st_cpu st) nm (bracket (fm_way f) + vmode (int_of v)) (second (fm_way f)) = true -> exists i, after st smart addr nm o1 o2 no_operand = Val i /\ i_err i <> OK).
  { intros M. destruct (after_misses st smart addr nm _ _ v M) as (i & A1 & _ & A2). exists i. auto. }
  assert (ZERO : forall o, finds (st_cpu st) nm (bracket (fm_way f) + vmode (int_of v)) (second (fm_way f)) o M_DPG = true -> 0 <= int_of v < 256 ->
    exists i, after st smart addr nm o1 o2 no_operand = Val i /\ i_err i = OK /\ i_code i = [o; int_of v]).
  { intros o M Q. destruct (after_finds st smart addr nm _ _ o M_DPG v [int_of v] OK M ltac:(discriminate) ltac:(cbn; lia) (enc_zero st smart _ v addr o IV Q)) as (i & A1 & A2 & A3). exists i. auto. }
  assert (ABS : forall o, finds (st_cpu st) nm (bracket (fm_way f) + vmode (int_of v)) (second (fm_way f)) o M_ABS = true -> 0 <= int_of v < 65536 ->
    exists i, after st smart addr nm o1 o2 no_operand = Val i /\ i_err i = OK /\ i_code i = [o; int_of v mod 256; int_of v / 256]).
  { intros o M Q. destruct (after_finds st smart addr nm _ _ o M_ABS v [int_of v mod 256; int_of v / 256] OK M ltac:(discriminate) ltac:(cbn; lia) (enc_abs st smart _ v addr o IV Q)) as (i & A1 & A2 & A3). exists i. auto. }
  assert (LONG : forall o, st_cpu st = W65C816 -> finds (st_cpu st) nm (bracket (fm_way f) + vmode (int_of v)) (second (fm_way f)) o M_ABSL = true ->
    exists i, after st smart addr nm o1 o2 no_operand = Val i /\ (i_err i = OK <-> 0 <= int_of v < 0x1000000) /\
      (0 <= int_of v < 0x1000000 -> i_code i = [o; int_of v mod 256; int_of v / 256 mod 256; int_of v / 65536])).
  { intros o ST M. destruct (enc_long st smart (bracket (fm_way f) + vmode (int_of v)) v addr o ST IV (R ST)) as (x & e & E & EO & EX).
    destruct (after_finds st smart addr nm _ _ o M_ABSL v [int_of v mod 256; int_of v / 256 mod 256; x] e M ltac:(discriminate) ltac:(cbn; lia) E) as (i & A1 & A2 & A3). exists i. split; [exact A1|]. rewrite A3.
    split; [exact EO|]. intros Q. rewrite A2, (EX Q). reflexivity. }
  assert (LONGC : forall o, finds (st_cpu st) nm (bracket (fm_way f) + vmode (int_of v)) (second (fm_way f)) o M_ABSL = true -> (st_cpu st =? W65C816) = true ->
    exists i, after st smart addr nm o1 o2 no_operand = Val i /\
     match (if true && (0 <=? int_of v) && (int_of v <? 0x1000000) then Some [o; int_of v mod 256; int_of v / 256 mod 256; int_of v / 65536] else None) with
     | Some code => i_err i = OK /\ i_code i = code | None => i_err i <> OK end).
  { intros o M ST. apply Z.eqb_eq in ST. destruct (LONG o ST M) as (i & A1 & A2 & A3). exists i. split; [exact A1|]. cbn [andb].
    destruct ((0 <=? int_of v) && (int_of v <? 16777216)) eqn:Q; [split; [apply A2; lia|apply A3; lia]|]. intros X. apply A2 in X. lia. }
  unfold pick in FO. unfold code_for. cbv zeta.
  destruct (vmode_cases (int_of v)) as [(VM & VR)|[(VM & VR)|(VM & VR)]]; clear LONG; rewrite VM in FO, NONE, ZERO, ABS, LONGC;
    change (M_DPG =? M_DPG) with true in FO; change (M_DPG =? M_ABSL) with false in FO; change (M_ABS =? M_DPG) with false in FO; change (M_ABS =? M_ABSL) with false in FO;
    change (M_ABSL =? M_DPG) with false in FO; change (M_ABSL =? M_ABSL) with true in FO; cbv iota in FO.
  1: replace ((0 <=? int_of v) && (int_of v <? 0x100)) with true by lia; replace ((0 <=? int_of v) && (int_of v <? 0x10000)) with true by lia.
  2: replace ((0 <=? int_of v) && (int_of v <? 0x100)) with false by lia; replace ((0 <=? int_of v) && (int_of v <? 0x10000)) with true by lia.
  3: replace ((0 <=? int_of v) && (int_of v <? 0x100)) with false by lia; replace ((0 <=? int_of v) && (int_of v <? 0x10000)) with false by lia.
  all: destruct (fm_zero f) as [oz|].
  all: try (apply ZERO; [exact FO|lia]).
  all: destruct (fm_abs f) as [oa|].
  all: try (apply ABS; [exact FO|lia]).
  all: destruct (fm_long f) as [ol|]; [|now apply NONE].
  all: destruct (st_cpu st =? W65C816) eqn:WD; [now apply LONGC|now apply NONE].
Qed.
Lemma range_unclosed (sq : bool) f b1 s : In f address_forms -> blanks b1 -> starts_number s -> expression_until (if sq then 93 else 41) fam_6502 addr symbol function s rest v ->
  exists i, mos6502_encode st smart a (indent ++ s2l (fm_name f) ++ gap ++ b0 ++ (if sq then 91 else 40) :: b1 ++ s) addr = Val (L_insn i rest) /\
    In (i_err i) [MISSING_CLOSING_PAREN; MISSING_CLOSING_BRACKET] /\ i_code i = [].
Proof.
  intros F B1 SN E. destruct (op_unclosed a addr eq_refl eq_refl sq b0 b1 s rest v B0 B1 SN LR E) as (e & PO & IE).
  pose proof forms_ok as FO. rewrite forallb_forall in FO. specialize (FO _ TY). rewrite forallb_forall in FO. specialize (FO _ F). unfold form_ok in FO.
  apply andb_true_iff in FO. destruct FO as (NK & _). unfold name_ok in NK. rewrite !andb_true_iff in NK. destruct NK as ((PN & AL) & HO).
  unfold mos6502_encode. rewrite line_insn; [|exact PN|intros z; now apply plain_semicolon|exact BI|exact BG| |exact CA].
  2:{ destruct gap as [|c g]; [congruence|]. inversion BG as [|? ? C ?]; subst. cbn [app peek]. apply space_cases in C.
      destruct C as [->|[->|[->|[->|[->| ->]]]]]; reflexivity. }
  unfold mos6502_encodeImpl. destruct (hasOperand (st_cpu st) (s2l (fm_name f))) as [[]| | | |]; try discriminate. cbn [bind]. rewrite PO. cbn [bind].
  eexists. split; [reflexivity|]. split; [exact IE|reflexivity].
Qed.
Lemma range_immediate wide nm opc m : name_ok (st_cpu st) nm = true -> finds (st_cpu st) nm M_IMA M_NONE opc m = true ->
  (m = M_IMA /\ wide = st_longa st \/ m = M_IMX /\ wide = st_longi st) -> immediate addr symbol function t rest v ->
  exists i, mos6502_encode st smart a (indent ++ nm ++ gap ++ b0 ++ t) addr = Val (L_insn i rest) /\
    i_code i = (if wide then [opc; int_of v mod 256; int_of v / 256 mod 256] else [opc; int_of v mod 256]) /\
    i_err i = if (if wide then (-32768 <=? int_of v) && (int_of v <=? 65535) else (-128 <=? int_of v) && (int_of v <=? 255)) then OK else OVERFLOW_RANGE.
Proof.
  intros NK FI MW W. destruct (imm_read a addr eq_refl eq_refl b0 t rest v B0 LR W) as (IV & scan & SK & PO).
  set (nb := if wide then [int_of v mod 256; int_of v / 256 mod 256] else [int_of v mod 256]).
  set (ok := if wide then (-32768 <=? int_of v) && (int_of v <=? 65535) else (-128 <=? int_of v) && (int_of v <=? 255)).
  assert (E : encodeOperand st smart m (mkOp M_IMA v OK) (mkAI (part addr 1 []) OK opc) = Val (mkAI (part addr 1 nb) (er1 (negb ok) OK OVERFLOW_RANGE) opc)).
  { assert (EI : emitImmediate (mkOp M_IMA v OK) wide (mkAI (part addr 1 []) OK opc) = mkAI (part addr 1 nb) (er1 (negb ok) OK OVERFLOW_RANGE) opc).
    { unfold emitImmediate, overflowUint8, overflowUint16, nb, ok. cbn [o_val]. rewrite !over_b by (exact IV || lia). destruct wide; rewrite fail_er.
      - rewrite (emit16 (int_of v / 256 mod 256) (int_of v mod 256)); [reflexivity|apply mod_byte|apply mod_byte|now apply low16|cbn; lia].
      - rewrite (emit8 (int_of v mod 256)); [reflexivity|apply mod_byte|now apply low8|cbn; lia]. }
    unfold encodeOperand. destruct MW as [(-> & <-)|(-> & <-)].
    - change (baseMode M_IMA) with M_IMA. change (M_IMA =? M_IMA) with true. cbv zeta iota. now rewrite EI.
    - change (baseMode M_IMX) with M_IMX. change (M_IMX =? M_IMA) with false. change (M_IMX =? M_IMX) with true. cbv zeta iota. now rewrite EI. }
  destruct (after_finds st smart addr nm M_IMA M_NONE opc m v nb _ FI ltac:(destruct MW as [(-> & _)|(-> & _)]; discriminate) ltac:(unfold nb; destruct wide; cbn; lia) E) as (i & A1 & A2 & A3).
  exists i. rewrite (enc_line st smart a nm indent gap (b0 ++ t) _ _ _ scan rest addr NK eq_refl BI BG NG CA PO SK).
  change no_operand with (mkOp M_NONE v_undef OK) at 1. rewrite A1. split; [reflexivity|]. rewrite A2, A3. unfold nb. split; [now destruct wide|]. fold ok. now destruct ok.
Qed.
(* the branches; the displacement starts after the instruction *)
Lemma branch_delta_err aw base target e0 : branchDelta aw base target e0 =
  match branchDelta aw base target OK with
  | Some (d, e) => Some (d, if isOK e0 then e else e0)
  | None => None
  end.
Proof.
  unfold branchDelta. destruct (signExtend _ _) as [d|]; [|reflexivity]. destruct (isOK e0) eqn:E.
  - apply isOK_e in E. now subst.
  - assert (ST : forall x, setErrorIfAt e0 x = e0) by (intros x; unfold setErrorIfAt; now rewrite E). rewrite !ST. now destruct (_ || _).
Qed.
Lemma range_branch nm opc : smart = false -> name_ok (st_cpu st) nm = true -> (forall m, In m [M_DPG; M_ABS; M_ABSL] -> finds (st_cpu st) nm m M_NONE opc M_REL = true) ->
  written Plain addr symbol function t rest v -> 0 <= int_of v < 2^32 -> addr + 2 < 2 ^ addressWidth (st_cpu st) ->
  exists i, mos6502_encode st smart a (indent ++ nm ++ gap ++ b0 ++ t) addr = Val (L_insn i rest) /\
    i_code i = [opc; (int_of v - (addr + 2)) mod 256] /\
    (i_err i = OK <-> int_of v < 2 ^ addressWidth (st_cpu st) /\ -128 <= int_of v - (addr + 2) <= 127 /\ (st_cpu st = W65C816 -> int_of v / 65536 = addr / 65536)).
Proof.
  intros SM NK FI W VR A2. destruct (ops_read a addr eq_refl eq_refl Plain b0 t rest v B0 LR W) as (IV & scan & SK & PO). cbn [second bracket Z.add] in PO.
  specialize (FI _ (vmode_in (int_of v))). pose proof (aw_cases (st_cpu st)) as AC. pose proof (aw_small (st_cpu st)) as AS. set (aw := addressWidth (st_cpu st)) in *.
  assert (AC' : 16 <= aw <= 24) by lia. assert (AL : 2^16 <= 2^aw) by (apply Z.pow_le_mono_r; lia).
  assert (HALF : 2^15 <= 2^(aw-1)) by (apply Z.pow_le_mono_r; lia).
  destruct (C30_branch aw (addr + 2) (int_of v) ltac:(lia) ltac:(lia) VR) as (dl & e & E & M & R & OR & OI & OK1).
  destruct (C30_delta dl 8 ltac:(lia)) as (far & FA & FAR). change (2^(8-1)) with 128 in FAR.
  set (e0 := if bankModel (st_cpu st) then checkAddr_in aw (int_of v) addr 16 false else OK).
  set (e1 := if isOK e0 then e else e0).
  assert (EN : exists er, encodeOperand st smart M_REL (mkOp (vmode (int_of v)) v OK) (mkAI (part addr 1 []) OK opc) =
      Val (mkAI (part addr 1 [(int_of v - (addr + 2)) mod 256]) er opc) /\ er = er1 far e1 OPERAND_TOO_FAR).
  { eexists. split; [|reflexivity]. unfold encodeOperand. change (baseMode M_REL) with M_REL. cbn [Z.eqb Pos.eqb M_REL M_LREL M_IMA M_IMX M_ABS M_ABSL M_DPG M_IM8 orb].
    unfold encodeRelative. cbv zeta. rewrite SM. cbn [ai_insn ai_err andb o_err o_val negb]. change (isOK OK) with true. cbn [negb Z.eqb Pos.eqb M_REL andb].
    change (i_len (part addr 1 [])) with 0. change (i_addr (part addr 1 [])) with addr. change (0 =? 0) with true. cbv iota.
    replace (u32 (addr + 1 + 1)) with (addr + 2) by (unfold u32; rewrite Z.mod_small by lia; lia).
    rewrite (get_unsigned v (int_of v)) by (auto; lia).
    assert (CB : checkBank (st_cpu st) (int_of v) (mkAI (part addr 1 []) OK opc) = mkAI (part addr 1 []) e0 opc).
    { unfold checkBank, e0. fold aw. destruct (bankModel (st_cpu st)); [|reflexivity]. unfold ai_setErrorIf. cbn [ai_insn ai_err ai_opc]. change (i_addr (part addr 1 [])) with addr.
      f_equal. unfold setErrorIfAt. cbn. destruct (checkAddr_in _ _ _ _ _); reflexivity. }
    rewrite CB. unfold short_branch. fold aw. cbn [ai_err]. rewrite branch_delta_err, E. fold e1. rewrite FA. unfold ai_seterr. cbn [ai_insn ai_opc]. rewrite fail_er.
    rewrite (emit8 ((int_of v - (addr + 2)) mod 256)); [reflexivity|apply mod_byte| |cbn; lia].
    unfold u8. change (2^8) with 256. apply Z.mod_divide in M; [|apply Z.pow_nonzero; lia]. destruct M as (k & M).
    replace (2^aw) with (2^(aw-8) * 256) in M by (change 256 with (2^8); rewrite <- Z.pow_add_r by lia; f_equal; lia).
    replace dl with (int_of v - (addr + 2) + (k * 2^(aw-8)) * 256) by lia. apply Z_mod_plus_full. }
  destruct EN as (er & EN & ER).
  destruct (after_finds st smart addr nm (vmode (int_of v)) M_NONE opc M_REL v [(int_of v - (addr + 2)) mod 256] er FI ltac:(discriminate) ltac:(cbn; lia) EN) as (i & X1 & X2 & X3).
  exists i. rewrite (enc_line st smart a nm indent gap (b0 ++ t) _ _ _ scan rest addr NK eq_refl BI BG NG CA PO SK). rewrite X1. split; [reflexivity|]. split; [exact X2|].
  rewrite X3, ER.
  assert (S0 : e0 = OK <-> (st_cpu st = W65C816 -> int_of v < 2^aw /\ int_of v / 65536 = addr / 65536)).
  { unfold e0, bankModel. destruct (Z.eqb_spec (st_cpu st) W65C816) as [Q|Q]; [|split; [contradiction|reflexivity]].
    rewrite (C31_segment aw (int_of v) addr 16 false) by lia. change (2^16) with 65536. split; [intros (Q1 & _ & Q2) _; auto|]. intros H. destruct (H Q). split; [assumption|]. split; [discriminate|assumption]. }
  assert (S1 : er1 far e1 OPERAND_TOO_FAR = OK <-> e0 = OK /\ e = OK /\ far = false).
  { assert (E1 : e1 = OK <-> e0 = OK /\ e = OK). { unfold e1. destruct (isOK e0) eqn:K; [apply isOK_e in K; tauto|]. split; [intros Q; rewrite Q in K; discriminate|intros (Q & _); rewrite Q in K; discriminate]. }
    unfold er1. destruct far; [|rewrite E1; tauto]. split; [|intros (_ & _ & Q); discriminate]. unfold setErrorIfAt. destruct (isOK e1) eqn:K; cbn [andb]; [discriminate|]. intros Q. rewrite Q in K. discriminate. }
  rewrite S1, S0, OI, FAR. split.
  - intros (Q0 & Q1 & Q2). assert (DL : dl = int_of v - (addr + 2)) by (apply OK1, OI; exact Q1). split; [tauto|]. split; [lia|]. intros T. now apply Q0.
  - intros (Q0 & Q1 & Q2). assert (DL : dl = int_of v - (addr + 2)) by (apply OK1, OI; lia). split; [intros T; auto|]. lia.
Qed.
End Ranges.
Lemma imm_forms_ok : forallb (fun ty => forallb (fun f => name_ok ty (s2l (fst f)) && finds ty (s2l (fst f)) M_IMA M_NONE (snd f) M_IMA) accumulator_forms &&
  forallb (fun f => name_ok ty (s2l (fst f)) && finds ty (s2l (fst f)) M_IMA M_NONE (snd f) M_IMX) index_forms &&
  forallb (fun f => name_ok ty (s2l (fst f)) && forallb (fun m => finds ty (s2l (fst f)) m M_NONE (snd f) M_REL) [M_DPG; M_ABS; M_ABSL]) branch_forms) types = true.
Proof. vm_compute. reflexivity. Qed.

Lemma imm_forms_at ty f : In ty types ->
  (In f accumulator_forms -> name_ok ty (s2l (fst f)) = true /\ finds ty (s2l (fst f)) M_IMA M_NONE (snd f) M_IMA = true) /\
  (In f index_forms -> name_ok ty (s2l (fst f)) = true /\ finds ty (s2l (fst f)) M_IMA M_NONE (snd f) M_IMX = true) /\
  (In f branch_forms -> name_ok ty (s2l (fst f)) = true /\ forall m, In m [M_DPG; M_ABS; M_ABSL] -> finds ty (s2l (fst f)) m M_NONE (snd f) M_REL = true).
Proof.
  intros TY. pose proof imm_forms_ok as H. rewrite forallb_forall in H. specialize (H _ TY).
  apply andb_true_iff in H. destruct H as (H & H3). apply andb_true_iff in H. destruct H as (H1 & H2). rewrite forallb_forall in H1, H2, H3.
  split; [|split]; intros F.
  - apply andb_true_iff, (H1 _ F).
  - apply andb_true_iff, (H2 _ F).
  - specialize (H3 _ F). apply andb_true_iff in H3. destruct H3 as (N & H3). rewrite forallb_forall in H3. auto.
Qed.
Section Forms.
Variables (st : state) (smart : bool) (symbol : text -> option value) (function : text -> option functor) (indent gap b0 t rest : text) (v : value) (addr : Z).
Hypotheses (TY : In (st_cpu st) types) (BI : blanks indent) (BG : blanks gap) (NG : gap <> []) (B0 : blanks b0) (AR : 0 <= addr < 2 ^ addressWidth (st_cpu st)) (LR : last_rest rest).
Notation a := (mos6502_asm (st_cpu st) symbol function 10).
Lemma range_imm_form f (wide : bool) :
  (In f accumulator_forms /\ wide = st_longa st \/ In f index_forms /\ wide = st_longi st) ->
  immediate addr symbol function t rest v ->
  exists i, mos6502_encode st smart a (indent ++ s2l (fst f) ++ gap ++ b0 ++ t) addr = Val (L_insn i rest) /\
    i_code i = (if wide then [snd f; int_of v mod 256; int_of v / 256 mod 256] else [snd f; int_of v mod 256]) /\
    i_err i = if (if wide then (-32768 <=? int_of v) && (int_of v <=? 65535) else (-128 <=? int_of v) && (int_of v <=? 255)) then OK else OVERFLOW_RANGE.
Proof.
  intros F W. destruct (imm_forms_at (st_cpu st) f TY) as (FA & FX & _). destruct F as [(F & E)|(F & E)].
  - destruct (FA F) as (N & FI). apply (range_immediate st smart symbol function indent gap b0 t rest v addr BI BG NG B0 AR LR wide (s2l (fst f)) (snd f) M_IMA); auto.
  - destruct (FX F) as (N & FI). apply (range_immediate st smart symbol function indent gap b0 t rest v addr BI BG NG B0 AR LR wide (s2l (fst f)) (snd f) M_IMX); auto.
Qed.
Lemma range_branch_form f : smart = false -> In f branch_forms ->
  written Plain addr symbol function t rest v -> 0 <= int_of v < 2^32 -> addr + 2 < 2 ^ addressWidth (st_cpu st) ->
  exists i, mos6502_encode st smart a (indent ++ s2l (fst f) ++ gap ++ b0 ++ t) addr = Val (L_insn i rest) /\
    i_code i = [snd f; (int_of v - (addr + 2)) mod 256] /\
    (i_err i = OK <-> int_of v < 2 ^ addressWidth (st_cpu st) /\ -128 <= int_of v - (addr + 2) <= 127 /\ (st_cpu st = W65C816 -> int_of v / 65536 = addr / 65536)).
Proof.
  intros SM F W R A2. destruct (imm_forms_at (st_cpu st) f TY) as (_ & _ & FB). destruct (FB F) as (N & FI).
  apply (range_branch st smart symbol function indent gap b0 t rest v addr BI BG NG B0 AR LR (s2l (fst f)) (snd f)); auto.
Qed.
End Forms.

(* ------------------------------------------------------------ the widths of the registers *)
Definition obey (o : width_order) (st : state) : state := snd (match o with LongA on => setLongAccumulator on st | LongI on => setLongIndex on st end).
Definition after_orders (ty : Z) (h : list width_order) : state := fold_left (fun st o => obey o st) h (setCpuType ty initial_state).
Lemma orders ty h : let st := after_orders ty h in
  st_cpu st = ty /\ st_longa st = (ty =? W65C816) && last_longa h /\ st_longi st = (ty =? W65C816) && last_longi h.
Proof.
  cbv zeta. unfold after_orders, last_longa, last_longi.
  assert (G : forall h st wa wi, st_cpu st = ty -> st_longa st = (ty =? W65C816) && wa -> st_longi st = (ty =? W65C816) && wi ->
    let st' := fold_left (fun st o => obey o st) h st in
    st_cpu st' = ty /\ st_longa st' = (ty =? W65C816) && fold_left (fun w o => match o with LongA on => on | LongI _ => w end) h wa /\
    st_longi st' = (ty =? W65C816) && fold_left (fun w o => match o with LongI on => on | LongA _ => w end) h wi).
  { clear h. induction h as [|o h IH]; intros st wa wi C A B; [cbv zeta; cbn; auto|]. cbn [fold_left].
    destruct o as [on|on]; apply IH; unfold obey, setLongAccumulator, setLongIndex; rewrite C; destruct (ty =? W65C816); cbn; auto. }
  apply G; [reflexivity|cbn; now rewrite andb_false_r|cbn; now rewrite andb_false_r].
Qed.
