(** The 8048 family: what the instructions with a number give for every value. *)
From Coq Require Import String ZArith List Bool Lia ZifyBool.
From Verif Require Import M_Char M_Error M_Value M_Text M_StrBuffer M_Format M_Number M_Insn M_Config M_Operators
  M_Parsers M_Expr M_Directive M_Table T_Tables M_Asm M_Dis M_I8048Defs T_I8048 M_I8048
  S_Value S_Number S_Expr S_ExprTree S_Table S_Cpu S_I8048 P_StrBuffer P_Number P_NumberRead
  P_ExprRead P_ExprTree P_ExprCase P_Table P_TableData P_Insn P_Config P_Value P_Directive P_AsmText P_CpuShape P_CpuGood P_CpuText P_CpuRange P_CpuSigned P_I8048.
Import ListNotations.
Open Scope string_scope.
Open Scope list_scope.
Local Open Scope Z_scope.

(* ------------------------------------------------------------ operands *)
Definition find_name (n : string) : option Z :=
  match find (fun e => String.eqb (fst e) n) REG_ENTRIES with Some e => Some (snd e) | None => None end.
Definition kind_o (o : opnd) : kind :=
  match o with
  | Reg n => match find_name n with Some r => K_name r | None => K_none end
  | At n => match find_name n with Some r => K_ind r | None => K_none end
  | _ => K_none
  end.
Definition same_text (t u : text) : bool := if list_eq_dec Z.eq_dec t u then true else false.
Definition opnd_ok (o : opnd) : bool :=
  kind_okb (kind_o o) &&
  match o, kind_o o with
  | Reg n, K_name r | At n, K_ind r => same_text (s2l n) (map (conv (Some true)) (reg_text r))
  | Reg _, _ | At _, _ => false
  | _, _ => true
  end.
(* the mode with which it is read, and that of the entry *)
Definition pmode (o : opnd) : Z :=
  match o with
  | Reg _ | At _ => mode_of (kind_o o)
  | Imm => M_IMM8
  | BitNo | Page | Far => M_AD11
  end.
Definition emode_ok (o : opnd) (m : Z) : bool :=
  match o with
  | Reg _ | At _ => fits (kind_o o) m && negb (is_none (kind_o o))
  | Imm => (m =? M_IMM8) || (m =? M_BIT8)
  | BitNo => m =? M_BITN
  | Page => m =? M_AD08
  | Far => m =? M_AD11
  end.
Definition good_op (o : opnd) (x : option Z) (op : operand) : Prop :=
  o_mode op = pmode o /\ o_err op = OK /\
  match o with
  | Reg _ | At _ => x = None /\ o_reg op = reg_of (kind_o o)
  | _ => exists z, x = Some z /\ int_value (o_val op) /\ int_of (o_val op) = z
  end.
Lemma skip_full b t : blanks b -> starts t -> skipSpaces (b ++ t) = t.
Proof. intros B ST. pose proof (starts_skip b t [] B ST) as H. now rewrite !app_nil_r in H. Qed.
Lemma eol_full t : starts t -> p_eol pl_intel t = (false, t).
Proof. intros ST. pose proof (starts_eol t [] ST) as H. now rewrite !app_nil_r in H. Qed.
Lemma number_starts s : starts_number s -> starts s /\ parseRegName s = Val (REG_UNDEF, s) /\
  expect_char 35 s = None /\ expect_char 64 s = None.
Proof.
  intros (H & N). destruct s as [|c s]; [contradiction|]. destruct H as (SP & NI). cbn in NI.
  split. { unfold starts. cbn [peek]. split; [discriminate|]. split; [exact SP|]. split; intros ->; apply NI; tauto. }
  split. { rewrite reg_parse. apply (parse_name_none REG_ENTRIES REG_UNDEF i8048_registers); [vm_compute; reflexivity|vm_compute; reflexivity|exact N]. }
  cbn [expect_char]. destruct (Z.eqb_spec c 35); [lia|]. destruct (Z.eqb_spec c 64); [lia|]. auto.
Qed.
Lemma parse_expr a loc b0 s after v : a_pl a = pl_intel -> a_radix a = 10 -> blanks b0 -> tail after ->
  expression fam_8048 loc (a_symbol a) (a_function a) s after v ->
  int_value v /\ exists b, blanks b /\ parseInteger a loc (b0 ++ s) OK 0 = Val (v, OK, b ++ after).
Proof.
  intros PL RX B0 T (e & D & W & VS & OS & V & IV). split; [exact IV|].
  apply (parse_value fam_8048 a loc b0 e s after v ltac:(cbn; tauto) PL RX B0 D W VS OS T V).
Qed.
Lemma parse_opnd a loc o t after x b0 : a_pl a = pl_intel -> a_radix a = 10 -> opnd_ok o = true -> tail after -> blanks b0 ->
  operand_text loc (a_symbol a) (a_function a) o t after x ->
  starts t /\ exists b op, blanks b /\ parseOperand a loc (b0 ++ t) = Val (op, b ++ after) /\ good_op o x op.
Proof.
  intros PL RX OK_ T B0 H. unfold opnd_ok in OK_. apply andb_true_iff in OK_. destruct OK_ as (KO & OK_).
  assert (HEAD : forall t, starts t -> parseOperand a loc (b0 ++ t) = parseOperand a loc t).
  { intros t' ST. unfold parseOperand. cbv zeta. rewrite (skip_full b0 t') by assumption. pose proof (skip_full [] t' (Forall_nil _) ST) as E. cbn [app] in E. now rewrite E. }
  assert (PLAIN : starts_number t -> forall v, expression fam_8048 loc (a_symbol a) (a_function a) t after v -> forall o, o = BitNo \/ o = Page \/ o = Far ->
    starts t /\ exists b op, blanks b /\ parseOperand a loc (b0 ++ t) = Val (op, b ++ after) /\ good_op o (Some (int_of v)) op).
  { intros SN v EX o' O. destruct (number_starts _ SN) as (ST & RN & N35 & N64). split; [exact ST|].
    destruct (parse_expr a loc [] t after v PL RX (Forall_nil _) T EX) as (IV & b' & B' & PI). cbn [app] in PI.
    exists b', (mkOp M_AD11 REG_UNDEF v OK). split; [exact B'|]. rewrite HEAD by assumption. split.
    - unfold parseOperand. cbv zeta. pose proof (skip_full [] t (Forall_nil _) ST) as E. cbn [app] in E. rewrite E, PL, (eol_full _ ST), N35, N64. cbn [andb]. rewrite RN. cbn [bind].
      change (REG_UNDEF =? REG_UNDEF) with true. cbn [negb]. cbv iota. rewrite PI. reflexivity.
    - unfold good_op. destruct O as [-> | [-> | ->]]; cbn; eauto 10. }
  destruct o; cbn [operand_text] in H.
  - destruct H as (-> & b & -> & B). cbn [kind_o] in *. destruct (find_name n) as [r|] eqn:FN; [|discriminate]. unfold same_text in OK_. destruct (list_eq_dec _ _ _) as [E|]; [|discriminate].
    destruct (reg_read true r (b ++ after) (name_regs _ KO) (tail_noname _ _ B T)) as (ST & RR & NU & N35 & N64). rewrite <- E in *.
    assert (ST' : starts (s2l n ++ b ++ after)). { destruct ST as (NE & ST). destruct (s2l n) as [|c u]; [congruence|]. unfold starts. cbn [app peek] in *. split; [discriminate|exact ST]. }
    split; [exact ST'|]. exists b, (op_of (K_name r) v_undef). split; [exact B|]. rewrite HEAD by exact ST'. split.
    { unfold parseOperand. cbv zeta. pose proof (skip_full [] _ (Forall_nil _) ST') as SK. cbn [app] in SK. rewrite SK, PL, (eol_full _ ST'), N35, N64. cbn [andb]. rewrite RR. cbn [bind]. rewrite NU. cbn [negb]. cbv iota.
      apply name_regs in KO. cbn in KO. repeat (destruct KO as [<-|KO]; [reflexivity|]). contradiction. }
    unfold good_op. cbn [pmode kind_o op_of o_mode o_err o_reg]. rewrite FN. auto.
  - destruct H as (-> & b & -> & B). cbn [kind_o] in *. destruct (find_name n) as [r|] eqn:FN; [|discriminate]. unfold same_text in OK_. destruct (list_eq_dec _ _ _) as [E|]; [|discriminate].
    assert (KO' : In r regs) by (cbn [kind_okb] in KO; apply in_list in KO; vm_compute in KO |- *; tauto).
    destruct (reg_read true r (b ++ after) KO' (tail_noname _ _ B T)) as (ST & RR & NU & _). rewrite <- E in *.
    assert (ST' : starts (64 :: s2l n ++ b ++ after)) by (apply sign_starts; cbn; auto).
    split; [exact ST'|]. exists b, (op_of (K_ind r) v_undef). split; [exact B|]. rewrite HEAD by exact ST'. split.
    { unfold parseOperand. cbv zeta. pose proof (skip_full [] _ (Forall_nil _) ST') as SK. cbn [app] in SK. rewrite SK, PL, (eol_full _ ST').
      cbn [expect_char]. change (64 =? 35) with false. change (64 =? 64) with true. cbv iota. cbn [andb].
      assert (SP : is_space (peek (s2l n ++ b ++ after)) = false) by (destruct ST as (NE & SP & _); destruct (s2l n); [congruence|exact SP]). rewrite SP. rewrite RR. cbn [bind]. rewrite NU. cbn [negb]. cbv iota.
      cbn [kind_okb] in KO. apply in_list in KO. cbn in KO. repeat (destruct KO as [<-|KO]; [reflexivity|]). contradiction. }
    unfold good_op. cbn [pmode kind_o op_of o_mode o_err o_reg]. rewrite FN. auto.
  - destruct H as (b & s & v & -> & B & EX & ->). assert (ST : starts (35 :: b ++ s)) by (apply sign_starts; cbn; auto). split; [exact ST|].
    destruct (parse_expr a loc b s after v PL RX B T EX) as (IV & b' & B' & PI). exists b', (mkOp M_IMM8 REG_UNDEF v OK). split; [exact B'|]. rewrite HEAD by exact ST. split.
    + unfold parseOperand. cbv zeta. pose proof (skip_full [] _ (Forall_nil _) ST) as E. cbn [app] in E. rewrite E, PL, (eol_full _ ST). cbn [expect_char]. change (35 =? 35) with true. cbv iota. rewrite PI. reflexivity.
    + unfold good_op. cbn. eauto 10.
  - destruct H as (SN & v & EX & ->). apply PLAIN; auto.
  - destruct H as (SN & v & EX & ->). apply PLAIN; auto.
  - destruct H as (SN & v & EX & ->). apply PLAIN; auto.
Qed.

(* ------------------------------------------------------------ bytes *)
Lemma set_ok e x : x <> OK -> (setErrorIfAt e x = OK <-> e = OK /\ False).
Proof.
  intros X. split; [|tauto]. intros H. exfalso. destruct (isOK e) eqn:E.
  - apply isOK_e in E. subst e. unfold setErrorIfAt in H. change (isOK OK) with true in H. cbn [andb] in H. destruct x; try congruence; discriminate H.
  - rewrite seterr_stays in H; [subst e; discriminate|]. intros ->. discriminate.
Qed.
Lemma if_ok (c : bool) e x P : x <> OK -> (c = false <-> P) -> ((if c then setErrorIfAt e x else e) = OK <-> e = OK /\ P).
Proof. intros X C. destruct c; [rewrite set_ok by exact X|]; intuition discriminate. Qed.
(* what the operand does to the opcode; [q] is what it puts in its upper bits *)
Definition upper (o : opnd) (x : option Z) : Z :=
  match o, x with BitNo, Some x => x mod 8 | Far, Some x => x / 256 mod 8 | _, _ => 0 end.
Definition emb_o (o : opnd) (m q c : Z) : Z :=
  match o with Reg _ | At _ => emb (kind_o o) m c | BitNo | Far => u8 (Z.lor c (32 * q)) | _ => c end.
Lemma upper_bits o x : opcode_bits o x = 32 * upper o x /\ 0 <= upper o x < 8.
Proof. destruct o, x as [x|]; cbn [opcode_bits upper]; try lia; (split; [reflexivity|]); apply Z.mod_pos_bound; lia. Qed.
Lemma high3 z : Z.land (Z.shiftr z 3) 0xE0 = 32 * (z / 256 mod 8).
Proof.
  change 0xE0 with (Z.shiftl (Z.ones 3) 5). rewrite land_mid, Z.shiftr_div_pow2, Z.div_div by lia. change (2^3 * 2^5) with 256. change (2^3) with 8. change (2^5) with 32. lia.
Qed.
Lemma cut32 x k : 0 < k -> (k | 2^32) -> (x mod 2^32) mod k = x mod k.
Proof. intros K (q & E). rewrite E, Z.mul_comm, Z.rem_mul_r by (try lia; destruct (Z.eq_dec q 0); lia). rewrite Z.mul_comm, Z_mod_plus by lia. apply Z.mod_mod. lia. Qed.
Lemma emit_opnd o x op m addr nb e c : opnd_ok o = true -> emode_ok o m = true -> good_op o x op -> 0 <= addr < 4095 -> (operand_bytes o x <> [] -> nb = []) ->
  (forall z, o = Page -> x = Some z -> 0 <= z < 2^16) -> (forall z, o = Far -> x = Some z -> 0 <= z < 2^32) ->
  exists e', encodeOperand m op (mkAI (part addr 1 nb) e c) = mkAI (part addr 1 (nb ++ operand_bytes o x)) e' (emb_o o m (upper o x) c) /\
    (e' = OK <-> e = OK /\ operand_fits addr o x).
Proof.
  intros OO MO (PM & E & G) AR N0 TP TF. unfold opnd_ok in OO. apply andb_true_iff in OO. destruct OO as (KO & OO).
  assert (I2 : i_addr (part addr 1 nb) = addr) by (destruct nb; reflexivity).
  unfold encodeOperand. cbv zeta. rewrite E, noerr.
  destruct o; cbn [emode_ok operand_bytes operand_fits upper emb_o] in *.
  - destruct G as (-> & RG). rewrite app_nil_r. exists e. split; [|tauto]. cbn [kind_o] in *. destruct (find_name n) as [r|]; [|discriminate].
    apply andb_true_iff in MO. destruct MO as (MO & _). cbn [fits reg_of emb] in *. rewrite RG. apply in_list in MO. cbn in MO. repeat (destruct MO as [<-|MO]; [reflexivity|]). contradiction.
  - destruct G as (-> & RG). rewrite app_nil_r. exists e. split; [|tauto]. cbn [kind_o] in *. destruct (find_name n) as [r|]; [|discriminate].
    apply andb_true_iff in MO. destruct MO as (MO & _). cbn [fits reg_of emb] in *. rewrite RG. apply in_list in MO. cbn in MO. repeat (destruct MO as [<-|MO]; [reflexivity|]). contradiction.
  - destruct G as (z & -> & IV & <-). rewrite (N0 ltac:(discriminate)) in *. cbn [app].
    exists (if overflowUint8 (o_val op) then setErrorIfAt e OVERFLOW_RANGE else e). split.
    + apply orb_true_iff in MO. destruct MO as [MO|MO]; apply Z.eqb_eq in MO; subst m; cbn [Z.eqb M_IR M_IR3 M_R M_P12 M_PEXT M_AD08 M_AD11 M_IMM8 M_BIT8 Pos.eqb orb]; unfold ai_setErrorIf; cbn [ai_insn ai_err ai_opc];
      destruct (overflowUint8 (o_val op)); (rewrite (emit8 (int_of (o_val op) mod 256)); [reflexivity|apply mod_byte|unfold u8; apply low8, IV]).
    + apply if_ok; [discriminate|]. unfold overflowUint8. rewrite over_b by (auto; lia). lia.
  - destruct G as (z & -> & IV & <-). rewrite app_nil_r. apply Z.eqb_eq in MO. subst m. cbn [Z.eqb M_IR M_IR3 M_R M_P12 M_PEXT M_AD08 M_AD11 M_IMM8 M_BIT8 M_BITN Pos.eqb orb].
    exists (if overflow (o_val op) 7 0 then setErrorIfAt e ILLEGAL_BIT_NUMBER else e). split.
    + assert (Z.shiftl (Z.land (getUnsigned (o_val op)) 7) 5 = 32 * (int_of (o_val op) mod 8)) as ->.
      { rewrite getUnsigned_mod by exact IV. change 7 with (Z.ones 3). rewrite Z.land_ones, Z.shiftl_mul_pow2 by lia. change (2^3) with 8. change (2^5) with 32.
        rewrite cut32; [lia|lia|]. exists (2^29). reflexivity. }
      unfold ai_setErrorIf, ai_embed. destruct (overflow (o_val op) 7 0); reflexivity.
    + apply if_ok; [discriminate|]. rewrite over_b by (auto; lia). lia.
  - destruct G as (z & -> & IV & IO). rewrite (N0 ltac:(discriminate)) in *. cbn [app]. specialize (TP z eq_refl eq_refl). apply Z.eqb_eq in MO. subst m.
    cbn [Z.eqb M_IR M_IR3 M_R M_P12 M_PEXT M_AD08 M_AD11 Pos.eqb orb]. unfold encodeAddress. cbv zeta. change (M_AD08 =? M_AD08) with true. cbv iota. cbn [ai_insn]. rewrite I2.
    assert (GU : getUnsigned (o_val op) = z) by (rewrite getUnsigned_mod, IO by exact IV; apply Z.mod_small; lia). rewrite GU.
    assert (U : u32 (addr + 1) = addr + 1) by (unfold u32; apply Z.mod_small; lia). rewrite U, !page_val.
    assert (D1 : 0 <= z / 256 < 256) by (split; [apply Z.div_pos; lia|apply Z.div_lt_upper_bound; lia]).
    assert (D2 : 0 <= (addr + 1) / 256 < 256) by (split; [apply Z.div_pos; lia|apply Z.div_lt_upper_bound; lia]).
    rewrite (Z.mod_small (z / 256)), (Z.mod_small ((addr + 1) / 256)) by lia.
    exists (if negb (256 * (z / 256) =? 256 * ((addr + 1) / 256)) then setErrorIfAt e OPERAND_TOO_FAR else e). split.
    + unfold ai_setErrorIf. cbn [ai_insn ai_err ai_opc]. destruct (negb _); (rewrite (emit8 (z mod 256)); [reflexivity|apply mod_byte|reflexivity]).
    + apply if_ok; [discriminate|]. rewrite negb_false_iff, Z.eqb_eq. lia.
  - destruct G as (z & -> & IV & IO). rewrite (N0 ltac:(discriminate)) in *. cbn [app]. specialize (TF z eq_refl eq_refl). apply Z.eqb_eq in MO. subst m.
    cbn [Z.eqb M_IR M_IR3 M_R M_P12 M_PEXT M_AD08 M_AD11 Pos.eqb orb]. unfold encodeAddress. cbv zeta. change (M_AD11 =? M_AD08) with false. cbv iota. cbn [ai_insn].
    assert (GU : getUnsigned (o_val op) = z) by (rewrite getUnsigned_mod, IO by exact IV; apply Z.mod_small; lia). rewrite GU, high3.
    exists (if negb (isOK (checkAddr 12 z false)) then setErrorIfAt e OVERFLOW_RANGE else e). split.
    + unfold ai_setErrorIf, ai_embed. destruct (negb _); cbn [ai_insn ai_err ai_opc]; (rewrite (emit8 (z mod 256)); [reflexivity|apply mod_byte|reflexivity]).
    + apply if_ok; [discriminate|]. rewrite negb_false_iff. pose proof (C31_addr 12 z false ltac:(lia) ltac:(lia)) as CA. change (2^12) with 4096 in CA. split.
      * intros Q. apply isOK_e in Q. apply CA in Q. lia.
      * intros Q. assert (checkAddr 12 z false = OK) as -> by (apply CA; split; [lia|discriminate]). reflexivity.
Qed.

(* ------------------------------------------------------------ lines *)
Definition pair_ok (a : asm) (loc : Z) (os : list opnd) (xs : list (option Z)) (scan rest : text) : Prop :=
  match os, xs with
  | [p1], [x1] => exists o1, parseOperands a loc scan = Val (Two o1 no_operand rest) /\ good_op p1 x1 o1
  | [p1; p2], [x1; x2] => exists o1 o2, parseOperands a loc scan = Val (Two o1 o2 rest) /\ good_op p1 x1 o1 /\ good_op p2 x2 o2
  | _, _ => False
  end.
Lemma parse_ops a loc os t rest xs : a_pl a = pl_intel -> a_radix a = 10 -> forallb opnd_ok os = true -> (length os <= 2)%nat -> last_rest rest ->
  operands_text loc (a_symbol a) (a_function a) os t rest xs -> pair_ok a loc os xs (skipSpaces t) rest.
Proof.
  intros PL RX OO LN LR H. pose proof (last_tail _ LR) as TR.
  destruct os as [|p1 [|p2 [|p3 os]]]; cbn [operands_text] in H; [destruct xs; contradiction|..|cbn [length] in LN; lia].
  - destruct xs as [|x1 [|? ?]]; try (exfalso; decompose [ex and] H; contradiction). cbn [forallb] in OO. rewrite andb_true_r in OO. cbn [pair_ok].
    destruct (parse_opnd a loc p1 t rest x1 [] PL RX OO TR (Forall_nil _) H) as (ST & b & op & B & PO & G). exists op. split; [|exact G].
    pose proof (skip_full [] _ (Forall_nil _) ST) as SK. cbn [app] in SK, PO. rewrite SK. unfold parseOperands. rewrite PO. cbn [bind]. destruct G as (_ & E & _). rewrite E.
    change (hasError OK) with false. cbv iota. cbv zeta. rewrite tail_skip by assumption. now rewrite last_nocomma.
  - destruct xs as [|x1 [|x2 [|? ?]]]; try (exfalso; decompose [ex and] H; contradiction). destruct H as (b & t2 & H1 & B & H2). cbn [forallb] in OO. rewrite !andb_true_iff in OO. destruct OO as (OO1 & OO2 & _).
    assert (T44 : tail (44 :: b ++ t2)) by (right; eauto). cbn [pair_ok].
    destruct (parse_opnd a loc p1 t _ x1 [] PL RX OO1 T44 (Forall_nil _) H1) as (ST & b1 & o1 & B1 & PO1 & G1).
    destruct (parse_opnd a loc p2 t2 rest x2 b PL RX OO2 TR B H2) as (_ & b2 & o2 & B2 & PO2 & G2). exists o1, o2. split; [|auto].
    pose proof (skip_full [] _ (Forall_nil _) ST) as SK. cbn [app] in SK, PO1. rewrite SK. unfold parseOperands. rewrite PO1. cbn [bind]. destruct G1 as (_ & E1 & _). destruct G2 as (_ & E2 & _). rewrite E1.
    change (hasError OK) with false. cbv iota. cbv zeta. rewrite tail_skip by assumption. cbn [expect_char]. change (44 =? 44) with true. cbv iota. rewrite PO2. cbn [bind]. rewrite E2.
    change (hasError OK) with false. cbv iota. now rewrite tail_skip.
Qed.
Definition searched (ty : Z) (n : text) (m1 m2 : Z) : option entry :=
  match i8048_searchName ty n m1 m2 with Val (OK, r) => r | _ => None end.
Definition name_okb (n : string) : bool := plain_name sp_intel [] i8048_directives (s2l n) && is_alpha (peek (s2l n)).
Lemma line_ops ty a n scan t o1 o2 rest indent gap addr e : a_pl a = pl_intel -> a_aw a = 12 -> 0 <= addr < 4096 -> name_okb n = true ->
  blanks indent -> blanks gap -> gap <> [] -> scan = skipSpaces t -> parseOperands a addr scan = Val (Two o1 o2 rest) -> searched ty (s2l n) (o_mode o1) (o_mode o2) = Some e ->
  let ai := ai_emitInsn (encodeOperand (e_src e) o2 (encodeOperand (e_dst e) o1 (mkAI (new_insn addr) OK (e_opc e)))) in
  i8048_encode ty a (indent ++ s2l n ++ gap ++ t) addr = Val (L_insn (i_seterr (setErrorIfAt (i_err (ai_insn ai)) (ai_err ai)) (ai_insn ai)) rest).
Proof.
  intros PL AW AR NO BI BG NG -> PO SN ai.
  assert (CA : checkAddr 12 addr false = OK) by (apply (proj1 (C31_addr 12 addr false ltac:(lia) ltac:(lia))); split; [exact (proj2 AR)|discriminate]).
  unfold name_okb in NO. apply andb_true_iff in NO. destruct NO as (PN & AL).
  unfold searched in SN. destruct (i8048_searchName _ _ _ _) as [[er r]| | | |] eqn:SE; try discriminate. destruct er; try discriminate. subst r.
  unfold i8048_encode. rewrite line_insn; [| | |exact BI|exact BG| |].
  - unfold i8048_encodeImpl. rewrite PO. cbn [bind]. rewrite SE. cbn [bind i_err new_insn]. change (setErrorIfAt OK OK) with OK. change (isOK OK) with true. cbn [negb]. cbv zeta. reflexivity.
  - rewrite PL. exact PN.
  - intros z. rewrite PL. change (p_line pl_intel) with (p_eol pl_intel). apply starts_eol. destruct (s2l n) as [|c u]; [discriminate|]. cbn [peek] in AL.
    unfold starts. cbn [peek]. unfold is_alpha, is_upper, is_lower, is_space in *. repeat split; try discriminate; lia.
  - rewrite PL. destruct gap as [|c gap]; [congruence|]. inversion BG as [|? ? C ?]; subst. cbn [app peek]. apply space_cases in C.
    destruct C as [->|[->|[->|[->|[->| ->]]]]]; reflexivity.
  - rewrite AW. exact CA.
Qed.
Lemma finish48 addr nb e c : byte c -> (length nb <= 1)%nat ->
  (let ai := ai_emitInsn (mkAI (part addr 1 nb) e c) in i_seterr (setErrorIfAt (i_err (ai_insn ai)) (ai_err ai)) (ai_insn ai)) = i_seterr (setErrorIfAt OK e) (canon addr (c :: nb)).
Proof.
  intros BC L. destruct (part_done 0 c addr nb ltac:(unfold byte; lia) BC ltac:(lia)) as (D1 & _). unfold ai_emitInsn, ai_set. cbn [ai_insn ai_err ai_opc]. rewrite D1. reflexivity.
Qed.
Lemma set_ok_ok e : setErrorIfAt OK e = OK <-> e = OK.
Proof. unfold setErrorIfAt. change (isOK OK) with true. cbn [andb]. destruct (isOK e) eqn:Q; cbn [negb]; [apply isOK_e in Q; subst; tauto|tauto]. Qed.

(* ------------------------------------------------------------ forms *)
Definition qs (o : opnd) : list Z := match o with BitNo | Far => [0; 1; 2; 3; 4; 5; 6; 7] | _ => [0] end.
Lemma upper_in o x : In (upper o x) (qs o).
Proof. destruct (upper_bits o x) as (_ & R). destruct o; try (destruct x; cbn; auto; fail); cbn [qs]; generalize dependent (upper BitNo x); generalize dependent (upper Far x); intros; cbn [In]; lia. Qed.
Definition bytes_of (o : opnd) : nat := match o with Imm | Page | Far => 1 | _ => 0 end.
Definition form_q (f : form) (e : entry) : bool :=
  match fm_operands f with
  | [p1] => emode_ok p1 (e_dst e) && (e_src e =? M_NONE) && forallb (fun q => emb_o p1 (e_dst e) q (e_opc e) =? fm_code f + 32 * q) (qs p1)
  | [p1; p2] => emode_ok p1 (e_dst e) && emode_ok p2 (e_src e) && (bytes_of p1 + bytes_of p2 <=? 1)%nat &&
      forallb (fun q1 => forallb (fun q2 => emb_o p2 (e_src e) q2 (emb_o p1 (e_dst e) q1 (e_opc e)) =? fm_code f + 32 * q1 + 32 * q2) (qs p2)) (qs p1)
  | _ => false
  end.
Definition modes2 (os : list opnd) : Z * Z := match os with [p1] => (pmode p1, M_NONE) | p1 :: p2 :: _ => (pmode p1, pmode p2) | [] => (M_NONE, M_NONE) end.
Definition form_ok (ty : Z) (f : form) : bool :=
  name_okb (fm_name f) && forallb opnd_ok (fm_operands f) && (Nat.leb (length (fm_operands f)) 2) &&
  (0 <=? fm_code f) && (fm_code f + 32 * (fold_right Z.add 0 (map (fun o => last (qs o) 0) (fm_operands f))) <? 256) &&
  match searched ty (s2l (fm_name f)) (fst (modes2 (fm_operands f))) (snd (modes2 (fm_operands f))) with Some e => form_q f e | None => false end.
Lemma forms_ok : forallb (fun ty => forallb (form_ok ty) (byte_forms ty ++ page_forms ty ++ far_forms)) i8048_types = true.
Proof. vm_compute. reflexivity. Qed.
Lemma in_last o q : In q (qs o) -> 0 <= q <= last (qs o) 0.
Proof. destruct o; cbn; lia. Qed.
Lemma none_enc op i : o_err op = OK -> encodeOperand M_NONE op (mkAI i OK 0) = mkAI i OK 0.
Proof. intros E. unfold encodeOperand. cbv zeta. rewrite E, noerr. reflexivity. Qed.
Lemma bytes_len o x op : good_op o x op -> length (operand_bytes o x) = bytes_of o.
Proof. intros (_ & _ & G). destruct o; try (destruct G as (-> & _); reflexivity); destruct G as (z & -> & _); reflexivity. Qed.
Lemma form_line ty a f indent gap t rest xs addr : form_ok ty f = true ->
  a_pl a = pl_intel -> a_radix a = 10 -> a_aw a = 12 -> 0 <= addr < 4095 ->
  blanks indent -> blanks gap -> gap <> [] -> last_rest rest -> operands_text addr (a_symbol a) (a_function a) (fm_operands f) t rest xs -> targets_held (fm_operands f) xs ->
  exists i, i8048_encode ty a (indent ++ s2l (fm_name f) ++ gap ++ t) addr = Val (L_insn i rest) /\
    i_code i = form_bytes f xs /\ (i_err i = OK <-> all_fit addr (fm_operands f) xs).
Proof.
  intros FO PL RX AW AR BI BG NG LR H (TP & TF). unfold form_ok in FO. rewrite !andb_true_iff in FO. destruct FO as (((((NO & OO) & LN) & C0) & C1) & SE).
  pose proof (parse_ops a addr (fm_operands f) t rest xs PL RX OO ltac:(now apply Nat.leb_le) LR H) as PK. clear H.
  unfold form_bytes, all_fit. destruct (searched ty _ _ _) as [e|] eqn:SN; [|discriminate]. unfold form_q in SE.
  destruct (fm_operands f) as [|p1 [|p2 [|p3 os]]]; try discriminate; destruct xs as [|x1 [|x2 [|? ?]]]; cbn [pair_ok] in PK; try contradiction.
  - destruct PK as (o1 & PO & G1). cbn [modes2 fst snd] in SN. rewrite !andb_true_iff in SE. destruct SE as ((M1 & M2) & CQ). apply Z.eqb_eq in M2.
    cbn [forallb] in OO. rewrite andb_true_r in OO. rewrite forallb_forall in CQ. specialize (CQ _ (upper_in p1 x1)). apply Z.eqb_eq in CQ.
    assert (MO : o_mode o1 = pmode p1) by apply G1. rewrite <- MO in SN.
    pose proof (line_ops ty a (fm_name f) _ t o1 no_operand rest indent gap addr e PL AW ltac:(lia) NO BI BG NG eq_refl PO SN) as LO. cbv zeta in LO.
    change (new_insn addr) with (part addr 1 []) in LO.
    destruct (emit_opnd p1 x1 o1 (e_dst e) addr [] OK (e_opc e) OO M1 G1 AR ltac:(auto)) as (e1 & E1 & F1).
    { intros z -> ->. apply TP. cbn. auto. } { intros z -> ->. apply TF. cbn. auto. }
    rewrite E1 in LO. cbn [app] in LO. rewrite M2 in LO. unfold encodeOperand in LO. cbv zeta in LO. cbn [no_operand o_err] in LO. rewrite noerr in LO.
    cbn [Z.eqb M_NONE M_IR M_IR3 M_R M_P12 M_PEXT M_AD08 M_AD11 M_IMM8 M_BIT8 M_BITN M_F M_RB M_MB orb] in LO.
    destruct (upper_bits p1 x1) as (UB1 & R1). pose proof (in_last p1 _ (upper_in p1 x1)) as L1. cbn [map fold_right] in C1.
    rewrite CQ in LO. pose proof (finish48 addr (operand_bytes p1 x1) e1 (fm_code f + 32 * upper p1 x1) ltac:(unfold byte; lia)) as FI. cbv zeta in FI.
    rewrite (bytes_len _ _ _ G1) in FI. rewrite FI in LO by (destruct p1; cbn; lia).
    eexists. split; [exact LO|]. cbn [combine map fold_right concat]. rewrite UB1. split.
    + rewrite Z.add_0_r, app_nil_r. unfold i_seterr. cbn [i_addr i_len i_bytes i_err i_ub canon]. change (mkI _ _ _ _ _) with (i_seterr (setErrorIfAt OK e1) (canon addr ((fm_code f + 32 * upper p1 x1) :: operand_bytes p1 x1))).
      exact (canon_code addr _).
    + cbn [i_err i_seterr]. rewrite set_ok_ok, F1. split; [intros (_ & Q); constructor; [exact Q|constructor]|intros Q; inversion Q; auto].
  - destruct PK as (o1 & o2 & PO & G1 & G2). cbn [modes2 fst snd] in SN. rewrite !andb_true_iff in SE. destruct SE as (((M1 & M2) & BW) & CQ).
    cbn [forallb] in OO. rewrite !andb_true_iff in OO. destruct OO as (OO1 & OO2 & _). rewrite forallb_forall in CQ. specialize (CQ _ (upper_in p1 x1)). cbn beta in CQ.
    rewrite forallb_forall in CQ. specialize (CQ _ (upper_in p2 x2)). apply Z.eqb_eq in CQ. apply Nat.leb_le in BW.
    assert (MO1 : o_mode o1 = pmode p1) by apply G1. assert (MO2 : o_mode o2 = pmode p2) by apply G2. rewrite <- MO1, <- MO2 in SN.
    pose proof (line_ops ty a (fm_name f) _ t o1 o2 rest indent gap addr e PL AW ltac:(lia) NO BI BG NG eq_refl PO SN) as LO. cbv zeta in LO.
    change (new_insn addr) with (part addr 1 []) in LO.
    pose proof (bytes_len _ _ _ G1) as L1'. pose proof (bytes_len _ _ _ G2) as L2'.
    destruct (emit_opnd p1 x1 o1 (e_dst e) addr [] OK (e_opc e) OO1 M1 G1 AR ltac:(auto)) as (e1 & E1 & F1).
    { intros z -> ->. apply TP. cbn. auto. } { intros z -> ->. apply TF. cbn. auto. }
    rewrite E1 in LO. cbn [app] in LO.
    destruct (emit_opnd p2 x2 o2 (e_src e) addr (operand_bytes p1 x1) e1 (emb_o p1 (e_dst e) (upper p1 x1) (e_opc e)) OO2 M2 G2 AR) as (e2 & E2 & F2).
    { intros Q. destruct (operand_bytes p2 x2); [congruence|]. cbn [length] in L2'. destruct (operand_bytes p1 x1); [reflexivity|]. cbn [length] in L1'. lia. }
    { intros z -> ->. apply TP. cbn. auto. } { intros z -> ->. apply TF. cbn. auto. }
    rewrite E2, CQ in LO.
    destruct (upper_bits p1 x1) as (UB1 & R1). pose proof (in_last p1 _ (upper_in p1 x1)) as L1. destruct (upper_bits p2 x2) as (UB2 & R2). pose proof (in_last p2 _ (upper_in p2 x2)) as L2. cbn [map fold_right] in C1.
    pose proof (finish48 addr (operand_bytes p1 x1 ++ operand_bytes p2 x2) e2 (fm_code f + 32 * upper p1 x1 + 32 * upper p2 x2) ltac:(unfold byte; lia)) as FI. cbv zeta in FI.
    rewrite app_length in FI. rewrite FI in LO by lia.
    eexists. split; [exact LO|]. cbn [combine map fold_right concat]. rewrite UB1, UB2. split.
    + rewrite app_nil_r. replace (fm_code f + (32 * upper p1 x1 + (32 * upper p2 x2 + 0))) with (fm_code f + 32 * upper p1 x1 + 32 * upper p2 x2) by lia. exact (canon_code addr _).
    + cbn [i_err i_seterr]. rewrite set_ok_ok, F2, F1. split; [intros ((_ & Q1) & Q2); repeat constructor; assumption|intros Q; inversion Q as [|? ? Q1 Q2]; inversion Q2; auto].
Qed.
