(** The 8051: what the instructions with a number give for every value. *)
From Coq Require Import String ZArith List Bool Lia ZifyBool.
From Verif Require Import M_Char M_Error M_Value M_Text M_StrBuffer M_Format M_Number M_Insn M_Config M_Operators
  M_Parsers M_Expr M_Directive M_Table T_Tables M_Asm M_Dis M_I8051Defs T_I8051 M_I8051
  S_Value S_Number S_Expr S_ExprTree S_Table S_Cpu S_I8051 P_StrBuffer P_Number P_NumberRead
  P_ExprRead P_ExprTree P_ExprCase P_Table P_TableData P_Insn P_Config P_Value P_Directive P_AsmText P_CpuShape P_CpuGood P_CpuText P_CpuRange P_CpuSigned P_Dot P_I8051.
Import ListNotations.
Open Scope string_scope.
Open Scope list_scope.
Local Open Scope Z_scope.

(* ------------------------------------------------------------ operands *)
Definition find_name (n : string) : option Z :=
  match find (fun e => String.eqb (fst e) n) REG_ENTRIES with Some e => Some (snd e) | None => None end.
Definition kind_o (o : opnd) : kind :=
  match o with
  | Reg n => match find_name n with Some r => K_name r | None => K_none end
  | At n => match find_name n with Some r => K_ind r | None => K_none end
  | _ => K_none
  end.
Definition same_text (t u : text) : bool := if list_eq_dec Z.eq_dec t u then true else false.
Definition opnd_ok (o : opnd) : bool :=
  kind_okb (kind_o o) &&
  match o, kind_o o with
  | Reg n, K_name r | At n, K_ind r => same_text (s2l n) (map (conv (Some true)) (reg_text r))
  | Reg _, _ | At _, _ => false
  | _, _ => true
  end.
(* the modes with which it may be read, and the mode of the entry *)
Definition pmodes (o : opnd) : list Z :=
  match o with
  | Reg _ | At _ => [mode_of (kind_o o)]
  | Imm | Word => [M_IMM16]
  | Direct | Target => [M_ADR16]
  | Bit => [M_ADR16; M_BITAD]
  | NotBit => [M_NOTAD]
  end.
Definition emode (o : opnd) : Z :=
  match o with
  | Reg _ | At _ => mode_of (kind_o o)
  | Imm => M_IMM8 | Word => M_IMM16 | Direct => M_ADR8 | Target => M_REL | Bit => M_BITAD | NotBit => M_NOTAD
  end.
Definition good_op (o : opnd) (x : option Z) (op : operand) : Prop :=
  In (o_mode op) (pmodes o) /\ o_err op = OK /\
  match o with
  | Reg _ | At _ => x = None /\ o_reg op = reg_of (kind_o o)
  | _ => exists z, x = Some z /\ int_value (o_val op) /\ int_of (o_val op) = z
  end.
Lemma skip_full b t : blanks b -> starts t -> skipSpaces (b ++ t) = t.
Proof. intros B ST. pose proof (starts_skip b t [] B ST) as H. now rewrite !app_nil_r in H. Qed.
Lemma skip_head b t : blanks b -> is_space (peek t) = false -> skipSpaces (b ++ t) = t.
Proof. intros B ST. rewrite skip_blanks by exact B. destruct t as [|c t]; [reflexivity|]. now apply skip_none. Qed.
Lemma eol_full t : starts t -> p_eol pl_intel t = (false, t).
Proof. intros ST. pose proof (starts_eol t [] ST) as H. now rewrite !app_nil_r in H. Qed.
Lemma number_starts s : starts_number s -> starts s /\ parseRegName s = Val (REG_UNDEF, s) /\
  expect_char 35 s = None /\ expect_char 47 s = None /\ expect_char 64 s = None.
Proof.
  intros (H & N). destruct s as [|c s]; [contradiction|]. destruct H as (SP & NI). cbn in NI.
  split. { unfold starts. cbn [peek]. split; [discriminate|]. split; [exact SP|]. split; intros ->; apply NI; tauto. }
  split. { rewrite reg_parse. apply (parse_name_none REG_ENTRIES REG_UNDEF i8051_registers); [vm_compute; reflexivity|vm_compute; reflexivity|exact N]. }
  cbn [expect_char]. destruct (Z.eqb_spec c 35); [lia|]. destruct (Z.eqb_spec c 47); [lia|]. destruct (Z.eqb_spec c 64); [lia|]. auto.
Qed.
Lemma parse_expr a loc b0 s after v : a_pl a = pl_intel -> a_radix a = 10 -> blanks b0 -> tail after ->
  expression fam_8051 loc (a_symbol a) (a_function a) s after v ->
  int_value v /\ exists b, blanks b /\ parseInteger a loc (b0 ++ s) OK 0 = Val (v, OK, b ++ after).
Proof.
  intros PL RX B0 T (e & D & W & VS & OS & V & IV). split; [exact IV|].
  apply (parse_value fam_8051 a loc b0 e s after v ltac:(cbn; tauto) PL RX B0 D W VS OS T V).
Qed.
(* what the branch for addresses gives *)
Definition bit_ok_check (b n : Z) : bool :=
  let x := if b <? 0x80 then 8 * (b - 0x20) + n else b + n in
  negb (((0x20 <=? b) && (b <=? 0x2F)) || ((0x80 <=? b) && (b <=? 0xFF) && (b mod 8 =? 0))) ||
  (((Z.ldiff b 0x0F =? 0x20) || (Z.ldiff b 0x78 =? 0x80)) && (Z.lor (if Z.land b 0x80 =? 0 then Z.shiftl (Z.land b 0xF) 3 else b) n =? x)).
Lemma bit_ok_checks : forallb (fun b => forallb (bit_ok_check b) [0; 1; 2; 3; 4; 5; 6; 7]) all_bytes = true.
Proof. vm_compute. reflexivity. Qed.
Lemma bit_number_ok b n x : bit_number b n x -> byte b /\ 0 <= n <= 7 /\ 0 <= x < 256 /\
  (Z.ldiff b 0x0F =? 0x20) || (Z.ldiff b 0x78 =? 0x80) = true /\ Z.lor (if Z.land b 0x80 =? 0 then Z.shiftl (Z.land b 0xF) 3 else b) n = x.
Proof.
  intros (N & H). assert (BB : byte b) by (unfold byte; lia). split; [exact BB|]. split; [exact N|].
  assert (XR : 0 <= x < 256) by (destruct H as [?|(? & ? & ?)]; [lia|]; pose proof (Z.div_mod b 8); lia). split; [exact XR|].
  pose proof bit_ok_checks as C. rewrite forallb_forall in C. specialize (C b (all_in b BB)). rewrite forallb_forall in C.
  specialize (C n ltac:(cbn; lia)). unfold bit_ok_check in C. cbv zeta in C.
  apply orb_true_iff in C. destruct C as [C|C].
  - exfalso. apply negb_true_iff in C. lia.
  - apply andb_true_iff in C. destruct C as (C1 & C2). split; [exact C1|]. apply Z.eqb_eq in C2. rewrite C2. destruct (Z.ltb_spec b 0x80); lia.
Qed.
Definition address_body (a : asm) (loc : Z) (scan : text) (bitNot : bool) (p : text) : res (operand * text) :=
  bind (parseInteger a loc p OK 46) (fun '(val, e, p) =>
    if hasError e then Val (bad_operand e, scan)
    else
      match expect_char 46 p with
      | Some p =>
        let val := if isOK e then val else setUnsigned 0x20 in
        bind (parseInteger a loc p OK 0) (fun '(bitNo, be, p) =>
          let e := setErrorIfAt e be in
          if overflow bitNo 7 0 then Val (bad_operand ILLEGAL_BIT_NUMBER, scan)
          else
            let bitAddr := getUnsigned val in
            if (Z.ldiff bitAddr 0x0F =? 0x20) || (Z.ldiff bitAddr 0x78 =? 0x80) then
              let bitAddr := if Z.land bitAddr 0x80 =? 0 then Z.shiftl (Z.land bitAddr 0xF) 3 else bitAddr in
              Val (mkOp (if bitNot then M_NOTAD else M_BITAD) REG_UNDEF (setUnsigned (Z.lor bitAddr (getUnsigned bitNo))) e, p)
            else Val (bad_operand NOT_BIT_ADDRESSABLE, scan))
      | None => Val (mkOp (if bitNot then M_NOTAD else M_ADR16) REG_UNDEF val e, p)
      end).
Lemma bit_parse a loc (neg : bool) scan s after x : a_pl a = pl_intel -> a_radix a = 10 -> tail after ->
  is_space (peek s) = false -> (neg = true \/ expect_char 47 s = None) -> bit_text loc (a_symbol a) (a_function a) s after x -> forall b0, blanks b0 -> (neg = false -> b0 = []) ->
  exists b op, blanks b /\ address_operand a loc scan ((if neg then [47] else []) ++ b0 ++ s) = Val (op, b ++ after) /\
    o_err op = OK /\ int_value (o_val op) /\ int_of (o_val op) = x /\ In (o_mode op) (if neg then [M_NOTAD] else [M_ADR16; M_BITAD]).
Proof.
  intros PL RX T ST N47 H b0 B0 NB.
  assert (X4 : expect_char 47 ((if neg then [47] else []) ++ b0 ++ s) = if neg then Some (b0 ++ s) else None).
  { destruct neg; [reflexivity|]. rewrite NB by reflexivity. cbn [app]. destruct N47 as [?|N47]; [discriminate|exact N47]. }
  assert (SK : skipSpaces (b0 ++ s) = s) by now apply skip_head.
  assert (Y : address_operand a loc scan ((if neg then [47] else []) ++ b0 ++ s) = address_body a loc scan neg s).
  { unfold address_operand. rewrite X4. destruct neg; cbv iota beta; [|rewrite NB in * by reflexivity; cbn [app] in *]; rewrite SK; reflexivity. }
  rewrite Y. clear X4 Y. unfold address_body. destruct H as [(v & EX & EV)|(u & b & w & v & -> & NU & EX & BN)].
  - destruct (parse_expr a loc [] s after v PL RX (Forall_nil _) T EX) as (IV & b' & B' & PI). cbn [app] in PI. destruct (tail_nodot b' after B' T) as (ND & ND').
    rewrite (integer_same a loc _ _ _ PL PI ND'). cbn [bind]. change (hasError OK) with false. cbv iota. rewrite ND.
    eexists. eexists. split; [exact B'|]. split; [reflexivity|]. cbn [o_err o_val o_mode]. split; [reflexivity|]. split; [exact IV|]. split; [exact EV|]. destruct neg; cbn; auto.
  - destruct (bit_number_ok _ _ _ BN) as (BB & N7 & XR & CK1 & CK2). unfold byte in BB.
    destruct (parse_expr a loc [] w after v PL RX (Forall_nil _) T EX) as (IV & b' & B' & PI). cbn [app] in PI.
    pose proof (parse_dot a loc [] u b w PL RX NU (Forall_nil _)) as PD. cbn [app] in PD. rewrite PD. cbn [bind]. change (hasError OK) with false. cbv iota. cbn [expect_char].
    change (46 =? 46) with true. change (isOK OK) with true. cbv iota. cbv zeta. rewrite PI. cbn [bind]. change (setErrorIfAt OK OK) with OK.
    assert (OV : overflow v 7 0 = false). { rewrite over_b by (auto; lia). destruct (Z.leb_spec 0 (int_of v)), (Z.leb_spec (int_of v) 7); lia. }
    assert (GB : getUnsigned v = int_of v) by (rewrite getUnsigned_mod by exact IV; apply Z.mod_small; lia).
    assert (GU : getUnsigned (mkV V_UNSIGNED b) = b) by (apply get_unsigned; try reflexivity; [cbn; lia|lia]).
    rewrite OV, GB, GU, CK1, CK2.
    assert (IVS : int_value (setUnsigned x) /\ int_of (setUnsigned x) = x) by (apply set_unsigned; lia).
    eexists. eexists. split; [exact B'|]. split; [reflexivity|]. cbn [o_err o_val o_mode]. split; [reflexivity|]. split; [apply IVS|]. split; [apply IVS|]. destruct neg; cbn; auto.
Qed.

Lemma parse_opnd a loc o t after x b0 : a_pl a = pl_intel -> a_radix a = 10 -> opnd_ok o = true -> tail after -> blanks b0 ->
  operand_text loc (a_symbol a) (a_function a) o t after x ->
  starts t /\ exists b op, blanks b /\ parseOperand a loc (b0 ++ t) = Val (op, b ++ after) /\ good_op o x op.
Proof.
  intros PL RX OK_ T B0 H. unfold opnd_ok in OK_. apply andb_true_iff in OK_. destruct OK_ as (KO & OK_).
  assert (HEAD : forall t, starts t -> parseOperand a loc (b0 ++ t) = parseOperand a loc t).
  { intros t' ST. unfold parseOperand. cbv zeta. rewrite (skip_full b0 t') by assumption. pose proof (skip_full [] t' (Forall_nil _) ST) as E. cbn [app] in E. now rewrite E. }
  assert (NUM : forall t, starts_number t -> parseOperand a loc t = address_operand a loc t t).
  { intros t' SN. destruct (number_starts _ SN) as (ST & RN & N35 & N47 & N64). unfold parseOperand. cbv zeta.
    pose proof (skip_full [] t' (Forall_nil _) ST) as E. cbn [app] in E. rewrite E, PL, (eol_full _ ST), N35, N64. cbn [andb]. rewrite RN. cbn [bind]. reflexivity. }
  assert (IMM : forall b s v, t = 35 :: b ++ s -> blanks b -> expression fam_8051 loc (a_symbol a) (a_function a) s after v ->
    starts t /\ int_value v /\ exists b', blanks b' /\ parseOperand a loc (b0 ++ t) = Val (mkOp M_IMM16 REG_UNDEF v OK, b' ++ after)).
  { intros b s v -> B EX. assert (ST : starts (35 :: b ++ s)) by (apply sign_starts; cbn; auto). split; [exact ST|].
    destruct (parse_expr a loc b s after v PL RX B T EX) as (IV & b' & B' & PI). split; [exact IV|]. exists b'. split; [exact B'|]. rewrite HEAD by exact ST.
    unfold parseOperand. cbv zeta. pose proof (skip_full [] _ (Forall_nil _) ST) as E. cbn [app] in E. rewrite E, PL, (eol_full _ ST). cbn [expect_char]. change (35 =? 35) with true. cbv iota. rewrite PI. reflexivity. }
  assert (PLAIN : starts_number t -> forall v, expression fam_8051 loc (a_symbol a) (a_function a) t after v -> forall o, o = Direct \/ o = Target ->
    starts t /\ exists b op, blanks b /\ parseOperand a loc (b0 ++ t) = Val (op, b ++ after) /\ good_op o (Some (int_of v)) op).
  { intros SN v EX o' O. destruct (number_starts _ SN) as (ST & _ & _ & N47 & _). split; [exact ST|].
    destruct (parse_expr a loc [] t after v PL RX (Forall_nil _) T EX) as (IV & b' & B' & PI). cbn [app] in PI. destruct (tail_nodot b' after B' T) as (ND & ND').
    exists b', (mkOp M_ADR16 REG_UNDEF v OK). split; [exact B'|]. rewrite HEAD, NUM by assumption. split.
    - unfold address_operand. rewrite N47. pose proof (skip_full [] _ (Forall_nil _) ST) as SK. cbn [app] in SK. rewrite SK.
      rewrite (integer_same a loc _ _ _ PL PI ND'). cbn [bind]. change (hasError OK) with false. cbv iota. rewrite ND. reflexivity.
    - unfold good_op. destruct O as [-> | ->]; cbn; eauto 10. }
  destruct o; cbn [operand_text] in H.
  - destruct H as (-> & b & -> & B). cbn [kind_o] in *. destruct (find_name n) as [r|] eqn:FN; [|discriminate]. cbn [kind_okb] in KO. unfold same_text in OK_. destruct (list_eq_dec _ _ _) as [E|]; [|discriminate].
    destruct (reg_read true r (b ++ after) (name_regs _ KO) (tail_noname _ _ B T)) as (ST & RR & NU & N35 & N64). rewrite <- E in *.
    assert (ST' : starts (s2l n ++ b ++ after)). { destruct ST as (NE & ST). destruct (s2l n) as [|c u]; [congruence|]. unfold starts. cbn [app peek] in *. split; [discriminate|exact ST]. }
    split; [exact ST'|]. exists b, (op_of (K_name r) v_undef). split; [exact B|]. rewrite HEAD by exact ST'. split.
    { unfold parseOperand. cbv zeta. pose proof (skip_full [] _ (Forall_nil _) ST') as SK. cbn [app] in SK. rewrite SK, PL, (eol_full _ ST'), N35, N64. cbn [andb]. rewrite RR. cbn [bind]. rewrite NU. cbn [negb]. cbv iota.
      apply in_list in KO. cbn in KO. repeat (destruct KO as [<-|KO]; [reflexivity|]). contradiction. }
    unfold good_op. cbn [pmodes kind_o op_of o_mode o_err o_reg]. rewrite FN. split; [left; reflexivity|auto].
  - destruct H as (-> & b & -> & B). cbn [kind_o] in *. destruct (find_name n) as [r|] eqn:FN; [|discriminate]. unfold same_text in OK_. destruct (list_eq_dec _ _ _) as [E|]; [|discriminate].
    assert (KO' : In r regs) by (cbn [kind_okb] in KO; apply in_list in KO; vm_compute in KO |- *; tauto).
    destruct (reg_read true r (b ++ after) KO' (tail_noname _ _ B T)) as (ST & RR & NU & _). rewrite <- E in *.
    assert (ST' : starts (64 :: s2l n ++ b ++ after)) by (apply sign_starts; cbn; auto).
    split; [exact ST'|]. exists b, (op_of (K_ind r) v_undef). split; [exact B|]. rewrite HEAD by exact ST'. split.
    { unfold parseOperand. cbv zeta. pose proof (skip_full [] _ (Forall_nil _) ST') as SK. cbn [app] in SK. rewrite SK, PL, (eol_full _ ST').
      cbn [expect_char]. change (64 =? 35) with false. change (64 =? 64) with true. cbv iota. cbn [andb].
      assert (SP : is_space (peek (s2l n ++ b ++ after)) = false) by (destruct ST as (NE & SP & _); destruct (s2l n); [congruence|exact SP]). rewrite SP. rewrite RR. cbn [bind]. rewrite NU. cbn [negb]. cbv iota.
      cbn [kind_okb] in KO. apply in_list in KO. cbn in KO. repeat (destruct KO as [<-|KO]; [reflexivity|]). contradiction. }
    unfold good_op. cbn [pmodes kind_o op_of o_mode o_err o_reg]. rewrite FN. split; [left; reflexivity|auto].
  - destruct H as (b & s & v & E & B & EX & ->). destruct (IMM b s v E B EX) as (ST & IV & b' & B' & PO). split; [exact ST|]. eexists. eexists. split; [exact B'|]. split; [exact PO|].
    unfold good_op. cbn. eauto 10.
  - destruct H as (b & s & v & E & B & EX & ->). destruct (IMM b s v E B EX) as (ST & IV & b' & B' & PO). split; [exact ST|]. eexists. eexists. split; [exact B'|]. split; [exact PO|].
    unfold good_op. cbn. eauto 10.
  - destruct H as (SN & v & EX & ->). exact (PLAIN SN v EX Direct (or_introl eq_refl)).
  - destruct H as (SN & z & BT & ->). destruct (number_starts _ SN) as (ST & _ & _ & N47 & _). split; [exact ST|].
    destruct (bit_parse a loc false t t after z PL RX T (proj1 (proj2 ST)) (or_intror N47) BT [] (Forall_nil _) (fun _ => eq_refl)) as (b' & op & B' & PO & E & IV & IO & MO). cbn [app] in PO.
    exists b', op. split; [exact B'|]. rewrite HEAD, NUM by assumption. split; [exact PO|]. unfold good_op. split; [exact MO|]. split; [exact E|]. eauto.
  - destruct H as (b & s & z & -> & B & SP & BT & ->). assert (ST : starts (47 :: b ++ s)) by (apply sign_starts; cbn; auto). split; [exact ST|].
    destruct (bit_parse a loc true (47 :: b ++ s) s after z PL RX T SP (or_introl eq_refl) BT b B ltac:(discriminate)) as (b' & op & B' & PO & E & IV & IO & MO). cbn [app] in PO.
    exists b', op. split; [exact B'|]. rewrite HEAD by exact ST. split.
    + unfold parseOperand. cbv zeta. pose proof (skip_full [] _ (Forall_nil _) ST) as SK. cbn [app] in SK. rewrite SK, PL, (eol_full _ ST). cbn [expect_char]. change (47 =? 35) with false. change (47 =? 64) with false. cbv iota. cbn [andb].
      rewrite reg_none by (left; reflexivity). cbn [bind]. change (REG_UNDEF =? REG_UNDEF) with true. cbn [negb]. cbv iota. exact PO.
    + unfold good_op. split; [exact MO|]. split; [exact E|]. eauto.
  - destruct H as (SN & v & EX & ->). exact (PLAIN SN v EX Target (or_intror eq_refl)).
Qed.

(* ------------------------------------------------------------ bytes *)
Lemma set_ok e x : x <> OK -> (setErrorIfAt e x = OK <-> e = OK /\ False).
Proof.
  intros X. split; [|tauto]. intros H. exfalso. destruct (isOK e) eqn:E.
  - apply isOK_e in E. subst e. unfold setErrorIfAt in H. change (isOK OK) with true in H. cbn [andb] in H. destruct x; try congruence; discriminate H.
  - rewrite seterr_stays in H; [subst e; discriminate|]. intros ->. discriminate.
Qed.
Lemma if_ok (c : bool) e x P : x <> OK -> (c = false <-> P) -> ((if c then setErrorIfAt e x else e) = OK <-> e = OK /\ P).
Proof. intros X C. destruct c; [rewrite set_ok by exact X|]; intuition discriminate. Qed.
Lemma branch_any base target e delta e0 : branchDelta 16 base target OK = Some (delta, e0) ->
  exists e', branchDelta 16 base target e = Some (delta, e') /\ (e = OK -> e' = e0) /\ (e <> OK -> e' = e).
Proof.
  unfold branchDelta. destruct (signExtend _ 16) as [dl|]; [|discriminate]. intros H. injection H as <- <-. eexists. split; [reflexivity|]. split.
  - intros ->. reflexivity.
  - intros N. rewrite !(seterr_stays e) by exact N. destruct (_ || _); reflexivity.
Qed.
Lemma branch_e base v e : int_value v -> 0 <= base <= 2^16 ->
  exists delta e' far, branchDelta 16 base (getUnsigned v) e = Some (delta, e') /\ overflowDelta delta 8 = Some far /\
    delta mod 256 = (int_of v - base) mod 256 /\
    ((if far then setErrorIfAt e' OPERAND_TOO_FAR else e') = OK <-> e = OK /\ int_of v mod 2^32 < 65536 /\ -128 <= int_of v mod 2^32 - base <= 127).
Proof.
  intros IV BR. destruct (branch_byte base v IV BR) as (dl & e0 & far & B & O & M & E). destruct (branch_any _ _ e _ _ B) as (e' & B' & E1 & E2).
  exists dl, e', far. split; [exact B'|]. split; [exact O|]. split; [exact M|]. destruct (isOK e) eqn:Q.
  - apply isOK_e in Q. rewrite (E1 Q). rewrite E. tauto.
  - assert (N : e <> OK) by (intros ->; discriminate). rewrite (E2 N). split.
    + destruct far; [rewrite seterr_stays by exact N|]; intros; congruence.
    + intros (? & _). congruence.
Qed.
Definition emb_o (o : opnd) (c : Z) : Z := emb (kind_o o) (emode o) c.
Lemma emit_opnd smart o x op addr nb e c next : opnd_ok o = true -> good_op o x op -> 0 <= addr < 2^16 -> (length nb <= 4)%nat ->
  (o = Target -> next = addr + Z.of_nat (1 + length nb) + 1 /\ next <= 2^16 /\ forall z, x = Some z -> 0 <= z < 2^32) -> c <> 0xE5 \/ o <> Direct /\ o <> Bit /\ o <> NotBit ->
  exists e', encodeOperand smart (emode o) op (mkAI (part addr 1 nb) e c) = Val (mkAI (part addr 1 (nb ++ operand_bytes next o x)) e' (emb_o o c)) /\
    (e' = OK <-> e = OK /\ operand_fits next o x).
Proof.
  intros OO (MO & E & G) AR LN TG NE. unfold opnd_ok in OO. apply andb_true_iff in OO. destruct OO as (KO & _).
  assert (I2 : i_addr (part addr 1 nb) = addr) by (destruct nb; reflexivity).
  unfold encodeOperand. cbv zeta. rewrite E, noerr.
  destruct o; cbn [emode operand_bytes operand_fits] in *.
  - destruct G as (-> & RG). rewrite app_nil_r. exists e. split; [|tauto]. unfold emb_o. cbn [kind_o emode] in *. destruct (find_name n) as [r|]; [|cbn [mode_of]; reflexivity].
    cbn [reg_of kind_okb mode_of emb] in *. rewrite RG. apply in_list in KO. cbn in KO. repeat (destruct KO as [<-|KO]; [reflexivity|]). contradiction.
  - destruct G as (-> & RG). rewrite app_nil_r. exists e. split; [|tauto]. unfold emb_o. cbn [kind_o emode] in *. destruct (find_name n) as [r|]; [|cbn [mode_of]; reflexivity].
    cbn [reg_of kind_okb mode_of emb] in *. rewrite RG. apply in_list in KO. cbn in KO. repeat (destruct KO as [<-|KO]; [reflexivity|]). contradiction.
  - destruct G as (z & -> & IV & <-). cbn [Z.eqb M_REL M_RREG M_IDIRR M_IMM8 Pos.eqb orb]. unfold ai_setErrorIf. cbn [ai_insn ai_err ai_opc].
    exists (if overflowUint8 (o_val op) then setErrorIfAt e OVERFLOW_RANGE else e). split.
    + destruct (overflowUint8 (o_val op)); (rewrite (emit8 (int_of (o_val op) mod 256)); [reflexivity|apply mod_byte|unfold u8; apply low8, IV|lia]).
    + apply if_ok; [discriminate|]. unfold overflowUint8. rewrite over_b by (auto; lia). lia.
  - destruct G as (z & -> & IV & <-). cbn [Z.eqb M_REL M_RREG M_IDIRR M_IMM8 M_IMM16 M_ADR11 M_ADR16 Pos.eqb orb]. exists e. split; [|tauto].
    rewrite (emit16 (int_of (o_val op) / 256 mod 256) (int_of (o_val op) mod 256)); [reflexivity|apply mod_byte|apply mod_byte|unfold u16; apply low16, IV|lia].
  - destruct G as (z & -> & IV & <-). cbn [Z.eqb M_REL M_RREG M_IDIRR M_IMM8 M_IMM16 M_ADR11 M_ADR16 M_ADR8 Pos.eqb orb]. unfold ai_setErrorIf. cbn [ai_insn ai_err ai_opc].
    exists (if overflow (o_val op) 255 0 then setErrorIfAt e OVERFLOW_RANGE else e). split.
    + assert (NI : (c =? 0xE5) = false) by (destruct NE as [NE|NE]; [lia|tauto]).
      destruct (overflow (o_val op) 255 0); cbn [ai_opc]; unfold invalidDirect; rewrite NI; cbn [andb];
        (rewrite (emit8 (int_of (o_val op) mod 256)); [reflexivity|apply mod_byte|unfold u8; apply low8, IV|lia]).
    + apply if_ok; [discriminate|]. rewrite over_b by (auto; lia). lia.
  - destruct G as (z & -> & IV & <-). cbn [Z.eqb M_REL M_RREG M_IDIRR M_IMM8 M_IMM16 M_ADR11 M_ADR16 M_ADR8 M_BITAD M_NOTAD Pos.eqb orb]. unfold ai_setErrorIf. cbn [ai_insn ai_err ai_opc].
    exists (if overflow (o_val op) 255 0 then setErrorIfAt e NOT_BIT_ADDRESSABLE else e). split.
    + assert (NI : (c =? 0xE5) = false) by (destruct NE as [NE|NE]; [lia|tauto]).
      destruct (overflow (o_val op) 255 0); cbn [ai_opc]; unfold invalidDirect; rewrite NI; cbn [andb];
        (rewrite (emit8 (int_of (o_val op) mod 256)); [reflexivity|apply mod_byte|unfold u8; apply low8, IV|lia]).
    + apply if_ok; [discriminate|]. rewrite over_b by (auto; lia). lia.
  - destruct G as (z & -> & IV & <-). cbn [Z.eqb M_REL M_RREG M_IDIRR M_IMM8 M_IMM16 M_ADR11 M_ADR16 M_ADR8 M_BITAD M_NOTAD Pos.eqb orb]. unfold ai_setErrorIf. cbn [ai_insn ai_err ai_opc].
    exists (if overflow (o_val op) 255 0 then setErrorIfAt e NOT_BIT_ADDRESSABLE else e). split.
    + assert (NI : (c =? 0xE5) = false) by (destruct NE as [NE|NE]; [lia|tauto]).
      destruct (overflow (o_val op) 255 0); cbn [ai_opc]; unfold invalidDirect; rewrite NI; cbn [andb];
        (rewrite (emit8 (int_of (o_val op) mod 256)); [reflexivity|apply mod_byte|unfold u8; apply low8, IV|lia]).
    + apply if_ok; [discriminate|]. rewrite over_b by (auto; lia). lia.
  - destruct G as (z & -> & IV & IO). destruct (TG eq_refl) as (EN & NX & ZR). specialize (ZR z eq_refl). cbn [Z.eqb M_REL].
    unfold encodeRelative. cbv zeta. cbn [ai_insn ai_err]. rewrite E. change (isOK OK) with true. cbn [negb]. rewrite I2.
    pose proof (part_at addr 1 nb) as PA. unfold part_pos in PA. change (Z.of_nat 1) with 1 in PA. rewrite PA, <- EN.
    replace (u32 next) with next by (unfold u32; symmetry; apply Z.mod_small; lia).
    destruct (branch_e next (o_val op) e IV ltac:(lia)) as (dl & e' & far & B & O & M & EE). rewrite B, O. rewrite IO in M, EE. rewrite (Z.mod_small z) in EE by lia.
    exists (if far then setErrorIfAt e' OPERAND_TOO_FAR else e'). split; [|rewrite EE; intuition lia].
    unfold ai_seterr, ai_setErrorIf. cbn [ai_insn ai_err ai_opc].
    destruct far; (rewrite (emit8 ((z - next) mod 256)); [reflexivity|apply mod_byte|exact M|lia]).
Qed.

(* ------------------------------------------------------------ lines *)
Definition gopt (o : option opnd) (x : option Z) (op : operand) : Prop :=
  match o with Some o => good_op o x op | None => op = no_operand end.
Definition modes3 (o : option opnd) : list Z := match o with Some o => pmodes o | None => [M_NONE] end.
Definition emode3 (o : option opnd) : Z := match o with Some o => emode o | None => M_NONE end.
Definition nth_x (xs : list (option Z)) (k : nat) : option Z := nth k xs None.
Lemma gopt_mode o x op : gopt o x op -> In (o_mode op) (modes3 o) /\ o_err op = OK.
Proof. destruct o as [o|]; cbn [gopt modes3]; [intros (A & B & _); auto|intros ->; cbn; auto]. Qed.
Lemma more_opnd a loc o t after x b0 : a_pl a = pl_intel -> a_radix a = 10 -> opnd_ok o = true -> tail after -> blanks b0 ->
  operand_text loc (a_symbol a) (a_function a) o t after x ->
  exists op, more a loc (44 :: b0 ++ t) = Val (op, after) /\ good_op o x op.
Proof.
  intros PL RX OO T B0 H. destruct (parse_opnd a loc o t after x b0 PL RX OO T B0 H) as (_ & b & op & B & PO & G). exists op. split; [|exact G].
  unfold more. cbn [expect_char]. change (44 =? 44) with true. cbv iota. rewrite PO. cbn [bind]. destruct G as (_ & E & _). rewrite E. change (hasError OK) with false. cbv iota. now rewrite tail_skip.
Qed.
Lemma more_none a loc rest : last_rest rest -> more a loc rest = Val (no_operand, rest).
Proof. intros L. unfold more. now rewrite last_nocomma. Qed.
Lemma parse_ops a loc os t rest xs : a_pl a = pl_intel -> a_radix a = 10 -> forallb opnd_ok os = true -> (length os <= 3)%nat -> last_rest rest ->
  operands_text loc (a_symbol a) (a_function a) os t rest xs ->
  exists o1 o2 o3, parseOperands a loc (skipSpaces t) = Val (Three o1 o2 o3 rest) /\
    gopt (nth_error os 0) (nth_x xs 0) o1 /\ gopt (nth_error os 1) (nth_x xs 1) o2 /\ gopt (nth_error os 2) (nth_x xs 2) o3 /\ length xs = length os /\ os <> [].
Proof.
  intros PL RX OO LN LR H. pose proof (last_tail _ LR) as TR.
  assert (FIN : forall t1 x1 p1 after o2 o3 scan, opnd_ok p1 = true -> operand_text loc (a_symbol a) (a_function a) p1 t1 after x1 -> tail after -> 
    more a loc after = Val (o2, scan) -> o_err o2 = OK -> more a loc scan = Val (o3, rest) -> o_err o3 = OK ->
    exists o1, parseOperands a loc (skipSpaces t1) = Val (Three o1 o2 o3 rest) /\ good_op p1 x1 o1).
  { intros t1 x1 p1 after o2 o3 scan OK1 H1 T1 M2 E2 M3 E3. destruct (parse_opnd a loc p1 t1 after x1 [] PL RX OK1 T1 (Forall_nil _) H1) as (ST & b & op & B & PO & G).
    exists op. split; [|exact G]. pose proof (skip_full [] _ (Forall_nil _) ST) as SK. cbn [app] in SK, PO. rewrite SK. unfold parseOperands. rewrite PO. cbn [bind]. destruct G as (_ & E & _). rewrite E.
    change (hasError OK) with false. cbv iota. cbv zeta. rewrite tail_skip by assumption. fold (more a loc after). rewrite M2. cbn [bind]. rewrite E2. change (hasError OK) with false. cbv iota.
    fold (more a loc scan). rewrite M3. cbn [bind]. rewrite E3. reflexivity. }
  assert (T44 : forall b t, tail (44 :: b ++ t)) by (intros; right; eauto).
  destruct os as [|p1 [|p2 [|p3 [|p4 os]]]]; cbn [operands_text] in H; [destruct xs; contradiction|..|cbn [length] in LN; lia].
  - destruct xs as [|x1 [|? ?]]; try (exfalso; decompose [ex and] H; contradiction). cbn [forallb] in OO. rewrite andb_true_r in OO.
    destruct (FIN t x1 p1 rest no_operand no_operand rest OO H TR) as (o1 & PO & G); try (now apply more_none); try reflexivity.
    exists o1, no_operand, no_operand. split; [exact PO|]. cbn [nth_error nth_x nth gopt]. repeat (split; [assumption || reflexivity|]). discriminate.
  - destruct xs as [|x1 [|x2 [|? ?]]]; try (exfalso; decompose [ex and] H; contradiction). destruct H as (b & t2 & H1 & B & H2). cbn [forallb] in OO. rewrite !andb_true_iff in OO. destruct OO as (OO1 & OO2 & _).
    destruct (more_opnd a loc p2 t2 rest x2 b PL RX OO2 TR B H2) as (o2 & M2 & G2).
    destruct (FIN t x1 p1 (44 :: b ++ t2) o2 no_operand rest OO1 H1 (T44 b t2) M2) as (o1 & PO & G); try (now apply more_none); try reflexivity; [apply G2|].
    exists o1, o2, no_operand. split; [exact PO|]. cbn [nth_error nth_x nth gopt]. repeat (split; [assumption || reflexivity|]). discriminate.
  - destruct xs as [|x1 [|x2 [|x3 [|? ?]]]]; try (exfalso; decompose [ex and] H; contradiction).
    destruct H as (b & t2 & H1 & B & b2 & t3 & H2 & B2 & H3). cbn [forallb] in OO. rewrite !andb_true_iff in OO. destruct OO as (OO1 & OO2 & OO3 & _).
    destruct (more_opnd a loc p3 t3 rest x3 b2 PL RX OO3 TR B2 H3) as (o3 & M3 & G3).
    destruct (more_opnd a loc p2 t2 _ x2 b PL RX OO2 (T44 b2 t3) B H2) as (o2 & M2 & G2).
    destruct (FIN t x1 p1 (44 :: b ++ t2) o2 o3 _ OO1 H1 (T44 b t2) M2 (proj1 (proj2 G2)) M3 (proj1 (proj2 G3))) as (o1 & PO & G).
    exists o1, o2, o3. split; [exact PO|]. cbn [nth_error nth_x nth gopt]. repeat (split; [assumption || reflexivity|]). discriminate.
Qed.
(* what remains once the operands are read and the entry is found *)
Definition fin (smart : bool) (e : entry) (addr : Z) (o1 o2 o3 : operand) : res insn :=
  let ai := mkAI (new_insn addr) OK (e_opc e) in
  let finish ai := let ai := ai_emitInsn ai in Val (i_seterr (ai_err ai) (ai_insn ai)) in
  if swapped e then
    bind (encodeOperand smart (e_m2 e) o2 (ai_setErrorIf (o_err o1) ai)) (fun ai =>
      bind (encodeOperand smart (e_m1 e) o1 ai) finish)
  else
    bind (encodeOperand smart (e_m1 e) o1 ai) (fun ai =>
      bind (encodeOperand smart (e_m2 e) o2 ai) (fun ai =>
        bind (encodeOperand smart (e_m3 e) o3 ai) finish)).
Definition searched (n : text) (m1 m2 m3 : Z) : option entry :=
  match i8051_searchName n m1 m2 m3 with Val (OK, r) => r | _ => None end.
Definition name_okb (n : string) : bool := plain_name sp_intel [] i8051_directives (s2l n) && is_alpha (peek (s2l n)).
Lemma line_fin smart a n os t rest xs indent gap addr (Q : entry -> bool) :
  a_pl a = pl_intel -> a_radix a = 10 -> a_aw a = 16 -> 0 <= addr < 2^16 -> forallb opnd_ok os = true -> (length os <= 3)%nat -> name_okb n = true ->
  blanks indent -> blanks gap -> gap <> [] -> last_rest rest -> operands_text addr (a_symbol a) (a_function a) os t rest xs ->
  forallb (fun m1 => forallb (fun m2 => forallb (fun m3 => match searched (s2l n) m1 m2 m3 with Some e => Q e | None => false end)
    (modes3 (nth_error os 2))) (modes3 (nth_error os 1))) (modes3 (nth_error os 0)) = true ->
  exists e o1 o2 o3, Q e = true /\ gopt (nth_error os 0) (nth_x xs 0) o1 /\ gopt (nth_error os 1) (nth_x xs 1) o2 /\ gopt (nth_error os 2) (nth_x xs 2) o3 /\ length xs = length os /\ os <> [] /\
    i8051_encode smart a (indent ++ s2l n ++ gap ++ t) addr = bind (fin smart e addr o1 o2 o3) (fun i => Val (L_insn i rest)).
Proof.
  intros PL RX AW AR OO LN NO BI BG NG LR H SE. destruct (parse_ops a addr os t rest xs PL RX OO LN LR H) as (o1 & o2 & o3 & PO & G1 & G2 & G3 & LX & NE).
  rewrite forallb_forall in SE. specialize (SE _ (proj1 (gopt_mode _ _ _ G1))). cbn beta in SE. rewrite forallb_forall in SE. specialize (SE _ (proj1 (gopt_mode _ _ _ G2))). cbn beta in SE.
  rewrite forallb_forall in SE. specialize (SE _ (proj1 (gopt_mode _ _ _ G3))). cbn beta in SE.
  unfold searched in SE. destruct (i8051_searchName _ _ _ _) as [[er r]| | | |] eqn:SN; try discriminate. destruct er; try discriminate. destruct r as [e|]; [|discriminate].
  exists e, o1, o2, o3. split; [exact SE|]. do 5 (split; [assumption|]).
  assert (CA : checkAddr 16 addr false = OK) by (apply (proj1 (C31_addr 16 addr false ltac:(lia) ltac:(lia))); split; [exact (proj2 AR)|discriminate]).
  unfold name_okb in NO. apply andb_true_iff in NO. destruct NO as (PN & AL).
  unfold i8051_encode. rewrite line_insn; [| | |exact BI|exact BG| |].
  - unfold i8051_encodeImpl. rewrite PO. cbn [bind]. rewrite SN. cbn [bind i_err new_insn]. change (setErrorIfAt OK OK) with OK. change (isOK OK) with true. cbn [negb]. cbv zeta. unfold fin. cbv zeta. fold (swapped e). destruct (swapped e).
    + destruct (encodeOperand smart (e_m2 e) o2 _) as [ai| | | |]; try reflexivity. cbn [bind]. destruct (encodeOperand smart (e_m1 e) o1 ai) as [ai2| | | |]; reflexivity.
    + destruct (encodeOperand smart (e_m1 e) o1 _) as [ai| | | |]; try reflexivity. cbn [bind]. destruct (encodeOperand smart (e_m2 e) o2 ai) as [ai2| | | |]; try reflexivity. cbn [bind].
      destruct (encodeOperand smart (e_m3 e) o3 ai2) as [ai3| | | |]; reflexivity.
  - rewrite PL. exact PN.
  - intros z. rewrite PL. change (p_line pl_intel) with (p_eol pl_intel). apply starts_eol. destruct (s2l n) as [|c u]; [discriminate|]. cbn [peek] in AL.
    unfold starts. cbn [peek]. unfold is_alpha, is_upper, is_lower, is_space in *. repeat split; try discriminate; lia.
  - rewrite PL. destruct gap as [|c gap]; [congruence|]. inversion BG as [|? ? C ?]; subst. cbn [app peek]. apply space_cases in C.
    destruct C as [->|[->|[->|[->|[->| ->]]]]]; reflexivity.
  - rewrite AW. exact CA.
Qed.

(* ------------------------------------------------------------ forms *)
Definition emb3 (o : option opnd) (c : Z) : Z := match o with Some o => emb_o o c | None => c end.
Definition bytes3 (next : Z) (o : option opnd) (x : option Z) : list Z := match o with Some o => operand_bytes next o x | None => [] end.
Definition fits3 (next : Z) (o : option opnd) (x : option Z) : Prop := match o with Some o => operand_fits next o x | None => True end.
Definition is_target (o : option opnd) : bool := match o with Some Target => true | _ => false end.
Definition width3 (o : option opnd) : Z := match o with Some o => operand_width o | None => 0 end.
Lemma emit_opt smart o x op addr nb e c next : (match o with Some o => opnd_ok o | None => true end) = true -> gopt o x op -> 0 <= addr < 2^16 -> (length nb <= 4)%nat ->
  (is_target o = true -> next = addr + Z.of_nat (1 + length nb) + 1 /\ next <= 2^16 /\ forall z, x = Some z -> 0 <= z < 2^32) -> c <> 0xE5 ->
  exists e', encodeOperand smart (emode3 o) op (mkAI (part addr 1 nb) e c) = Val (mkAI (part addr 1 (nb ++ bytes3 next o x)) e' (emb3 o c)) /\
    (e' = OK <-> e = OK /\ fits3 next o x) /\ Z.of_nat (length (bytes3 next o x)) = width3 o.
Proof.
  intros OO G AR LN TG NE. destruct o as [o|]; cbn [gopt bytes3 fits3 emode3 emb3 width3 is_target] in *.
  - destruct (emit_opnd smart o x op addr nb e c next OO G AR LN ltac:(intros ->; apply TG; reflexivity) (or_introl NE)) as (e' & A & B). exists e'. split; [exact A|]. split; [exact B|].
    destruct G as (_ & _ & G). destruct o; try (destruct G as (-> & _); reflexivity); destruct G as (z & -> & _); reflexivity.
  - subst op. exists e. rewrite app_nil_r. split; [|split; [tauto|reflexivity]]. unfold encodeOperand. cbv zeta. cbn [no_operand o_err]. rewrite noerr. reflexivity.
Qed.
Definition form_q (f : form) (e : entry) : bool :=
  let o k := nth_error (fm_operands f) k in
  let c1 := e_opc e in let c2 := emb3 (o 0%nat) c1 in let c3 := emb3 (o 1%nat) c2 in
  negb (swapped e) && (e_m1 e =? emode3 (o 0%nat)) && (e_m2 e =? emode3 (o 1%nat)) && (e_m3 e =? emode3 (o 2%nat)) &&
  negb (c1 =? 0xE5) && negb (c2 =? 0xE5) && negb (c3 =? 0xE5) && (emb3 (o 2%nat) c3 =? fm_code f).
Definition search_all (n : string) (os : list opnd) (Q : entry -> bool) : bool :=
  forallb (fun m1 => forallb (fun m2 => forallb (fun m3 => match searched (s2l n) m1 m2 m3 with Some e => Q e | None => false end)
    (modes3 (nth_error os 2))) (modes3 (nth_error os 1))) (modes3 (nth_error os 0)).
Definition target_last (os : list opnd) : bool :=
  let o k := nth_error os k in
  (negb (is_target (o 0%nat)) || (Nat.leb (length os) 1)) && (negb (is_target (o 1%nat)) || (Nat.leb (length os) 2)).
Definition form_ok (f : form) : bool :=
  name_okb (fm_name f) && forallb opnd_ok (fm_operands f) && (Nat.leb (length (fm_operands f)) 3) && target_last (fm_operands f) &&
  (0 <=? fm_code f) && (fm_code f <? 256) && search_all (fm_name f) (fm_operands f) (form_q f).
Lemma forms_ok : forallb form_ok (number_forms ++ branch_forms) = true.
Proof. vm_compute. reflexivity. Qed.
Lemma finish51 addr nb e c : byte c -> (length nb <= 6)%nat ->
  i_seterr (ai_err (ai_emitInsn (mkAI (part addr 1 nb) e c))) (ai_insn (ai_emitInsn (mkAI (part addr 1 nb) e c))) = i_seterr e (canon addr (c :: nb)).
Proof.
  intros BC L. destruct (part_done 0 c addr nb ltac:(unfold byte; lia) BC ltac:(lia)) as (D1 & _). unfold ai_emitInsn, ai_set. cbn [ai_insn ai_err ai_opc]. now rewrite D1.
Qed.
Lemma nth_combine k (os : list opnd) (xs : list (option Z)) o z : length xs = length os -> nth_error os k = Some o -> nth k xs None = Some z -> In (o, Some z) (combine os xs).
Proof.
  revert os xs. induction k as [|k IH]; intros [|o' os] [|x xs]; cbn [length nth_error nth combine]; try discriminate.
  - intros _ E ->. injection E as ->. now left.
  - intros L E X. right. apply IH; auto.
Qed.
Lemma form_line smart a f indent gap t rest xs addr : form_ok f = true ->
  a_pl a = pl_intel -> a_radix a = 10 -> a_aw a = 16 -> 0 <= addr -> addr + form_size f <= 2^16 ->
  blanks indent -> blanks gap -> gap <> [] -> last_rest rest -> operands_text addr (a_symbol a) (a_function a) (fm_operands f) t rest xs -> targets_32 (fm_operands f) xs ->
  exists i, i8051_encode smart a (indent ++ s2l (fm_name f) ++ gap ++ t) addr = Val (L_insn i rest) /\
    i_code i = fm_code f :: all_bytes_of (addr + form_size f) (fm_operands f) xs /\ (i_err i = OK <-> all_fit (addr + form_size f) (fm_operands f) xs).
Proof.
  intros FK PL RX AW A0 AS BI BG NG LR H T32. unfold form_ok in FK. rewrite !andb_true_iff in FK. destruct FK as ((((((NO & OO) & LN) & TL) & C0) & C1) & SE).
  apply Nat.leb_le in LN. set (os := fm_operands f) in *.
  assert (W0 : forall o, 0 <= operand_width o <= 2) by (intros []; cbn; lia).
  assert (FS : form_size f = 1 + width3 (nth_error os 0) + width3 (nth_error os 1) + width3 (nth_error os 2)).
  { unfold form_size. fold os. destruct os as [|p1 [|p2 [|p3 [|p4 os']]]]; cbn [map fold_right nth_error width3 length] in *; lia. }
  assert (WW : forall o, 0 <= width3 o <= 2) by (intros [o|]; cbn [width3]; [apply W0|lia]).
  pose proof (WW (nth_error os 0)). pose proof (WW (nth_error os 1)). pose proof (WW (nth_error os 2)).
  assert (AR : 0 <= addr < 2^16) by lia.
  destruct (line_fin smart a (fm_name f) os t rest xs indent gap addr (form_q f) PL RX AW AR OO LN NO BI BG NG LR H SE) as (e & o1 & o2 & o3 & Q & G1 & G2 & G3 & LX & NE & EN).
  unfold form_q in Q. cbv zeta in Q. fold os in Q. rewrite !andb_true_iff, !negb_true_iff in Q. destruct Q as (((((((SW & M1) & M2) & M3) & N1) & N2) & N3) & CF).
  apply Z.eqb_eq in M1, M2, M3, CF. apply Z.eqb_neq in N1, N2, N3. set (next := addr + form_size f) in *.
  assert (OO3 : forall k, match nth_error os k with Some o => opnd_ok o | None => true end = true).
  { intros k. destruct (nth_error os k) as [o|] eqn:E; [|reflexivity]. rewrite forallb_forall in OO. apply OO. eapply nth_error_In. exact E. }
  assert (T3 : forall k z, is_target (nth_error os k) = true -> nth_x xs k = Some z -> 0 <= z < 2^32).
  { intros k z E X. apply T32. destruct (nth_error os k) as [[]|] eqn:NO'; try discriminate. now apply (nth_combine k). }
  unfold target_last in TL. cbv zeta in TL. apply andb_true_iff in TL. destruct TL as (TL1 & TL2).
  assert (LAST : forall k, (length os <= k)%nat -> width3 (nth_error os k) = 0) by (intros k L; apply nth_error_None in L; now rewrite L).
  assert (NX : next = addr + (1 + width3 (nth_error os 0) + width3 (nth_error os 1) + width3 (nth_error os 2))) by (unfold next; now rewrite FS).
  rewrite EN. unfold fin. cbv zeta. rewrite SW, M1, M2, M3. change (new_insn addr) with (part addr 1 []).
  destruct (emit_opt smart _ _ o1 addr [] OK (e_opc e) next (OO3 0%nat) G1 AR ltac:(cbn; lia)) as (e1 & E1 & F1 & L1); [|exact N1|].
  { intros TT. split; [|split; [lia|intros z; now apply T3]]. rewrite TT in TL1. cbn [negb orb] in TL1. apply Nat.leb_le in TL1. cbn [length].
    pose proof (LAST 1%nat TL1). pose proof (LAST 2%nat ltac:(lia)). destruct (nth_error os 0) as [[]|]; try discriminate. cbn [width3 operand_width] in *. lia. }
  rewrite E1. cbn [bind app].
  destruct (emit_opt smart _ _ o2 addr (bytes3 next (nth_error os 0) (nth_x xs 0)) e1 (emb3 (nth_error os 0) (e_opc e)) next (OO3 1%nat) G2 AR ltac:(lia)) as (e2 & E2 & F2 & L2); [|exact N2|].
  { intros TT. split; [|split; [lia|intros z; now apply T3]]. rewrite TT in TL2. cbn [negb orb] in TL2. apply Nat.leb_le in TL2.
    pose proof (LAST 2%nat TL2). rewrite Nat2Z.inj_add, L1. destruct (nth_error os 1) as [[]|]; try discriminate. cbn [width3 operand_width] in *. lia. }
  rewrite E2. cbn [bind].
  destruct (emit_opt smart _ _ o3 addr (bytes3 next (nth_error os 0) (nth_x xs 0) ++ bytes3 next (nth_error os 1) (nth_x xs 1)) e2 (emb3 (nth_error os 1) (emb3 (nth_error os 0) (e_opc e))) next (OO3 2%nat) G3 AR ltac:(rewrite app_length; lia)) as (e3 & E3 & F3 & L3); [|exact N3|].
  { intros TT. split; [|split; [lia|intros z; now apply T3]]. rewrite app_length, !Nat2Z.inj_add, L1, L2. destruct (nth_error os 2) as [[]|]; try discriminate. cbn [width3 operand_width] in *. lia. }
  rewrite E3. cbn [bind]. rewrite CF.
  rewrite finish51 by (unfold byte; rewrite ?app_length; lia). cbn [bind]. eexists. split; [reflexivity|].
  rewrite F2, F1 in F3. split.
  - match goal with |- i_code (i_seterr _ ?x) = _ => change (i_code x = fm_code f :: all_bytes_of next os xs) end. rewrite canon_code. f_equal. unfold all_bytes_of. unfold nth_x.
    destruct os as [|p1 [|p2 [|p3 [|p4 os']]]], xs as [|x1 [|x2 [|x3 [|x4 xs]]]]; cbn [length] in LX, LN; try lia; try congruence; cbn [nth_error nth bytes3 combine map concat]; rewrite ?app_nil_r, <- ?app_assoc; reflexivity.
  - change (e3 = OK <-> all_fit next os xs). rewrite F3. unfold all_fit, nth_x.
    destruct os as [|p1 [|p2 [|p3 [|p4 os']]]], xs as [|x1 [|x2 [|x3 [|x4 xs]]]]; cbn [length] in LX, LN; try lia; try congruence; cbn [nth_error nth fits3 combine];
      rewrite !Forall_cons_iff, Forall_nil_iff; tauto.
Qed.

(* ------------------------------------------------------------ MOV A, direct and MOV direct, direct *)
Definition pair_q (m1 m2 m3 o : Z) (e : entry) : bool := (e_m1 e =? m1) && (e_m2 e =? m2) && (e_m3 e =? m3) && (e_opc e =? o).
Lemma pair_ok m1 m2 m3 o e : pair_q m1 m2 m3 o e = true -> e_m1 e = m1 /\ e_m2 e = m2 /\ e_m3 e = m3 /\ e_opc e = o.
Proof. unfold pair_q. rewrite !andb_true_iff, !Z.eqb_eq. tauto. Qed.
Lemma seven_q : search_all "MOV" [Reg "A"; Direct] (pair_q M_AREG M_ADR8 M_NONE 0xE5) && search_all "MOV" [Direct; Direct] (pair_q M_ADR8 M_ADR8 M_NONE 0x85) &&
  search_all "AJMP" [Target] (pair_q M_ADR11 M_NONE M_NONE AJMP) && search_all "ACALL" [Target] (pair_q M_ADR11 M_NONE M_NONE ACALL) &&
  search_all "LJMP" [Target] (pair_q M_ADR16 M_NONE M_NONE LJMP) && search_all "LCALL" [Target] (pair_q M_ADR16 M_NONE M_NONE LCALL) &&
  forallb name_okb ["MOV"; "AJMP"; "ACALL"; "LJMP"; "LCALL"] && forallb opnd_ok [Reg "A"; Direct; Target] = true.
Proof. vm_compute. reflexivity. Qed.
Lemma none_op smart addr nb e c : encodeOperand smart M_NONE no_operand (mkAI (part addr 1 nb) e c) = Val (mkAI (part addr 1 nb) e c).
Proof. unfold encodeOperand. cbv zeta. cbn [no_operand o_err]. rewrite noerr. reflexivity. Qed.
Lemma code_i addr e l : i_code (i_seterr e (canon addr l)) = l.
Proof. change (i_code (canon addr l) = l). apply canon_code. Qed.
Lemma load_line smart a indent gap t rest xs addr :
  a_pl a = pl_intel -> a_radix a = 10 -> a_aw a = 16 -> 0 <= addr < 2^16 ->
  blanks indent -> blanks gap -> gap <> [] -> last_rest rest -> operands_text addr (a_symbol a) (a_function a) [Reg "A"; Direct] t rest xs ->
  exists x i, xs = [None; Some x] /\ i8051_encode smart a (indent ++ s2l "MOV" ++ gap ++ t) addr = Val (L_insn i rest) /\
    i_code i = [0xE5; x mod 256] /\ (i_err i = OK <-> 0 <= x <= 255 /\ x <> 0xE0).
Proof.
  intros PL RX AW AR BI BG NG LR H. pose proof seven_q as SV. rewrite !andb_true_iff in SV. destruct SV as (((((((S1 & _) & _) & _) & _) & _) & NM) & OP).
  assert (OO : forallb opnd_ok [Reg "A"; Direct] = true) by (vm_compute; reflexivity).
  destruct (line_fin smart a "MOV" [Reg "A"; Direct] t rest xs indent gap addr _ PL RX AW AR OO ltac:(cbn; lia) ltac:(vm_compute; reflexivity) BI BG NG LR H S1) as (e & o1 & o2 & o3 & Q & G1 & G2 & G3 & LX & _ & EN).
  apply pair_ok in Q. destruct Q as (M1 & M2 & M3 & CO). cbn [nth_error gopt] in G1, G2, G3. subst o3.
  destruct xs as [|x1 [|x2 [|? ?]]]; try discriminate. cbn [nth_x nth] in G1, G2. pose proof G1 as (_ & E1 & -> & R1). pose proof G2 as (_ & E2 & x & -> & IV & IO).
  exists x. rewrite EN. unfold fin, swapped. cbv zeta. rewrite M1, M2, M3, CO. change (M_AREG =? M_ADR8) with false. cbn [andb]. change (new_insn addr) with (part addr 1 []).
  destruct (emit_opnd smart (Reg "A") None o1 addr [] OK 0xE5 0 ltac:(vm_compute; reflexivity) G1 AR ltac:(cbn; lia) ltac:(discriminate) ltac:(right; repeat split; discriminate)) as (e1 & EM & F1).
  change (emode (Reg "A")) with M_AREG in EM. rewrite EM. cbn [bind operand_bytes app]. change (emb_o (Reg "A") 0xE5) with 0xE5.
  assert (e1 = OK) as -> by (apply F1; split; [reflexivity|exact Logic.I]).
  unfold encodeOperand at 1. cbv zeta. rewrite E2, noerr. cbn [Z.eqb M_REL M_RREG M_IDIRR M_IMM8 M_IMM16 M_ADR11 M_ADR16 M_ADR8 Pos.eqb orb].
  assert (EI : exists e2, (if invalidDirect (ai_opc (if overflow (o_val o2) 255 0 then ai_setErrorIf OVERFLOW_RANGE (mkAI (part addr 1 []) OK 0xE5) else mkAI (part addr 1 []) OK 0xE5)) (getUnsigned (o_val o2))
      then ai_setErrorIf OPERAND_NOT_ALLOWED (if overflow (o_val o2) 255 0 then ai_setErrorIf OVERFLOW_RANGE (mkAI (part addr 1 []) OK 0xE5) else mkAI (part addr 1 []) OK 0xE5)
      else (if overflow (o_val o2) 255 0 then ai_setErrorIf OVERFLOW_RANGE (mkAI (part addr 1 []) OK 0xE5) else mkAI (part addr 1 []) OK 0xE5)) = mkAI (part addr 1 []) e2 0xE5 /\ (e2 = OK <-> 0 <= x <= 255 /\ x <> 0xE0)).
  { assert (OV : overflow (o_val o2) 255 0 = negb ((0 <=? x) && (x <=? 255))) by (rewrite over_b by (auto; lia); now rewrite IO). rewrite OV.
    assert (GU : getUnsigned (o_val o2) = x mod 2^32) by (rewrite getUnsigned_mod by exact IV; now rewrite IO). rewrite GU.
    assert (II : invalidDirect 0xE5 (x mod 2^32) = (x mod 65536 =? 0xE0)).
    { unfold invalidDirect, u16. change (0xE5 =? 0xE5) with true. cbn [andb]. f_equal. change (2^32) with (65536 * 65536). change (2^16) with 65536. rewrite Z.rem_mul_r by lia. rewrite Z.mul_comm, Z_mod_plus_full. apply Z.mod_mod. lia. }
    unfold ai_setErrorIf. cbn [ai_insn ai_err ai_opc]. destruct (Z.leb_spec 0 x), (Z.leb_spec x 255); cbn [andb negb ai_opc ai_err ai_insn]; rewrite II.
    2-4: (destruct (x mod 65536 =? 0xE0); eexists; (split; [reflexivity|]); cbn; (split; [discriminate|lia])).
    rewrite (Z.mod_small x) by lia. destruct (Z.eqb_spec x 0xE0); eexists; (split; [reflexivity|]); cbn; split; try discriminate; try lia. reflexivity.
 }
  destruct EI as (e2 & EI & F2). rewrite EI, (emit8 (x mod 256)); [|apply mod_byte|unfold u8; rewrite <- IO; apply low8, IV|cbn; lia].
  cbn [bind app]. rewrite none_op. cbn [bind]. rewrite finish51 by (unfold byte; cbn; lia). eexists. split; [reflexivity|]. split; [reflexivity|]. rewrite code_i. split; [reflexivity|exact F2].
Qed.
Lemma move_line smart a indent gap t rest xs addr :
  a_pl a = pl_intel -> a_radix a = 10 -> a_aw a = 16 -> 0 <= addr < 2^16 ->
  blanks indent -> blanks gap -> gap <> [] -> last_rest rest -> operands_text addr (a_symbol a) (a_function a) [Direct; Direct] t rest xs ->
  exists x y i, xs = [Some x; Some y] /\ i8051_encode smart a (indent ++ s2l "MOV" ++ gap ++ t) addr = Val (L_insn i rest) /\
    i_code i = [0x85; y mod 256; x mod 256] /\ (i_err i = OK <-> 0 <= x <= 255 /\ 0 <= y <= 255).
Proof.
  intros PL RX AW AR BI BG NG LR H. pose proof seven_q as SV. rewrite !andb_true_iff in SV. destruct SV as (((((((_ & S1) & _) & _) & _) & _) & NM) & OP).
  assert (OO : forallb opnd_ok [Direct; Direct] = true) by (vm_compute; reflexivity).
  destruct (line_fin smart a "MOV" [Direct; Direct] t rest xs indent gap addr _ PL RX AW AR OO ltac:(cbn; lia) ltac:(vm_compute; reflexivity) BI BG NG LR H S1) as (e & o1 & o2 & o3 & Q & G1 & G2 & G3 & LX & _ & EN).
  apply pair_ok in Q. destruct Q as (M1 & M2 & M3 & CO). cbn [nth_error gopt] in G1, G2, G3. subst o3.
  destruct xs as [|x1 [|x2 [|? ?]]]; try discriminate. cbn [nth_x nth] in G1, G2. pose proof G1 as (_ & E1 & x & -> & _). pose proof G2 as (_ & E2 & y & -> & _).
  exists x, y. rewrite EN. unfold fin, swapped. cbv zeta. rewrite M1, M2, CO. change (M_ADR8 =? M_ADR8) with true. cbn [andb]. change (new_insn addr) with (part addr 1 []). rewrite E1, noerr.
  destruct (emit_opnd smart Direct (Some y) o2 addr [] OK 0x85 0 ltac:(vm_compute; reflexivity) G2 AR ltac:(cbn; lia) ltac:(discriminate) ltac:(left; discriminate)) as (e1 & EM & F1).
  change (emode Direct) with M_ADR8 in EM. rewrite EM. cbn [bind operand_bytes app]. change (emb_o Direct 0x85) with 0x85.
  destruct (emit_opnd smart Direct (Some x) o1 addr [y mod 256] e1 0x85 0 ltac:(vm_compute; reflexivity) G1 AR ltac:(cbn; lia) ltac:(discriminate) ltac:(left; discriminate)) as (e2 & EM2 & F2).
  change (emode Direct) with M_ADR8 in EM2. rewrite EM2. cbn [bind operand_bytes app]. change (emb_o Direct 0x85) with 0x85.
  rewrite finish51 by (unfold byte; cbn; lia). eexists. split; [reflexivity|]. split; [reflexivity|]. rewrite code_i. split; [reflexivity|]. change (e2 = OK <-> 0 <= x <= 255 /\ 0 <= y <= 255). rewrite F2, F1. cbn [operand_fits]. tauto.
Qed.

(* ------------------------------------------------------------ jumps *)
Definition jump_name (long call : bool) : string := if long then if call then "LCALL" else "LJMP" else if call then "ACALL" else "AJMP".
Definition short_code (call : bool) : Z := if call then 0x11 else 0x01.
Definition long_code (call : bool) : Z := if call then 0x12 else 0x02.
Lemma jump_entry (long call : bool) : search_all (jump_name long call) [Target]
  (pair_q (if long then M_ADR16 else M_ADR11) M_NONE M_NONE (if long then long_code call else short_code call)) = true /\ name_okb (jump_name long call) = true.
Proof. destruct long, call; vm_compute; auto. Qed.
Lemma block_same p q : 0 <= p < 65536 -> 0 <= q < 65536 -> (block p =? block q) = (p / 2048 =? q / 2048).
Proof.
  intros P Q. rewrite !block_val. rewrite !(Z.mod_small (_ / 2048)); [|split; [apply Z.div_pos; lia|apply Z.div_lt_upper_bound; lia]..].
  destruct (Z.eqb_spec (p / 2048) (q / 2048)) as [->|N]; [apply Z.eqb_refl|]. apply Z.eqb_neq. lia.
Qed.
Lemma short_bits (call : bool) x : 0 <= x < 65536 -> u8 (Z.lor (short_code call) (Z.land (Z.shiftr (page x) 3) 0xE0)) = short_code call + 32 * (x / 256 mod 8).
Proof.
  intros X. rewrite page_val. assert (EX : x mod 2048 = 256 * (x / 256 mod 8) + x mod 256).
  { change 2048 with (256 * 8). rewrite Z.rem_mul_r by lia. lia. }
  pose proof (Z.mod_pos_bound (x / 256) 8 ltac:(lia)). rewrite EX, embed_bits by (try apply mod_byte; lia).
  set (q := x / 256 mod 8) in *. clearbody q. assert (q = 0 \/ q = 1 \/ q = 2 \/ q = 3 \/ q = 4 \/ q = 5 \/ q = 6 \/ q = 7) as Q by lia.
  destruct call; repeat (destruct Q as [->|Q]; [reflexivity|]); subst q; reflexivity.
Qed.
Lemma encode_jump smart (long call : bool) op x addr : 0 <= addr < 2^16 - 2 -> o_err op = OK -> int_value (o_val op) -> int_of (o_val op) = x ->
  exists l e' c, encodeOperand smart (if long then M_ADR16 else M_ADR11) op (mkAI (part addr 1 []) OK (if long then long_code call else short_code call)) = Val (mkAI (part addr 1 l) e' c) /\
    byte c /\ (length l <= 2)%nat /\ (0 <= x < 65536 ->
      let near := x / 2048 =? (addr + 2) / 2048 in
      c :: l = (if (if smart then near else negb long) then [short_code call + 32 * (x / 256 mod 8); x mod 256] else [long_code call; x / 256; x mod 256]) /\
      (e' = OK <-> smart = true \/ long = true \/ near = true)).
Proof.
  intros AR E IV IO.
  assert (GU : getUnsigned (o_val op) = x mod 2^32) by (rewrite getUnsigned_mod by exact IV; now rewrite IO).
  set (y := x mod 2^32) in *.
  assert (LJ : forall e c, long_jump op (mkAI (part addr 1 []) e c) = mkAI (part addr 1 [x / 256 mod 256; x mod 256]) e c).
  { intros e c. unfold long_jump. rewrite (emit16 (x / 256 mod 256) (x mod 256)); [reflexivity|apply mod_byte|apply mod_byte|unfold u16; rewrite <- IO; apply low16, IV|cbn; lia]. }
  assert (SJ : forall e c, short_jump (getUnsigned (o_val op)) (mkAI (part addr 1 []) e c) = mkAI (part addr 1 [x mod 256]) e (u8 (Z.lor c (Z.land (Z.shiftr (page y) 3) 0xE0)))).
  { intros e c. unfold short_jump, ai_embed. cbn [ai_insn ai_err ai_opc]. rewrite (emit8 (x mod 256)); [now rewrite GU|apply mod_byte|unfold u8; rewrite <- IO; apply low8, IV|cbn; lia]. }
  assert (BASE : u32 (addr + 2) = addr + 2) by (unfold u32; apply Z.mod_small; lia).
  assert (LC : byte (long_code call)) by (destruct call; unfold byte, long_code; lia).
  assert (SC : forall z, byte (u8 z)) by (intros z; apply mod_byte).
  assert (IN : 0 <= x < 65536 -> x / 256 mod 256 = x / 256 /\ y = x /\ block (addr + 2) =? block y = (x / 2048 =? (addr + 2) / 2048) /\
     u8 (Z.lor (short_code call) (Z.land (Z.shiftr (page y) 3) 0xE0)) = short_code call + 32 * (x / 256 mod 8)).
  { intros X. assert (y = x) as -> by (apply Z.mod_small; lia). split; [apply Z.mod_small; split; [apply Z.div_pos; lia|apply Z.div_lt_upper_bound; lia]|]. split; [reflexivity|].
    split; [rewrite Z.eqb_sym; apply block_same; lia|]. now apply short_bits. }
  unfold encodeOperand. cbv zeta. rewrite E, noerr.
  assert (((if long then M_ADR16 else M_ADR11) =? M_REL) = false) as -> by (destruct long; reflexivity).
  replace (((if long then M_ADR16 else M_ADR11) =? M_RREG) || ((if long then M_ADR16 else M_ADR11) =? M_IDIRR)) with false by (destruct long; reflexivity).
  replace ((if long then M_ADR16 else M_ADR11) =? M_IMM8) with false by (destruct long; reflexivity).
  replace (((if long then M_ADR16 else M_ADR11) =? M_ADR11) || ((if long then M_ADR16 else M_ADR11) =? M_ADR16)) with true by (destruct long; reflexivity).
  unfold encodeJump. cbv zeta. cbn [ai_insn]. rewrite E. change (isOK OK) with true. cbn [negb orb].
  change (i_addr (part addr 1 [])) with addr. rewrite BASE.
  replace (maySmartBranch (mkAI (part addr 1 []) OK (if long then long_code call else short_code call))) with true by (destruct long, call; reflexivity). rewrite andb_true_r.
  rewrite GU. fold y. destruct smart; cbn [negb]; rewrite ?andb_false_r, ?andb_true_r.
  - destruct (block (addr + 2) =? block y) eqn:BK; cbn [negb].
    + assert (SH : shortJump (mkAI (part addr 1 []) OK (if long then long_code call else short_code call)) = mkAI (part addr 1 []) OK (short_code call)) by (destruct long, call; reflexivity). rewrite SH, <- GU, SJ.
      eexists _, _, _. split; [reflexivity|]. split; [apply SC|]. split; [cbn; lia|]. intros X. destruct (IN X) as (I1 & I2 & I3 & I4). rewrite <- I3. cbn zeta. rewrite I4. split; [reflexivity|]. tauto.
    + assert (SH : longJump (mkAI (part addr 1 []) OK (if long then long_code call else short_code call)) = mkAI (part addr 1 []) OK (long_code call)) by (destruct long, call; reflexivity). rewrite SH, LJ.
      eexists _, _, _. split; [reflexivity|]. split; [exact LC|]. split; [cbn; lia|]. intros X. destruct (IN X) as (I1 & I2 & I3 & I4). rewrite <- I3. cbn zeta. rewrite I1. split; [reflexivity|]. tauto.
  - destruct long.
    + change (M_ADR16 =? M_ADR11) with false. change (M_ADR16 =? M_ADR16) with true. cbv iota. rewrite LJ. eexists _, _, _. split; [reflexivity|]. split; [exact LC|]. split; [cbn; lia|].
      intros X. destruct (IN X) as (I1 & _). rewrite I1. cbn [negb]. split; [reflexivity|]. tauto.
    + change (M_ADR11 =? M_ADR11) with true. cbv iota. unfold ai_setErrorIf. cbn [ai_insn ai_err ai_opc].
      destruct (block (addr + 2) =? block y) eqn:BK; cbn [negb]; rewrite <- GU, SJ; (eexists _, _, _; split; [reflexivity|]; split; [apply SC|]; split; [cbn; lia|]); intros X; destruct (IN X) as (I1 & I2 & I3 & I4); rewrite <- I3, I4; cbn zeta;
        (split; [reflexivity|]); split; intros Q; try reflexivity; try discriminate Q; try tauto. destruct Q as [Q|[Q|Q]]; discriminate.
Qed.
Lemma jump_line smart (long call : bool) a indent gap t rest xs addr :
  a_pl a = pl_intel -> a_radix a = 10 -> a_aw a = 16 -> 0 <= addr < 2^16 - 2 ->
  blanks indent -> blanks gap -> gap <> [] -> last_rest rest -> operands_text addr (a_symbol a) (a_function a) [Target] t rest xs ->
  exists x i, xs = [Some x] /\ i8051_encode smart a (indent ++ s2l (jump_name long call) ++ gap ++ t) addr = Val (L_insn i rest) /\
    (0 <= x < 65536 -> 
      let near := x / 2048 =? (addr + 2) / 2048 in
      i_code i = (if (if smart then near else negb long) then [short_code call + 32 * (x / 256 mod 8); x mod 256] else [long_code call; x / 256; x mod 256]) /\
      (i_err i = OK <-> smart = true \/ long = true \/ near = true)).
Proof.
  intros PL RX AW AR' BI BG NG LR H. assert (AR : 0 <= addr < 2^16) by lia. destruct (jump_entry long call) as (S1 & NM).
  destruct (line_fin smart a (jump_name long call) [Target] t rest xs indent gap addr _ PL RX AW AR eq_refl ltac:(cbn; lia) NM BI BG NG LR H S1) as (e & o1 & o2 & o3 & Q & G1 & G2 & G3 & LX & _ & EN).
  apply pair_ok in Q. destruct Q as (M1 & M2 & M3 & CO). cbn [nth_error gopt] in G1, G2, G3. subst o2 o3.
  destruct xs as [|x1 [|? ?]]; try discriminate. cbn [nth_x nth] in G1. pose proof G1 as (_ & E1 & x & -> & IV & IO).
  exists x. rewrite EN. unfold fin, swapped. cbv zeta. rewrite M1, M2, M3, CO. assert (((if long then M_ADR16 else M_ADR11) =? M_ADR8) = false) as -> by (destruct long; reflexivity). cbn [andb]. change (new_insn addr) with (part addr 1 []).
  destruct (encode_jump smart long call o1 x addr AR' E1 IV IO) as (l & e' & c & EJ & BC & LL & EX). rewrite EJ. cbn [bind]. rewrite none_op. cbn [bind]. rewrite none_op. cbn [bind].
  rewrite finish51 by (auto; lia). cbn [bind]. eexists. split; [reflexivity|]. split; [reflexivity|]. intros XR. rewrite code_i. exact (EX XR).
Qed.

(* ------------------------------------------------------------ bits that do not exist *)
Lemma ldiff_sub b k : Z.ldiff b k = b - Z.land b k.
Proof.
  rewrite Z.sub_nocarry_ldiff.
  - apply Z.bits_inj'. intros n N. rewrite !Z.ldiff_spec, Z.land_spec. destruct (Z.testbit b n), (Z.testbit k n); reflexivity.
  - apply Z.bits_inj'. intros n N. rewrite !Z.ldiff_spec, Z.land_spec, Z.bits_0. destruct (Z.testbit b n), (Z.testbit k n); reflexivity.
Qed.
Definition addressable (b : Z) : bool := ((0x20 <=? b) && (b <=? 0x2F)) || ((0x80 <=? b) && (b <=? 0xFF) && (b mod 8 =? 0)).
Lemma addr_checks : forallb (fun b => implb ((Z.ldiff b 0x0F =? 0x20) || (Z.ldiff b 0x78 =? 0x80)) (addressable b)) all_bytes = true.
Proof. vm_compute. reflexivity. Qed.
Lemma addr_sound b : 0 <= b < 2^32 -> (Z.ldiff b 0x0F =? 0x20) || (Z.ldiff b 0x78 =? 0x80) = true -> addressable b = true.
Proof.
  intros B H. assert (BB : byte b).
  { unfold byte. apply orb_true_iff in H. rewrite !Z.eqb_eq, !ldiff_sub in H. 
    assert (Z.land b 0x0F <= 15) by (pose proof (Z.land_ones b 4 ltac:(lia)) as Q; change (Z.ones 4) with 15 in Q; change (2^4) with 16 in Q; rewrite Q; pose proof (Z.mod_pos_bound b 16 ltac:(lia)); lia).
    assert (Z.land b 0x78 < 128).
    { destruct (Z.eq_dec (Z.land b 0x78) 0) as [->|N]; [lia|]. assert (0 <= Z.land b 0x78) by (apply Z.land_nonneg; lia). apply Z.log2_lt_pow2 with (b := 7); [lia|]. pose proof (Z.log2_land b 0x78 ltac:(lia) ltac:(lia)). change (Z.log2 0x78) with 6 in *. lia. }
    lia. }
  pose proof addr_checks as C. rewrite forallb_forall in C. specialize (C b (all_in b BB)). rewrite H in C. exact C.
Qed.
Lemma bad_bit_line smart a n indent gap u b s v rest addr : In n ["SETB"; "CLR"; "CPL"] ->
  a_pl a = pl_intel -> a_radix a = 10 -> a_aw a = 16 -> 0 <= addr < 2^16 -> blanks indent -> blanks gap -> gap <> [] -> last_rest rest ->
  numeral_8051 u b -> 0 <= b < 2^32 -> expression fam_8051 addr (a_symbol a) (a_function a) s rest v -> (forall x, ~ bit_number b (int_of v) x) ->
  exists i z, i8051_encode smart a (indent ++ s2l n ++ gap ++ u ++ 46 :: s) addr = Val (L_insn i z) /\ i_code i = [] /\
    i_err i = if (0 <=? int_of v) && (int_of v <=? 7) then NOT_BIT_ADDRESSABLE else ILLEGAL_BIT_NUMBER.
Proof.
  intros NN PL RX AW AR BI BG NG LR NU BR EX NB. pose proof (last_tail _ LR) as T.
  destruct (place_noreg addr u b (or_introl NU)) as (STU & NR). destruct (NR (46 :: s)) as (R0 & N35 & N47 & N64).
  destruct (parse_expr a addr [] s rest v PL RX (Forall_nil _) T EX) as (IV & b' & B' & PI). cbn [app] in PI.
  pose proof (starts_skip [] u (46 :: s) (Forall_nil _) STU) as SK. cbn [app] in SK.
  pose proof (parse_dot a addr [] u b s PL RX NU (Forall_nil _)) as PD. cbn [app] in PD.
  assert (GU : getUnsigned (mkV V_UNSIGNED b) = b) by (apply get_unsigned; try reflexivity; cbn; lia).
  set (er := if (0 <=? int_of v) && (int_of v <=? 7) then NOT_BIT_ADDRESSABLE else ILLEGAL_BIT_NUMBER).
  assert (PO : parseOperand a addr (u ++ 46 :: s) = Val (bad_operand er, u ++ 46 :: s)).
  { unfold parseOperand. cbv zeta. rewrite SK, PL, (starts_eol _ _ STU), N35, N64. cbn [andb]. rewrite R0. cbn [bind]. change (REG_UNDEF =? REG_UNDEF) with true. cbn [negb]. cbv iota.
    unfold address_operand. rewrite N47, SK, PD. cbn [bind]. change (hasError OK) with false. cbv iota. cbn [expect_char]. change (46 =? 46) with true. change (isOK OK) with true. cbv iota. cbv zeta.
    rewrite PI. cbn [bind]. change (setErrorIfAt OK OK) with OK. rewrite over_b by (auto; lia). rewrite GU. unfold er.
    destruct ((0 <=? int_of v) && (int_of v <=? 7)) eqn:RG; cbn [negb]; [|reflexivity].
    destruct ((Z.ldiff b 0x0F =? 0x20) || (Z.ldiff b 0x78 =? 0x80)) eqn:AD; [|reflexivity]. exfalso. apply addr_sound in AD; [|exact BR]. unfold addressable in AD.
    destruct ((0x20 <=? b) && (b <=? 0x2F)) eqn:Q1.
    - apply (NB (8 * (b - 0x20) + int_of v)). unfold bit_number. lia.
    - apply (NB (b + int_of v)). unfold bit_number. lia. }
  assert (HE : hasError er = true) by (unfold er; destruct (_ && _); reflexivity).
  assert (PS : parseOperands a addr (u ++ 46 :: s) = Val (Bad er (u ++ 46 :: s))) by (unfold parseOperands; rewrite PO; cbn [bind bad_operand o_err]; now rewrite HE).
  assert (NO : name_okb n = true) by (cbn in NN; destruct NN as [<-|[<-|[<-|[]]]]; vm_compute; reflexivity).
  assert (CA : checkAddr 16 addr false = OK) by (apply (proj1 (C31_addr 16 addr false ltac:(lia) ltac:(lia))); split; [exact (proj2 AR)|discriminate]).
  unfold name_okb in NO. apply andb_true_iff in NO. destruct NO as (PN & AL).
  exists (i_seterr er (new_insn addr)), (u ++ 46 :: s). split; [|split; reflexivity].
  unfold i8051_encode. rewrite line_insn; [| | |exact BI|exact BG| |].
  - rewrite SK. unfold i8051_encodeImpl. rewrite PS. reflexivity.
  - rewrite PL. exact PN.
  - intros z. rewrite PL. change (p_line pl_intel) with (p_eol pl_intel). apply starts_eol. destruct (s2l n) as [|c w]; [discriminate|]. cbn [peek] in AL.
    unfold starts. cbn [peek]. unfold is_alpha, is_upper, is_lower, is_space in *. repeat split; try discriminate; lia.
  - rewrite PL. destruct gap as [|c gap]; [congruence|]. inversion BG as [|? ? C ?]; subst. cbn [app peek]. apply space_cases in C.
    destruct C as [->|[->|[->|[->|[->| ->]]]]]; reflexivity.
  - rewrite AW. exact CA.
Qed.

(* R2 to R7 are no pointers *)
Lemma pointer_read r n z : In r [82; 114] -> 2 <= n <= 7 -> isNameLetter (peek z) = false ->
  exists g, parseRegName (r :: 48 + n :: z) = Val (g, z) /\ (g =? REG_UNDEF) = false /\ (g =? REG_A) = false /\ (g =? REG_R0) = false /\ (g =? REG_R1) = false /\ (g =? REG_DPTR) = false.
Proof.
  intros R N Z.
  assert (K : forall k g, In g regs -> map (conv (Some k)) (reg_text g) = [r; 48 + n] ->
    (g =? REG_UNDEF) = false /\ (g =? REG_A) = false /\ (g =? REG_R0) = false /\ (g =? REG_R1) = false /\ (g =? REG_DPTR) = false ->
    exists g, parseRegName (r :: 48 + n :: z) = Val (g, z) /\ (g =? REG_UNDEF) = false /\ (g =? REG_A) = false /\ (g =? REG_R0) = false /\ (g =? REG_R1) = false /\ (g =? REG_DPTR) = false).
  { intros k g G E NE. destruct (reg_read k g z G Z) as (_ & P & _). cbv zeta in P. rewrite E in P. exists g. split; [exact P|exact NE]. }
  assert (n = 2 \/ n = 3 \/ n = 4 \/ n = 5 \/ n = 6 \/ n = 7) as C by lia.
  cbn [In] in R. destruct R as [<-|[<-|[]]]; [pose (k := true)|pose (k := false)];
  destruct C as [->|[->|[->|[->|[->| ->]]]]];
  [apply (K k REG_R2)|apply (K k REG_R3)|apply (K k REG_R4)|apply (K k REG_R5)|apply (K k REG_R6)|apply (K k REG_R7)
  |apply (K k REG_R2)|apply (K k REG_R3)|apply (K k REG_R4)|apply (K k REG_R5)|apply (K k REG_R6)|apply (K k REG_R7)];
  try (vm_compute; tauto); try reflexivity; repeat split; reflexivity.
Qed.
Lemma pointer_operand a addr r n z : a_pl a = pl_intel -> In r [82; 114] -> 2 <= n <= 7 -> isNameLetter (peek z) = false ->
  forall b, blanks b -> parseOperand a addr (b ++ 64 :: r :: 48 + n :: z) = Val (bad_operand UNKNOWN_OPERAND, z).
Proof.
  intros PL R N Z b B. destruct (pointer_read r n z R N Z) as (g & P & U & GA & G0 & G1 & GD).
  unfold parseOperand. cbv zeta. rewrite skip_blanks by exact B. rewrite skip_none by reflexivity. rewrite PL.
  change (64 :: r :: 48 + n :: z) with ([64] ++ r :: 48 + n :: z). rewrite starts_eol by (apply sign_starts; cbn; auto).
  cbn [app expect_char]. change (64 =? 35) with false. change (64 =? 64) with true. cbv iota. cbn [peek].
  replace (is_space r) with false by (cbn [In] in R; destruct R as [<-|[<-|[]]]; reflexivity). cbn [andb].
  rewrite P. cbn [bind]. rewrite U. cbn [negb]. unfold register_operand. rewrite GA, G0, G1, GD. reflexivity.
Qed.
Lemma bad_pointer_line smart a n indent gap first r k z addr : In n ["MOV"; "ADD"; "ADDC"; "SUBB"; "ORL"; "ANL"; "XRL"; "INC"; "DEC"; "XCH"; "XCHD"; "MOVX"; "CJNE"] ->
  a_pl a = pl_intel -> a_aw a = 16 -> 0 <= addr < 2^16 -> blanks indent -> blanks gap -> gap <> [] ->
  (first = [] \/ exists b, blanks b /\ first = 65 :: 44 :: b) ->
  In r [82; 114] -> 2 <= k <= 7 -> isNameLetter (peek z) = false ->
  exists i q, i8051_encode smart a (indent ++ s2l n ++ gap ++ first ++ 64 :: r :: 48 + k :: z) addr = Val (L_insn i q) /\ i_code i = [] /\ i_err i = UNKNOWN_OPERAND.
Proof.
  intros NN PL AW AR BI BG NG FI R K Z.
  assert (PS : parseOperands a addr (first ++ 64 :: r :: 48 + k :: z) = Val (Bad UNKNOWN_OPERAND z) /\ skipSpaces (first ++ 64 :: r :: 48 + k :: z) = first ++ 64 :: r :: 48 + k :: z).
  { destruct FI as [->|(b & B & ->)]; cbn [app].
    - split; [|now apply skip_none]. pose proof (pointer_operand a addr r k z PL R K Z [] (Forall_nil _)) as PP. cbn [app] in PP. unfold parseOperands. rewrite PP. reflexivity.
    - split; [|now apply skip_none]. set (z1 := 44 :: b ++ 64 :: r :: 48 + k :: z).
      destruct (reg_read true REG_A z1 ltac:(vm_compute; tauto) eq_refl) as (S & P & U & E35 & E64). cbv zeta in *.
      change (map (conv (Some true)) (reg_text REG_A)) with [65] in *.
      assert (PA : parseOperand a addr (65 :: z1) = Val (mkOp M_AREG REG_A v_undef OK, z1)).
      { change (65 :: z1) with ([65] ++ z1). unfold parseOperand. cbv zeta. pose proof (starts_skip [] [65] z1 (Forall_nil _) S) as SK. cbn [app] in SK |- *. rewrite SK, PL.
        change (65 :: z1) with ([65] ++ z1). rewrite (starts_eol _ _ S), E35, E64. cbn [andb]. rewrite P. cbn [bind]. rewrite U. reflexivity. }
      unfold parseOperands. rewrite PA. cbn [bind o_err]. change (hasError OK) with false. cbv iota. cbv zeta.
      unfold z1. rewrite skip_none by reflexivity. cbn [expect_char]. change (44 =? 44) with true. cbv iota.
      rewrite (pointer_operand a addr r k z PL R K Z b B). reflexivity. }
  destruct PS as [PS SK].
  assert (NO : name_okb n = true).
  { assert (forallb name_okb ["MOV"; "ADD"; "ADDC"; "SUBB"; "ORL"; "ANL"; "XRL"; "INC"; "DEC"; "XCH"; "XCHD"; "MOVX"; "CJNE"] = true) as F by (vm_compute; reflexivity).
    exact (proj1 (forallb_forall _ _) F n NN). }
  assert (CA : checkAddr 16 addr false = OK) by (apply (proj1 (C31_addr 16 addr false ltac:(lia) ltac:(lia))); split; [exact (proj2 AR)|discriminate]).
  unfold name_okb in NO. apply andb_true_iff in NO. destruct NO as (PN & AL).
  exists (i_seterr UNKNOWN_OPERAND (new_insn addr)), z. split; [|split; reflexivity].
  unfold i8051_encode. rewrite line_insn; [| | |exact BI|exact BG| |].
  - rewrite SK. unfold i8051_encodeImpl. rewrite PS. reflexivity.
  - rewrite PL. exact PN.
  - intros y. rewrite PL. change (p_line pl_intel) with (p_eol pl_intel). apply starts_eol. destruct (s2l n) as [|c w]; [discriminate|]. cbn [peek] in AL.
    unfold starts. cbn [peek]. unfold is_alpha, is_upper, is_lower, is_space in *. repeat split; try discriminate; lia.
  - rewrite PL. destruct gap as [|c gap]; [congruence|]. inversion BG as [|? ? C ?]; subst. cbn [app peek]. apply space_cases in C.
    destruct C as [->|[->|[->|[->|[->| ->]]]]]; reflexivity.
  - rewrite AW. exact CA.
Qed.
