(** The F8: what the instructions with a number give for every value. *)
From Coq Require Import String ZArith List Bool Lia ZifyBool.
From Verif Require Import M_Char M_Error M_Value M_Text M_StrBuffer M_Format M_Number M_Insn M_Config M_Operators
  M_Parsers M_Expr M_Directive M_Table T_Tables M_Asm M_Dis M_F3850Defs T_F3850 M_F3850
  S_Value S_Number S_Expr S_ExprTree S_Table S_Cpu S_F3850 P_StrBuffer P_Number P_NumberRead
  P_ExprRead P_ExprTree P_ExprCase P_Table P_TableData P_Insn P_Config P_Value P_Directive P_AsmText P_CpuShape P_CpuGood P_CpuText P_CpuRange P_F3850.
Import ListNotations.
Open Scope string_scope.
Open Scope list_scope.
Local Open Scope Z_scope.

Lemma reg_none s : starts_number s -> parseRegName s = Val (REG_UNDEF, s).
Proof. intros (_ & H). rewrite reg_parse. apply (parse_name_none _ _ operand_names); [vm_compute; reflexivity..|exact H]. Qed.
Lemma parse_number a loc b0 e s rest v : a_pl a = pl_f3850 -> a_radix a = 10 -> blanks b0 -> starts_number s ->
  derives fam_3850 (mkC loc (a_symbol a) (a_function a) 0) e s rest -> well_nested e -> value_slots e <= 8 -> operator_slots e <= 8 ->
  tail rest -> value_of e = Val (OK, v) -> int_value v ->
  exists b m, blanks b /\ In m cmodes /\ parseOperand a loc (b0 ++ s) = Val (OK, mkOp m v OK, b ++ rest).
Proof.
  intros PL RX B0 SN D W VS OS T V IV. destruct (parse_value fam_3850 a loc [] e s rest v) as (b & B & X); auto.
  { cbn. auto 20. } { apply Forall_nil. }
  cbn [app] in X. exists b. unfold parseOperand. cbv zeta. rewrite skip_blanks by exact B0.
  assert (SK : skipSpaces s = s) by (destruct SN as (SN & _); destruct s as [|c s]; [destruct SN|now apply skip_none]).
  rewrite !SK, reg_none by exact SN. cbn [bind]. change (REG_UNDEF =? REG_UNDEF) with true. cbn [negb]. rewrite SK, X. cbn [bind]. change (hasError OK) with false. cbv iota.
  unfold overflowUint8, overflowUint16. rewrite !over_b by (exact IV || lia).
  destruct (getSigned v =? 1); [exists M_C1; cbn; auto 10|]. destruct (getSigned v =? 4); [exists M_C4; cbn; auto 10|].
  destruct ((0 <=? int_of v) && (int_of v <=? 7)) eqn:E; cbn [negb]; [|exists M_IM3; cbn; auto 10].
  replace ((0 <=? int_of v) && (int_of v <=? 15)) with true by lia. replace ((-128 <=? int_of v) && (int_of v <=? 255)) with true by lia.
  cbn [negb]. exists M_IM8. split; [exact B|]. split; [cbn; auto 10|reflexivity].
Qed.

(* ------------------------------------------------------------ the line *)
Definition form_ok (m opc : Z) (nm : text) : bool :=
  plain_name sp_fairchild [] f3850_directives nm && is_alpha (peek nm) && (0 <=? opc) && (opc <? 256) &&
  match hasOperand nm with Val true => true | _ => false end &&
  forallb (fun om =>
    match f3850_searchName nm om M_NONE with
    | Val (OK, Some e') => (e_opc e' =? opc) && (e_m1 e' =? m) && (e_m2 e' =? M_NONE)
    | _ => false
    end) cmodes.
Definition fin (addr opc m : Z) (op : operand) : res insn :=
  bind (encodeOperand m op (mkAI (new_insn addr) OK opc)) (fun ai => let ai := ai_emitInsn ai in Val (i_seterr (ai_err ai) (ai_insn ai))).
Lemma form_encode m opc nm a indent gap ops scan rest addr om v :
  form_ok m opc nm = true -> In om cmodes ->
  a_pl a = pl_f3850 -> a_aw a = 16 ->
  blanks indent -> blanks gap -> gap <> [] -> checkAddr 16 addr false = OK ->
  parseOperand a addr (skipSpaces ops) = Val (OK, mkOp om v OK, scan) -> skipSpaces scan = rest -> last_rest rest ->
  f3850_encode a (indent ++ nm ++ gap ++ ops) addr = bind (fin addr opc m (mkOp om v OK)) (fun i => Val (L_insn i rest)).
Proof.
  intros FK IM PL AW BI BG NG CA PO SK LR. unfold form_ok in FK. rewrite !andb_true_iff in FK. destruct FK as (((((PN & AL) & O1) & O2) & HO) & FK).
  rewrite forallb_forall in FK. specialize (FK om IM).
  unfold f3850_encode. rewrite line_insn; [| | |exact BI|exact BG| |].
  2:{ rewrite PL. exact PN. }
  2:{ intros z. rewrite PL. now apply plain_star. }
  2:{ rewrite PL. destruct gap as [|c gap]; [congruence|]. inversion BG as [|? ? C ?]; subst. cbn [app peek]. apply space_cases in C.
      destruct C as [->|[->|[->|[->|[->| ->]]]]]; reflexivity. }
  2:{ rewrite AW. exact CA. }
  unfold f3850_encodeImpl. destruct (hasOperand nm) as [[]| | | |]; try discriminate. cbn [bind].
  assert (PS : parseOperands a addr (skipSpaces ops) = Val (Two (mkOp om v OK) no_operand rest)).
  { unfold parseOperands. rewrite PO. cbn [bind]. change (isOK OK) with true. cbn [negb andb]. cbv zeta. rewrite SK.
    rewrite last_nocomma by exact LR. reflexivity. }
  rewrite PS. cbn [bind]. cbv zeta. cbn [o_mode no_operand]. pose proof (last_skip [] rest (Forall_nil _) LR) as SR. cbn [app] in SR. rewrite SR.
  destruct (f3850_searchName nm om M_NONE) as [[er [e'|]]| | | |]; try discriminate.
  2:{ destruct er; discriminate. }
  destruct er; try discriminate. rewrite !andb_true_iff in FK. destruct FK as ((F1 & F2) & F3).
  apply Z.eqb_eq in F1, F2, F3. cbn [bind i_err new_insn]. change (setErrorIfAt OK OK) with OK. change (isOK OK) with true. cbn [negb].
  rewrite F1, F2, F3. unfold fin. destruct (encodeOperand m (mkOp om v OK) (mkAI (new_insn addr) OK opc)) as [[i1 e1 o1]| | | |]; try reflexivity.
  cbn [bind]. unfold encodeOperand at 1. cbn [o_err no_operand]. rewrite noerr. reflexivity.
Qed.

(* ------------------------------------------------------------ the bytes *)
Lemma fin_err addr opc nb e : byte opc -> (length nb <= 8)%nat ->
  let ai := ai_emitInsn (mkAI (part addr 1 nb) e opc) in
  i_code (i_seterr (ai_err ai) (ai_insn ai)) = opc :: nb /\ i_err (i_seterr (ai_err ai) (ai_insn ai)) = e.
Proof.
  intros O L. cbv zeta. unfold ai_emitInsn, ai_set. cbn [ai_insn ai_err ai_opc].
  destruct (part_done 0 opc addr nb ltac:(unfold byte; lia) O ltac:(lia)) as (D & _). rewrite D. split; [|reflexivity].
  unfold i_code, i_seterr. cbn [i_len i_bytes]. fold (i_code (canon addr (opc :: nb))). apply canon_code.
Qed.
Lemma fail_er (b : bool) e i e0 o : (if b then ai_setErrorIf e (mkAI i e0 o) else mkAI i e0 o) = mkAI i (er1 b e0 e) o.
Proof. now destruct b. Qed.
Lemma fin_imm8 addr opc m v : byte opc -> int_value v ->
  exists i, fin addr opc M_IM8 (mkOp m v OK) = Val i /\ i_code i = [opc; int_of v mod 256] /\
    i_err i = if (-128 <=? int_of v) && (int_of v <=? 255) then OK else OVERFLOW_RANGE.
Proof.
  intros O IV. unfold fin, encodeOperand. cbv zeta. cbn [o_err o_val]. rewrite noerr.
  cbn [Z.eqb M_C1 M_IM3 M_IM4 M_IOS M_IM8 M_IOA M_REG Pos.eqb orb andb].
  unfold overflowUint8. rewrite (over_b v 255 (-128)) by (exact IV || lia). rewrite fail_er.
  change (new_insn addr) with (part addr 1 []). rewrite (emit8 (int_of v mod 256)); [|apply mod_byte|now apply low8]. cbn [bind]. eexists. split; [reflexivity|].
  destruct (fin_err addr opc [int_of v mod 256] (er1 (negb ((-128 <=? int_of v) && (int_of v <=? 255))) OK OVERFLOW_RANGE) O ltac:(cbn; lia)) as (C & E).
  split; [exact C|]. rewrite E. now destruct (_ && _).
Qed.
Lemma fin_port addr opc m v : byte opc -> int_value v ->
  exists i, fin addr opc M_IOA (mkOp m v OK) = Val i /\ i_code i = [opc; int_of v mod 256] /\
    (i_err i = OK <-> -128 <= int_of v <= 255 /\ ~ 0 <= int_of v <= 3).
Proof.
  intros O IV. unfold fin, encodeOperand. cbv zeta. cbn [o_err o_val]. rewrite noerr.
  cbn [Z.eqb M_C1 M_IM3 M_IM4 M_IOS M_IM8 M_IOA M_REG Pos.eqb orb andb]. change (isOK OK) with true.
  unfold overflowUint8. rewrite (over_b v 255 (-128)), (over_b v 3 0) by (exact IV || lia). cbn [andb]. rewrite !fail_er.
  change (new_insn addr) with (part addr 1 []). rewrite (emit8 (int_of v mod 256)); [|apply mod_byte|now apply low8]. cbn [bind]. eexists. split; [reflexivity|].
  set (er := er1 _ _ _). destruct (fin_err addr opc [int_of v mod 256] er O ltac:(cbn; lia)) as (C & E).
  split; [exact C|]. rewrite E. unfold er. rewrite er2_ok by discriminate. lia.
Qed.
Lemma fin_addr addr opc m v : byte opc -> int_value v ->
  exists i, fin addr opc M_ADDR (mkOp m v OK) = Val i /\ i_code i = [opc; int_of v / 256 mod 256; int_of v mod 256] /\ i_err i = OK.
Proof.
  intros O IV. unfold fin, encodeOperand. cbv zeta. cbn [o_err o_val]. rewrite noerr.
  cbn [Z.eqb M_C1 M_IM3 M_IM4 M_IOS M_IM8 M_IOA M_REG M_ADDR Pos.eqb orb andb].
  change (new_insn addr) with (part addr 1 []). rewrite (emit16 (int_of v / 256 mod 256) (int_of v mod 256)); [|apply mod_byte|apply mod_byte|now apply low16].
  cbn [bind]. eexists. split; [reflexivity|]. exact (fin_err addr opc [int_of v / 256 mod 256; int_of v mod 256] OK O ltac:(cbn; lia)).
Qed.
Lemma embed_low opc n v : 0 <= n <= 8 -> byte opc -> Z.land opc (Z.ones n) = 0 -> int_value v ->
  u8 (Z.lor opc (Z.land (getUnsigned v) (Z.ones n))) = opc + int_of v mod 2^n /\ byte (opc + int_of v mod 2^n).
Proof.
  intros N O L IV. rewrite land_low by (exact IV || lia). assert (M : 0 <= int_of v mod 2^n < 2^n) by (apply Z.mod_pos_bound; apply Z.pow_pos_nonneg; lia).
  rewrite (lor_add opc n) by (lia || exact L). unfold byte in *.
  assert (OB : opc + int_of v mod 2^n < 256).
  { assert (exists k, opc = k * 2^n) as (k & ->). { rewrite Z.land_ones in L by lia. exists (opc / 2^n). pose proof (Z.div_mod opc (2^n)). lia. }
    assert (256 = 2^(8-n) * 2^n) as E by (rewrite <- Z.pow_add_r by lia; replace (8 - n + n) with 8 by lia; reflexivity).
    assert (k < 2^(8-n)). { apply (Z.mul_lt_mono_pos_r (2^n)); [apply Z.pow_pos_nonneg; lia|]. lia. }
    assert (k * 2^n + 2^n <= 256); [|lia]. rewrite E. replace (k * 2^n + 2^n) with ((k + 1) * 2^n) by lia. apply Z.mul_le_mono_nonneg_r; lia. }
  split; [|lia]. unfold u8. apply Z.mod_small. lia.
Qed.
Definition bits_of (m : Z) : Z := if m =? M_IM3 then 3 else 4.
Definition allowed (m v : Z) : Prop :=
  if m =? M_REG then 0 <= v <= 14 else if m =? M_IM3 then 0 <= v <= 7 else if m =? M_IOS then 0 <= v <= 15 /\ v <> 2 /\ v <> 3 else 0 <= v <= 15.
Lemma fin_in addr opc m om v : In m [M_REG; M_IM3; M_IM4; M_IOS] -> byte opc -> Z.land opc (Z.ones (bits_of m)) = 0 -> int_value v ->
  exists i, fin addr opc m (mkOp om v OK) = Val i /\ i_code i = [opc + int_of v mod 2^(bits_of m)] /\ (i_err i = OK <-> allowed m (int_of v)).
Proof.
  intros M O L IV. destruct (embed_low opc (bits_of m) v ltac:(unfold bits_of; destruct (m =? M_IM3); lia) O L IV) as (EM & OB).
  assert (SM : forall n, 0 <= n < 16 -> 0 <= int_of v <= 15 -> (getUnsigned v =? n) = (int_of v =? n)).
  { intros n N R. now rewrite (get_unsigned v (int_of v)) by (auto; lia). }
  assert (EX : forall b1 b2, exists i, Val (i_seterr (ai_err (ai_emitInsn (ai_embed (Z.land (getUnsigned v) (Z.ones (bits_of m)))
      (mkAI (new_insn addr) (er1 b2 (er1 b1 OK OVERFLOW_RANGE) OPERAND_NOT_ALLOWED) opc))))
      (ai_insn (ai_emitInsn (ai_embed (Z.land (getUnsigned v) (Z.ones (bits_of m))) (mkAI (new_insn addr) (er1 b2 (er1 b1 OK OVERFLOW_RANGE) OPERAND_NOT_ALLOWED) opc))))) = Val i /\
      i_code i = [opc + int_of v mod 2^(bits_of m)] /\ (i_err i = OK <-> b1 = false /\ b2 = false)).
  { intros b1 b2. eexists. split; [reflexivity|]. unfold ai_embed. cbn [ai_insn ai_err ai_opc]. rewrite EM.
    destruct (fin_err addr (opc + int_of v mod 2^bits_of m) [] (er1 b2 (er1 b1 OK OVERFLOW_RANGE) OPERAND_NOT_ALLOWED) OB ltac:(cbn; lia)) as (C & E).
    split; [exact C|]. change (new_insn addr) with (part addr 1 []). rewrite E. apply er2_ok; discriminate. }
  assert (EX2 : forall b1 b2, exists i, Val (i_seterr (ai_err (ai_emitInsn (ai_embed (Z.land (getUnsigned v) (Z.ones (bits_of m)))
      (mkAI (new_insn addr) (er1 b2 (er1 b1 OK OPERAND_NOT_ALLOWED) OVERFLOW_RANGE) opc))))
      (ai_insn (ai_emitInsn (ai_embed (Z.land (getUnsigned v) (Z.ones (bits_of m))) (mkAI (new_insn addr) (er1 b2 (er1 b1 OK OPERAND_NOT_ALLOWED) OVERFLOW_RANGE) opc))))) = Val i /\
      i_code i = [opc + int_of v mod 2^(bits_of m)] /\ (i_err i = OK <-> b1 = false /\ b2 = false)).
  { intros b1 b2. eexists. split; [reflexivity|]. unfold ai_embed. cbn [ai_insn ai_err ai_opc]. rewrite EM.
    destruct (fin_err addr (opc + int_of v mod 2^bits_of m) [] (er1 b2 (er1 b1 OK OPERAND_NOT_ALLOWED) OVERFLOW_RANGE) OB ltac:(cbn; lia)) as (C & E).
    split; [exact C|]. change (new_insn addr) with (part addr 1 []). rewrite E. apply er2_ok; discriminate. }
  unfold fin, encodeOperand. cbv zeta. cbn [o_err o_val]. rewrite noerr.
  cbn in M. destruct M as [<-|[<-|[<-|[<-|[]]]]]; cbn [Z.eqb M_C1 M_IM3 M_IM4 M_IOS M_IM8 M_IOA M_REG Pos.eqb orb andb]; rewrite ?over_b by (exact IV || lia); rewrite ?fail_er; cbn [bind].
  - destruct (EX (negb ((0 <=? int_of v) && (int_of v <=? 15))) (getUnsigned v =? 15)) as (i & E & C & X). exists i. split; [exact E|]. split; [exact C|]. rewrite X.
    unfold allowed. cbn [Z.eqb M_REG Pos.eqb]. destruct ((0 <=? int_of v) && (int_of v <=? 15)) eqn:R; [rewrite SM by lia; lia|]. cbn [negb]. lia.
  - destruct (EX (negb ((0 <=? int_of v) && (int_of v <=? 7))) false) as (i & E & C & X). exists i. split; [exact E|]. split; [exact C|]. rewrite X.
    unfold allowed. cbn [Z.eqb M_IM3 M_REG Pos.eqb]. lia.
  - destruct (EX (negb ((0 <=? int_of v) && (int_of v <=? 15))) false) as (i & E & C & X). exists i. split; [exact E|]. split; [exact C|]. rewrite X.
    unfold allowed. cbn [Z.eqb M_IM3 M_IM4 M_IOS M_REG Pos.eqb]. lia.
  - destruct (EX2 ((getUnsigned v =? 2) || (getUnsigned v =? 3)) (negb ((0 <=? int_of v) && (int_of v <=? 15)))) as (i & E & C & X). exists i. split; [exact E|]. split; [exact C|]. rewrite X.
    unfold allowed. cbn [Z.eqb M_IM3 M_IM4 M_IOS M_REG Pos.eqb]. destruct ((0 <=? int_of v) && (int_of v <=? 15)) eqn:R; [rewrite !SM by lia; lia|]. cbn [negb]. lia.
Qed.
Lemma fin_shift addr opc om v : byte opc -> byte (opc + 2) -> int_value v -> -2^31 <= int_of v < 2^32 ->
  exists i, fin addr opc M_C1 (mkOp om v OK) = Val i /\ i_code i = [if int_of v =? 4 then opc + 2 else opc] /\ (i_err i = OK <-> int_of v = 1 \/ int_of v = 4).
Proof.
  intros O O2 IV R. unfold fin, encodeOperand. cbv zeta. cbn [o_err o_val]. rewrite noerr. cbn [Z.eqb M_C1 M_REG Pos.eqb].
  rewrite !small_u by (exact IV || lia).
  assert (EX : forall opc e, byte opc -> exists i, bind (Val (mkAI (new_insn addr) e opc)) (fun ai => Val (i_seterr (ai_err (ai_emitInsn ai)) (ai_insn (ai_emitInsn ai)))) = Val i /\ i_code i = [opc] /\ i_err i = e).
  { intros o e B. cbn [bind]. eexists. split; [reflexivity|]. exact (fin_err addr o [] e B ltac:(cbn; lia)). }
  destruct (Z.eqb_spec (int_of v) 1) as [E|E]; [|destruct (Z.eqb_spec (int_of v) 4) as [E4|E4]].
  - destruct (EX opc OK O) as (i & -> & C & X). exists i. split; [reflexivity|]. split; [destruct (Z.eqb_spec (int_of v) 4); [lia|exact C]|]. rewrite X. tauto.
  - unfold ai_setopc. cbn [ai_insn ai_err ai_opc]. replace (u8 (opc + 2)) with (opc + 2) by (unfold u8; symmetry; apply Z.mod_small; exact O2).
    destruct (EX (opc + 2) OK O2) as (i & -> & C & X). exists i. split; [reflexivity|]. split; [exact C|]. rewrite X. tauto.
  - destruct (EX opc OPERAND_NOT_ALLOWED O) as (i & X0 & C & X). exists i. split; [exact X0|]. split; [exact C|]. rewrite X. split; [discriminate|tauto].
Qed.
Lemma fin_branch addr opc v m : byte opc -> int_value v -> 0 <= addr <= 65535 ->
  exists i, fin addr opc M_REL (mkOp m v OK) = Val i /\ i_code i = [opc; (int_of v - (addr + 1)) mod 256] /\
    (i_err i = OK <-> int_of v mod 2^32 < 65536 /\ -128 <= int_of v mod 2^32 - (addr + 1) <= 127).
Proof.
  intros O IV AR. unfold fin, encodeOperand. cbv zeta. cbn [o_err o_val]. rewrite noerr.
  cbn [Z.eqb M_C1 M_IM3 M_IM4 M_IOS M_IM8 M_IOA M_REG M_ADDR M_REL Pos.eqb orb andb].
  unfold emitRelative. cbn [ai_insn o_err o_val ai_err]. change (i_addr (new_insn addr)) with addr. change (isOK OK) with true. cbn [negb].
  assert (BS : u32 (addr + 1) = addr + 1) by (apply Z.mod_small; lia). rewrite BS.
  destruct (branch_byte (addr + 1) v IV ltac:(lia)) as (dl & e & far & -> & -> & MD & X). unfold ai_seterr. cbn [ai_insn ai_opc]. rewrite fail_er.
  change (new_insn addr) with (part addr 1 []).
  rewrite (emit8 ((int_of v - (addr + 1)) mod 256)); [|apply mod_byte|exact MD]. cbn [bind]. eexists. split; [reflexivity|].
  destruct (fin_err addr opc [(int_of v - (addr + 1)) mod 256] (er1 far e OPERAND_TOO_FAR) O ltac:(cbn; lia)) as (C & E). split; [exact C|]. rewrite E. exact X.
Qed.

(* ------------------------------------------------------------ all forms *)
Definition each (m : Z) (forms : list (string * Z)) : bool := forallb (fun f => form_ok m (snd f) (s2l (fst f))) forms.
Lemma each_at m forms f : each m forms = true -> In f forms -> form_ok m (snd f) (s2l (fst f)) = true /\ byte (snd f).
Proof.
  intros H F. unfold each in H. rewrite forallb_forall in H. specialize (H f F). split; [exact H|].
  unfold form_ok in H. rewrite !andb_true_iff in H. destruct H as ((((_ & A) & B) & _) & _). unfold byte. lia.
Qed.
Definition all_forms : list (Z * list (string * Z)) := [(M_REL, branch_forms); (M_IM8, byte_forms); (M_IOA, port_forms); (M_ADDR, address_forms);
  (M_IM3, octal_forms); (M_IM4, nibble_forms); (M_IOS, short_forms); (M_REG, register_forms); (M_C1, shift_forms)].
Lemma forms_ok : forallb (fun '(m, l) => each m l) all_forms = true.
Proof. vm_compute. reflexivity. Qed.
Lemma low_ok : forallb (fun '(m, l) => if existsb (Z.eqb m) [M_REG; M_IM3; M_IM4; M_IOS] then forallb (fun f => Z.land (snd f) (Z.ones (bits_of m)) =? 0) l else true) all_forms = true.
Proof. vm_compute. reflexivity. Qed.
Section Ranges.
Variables (symbol : text -> option value) (function : text -> option functor) (indent gap b0 : text)
  (e : expr) (s rest : text) (v : value) (addr : Z).
Hypotheses (BI : blanks indent) (BG : blanks gap) (NG : gap <> []) (B0 : blanks b0) (AR : 0 <= addr < 2^16).
Let a := f3850_asm symbol function 10.
Hypotheses (D : derives fam_3850 (mkC addr symbol function 0) e s rest) (W : well_nested e) (VS : value_slots e <= 8) (OS : operator_slots e <= 8)
  (V : value_of e = Val (OK, v)) (IV : int_value v) (LR : last_rest rest) (SN : starts_number s).
Lemma range_line m l f (P : insn -> Prop) : In (m, l) all_forms -> In f l ->
  (forall om, byte (snd f) -> exists i, fin addr (snd f) m (mkOp om v OK) = Val i /\ P i) ->
  exists i, f3850_encode a (indent ++ s2l (fst f) ++ gap ++ b0 ++ s) addr = Val (L_insn i rest) /\ P i.
Proof.
  intros IL IF H. pose proof forms_ok as FO. rewrite forallb_forall in FO. specialize (FO _ IL). cbv beta iota in FO.
  destruct (each_at m l f FO IF) as (FK & O).
  destruct (parse_number a addr b0 e s rest v eq_refl eq_refl B0 SN D W VS OS (last_tail _ LR) V IV) as (b & om & BB & IM & PO).
  assert (CA : checkAddr 16 addr false = OK) by (apply (proj1 (C31_addr 16 addr false ltac:(lia) ltac:(lia))); split; [exact (proj2 AR)|discriminate]).
  assert (PS : parseOperand a addr (skipSpaces (b0 ++ s)) = parseOperand a addr (b0 ++ s)) by (unfold parseOperand; now rewrite skip_skip).
  destruct (H om O) as (i & FI & PI). exists i.
  rewrite (form_encode m (snd f) (s2l (fst f)) a indent gap (b0 ++ s) (b ++ rest) rest addr om v FK IM eq_refl eq_refl BI BG NG CA ltac:(rewrite PS; exact PO) (last_skip b rest BB LR) LR).
  rewrite FI. auto.
Qed.
Lemma range_in m l f : In (m, l) all_forms -> In m [M_REG; M_IM3; M_IM4; M_IOS] -> In f l ->
  exists i, f3850_encode a (indent ++ s2l (fst f) ++ gap ++ b0 ++ s) addr = Val (L_insn i rest) /\ i_code i = [snd f + int_of v mod 2^(bits_of m)] /\
    (i_err i = OK <-> allowed m (int_of v)).
Proof.
  intros IL IM IF. apply (range_line m l f (fun i => i_code i = [snd f + int_of v mod 2^(bits_of m)] /\ (i_err i = OK <-> allowed m (int_of v)))); auto.
  intros om O. apply fin_in; auto. pose proof low_ok as H. rewrite forallb_forall in H. specialize (H _ IL). cbv beta iota in H.
  assert (X : existsb (Z.eqb m) [M_REG; M_IM3; M_IM4; M_IOS] = true) by (apply existsb_exists; exists m; split; [exact IM|apply Z.eqb_refl]).
  rewrite X in H. rewrite forallb_forall in H. apply Z.eqb_eq. exact (H f IF).
Qed.
End Ranges.
