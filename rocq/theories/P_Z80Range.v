(** The Z80: what the instructions with a number give for every value. *)
From Coq Require Import String ZArith List Bool Lia ZifyBool.
From Verif Require Import M_Char M_Error M_Value M_Text M_StrBuffer M_Format M_Number M_Insn M_Config M_Operators
  M_Parsers M_Expr M_Directive M_Table T_Tables M_Asm M_Dis M_Z80Defs T_Z80 M_Z80
  S_Value S_Number S_Expr S_ExprTree S_Table S_Cpu S_Z80 P_StrBuffer P_Number P_NumberRead
  P_ExprRead P_ExprTree P_ExprCase P_Table P_TableData P_Insn P_Config P_Value P_Directive P_AsmText P_CpuShape P_CpuGood P_CpuText P_CpuRange P_CpuSigned P_Z80.
Import ListNotations.
Open Scope string_scope.
Open Scope list_scope.
Local Open Scope Z_scope.

(* ------------------------------------------------------------ operands *)
Definition find_name (es : list (string * Z)) (n : string) : option Z :=
  match find (fun e => String.eqb (fst e) n) es with Some e => Some (snd e) | None => None end.
Definition kind_o (o : opnd) : kind :=
  match o with
  | Reg n => match find_name REG_ENTRIES n with Some r => K_name r | None => match find_name CC_ENTRIES n with Some c => K_cc c | None => K_none end end
  | At n => match find_name REG_ENTRIES n with Some r => K_ind r | None => K_none end
  | Num => K_word
  | Mem => K_abs
  | Index n => match find_name REG_ENTRIES n with Some r => K_idx r | None => K_none end
  end.
Definition same_text (t u : text) : bool := if list_eq_dec Z.eq_dec t u then true else false.
Definition opnd_ok (o : opnd) : bool :=
  kind_okb (kind_o o) && negb (is_none (kind_o o)) &&
  match o, kind_o o with
  | Reg n, K_name r => same_text (s2l n) (map (conv (Some true)) (reg_text r))
  | Reg n, K_cc c => same_text (s2l n) (map (conv (Some true)) (cc_text c))
  | At n, K_ind r => same_text (s2l n) (map (conv (Some true)) (reg_text r))
  | Index n, K_idx r => same_text (s2l n) (map (conv (Some true)) (reg_text r))
  | Num, _ | Mem, _ => true
  | _, _ => false
  end.
Definition numeric (o : opnd) : bool := match o with Num | Mem | Index _ => true | _ => false end.
Lemma same_text_ok t u : same_text t u = true -> t = u.
Proof. unfold same_text. destruct (list_eq_dec Z.eq_dec t u); [auto|discriminate]. Qed.
Definition any_dis : disasm := z80_dis true true false false false false 36 None.
Lemma reg_missing s names : forallb (fun a => existsb (String.eqb (fst a)) names) REG_ENTRIES = true -> starts_number names s -> parseRegName s = Val (REG_UNDEF, s).
Proof. intros N (_ & H). rewrite reg_parse. apply (parse_name_none _ _ names); [vm_compute; reflexivity|exact N|exact H]. Qed.
Lemma cc_missing s names : forallb (fun a => existsb (String.eqb (fst a)) names) CC_ENTRIES = true -> starts_number names s -> parseCcName s = Val (CC_UNDEF, s).
Proof. intros N (_ & H). rewrite cc_parse. apply (parse_name_none _ _ names); [vm_compute; reflexivity|exact N|exact H]. Qed.
Lemma number_starts names s : starts_number names s -> starts s.
Proof. intros (H & _). destruct s as [|c s]; [contradiction|]. destruct H as (A & B & C). unfold starts. cbn [peek]. repeat split; auto. discriminate. Qed.
Lemma open_parse a loc b0 u : a_pl a = pl_z80 -> blanks b0 -> exists k, parseOperand a loc (b0 ++ 40 :: u) = k (parseRegName (skipSpaces u)) /\
  (forall r, r = Val (REG_UNDEF, skipSpaces u) -> k r =
                      bind (parseInteger a loc (skipSpaces u) OK 41) (fun '(v, e, t) =>
                        if hasError e then Val (mkOp M_NONE REG_UNDEF v e, 40 :: u)
                        else
                          match expect_char 41 (skipSpaces t) with
                          | Some t => Val (mkOp M_ABS REG_UNDEF v e, t)
                          | None => Val (mkOp M_NONE REG_UNDEF v MISSING_CLOSING_PAREN, 40 :: u)
                          end)) /\
  (forall r reg t, r = Val (reg, t) -> In reg [REG_IX; REG_IY] -> peek t = 43 \/ peek t = 45 -> k r =
                          bind (parseInteger a loc t OK 41) (fun '(v, e, t) =>
                            if hasError e then Val (mkOp M_NONE reg v e, 40 :: u)
                            else
                              match expect_char 41 (skipSpaces t) with
                              | Some t => Val (mkOp M_IDX reg v e, t)
                              | None => Val (mkOp M_NONE reg v MISSING_CLOSING_PAREN, 40 :: u)
                              end)).
Proof.
  intros PL B0. eexists (fun r => bind r _). split.
  { unfold parseOperand. cbv zeta.
    pose proof (starts_skip b0 [40] u B0 (open_starts [])) as SK. cbn [app] in SK. rewrite SK, PL.
    pose proof (starts_eol [40] u (open_starts [])) as SE. cbn [app] in SE. rewrite SE.
    rewrite (P_Z80.reg_none (40 :: u)) by (left; reflexivity). cbn [bind]. change (REG_UNDEF =? REG_C) with false. cbv iota.
    rewrite (P_Z80.cc_none (40 :: u)) by (left; reflexivity). cbn [bind]. change (CC_UNDEF =? CC_UNDEF) with true. cbn [negb].
    change (REG_UNDEF =? REG_UNDEF) with true. cbn [negb]. cbn [expect_char]. change (40 =? 40) with true. cbv iota. reflexivity. }
  split.
  - intros r ->. cbn [bind]. change (REG_UNDEF =? REG_UNDEF) with true. cbv iota. reflexivity.
  - intros r reg t -> IR PT. cbn [bind]. assert (NU : (reg =? REG_UNDEF) = false) by (cbn in IR; destruct IR as [<-|[<-|[]]]; reflexivity). rewrite NU.
    destruct t as [|c t]; [cbn in PT; lia|]. cbn [peek] in PT.
    assert (SK : skipSpaces (c :: t) = c :: t) by (apply skip_none; destruct PT as [->| ->]; reflexivity). rewrite SK.
    replace (expect_char 41 (c :: t)) with (@None text) by (cbn [expect_char]; destruct PT as [->| ->]; reflexivity).
    replace ((peek (c :: t) =? 43) || (peek (c :: t) =? 45)) with true by (cbn [peek]; destruct PT as [->| ->]; reflexivity).
    replace ((reg =? REG_IX) || (reg =? REG_IY)) with true by (cbn in IR; destruct IR as [<-|[<-|[]]]; reflexivity). reflexivity.
Qed.
Lemma parse_opnd a loc b0 o t after v : a_pl a = pl_z80 -> a_radix a = 10 -> 0 <= loc < 2^16 -> opnd_ok o = true -> blanks b0 -> tail after ->
  operand_text loc (a_symbol a) (a_function a) o t after v ->
  (numeric o = true -> int_value v) /\
  exists b, blanks b /\ parseOperand a loc (b0 ++ t) = Val (op_of (kind_o o) v, b ++ after).
Proof.
  intros PL RX AR OK0 B0 T X. unfold opnd_ok in OK0. rewrite !andb_true_iff in OK0. destruct OK0 as ((KO & NN) & TX). apply kind_okb_ok in KO.
  assert (NK : kind_o o <> K_none) by (intros E; rewrite E in NN; discriminate).
  assert (PIECE : forall b u, t = u ++ b ++ after -> blanks b -> kwidth (kind_o o) = 0%nat -> piece any_dis (kind_o o) (Some true) loc [] u [] 0 ->
    exists b, blanks b /\ parseOperand a loc (b0 ++ t) = Val (op_of (kind_o o) v, b ++ after)).
  { intros b u -> BB W P. destruct (parse_piece any_dis (kind_o o) true loc [] u [] 0 a b0 b after PL RX NK KO P ltac:(cbn; lia) AR B0 BB T) as (_ & b' & op & B' & E & (w & -> & _) & _).
    exists b'. split; [exact B'|]. rewrite E. now rewrite (op_same _ w v W). }
  assert (C41 : forall b, match 41 :: b ++ after with [] => True | c :: _ => c = 44 \/ c = 59 \/ (c = 41 /\ c <> 0) end) by (intros b; right; right; split; [reflexivity|discriminate]).
  destruct o as [n|n| | |n]; cbn [operand_text numeric] in *.
  - split; [discriminate|]. destruct X as (b & E & BB). apply (PIECE b (s2l n)); auto.
    + destruct (kind_o (Reg n)); try discriminate; reflexivity.
    + destruct (kind_o (Reg n)); try discriminate; cbn [piece]; apply same_text_ok in TX; auto.
  - split; [discriminate|]. destruct X as (b & E & BB). apply (PIECE b (40 :: s2l n ++ [41])); auto.
    + rewrite E. cbn [app]. now rewrite <- app_assoc.
    + destruct (kind_o (At n)); try discriminate; reflexivity.
    + destruct (kind_o (At n)); try discriminate; cbn [piece]; apply same_text_ok in TX; rewrite TX; auto.
  - destruct X as (SN & N40 & EX). destruct (parse_until fam_z80 a loc 0 t after v ltac:(cbn; auto 20) PL RX ltac:(cbn; auto) EX) as (IV & b & BB & PI).
    { destruct T as [->|(c & u & -> & C)]; cbn; tauto. }
    split; [auto|]. exists b. split; [exact BB|]. unfold parseOperand. cbv zeta. pose proof (number_starts _ _ SN) as ST.
    pose proof (starts_skip b0 t [] B0 ST) as SK. rewrite app_nil_r in SK. rewrite SK, PL. pose proof (starts_eol t [] ST) as SE. rewrite app_nil_r in SE. rewrite SE.
    rewrite (reg_missing t (z80_registers ++ z80_conditions)) by (vm_compute; reflexivity || exact SN). cbn [bind]. change (REG_UNDEF =? REG_C) with false. cbv iota.
    rewrite (cc_missing t (z80_registers ++ z80_conditions)) by (vm_compute; reflexivity || exact SN). cbn [bind]. change (CC_UNDEF =? CC_UNDEF) with true. cbn [negb].
    change (REG_UNDEF =? REG_UNDEF) with true. cbn [negb].
    replace (expect_char 40 t) with (@None text). 2:{ destruct t as [|c t]; [reflexivity|]. cbn [peek] in N40. cbn [expect_char]. apply Z.eqb_neq in N40. now rewrite N40. }
    rewrite PI. cbn [bind]. reflexivity.
  - destruct X as (b1 & s & b & -> & B1 & SN & EX & BB). destruct (parse_until fam_z80 a loc 41 s (41 :: b ++ after) v ltac:(cbn; auto 20) PL RX ltac:(cbn; auto) EX (C41 b)) as (IV & b2 & B2 & PI).
    split; [auto|]. exists b. split; [exact BB|]. destruct (open_parse a loc b0 (b1 ++ s) PL B0) as (k & -> & K1 & _).
    pose proof (starts_skip b1 s [] B1 (number_starts _ _ SN)) as SK. rewrite app_nil_r in SK. rewrite K1; rewrite SK; [|now apply (reg_missing s z80_registers)].
    rewrite PI. cbn [bind]. change (hasError OK) with false. cbv iota. rewrite skip_blanks by exact B2. rewrite (skip_none 41) by reflexivity. cbn [expect_char]. change (41 =? 41) with true. reflexivity.
  - destruct X as (s & b & -> & PS & EX & BB). destruct (parse_until fam_z80 a loc 41 s (41 :: b ++ after) v ltac:(cbn; auto 20) PL RX ltac:(cbn; auto) EX (C41 b)) as (IV & b2 & B2 & PI).
    split; [auto|]. exists b. split; [exact BB|]. destruct (open_parse a loc b0 (s2l n ++ s) PL B0) as (k & -> & _ & K2).
    destruct (kind_o (Index n)) as [| | | | | | | | |r|] eqn:EK; try discriminate. apply same_text_ok in TX. cbn [kind_ok] in KO.
    destruct (reg_read true r s (idx_regs _ KO)) as (ST & RR & _). { destruct PS as [->| ->]; reflexivity. } rewrite <- TX in ST, RR.
    pose proof (starts_skip [] (s2l n) s (Forall_nil _) ST) as SK. cbn [app] in SK. rewrite SK, (K2 _ r s RR KO PS).
    rewrite PI. cbn [bind]. change (hasError OK) with false. cbv iota. rewrite skip_blanks by exact B2. rewrite (skip_none 41) by reflexivity. cbn [expect_char]. change (41 =? 41) with true. reflexivity.
Qed.

(* ------------------------------------------------------------ the line *)
Definition kind2 (f : form) : kind := match fm_second f with Some o => kind_o o | None => K_none end.
Definition numeric2 (f : form) : bool := match fm_second f with Some o => numeric o | None => false end.
Definition form_ok (f : form) : bool :=
  opnd_ok (fm_first f) && match fm_second f with Some o => opnd_ok o | None => true end &&
  plain_name sp_intel [] z80_directives (s2l (fm_name f)) && is_alpha (peek (s2l (fm_name f))).
Definition searched (f : form) : option (Z * entry) :=
  match z80_searchName (s2l (fm_name f)) (o_mode (op_of (kind_o (fm_first f)) v_undef)) (o_mode (op_of (kind2 f) v_undef)) with
  | Val (OK, Some r) => Some r
  | _ => None
  end.
Lemma parse_form a loc b0 f t rest v1 v2 : a_pl a = pl_z80 -> a_radix a = 10 -> 0 <= loc < 2^16 -> form_ok f = true -> blanks b0 -> last_rest rest ->
  operands_text loc (a_symbol a) (a_function a) f t rest v1 v2 ->
  (numeric (fm_first f) = true -> int_value v1) /\ (numeric2 f = true -> int_value v2) /\
  parseOperands a loc (skipSpaces (b0 ++ t)) = Val (Two (op_of (kind_o (fm_first f)) v1) (op_of (kind2 f) v2) rest).
Proof.
  intros PL RX AR FK B0 LR X. unfold form_ok in FK. rewrite !andb_true_iff in FK. destruct FK as (((O1 & O2) & _) & _).
  assert (SKP : forall u, parseOperand a loc (skipSpaces u) = parseOperand a loc u) by (intros u; unfold parseOperand; now rewrite skip_skip).
  unfold operands_text, kind2, numeric2 in *. destruct (fm_second f) as [o|].
  - destruct X as (b & t2 & X1 & BB & X2).
    destruct (parse_opnd a loc b0 _ t (44 :: b ++ t2) v1 PL RX AR O1 B0 ltac:(right; eauto) X1) as (I1 & b1 & B1 & P1).
    destruct (parse_opnd a loc b o t2 rest v2 PL RX AR O2 BB (last_tail _ LR) X2) as (I2 & b2 & B2 & P2).
    split; [exact I1|]. split; [exact I2|]. unfold parseOperands. rewrite SKP, P1. cbn [bind]. rewrite op_err. change (hasError OK) with false. cbv iota. cbv zeta.
    rewrite skip_blanks by exact B1. rewrite (skip_none 44) by reflexivity. cbn [expect_char]. change (44 =? 44) with true. cbv iota.
    rewrite P2. cbn [bind]. rewrite op_err. change (hasError OK) with false. cbv iota. now rewrite last_skip by assumption.
  - destruct (parse_opnd a loc b0 _ t rest v1 PL RX AR O1 B0 (last_tail _ LR) X) as (I1 & b1 & B1 & P1).
    split; [exact I1|]. split; [discriminate|]. unfold parseOperands. rewrite SKP, P1. cbn [bind]. rewrite op_err. change (hasError OK) with false. cbv iota. cbv zeta.
    rewrite last_skip by assumption. now rewrite last_nocomma by assumption.
Qed.
Definition fin (addr p : Z) (e : entry) (o1 o2 : operand) : res insn :=
  bind (encodeOperand (e_ixbit e) o1 (e_dst e) o2 (mkAI (new_insn addr) OK p (e_opc e))) (fun ai =>
    bind (encodeOperand (e_ixbit e) o2 (e_src e) o1 ai) (fun ai =>
      let ai := if e_ixbit e then ai else ai_emitInsn ai in
      Val (i_seterr (ai_err ai) (ai_insn ai)))).
Lemma form_encode a indent gap b0 f t rest v1 v2 addr p e : a_pl a = pl_z80 -> a_radix a = 10 -> a_aw a = 16 -> 0 <= addr < 2^16 -> form_ok f = true ->
  searched f = Some (p, e) -> blanks indent -> blanks gap -> gap <> [] -> blanks b0 -> last_rest rest ->
  operands_text addr (a_symbol a) (a_function a) f t rest v1 v2 ->
  (numeric (fm_first f) = true -> int_value v1) /\ (numeric2 f = true -> int_value v2) /\
  z80_encode a (indent ++ s2l (fm_name f) ++ gap ++ b0 ++ t) addr =
  bind (fin addr p e (op_of (kind_o (fm_first f)) v1) (op_of (kind2 f) v2)) (fun i => Val (L_insn i rest)).
Proof.
  intros PL RX AW AR FK SE BI BG NG B0 LR X. destruct (parse_form a addr b0 f t rest v1 v2 PL RX AR FK B0 LR X) as (I1 & I2 & PO). split; [exact I1|]. split; [exact I2|].
  unfold form_ok in FK. rewrite !andb_true_iff in FK. destruct FK as ((_ & PN) & AL).
  assert (CA : checkAddr 16 addr false = OK) by (apply (proj1 (C31_addr 16 addr false ltac:(lia) ltac:(lia))); split; [exact (proj2 AR)|discriminate]).
  unfold z80_encode. rewrite line_insn; [| | |exact BI|exact BG| |].
  - unfold z80_encodeImpl. rewrite PO. cbn [bind].
    assert (M : forall K w, o_mode (op_of K w) = o_mode (op_of K v_undef)) by (intros []; reflexivity). rewrite (M (kind_o _) v1), (M (kind2 f) v2).
    unfold searched in SE. destruct (z80_searchName _ _ _) as [[er r]| | | |]; try discriminate. destruct er; try discriminate. destruct r as [[p1 e1]|]; [|discriminate].
    injection SE as -> ->. cbn [bind i_err new_insn]. change (setErrorIfAt OK OK) with OK. change (isOK OK) with true. cbn [negb]. unfold fin.
    destruct (encodeOperand (e_ixbit e) (op_of (kind_o (fm_first f)) v1) (e_dst e) _ _) as [ai| | | |]; try reflexivity. cbn [bind].
    destruct (encodeOperand (e_ixbit e) _ _ _ ai) as [ai2| | | |]; reflexivity.
  - rewrite PL. exact PN.
  - intros z. rewrite PL. change (p_line pl_z80) with (p_eol pl_z80). apply starts_eol. destruct (s2l (fm_name f)) as [|c u]; [discriminate|]. cbn [peek] in AL.
    unfold starts. cbn [peek]. unfold is_alpha, is_upper, is_lower, is_space in *. repeat split; try discriminate; lia.
  - rewrite PL. destruct gap as [|c gap]; [congruence|]. inversion BG as [|? ? C ?]; subst. cbn [app peek]. apply space_cases in C.
    destruct C as [->|[->|[->|[->|[->| ->]]]]]; reflexivity.
  - rewrite AW. exact CA.
Qed.

(* ------------------------------------------------------------ the bytes *)
Lemma fail_er (b : bool) e i e0 p o : (if b then ai_setErrorIf e (mkAI i e0 p o) else mkAI i e0 p o) = mkAI i (er1 b e0 e) p o.
Proof. now destruct b. Qed.
Lemma fin_err addr p o nb e : byte p -> byte o -> (length nb <= 8)%nat ->
  let ai := ai_emitInsn (mkAI (part addr (base p) nb) e p o) in
  i_code (i_seterr (ai_err ai) (ai_insn ai)) = opcode_bytes p o ++ nb /\ i_err (i_seterr (ai_err ai) (ai_insn ai)) = e.
Proof.
  intros BP BO L. cbv zeta. destruct (part_done p o addr nb BP BO ltac:(lia)) as (D1 & D2).
  unfold ai_emitInsn, ai_set, base, opcode_bytes. cbn [ai_insn ai_err ai_opc ai_prefix].
  destruct (p =? 0); cbn [negb ai_insn ai_err ai_opc ai_prefix app]; rewrite ?D1, ?D2; (split; [|reflexivity]); unfold i_code, i_seterr; cbn [i_len i_bytes].
  - fold (i_code (canon addr (o :: nb))). apply canon_code.
  - fold (i_code (canon addr (p :: o :: nb))). apply canon_code.
Qed.
Definition num_bytes (m v : Z) : list Z := if (m =? M_IM16) || (m =? M_ABS) then [v mod 256; v / 256 mod 256] else [v mod 256].
Definition num_ok (m v : Z) : bool :=
  if m =? M_IM8 then (-128 <=? v) && (v <=? 255) else if m =? M_IOA then (0 <=? v) && (v <=? 255)
  else if m =? M_IDX then (-128 <=? v) && (v <=? 127) else true.
Definition numK (K : kind) : bool := match K with K_word | K_abs | K_idx _ => true | _ => false end.
Definition fitsN (K : kind) (m : Z) : bool :=
  match K with
  | K_word => (m =? M_IM8) || (m =? M_IM16)
  | K_abs => (m =? M_IOA) || (m =? M_ABS)
  | K_idx _ => m =? M_IDX
  | _ => false
  end.
Definition embN (K : kind) (m : Z) (K' : kind) (po : Z * Z) (q : Z) : option (Z * Z) :=
  if numK K then
    if (m =? q) && fitsN K m then Some (match K with K_idx r => if r =? REG_IX then PREFIX_IX else PREFIX_IY | _ => fst po end, snd po) else None
  else emb K m K' po.
(* modes without bytes, also after an error *)
Lemma silent_er op m other other' i i' p o p' o' j er : emits m = false -> o_reg other = o_reg other' -> o_err op = OK ->
  encodeOperand false op m other' (mkAI i' OK p o) = Val (mkAI j OK p' o') ->
  encodeOperand false op m other (mkAI i er p o) = Val (mkAI i er p' o').
Proof.
  unfold emits. cbn [existsb]. rewrite !orb_false_iff. intros (E1 & E2 & E3 & E4 & E5 & E6 & _) RO EO.
  unfold encodeOperand. cbv zeta. rewrite E1, E2, E3, E4, E5, E6, RO, EO, !noerr. cbn [orb].
  repeat match goal with |- context [if ?c then _ else _] => destruct c end;
    unfold encodeIndexReg, ai_embed, ai_setprefix, ai_setErrorIf; cbn [ai_insn ai_err ai_prefix ai_opc]; try congruence; discriminate.
Qed.
Lemma step_op K m K' v w q addr er p o p' o' nb : embN K m K' (p, o) q = Some (p', o') -> (numK K = true -> int_value v) -> (kwidth K = 0%nat \/ numK K = true) -> (length nb <= 4)%nat ->
  encodeOperand false (op_of K v) m (op_of K' w) (mkAI (part addr (base p) nb) er p o) =
  Val (mkAI (part addr (base p) (nb ++ if numK K then num_bytes q (int_of v) else [])) (er1 (numK K && negb (num_ok q (int_of v))) er OVERFLOW_RANGE) p' o').
Proof.
  intros E IV W L. unfold embN in E. destruct (numK K) eqn:NK.
  - specialize (IV eq_refl). destruct (m =? q) eqn:Q; [|discriminate]. apply Z.eqb_eq in Q. subst q. destruct (fitsN K m) eqn:F; [|discriminate]. cbn [andb fst snd] in E. injection E as <- <-.
    unfold encodeOperand. cbv zeta. rewrite op_err, noerr. cbn [andb].
    destruct K; try discriminate; cbn [fitsN op_of o_val o_reg] in *; [apply orb_true_iff in F; destruct F as [F|F]| apply orb_true_iff in F; destruct F as [F|F]|]; apply Z.eqb_eq in F; subst m;
      cbn [Z.eqb M_IM8 M_IM16 M_ABS M_IOA M_IDX R_IDX I_IDX Pos.eqb orb num_bytes num_ok negb].
    + unfold overflowUint8. rewrite over_b by (exact IV || lia). rewrite fail_er. rewrite (emit8 (int_of v mod 256)); [reflexivity|apply mod_byte|now apply low8|lia].
    + rewrite (emit16 (int_of v mod 256) (int_of v / 256 mod 256)); [reflexivity|apply mod_byte|apply mod_byte| |lia]. unfold u16. rewrite low16 by exact IV. lia.
    + rewrite over_b by (exact IV || lia). rewrite fail_er. rewrite (emit8 (int_of v mod 256)); [reflexivity|apply mod_byte|now apply low8|lia].
    + rewrite (emit16 (int_of v mod 256) (int_of v / 256 mod 256)); [reflexivity|apply mod_byte|apply mod_byte| |lia]. unfold u16. rewrite low16 by exact IV. lia.
    + unfold overflowInt8. rewrite over_b by (exact IV || lia). rewrite fail_er. rewrite (emit8 (int_of v mod 256)); [|apply mod_byte|now apply low8|lia].
      unfold encodeIndexReg, ai_setprefix. cbn [ai_insn ai_err ai_opc]. reflexivity.
  - destruct W as [W|W]; [|discriminate]. unfold emb in E. rewrite W in E. destruct (emits m) eqn:EM; [discriminate|].
    destruct (encodeOperand false (op_of K v_undef) m (op_of K' v_undef) (mkAI (new_insn 0) OK p o)) as [[j e1 p1 o1]| | | |] eqn:EN; try discriminate.
    destruct e1; try discriminate. injection E as -> ->. rewrite (op_same K v v_undef W), app_nil_r. cbn [andb er1].
    apply (silent_er _ _ _ (op_of K' v_undef) _ (new_insn 0) p o p' o' j); auto; [apply op_reg|apply op_err].
Qed.
Lemma kind_numeric o : opnd_ok o = true -> numK (kind_o o) = numeric o /\ (kwidth (kind_o o) = 0%nat \/ numK (kind_o o) = true).
Proof.
  unfold opnd_ok. rewrite !andb_true_iff. intros ((KO & NN) & TX). destruct o; cbn [numeric]; try (split; [reflexivity|now right]);
    destruct (kind_o _); try discriminate; auto.
Qed.
Definition check_plain (f : form) (q1 q2 : Z) : bool :=
  form_ok f &&
  match searched f with
  | Some (p0, e) =>
    negb (e_ixbit e) &&
    match embN (kind_o (fm_first f)) (e_dst e) (kind2 f) (p0, e_opc e) q1 with
    | Some (p1, o1) =>
      Bool.eqb (p1 =? 0) (p0 =? 0) &&
      match embN (kind2 f) (e_src e) (kind_o (fm_first f)) (p1, o1) q2 with
      | Some (p2, o2) => Bool.eqb (p2 =? 0) (p0 =? 0) && same_text (opcode_bytes p2 o2) (fm_code f) &&
          (0 <=? p2) && (p2 <? 256) && (0 <=? o2) && (o2 <? 256)
      | None => false
      end
    | None => false
    end
  | None => false
  end.
Definition bytes1 (f : form) (q v : Z) : list Z := if numeric (fm_first f) then num_bytes q v else [].
Definition bytes2 (f : form) (q v : Z) : list Z := if numeric2 f then num_bytes q v else [].
Definition ok1 (f : form) (q v : Z) : bool := negb (numeric (fm_first f)) || num_ok q v.
Definition ok2 (f : form) (q v : Z) : bool := negb (numeric2 f) || num_ok q v.
Ltac modes := cbn [Z.eqb M_NONE M_IM8 M_IM16 M_ABS M_IOA M_IDX R_IDX I_IDX M_REL M_CC4 M_CC8 M_R16 M_NOHL M_R16X M_STK I_PTR M_SRC M_SR8 M_DST M_DR8 R_R M_VEC M_BIT M_IMMD Pos.eqb orb].
Section Lines.
Variables (symbol : text -> option value) (function : text -> option functor) (indent gap b0 : text) (t rest : text) (v1 v2 : value) (addr : Z) (f : form).
Hypotheses (BI : blanks indent) (BG : blanks gap) (NG : gap <> []) (B0 : blanks b0) (AR : 0 <= addr < 2^16) (LR : line_end rest).
Hypothesis OT : operands_text addr symbol function f t rest v1 v2.
Let a := z80_asm symbol function 10.
Let line := indent ++ s2l (fm_name f) ++ gap ++ b0 ++ t.
Lemma plain_line q1 q2 : check_plain f q1 q2 = true ->
  exists i, z80_encode a line addr = Val (L_insn i rest) /\ i_code i = fm_code f ++ bytes1 f q1 (int_of v1) ++ bytes2 f q2 (int_of v2) /\
    i_err i = if ok1 f q1 (int_of v1) && ok2 f q2 (int_of v2) then OK else OVERFLOW_RANGE.
Proof.
  intros CK. unfold check_plain in CK. rewrite andb_true_iff in CK. destruct CK as (FK & CK). destruct (searched f) as [[p0 e]|] eqn:SE; [|discriminate].
  destruct (form_encode a indent gap b0 f t rest v1 v2 addr p0 e eq_refl eq_refl eq_refl AR FK SE BI BG NG B0 LR OT) as (I1 & I2 & EN). fold line in EN. rewrite EN. clear EN.
  rewrite andb_true_iff in CK. destruct CK as (NX & CK). apply negb_true_iff in NX.
  set (K1 := kind_o (fm_first f)) in *. set (K2 := kind2 f) in *.
  destruct (embN K1 (e_dst e) K2 (p0, e_opc e) q1) as [[p1 o1]|] eqn:M1; [|discriminate]. rewrite andb_true_iff in CK. destruct CK as (Z1 & CK).
  destruct (embN K2 (e_src e) K1 (p1, o1) q2) as [[p2 o2]|] eqn:M2; [|discriminate]. rewrite !andb_true_iff in CK. destruct CK as (((((Z2 & SC) & P0) & P1) & O0) & O1).
  apply eqb_prop in Z1, Z2. apply same_text_ok in SC.
  assert (NUM1 : numK K1 = numeric (fm_first f) /\ (kwidth K1 = 0%nat \/ numK K1 = true)).
  { apply kind_numeric. unfold form_ok in FK. rewrite !andb_true_iff in FK. tauto. }
  assert (NUM2 : numK K2 = numeric2 f /\ (kwidth K2 = 0%nat \/ numK K2 = true)).
  { unfold K2, kind2, numeric2 in *. unfold form_ok in FK. destruct (fm_second f) as [o|]; [|cbn; auto]. apply kind_numeric. rewrite !andb_true_iff in FK. tauto. }
  destruct NUM1 as (N1 & W1). destruct NUM2 as (N2 & W2).
  assert (BASE : base p1 = base p0 /\ base p2 = base p0) by (unfold base; rewrite Z1, Z2; auto). destruct BASE as (BA1 & BA2).
  unfold fin. rewrite NX. change (new_insn addr) with (part addr (base p0) []).
  rewrite (step_op K1 (e_dst e) K2 v1 v2 q1 addr OK p0 (e_opc e) p1 o1 [] M1 ltac:(rewrite N1; exact I1) W1 ltac:(cbn; lia)).
  cbn [bind app]. rewrite <- BA1, N1. fold (bytes1 f q1 (int_of v1)).
  assert (L1 : (length (bytes1 f q1 (int_of v1)) <= 2)%nat) by (unfold bytes1, num_bytes; destruct (numeric (fm_first f)); [destruct (_ || _)|]; cbn; lia).
  assert (L2 : (length (bytes2 f q2 (int_of v2)) <= 2)%nat) by (unfold bytes2, num_bytes; destruct (numeric2 f); [destruct (_ || _)|]; cbn; lia).
  rewrite (step_op K2 (e_src e) K1 v2 v1 q2 addr _ p1 o1 p2 o2 (bytes1 f q1 (int_of v1)) M2 ltac:(rewrite N2; exact I2) W2 ltac:(lia)).
  cbn [bind]. rewrite BA1, <- BA2, N2. fold (bytes2 f q2 (int_of v2)).
  destruct (fin_err addr p2 o2 (bytes1 f q1 (int_of v1) ++ bytes2 f q2 (int_of v2)) (er1 (numeric2 f && negb (num_ok q2 (int_of v2))) (er1 (numeric (fm_first f) && negb (num_ok q1 (int_of v1))) OK OVERFLOW_RANGE) OVERFLOW_RANGE)
    ltac:(unfold byte; lia) ltac:(unfold byte; lia) ltac:(rewrite app_length; lia)) as (C & E).
  eexists. split; [reflexivity|]. rewrite C, E, SC. split; [reflexivity|].
  unfold ok1, ok2. destruct (numeric (fm_first f)), (numeric2 f), (num_ok q1 (int_of v1)), (num_ok q2 (int_of v2)); reflexivity.
Qed.
(* branches *)
Lemma step_rel other v o : int_value v -> addr <= 65534 -> exists er,
  encodeOperand false (mkOp M_IM16 REG_UNDEF v OK) M_REL other (mkAI (part addr 1 []) OK 0 o) = Val (mkAI (part addr 1 [(int_of v - (addr + 2)) mod 256]) er 0 o) /\
  (er = OK <-> int_of v mod 2^32 < 65536 /\ -128 <= int_of v mod 2^32 - (addr + 2) <= 127).
Proof.
  intros IV BD. unfold encodeOperand. cbv zeta. cbn [o_err o_val]. rewrite noerr.
  cbn [Z.eqb M_IM8 M_IM16 M_ABS M_IOA M_IDX R_IDX I_IDX M_REL Pos.eqb orb].
  unfold encodeRelative. cbv zeta. cbn [ai_insn ai_err o_err o_val]. change (isOK OK) with true. cbn [negb].
  change (i_addr (part addr 1 [])) with addr. replace (u32 (addr + 2)) with (addr + 2) by (unfold u32; symmetry; apply Z.mod_small; lia).
  destruct (branch_byte (addr + 2) v IV ltac:(lia)) as (dl & e & far & -> & -> & MD & X). unfold ai_seterr. cbn [ai_insn ai_opc ai_prefix]. rewrite fail_er.
  change 1%nat with (base 0). rewrite (emit8 ((int_of v - (addr + 2)) mod 256)); [|apply mod_byte|exact MD|cbn; lia]. eexists. split; [reflexivity|exact X].
Qed.
Definition check_rel : bool :=
  form_ok f &&
  match searched f with
  | Some (0, e) =>
    negb (e_ixbit e) && (0 <=? e_opc e) && (e_opc e <? 256) &&
    match fm_first f, fm_second f with
    | Num, None => (e_dst e =? M_REL) && (e_src e =? M_NONE) && same_text (fm_code f) [e_opc e]
    | Reg _, Some Num => (e_src e =? M_REL) &&
      match emb (kind_o (fm_first f)) (e_dst e) K_word (0, e_opc e) with Some (0, o) => same_text (fm_code f) [o] && (0 <=? o) && (o <? 256) | _ => false end
    | _, _ => false
    end
  | _ => false
  end.
Lemma rel_line : check_rel = true -> v1 = v2 -> addr <= 65534 ->
  exists i, z80_encode a line addr = Val (L_insn i rest) /\ i_code i = fm_code f ++ [(int_of v1 - (addr + 2)) mod 256] /\
    (i_err i = OK <-> int_of v1 mod 2^32 < 65536 /\ -128 <= int_of v1 mod 2^32 - (addr + 2) <= 127).
Proof.
  intros CK EV BD. unfold check_rel in CK. rewrite andb_true_iff in CK. destruct CK as (FK & CK). destruct (searched f) as [[p0 e]|] eqn:SE; [|discriminate].
  destruct p0; try discriminate. rewrite !andb_true_iff in CK. destruct CK as (((NX & O0) & O1) & CK). apply negb_true_iff in NX.
  destruct (form_encode a indent gap b0 f t rest v1 v2 addr 0 e eq_refl eq_refl eq_refl AR FK SE BI BG NG B0 LR OT) as (I1 & I2 & EN). fold line in EN. rewrite EN. clear EN.
  unfold fin. rewrite NX. change (new_insn addr) with (part addr 1 []).
  assert (FIN : forall o er, byte o -> fm_code f = [o] -> exists i, Val (L_insn (i_seterr (ai_err (ai_emitInsn (mkAI (part addr 1 [(int_of v1 - (addr + 2)) mod 256]) er 0 o)))
      (ai_insn (ai_emitInsn (mkAI (part addr 1 [(int_of v1 - (addr + 2)) mod 256]) er 0 o)))) rest) = Val (L_insn i rest) /\
      i_code i = fm_code f ++ [(int_of v1 - (addr + 2)) mod 256] /\ i_err i = er).
  { intros o er BO FC. eexists. split; [reflexivity|]. rewrite FC. exact (fin_err addr 0 o [(int_of v1 - (addr + 2)) mod 256] er ltac:(unfold byte; lia) BO ltac:(cbn; lia)). }
  unfold kind2 in *. unfold numeric2 in *. destruct (fm_first f) as [n|n| | |n] eqn:EF; try discriminate.
  - destruct (fm_second f) as [[]|]; try discriminate. rewrite andb_true_iff in CK. destruct CK as (ES & CK). apply Z.eqb_eq in ES.
    specialize (I2 eq_refl). rewrite <- EV in *.
    destruct (emb (kind_o (Reg n)) (e_dst e) K_word (0, e_opc e)) as [[p1 o1]|] eqn:EM; [|discriminate]. destruct p1; try discriminate.
    rewrite !andb_true_iff in CK. destruct CK as ((SC & P0) & P1). apply same_text_ok in SC.
    assert (FO : opnd_ok (Reg n) = true). { unfold form_ok in FK. rewrite EF, !andb_true_iff in FK. tauto. }
    destruct (kind_numeric _ FO) as (N1 & [W1|W1]); [|rewrite N1 in W1; discriminate].
    pose proof (step_op (kind_o (Reg n)) (e_dst e) K_word v1 v1 0 addr OK 0 (e_opc e) 0 o1 []) as ST. unfold embN in ST. rewrite N1 in ST. cbn [numeric] in ST.
    specialize (ST EM ltac:(discriminate) (or_introl W1) ltac:(cbn; lia)). cbn [app andb er1] in ST. change (base 0) with 1%nat in ST.
    change (kind_o Num) with K_word. rewrite ST. cbn [bind op_of]. rewrite ES. destruct (step_rel (op_of (kind_o (Reg n)) v1) v1 o1 I2 BD) as (er & -> & X). cbn [bind].
    destruct (FIN o1 er ltac:(unfold byte; lia) SC) as (i & E & C & EI). exists i. rewrite E, EI. auto.
  - destruct (fm_second f) as [[]|]; try discriminate. rewrite !andb_true_iff in CK. destruct CK as ((ED & ES) & SC). apply Z.eqb_eq in ED, ES. apply same_text_ok in SC.
    specialize (I1 eq_refl). change (kind_o Num) with K_word. cbn [op_of]. rewrite ED, ES. destruct (step_rel no_operand v1 (e_opc e) I1 BD) as (er & -> & X). cbn [bind].
    unfold encodeOperand at 1. cbv zeta. cbn [o_err no_operand]. rewrite noerr. change (M_NONE =? M_IM8) with false.
    cbn [Z.eqb M_NONE M_IM8 M_IM16 M_ABS M_IOA M_IDX R_IDX I_IDX M_REL M_CC4 M_CC8 M_R16 M_NOHL M_R16X M_STK I_PTR M_SRC M_SR8 M_DST M_DR8 R_R M_VEC M_BIT M_IMMD Pos.eqb orb].
    cbn [bind]. destruct (FIN (e_opc e) er ltac:(unfold byte; lia) SC) as (i & E & C & EI). exists i. rewrite EI. split; [exact E|]. auto.
Qed.
(* the number of a bit *)
Definition eight : list Z := [0; 1; 2; 3; 4; 5; 6; 7].
Lemma in_eight x : In (x mod 8) eight.
Proof.
  assert (0 <= x mod 8 < 8) by (apply Z.mod_pos_bound; lia). unfold eight. cbn [In]. lia.
Qed.
Definition with_bit (o b : Z) : Z := u8 (Z.lor o (Z.shiftl b 3)).
Lemma step_bit ixb other v i p o : int_value v ->
  encodeOperand ixb (mkOp M_IM16 REG_UNDEF v OK) M_BIT other (mkAI i OK p o) =
  Val (mkAI i (er1 (negb ((0 <=? int_of v) && (int_of v <=? 7))) OK ILLEGAL_BIT_NUMBER) p (with_bit o (int_of v mod 8))).
Proof.
  intros IV. unfold encodeOperand. cbv zeta. cbn [o_err o_val]. rewrite noerr. modes.
  change (match R_R with Z.pos q => (18 =? q)%positive | _ => false end) with false. cbv iota.
  rewrite over_b by (exact IV || lia). rewrite fail_er. unfold ai_embed. cbn [ai_insn ai_err ai_prefix ai_opc].
  change 7 with (Z.ones 3) at 2. rewrite P_CpuRange.land_low by (exact IV || lia). reflexivity.
Qed.
Lemma step_none other i er p o ixb : encodeOperand ixb no_operand M_NONE other (mkAI i er p o) = Val (mkAI i er p o).
Proof. unfold encodeOperand. cbv zeta. cbn [o_err no_operand]. rewrite noerr. modes. reflexivity. Qed.
Definition check_bit (x : Z) : bool :=
  form_ok f && same_text (fm_code f) [0xCB] && (0 <=? x) && (x + 56 <? 256) &&
  match searched f, fm_first f, fm_second f with
  | Some (p, e), Num, Some o => (p =? 0xCB) && negb (e_ixbit e) && (e_dst e =? M_BIT) && negb (numeric o) &&
      forallb (fun b => match emb (kind_o o) (e_src e) K_word (0xCB, with_bit (e_opc e) b) with Some (p', o') => (p' =? 0xCB) && (o' =? x + 8 * b) | _ => false end) eight
  | _, _, _ => false
  end.
Lemma bit_line x : check_bit x = true ->
  exists i, z80_encode a line addr = Val (L_insn i rest) /\ i_code i = fm_code f ++ [x + 8 * (int_of v1 mod 8)] /\
    i_err i = if (0 <=? int_of v1) && (int_of v1 <=? 7) then OK else ILLEGAL_BIT_NUMBER.
Proof.
  intros CK. unfold check_bit in CK. rewrite !andb_true_iff in CK. destruct CK as ((((FK & SC) & X0) & X1) & CK). apply same_text_ok in SC.
  destruct (searched f) as [[p0 e]|] eqn:SE; [|discriminate]. 
  destruct (form_encode a indent gap b0 f t rest v1 v2 addr p0 e eq_refl eq_refl eq_refl AR FK SE BI BG NG B0 LR OT) as (I1 & I2 & EN). fold line in EN. rewrite EN. clear EN.
  unfold kind2, numeric2 in *. destruct (fm_first f) as [n|n| | |n] eqn:EF; try discriminate. destruct (fm_second f) as [o|] eqn:E2; [|discriminate].
  rewrite !andb_true_iff in CK. destruct CK as ((((EP & NX) & ED) & NO) & CK). apply Z.eqb_eq in EP, ED. apply negb_true_iff in NX, NO. subst p0.
  specialize (I1 eq_refl). rewrite forallb_forall in CK. specialize (CK _ (in_eight (int_of v1))).
  destruct (emb (kind_o o) (e_src e) K_word _) as [[p1 o1]|] eqn:EM; [|discriminate]. apply andb_true_iff in CK. destruct CK as (P1 & O1). apply Z.eqb_eq in P1, O1. subst p1 o1.
  assert (FO : opnd_ok o = true). { unfold form_ok in FK. rewrite E2, !andb_true_iff in FK. tauto. }
  destruct (kind_numeric _ FO) as (N1 & [W1|W1]); [|rewrite N1 in W1; congruence].
  unfold fin. rewrite NX, ED. change (kind_o Num) with K_word. change (new_insn addr) with (part addr (base 0xCB) []).
  change (op_of K_word v1) with (mkOp M_IM16 REG_UNDEF v1 OK) at 1. rewrite step_bit by exact I1. cbn [bind].
  set (er := er1 _ _ _).
  pose proof (step_op (kind_o o) (e_src e) K_word v2 v1 0 addr er 0xCB _ 0xCB _ [] ltac:(unfold embN; rewrite N1, NO; exact EM) ltac:(rewrite N1, NO; discriminate) (or_introl W1) ltac:(cbn; lia)) as ST.
  rewrite N1, NO in ST. cbn [app andb er1] in ST. rewrite ST. cbn [bind].
  assert (0 <= int_of v1 mod 8 < 8) by (apply Z.mod_pos_bound; lia).
  destruct (fin_err addr 0xCB (x + 8 * (int_of v1 mod 8)) [] er ltac:(unfold byte; lia) ltac:(unfold byte; lia) ltac:(cbn; lia)) as (C & E).
  eexists. split; [reflexivity|]. rewrite C, E, SC. split; [reflexivity|]. unfold er. now destruct (_ && _).
Qed.
(* a displacement before the second opcode *)
Lemma step_ix r w other er x : int_value w -> byte x -> let p := if r =? REG_IX then PREFIX_IX else PREFIX_IY in
  encodeOperand true (mkOp M_IDX r w OK) M_IDX other (mkAI (part addr 2 []) er 0xCB x) =
  Val (mkAI (canon addr [p; 0xCB; int_of w mod 256; x]) (er1 (negb ((-128 <=? int_of w) && (int_of w <=? 127))) er OVERFLOW_RANGE) p 0xCB).
Proof.
  intros IV BX p. assert (NP : p <> 0) by (unfold p; destruct (r =? REG_IX); discriminate). assert (BP : byte p) by (unfold p, byte, PREFIX_IX, PREFIX_IY; destruct (r =? REG_IX); lia).
  unfold encodeOperand. cbv zeta. cbn [o_err o_val]. rewrite noerr. modes.
  unfold overflowInt8. rewrite over_b by (exact IV || lia). rewrite fail_er. unfold encodeIndexedBitOp. cbv zeta. cbn [ai_opc ai_prefix o_reg o_val].
  unfold ai_setopc, encodeIndexReg, ai_setprefix. cbn [ai_insn ai_err ai_prefix ai_opc]. fold p.
  assert (B2 : base p = 2%nat) by (unfold base; destruct (Z.eqb_spec p 0); [contradiction|reflexivity]).
  set (er' := er1 _ _ _).
  pose proof (emit8 (int_of w mod 256) (getUnsigned w) addr er' p 0xCB [] (mod_byte _) (low8 _ IV) ltac:(cbn; lia)) as EA. rewrite B2 in EA. rewrite EA. cbn [app].
  pose proof (emit8 x x addr er' p 0xCB [int_of w mod 256] BX ltac:(unfold u8; apply Z.mod_small; exact BX) ltac:(cbn; lia)) as EB. rewrite B2 in EB. rewrite EB. cbn [app].
  destruct (part_done p 0xCB addr [int_of w mod 256; x] BP ltac:(unfold byte; lia) ltac:(cbn; lia)) as (_ & D2).
  unfold ai_emitInsn, ai_set. cbn [ai_insn ai_err ai_opc ai_prefix]. destruct (Z.eqb_spec p 0); [contradiction|]. cbn [negb ai_insn ai_err ai_opc ai_prefix]. rewrite D2. reflexivity.
Qed.
Definition ix_prefix (o : opnd) : Z := match kind_o o with K_idx r => if r =? REG_IX then PREFIX_IX else PREFIX_IY | _ => 0 end.
Definition check_shift (x : Z) : bool :=
  form_ok f && (0 <=? x) && (x <? 256) &&
  match searched f, fm_first f, fm_second f with
  | Some (p, e), Index n, None => same_text (fm_code f) [ix_prefix (Index n); 0xCB] && (p =? 0xCB) && e_ixbit e && (e_dst e =? M_IDX) && (e_src e =? M_NONE) && (e_opc e =? x)
  | _, _, _ => false
  end.
Lemma shift_line x : check_shift x = true ->
  exists i, z80_encode a line addr = Val (L_insn i rest) /\ i_code i = fm_code f ++ [int_of v1 mod 256; x] /\
    i_err i = if (-128 <=? int_of v1) && (int_of v1 <=? 127) then OK else OVERFLOW_RANGE.
Proof.
  intros CK. unfold check_shift in CK. rewrite !andb_true_iff in CK. destruct CK as (((FK & X0) & X1) & CK).
  destruct (searched f) as [[p0 e]|] eqn:SE; [|discriminate]. 
  destruct (form_encode a indent gap b0 f t rest v1 v2 addr p0 e eq_refl eq_refl eq_refl AR FK SE BI BG NG B0 LR OT) as (I1 & I2 & EN). fold line in EN. rewrite EN. clear EN.
  unfold kind2, numeric2 in *. destruct (fm_first f) as [n|n| | |n] eqn:EF; try discriminate. destruct (fm_second f) as [o|] eqn:E2; [discriminate|].
  rewrite !andb_true_iff in CK. destruct CK as (((((SC & EP) & NX) & ED) & ES) & EO). apply Z.eqb_eq in EP, ED, ES, EO. subst p0. apply same_text_ok in SC. specialize (I1 eq_refl).
  assert (FO : opnd_ok (Index n) = true). { unfold form_ok in FK. rewrite EF, !andb_true_iff in FK. tauto. }
  destruct (kind_o (Index n)) as [| | | | | | | | |r|] eqn:EK; try (unfold opnd_ok in FO; rewrite EK, andb_false_r in FO; discriminate).
  unfold ix_prefix in SC. rewrite EK in SC. unfold fin. rewrite NX, ED, ES, EO. change (new_insn addr) with (part addr 2 []). cbn [op_of].
  rewrite step_ix by (auto; unfold byte; lia). cbn [bind]. rewrite step_none. cbn [bind ai_err ai_insn].
  eexists. split; [reflexivity|]. split.
  - unfold i_code, i_seterr. cbn [i_len i_bytes]. rewrite SC. cbn [app]. set (l := [_; _; _; _]). fold (i_code (canon addr l)). apply canon_code.
  - cbn [i_err i_seterr]. now destruct (_ && _).
Qed.
Definition check_ixbit (x : Z) : bool :=
  form_ok f && (0 <=? x) && (x + 56 <? 256) &&
  match searched f, fm_first f, fm_second f with
  | Some (p, e), Num, Some (Index n) => same_text (fm_code f) [ix_prefix (Index n); 0xCB] && (p =? 0xCB) && e_ixbit e && (e_dst e =? M_BIT) && (e_src e =? M_IDX) &&
      forallb (fun b => with_bit (e_opc e) b =? x + 8 * b) eight
  | _, _, _ => false
  end.
Lemma ixbit_line x : check_ixbit x = true ->
  exists i, z80_encode a line addr = Val (L_insn i rest) /\ i_code i = fm_code f ++ [int_of v2 mod 256; x + 8 * (int_of v1 mod 8)] /\
    (i_err i = OK <-> 0 <= int_of v1 <= 7 /\ -128 <= int_of v2 <= 127).
Proof.
  intros CK. unfold check_ixbit in CK. rewrite !andb_true_iff in CK. destruct CK as (((FK & X0) & X1) & CK).
  destruct (searched f) as [[p0 e]|] eqn:SE; [|discriminate]. 
  destruct (form_encode a indent gap b0 f t rest v1 v2 addr p0 e eq_refl eq_refl eq_refl AR FK SE BI BG NG B0 LR OT) as (I1 & I2 & EN). fold line in EN. rewrite EN. clear EN.
  unfold kind2, numeric2 in *. destruct (fm_first f) as [n|n| | |n] eqn:EF; try discriminate. destruct (fm_second f) as [[n|n| | |n]|] eqn:E2; try discriminate.
  rewrite !andb_true_iff in CK. destruct CK as (((((SC & EP) & NX) & ED) & ES) & CK). apply Z.eqb_eq in EP, ED, ES. subst p0. apply same_text_ok in SC. specialize (I1 eq_refl). specialize (I2 eq_refl).
  rewrite forallb_forall in CK. specialize (CK _ (in_eight (int_of v1))). apply Z.eqb_eq in CK.
  assert (FO : opnd_ok (Index n) = true). { unfold form_ok in FK. rewrite E2, !andb_true_iff in FK. tauto. }
  destruct (kind_o (Index n)) as [| | | | | | | | |r|] eqn:EK; try (unfold opnd_ok in FO; rewrite EK, andb_false_r in FO; discriminate).
  unfold ix_prefix in SC. rewrite EK in SC. unfold fin. rewrite NX, ED, ES. change (new_insn addr) with (part addr 2 []). change (kind_o Num) with K_word. cbn [op_of].
  assert (0 <= int_of v1 mod 8 < 8) by (apply Z.mod_pos_bound; lia).
  rewrite step_bit by exact I1. cbn [bind]. rewrite CK, step_ix by (auto; unfold byte; lia). cbn [bind ai_err ai_insn].
  eexists. split; [reflexivity|]. split.
  - unfold i_code, i_seterr. cbn [i_len i_bytes]. rewrite SC. cbn [app]. set (l := [_; _; _; _]). fold (i_code (canon addr l)). apply canon_code.
  - cbn [i_err i_seterr]. rewrite er2_ok by discriminate. lia.
Qed.
End Lines.
(* restarts and interrupt modes *)
Lemma restart_val n : 0 <= n -> Z.land n (Z.lnot 56) = 0 <-> In n [0; 8; 16; 24; 32; 40; 48; 56].
Proof.
  intros N. split.
  - intros H. assert (E : n = Z.land n 56).
    { apply Z.bits_inj'. intros k K. assert (T : Z.testbit (Z.land n (Z.lnot 56)) k = false) by (rewrite H; apply Z.bits_0).
      rewrite Z.land_spec, Z.lnot_spec in T by lia. rewrite Z.land_spec. destruct (Z.testbit n k), (Z.testbit 56 k); cbn in *; congruence. }
    assert (B : 0 <= n < 64). { rewrite E. change 56 with (Z.land 56 (Z.ones 6)). rewrite Z.land_assoc, Z.land_ones by lia. apply Z.mod_pos_bound. lia. }
    assert (X : forallb (fun k => negb (Z.land k (Z.lnot 56) =? 0) || existsb (Z.eqb k) [0; 8; 16; 24; 32; 40; 48; 56]) (map Z.of_nat (seq 0 64)) = true) by (vm_compute; reflexivity).
    rewrite forallb_forall in X. specialize (X n). rewrite H in X. cbn [negb orb Z.eqb] in X.
    assert (I : In n (map Z.of_nat (seq 0 64))). { apply in_map_iff. exists (Z.to_nat n). split; [lia|]. apply in_seq. lia. }
    specialize (X I). apply existsb_exists in X. destruct X as (y & IY & E'). apply Z.eqb_eq in E'. now subst y.
  - intros I. cbn in I. repeat (destruct I as [<-|I]; [reflexivity|]). contradiction.
Qed.
Section Single.
Variables (symbol : text -> option value) (function : text -> option functor) (indent gap b0 : text) (t rest : text) (v : value) (addr : Z).
Hypotheses (BI : blanks indent) (BG : blanks gap) (NG : gap <> []) (B0 : blanks b0) (AR : 0 <= addr < 2^16) (LR : line_end rest).
Let a := z80_asm symbol function 10.
Lemma restart_line : operands_text addr symbol function restart_form t rest v v -> -2^31 <= int_of v < 2^32 ->
  exists i, z80_encode a (indent ++ s2l "RST" ++ gap ++ b0 ++ t) addr = Val (L_insn i rest) /\
    (i_err i = OK <-> In (int_of v) [0; 8; 16; 24; 32; 40; 48; 56]) /\ (i_err i = OK -> i_code i = [0xC7 + int_of v]).
Proof.
  intros OT R. destruct (form_encode a indent gap b0 restart_form t rest v v addr 0 (E1 0xC7 "RST" M_VEC) eq_refl eq_refl eq_refl AR ltac:(vm_compute; reflexivity) ltac:(vm_compute; reflexivity) BI BG NG B0 LR OT) as (I1 & _ & EN).
  cbn [fm_name restart_form one] in EN. rewrite EN. clear EN. specialize (I1 eq_refl).
  unfold fin. change (e_ixbit (E1 0xC7 "RST" M_VEC)) with false. change (e_dst (E1 0xC7 "RST" M_VEC)) with M_VEC. change (e_src (E1 0xC7 "RST" M_VEC)) with M_NONE. change (e_opc (E1 0xC7 "RST" M_VEC)) with 0xC7.
  change (kind_o (fm_first restart_form)) with K_word. change (kind2 restart_form) with K_none. change (op_of K_none v) with no_operand. change (op_of K_word v) with (mkOp M_IM16 REG_UNDEF v OK).
  unfold encodeOperand at 1. cbv zeta. cbn [o_err o_val]. rewrite noerr. modes.
  change (match R_R with Z.pos q => (17 =? q)%positive | _ => false end) with false. cbv iota.
  assert (GU : 0 <= getUnsigned v) by (rewrite getUnsigned_mod by exact I1; apply Z.mod_pos_bound; lia).
  change (Z.lnot 0x38) with (Z.lnot 56). pose proof (restart_val _ GU) as RV.
  assert (SM : forall n, 0 <= n < 2^16 -> getUnsigned v = n <-> int_of v = n). { intros n N. pose proof (small_u v n I1 N R). lia. }
  assert (LI : In (getUnsigned v) [0; 8; 16; 24; 32; 40; 48; 56] <-> In (int_of v) [0; 8; 16; 24; 32; 40; 48; 56]).
  { cbn [In]. split; intros H; repeat (destruct H as [H|H]; [symmetry in H; apply SM in H; [rewrite H; auto 20|lia]|]); contradiction. }
  destruct (Z.eqb_spec (Z.land (getUnsigned v) (Z.lnot 56)) 0) as [E|E]; cbn [negb bind].
  - unfold ai_embed. cbn [ai_insn ai_err ai_prefix ai_opc]. rewrite step_none. cbn [bind].
    assert (IN : In (int_of v) [0; 8; 16; 24; 32; 40; 48; 56]) by (apply LI, RV, E).
    assert (GV : getUnsigned v = int_of v) by (apply SM; cbn [In] in IN; lia). rewrite GV.
    assert (U : u8 (Z.lor 0xC7 (int_of v)) = 0xC7 + int_of v). { cbn [In] in IN. repeat (destruct IN as [<-|IN]; [reflexivity|]). contradiction. } rewrite U.
    destruct (fin_err addr 0 (0xC7 + int_of v) [] OK ltac:(unfold byte; lia) ltac:(unfold byte; cbn [In] in IN; lia) ltac:(cbn; lia)) as (C & X).
    eexists. split; [reflexivity|]. split; [|intros _; exact C]. split; [intros _; exact IN|intros _; exact X].
  - unfold ai_embed, ai_setErrorIf. cbn [ai_insn ai_err ai_prefix ai_opc]. rewrite step_none. cbn [bind]. eexists. split; [reflexivity|].
    assert (X : forall i, i_err (i_seterr (ai_err (ai_emitInsn (mkAI i (setErrorIfAt OK ILLEGAL_OPERAND) 0 (u8 (Z.lor 0xC7 (Z.land (getUnsigned v) (Z.lnot 56))))))) (ai_insn (ai_emitInsn (mkAI i (setErrorIfAt OK ILLEGAL_OPERAND) 0 (u8 (Z.lor 0xC7 (Z.land (getUnsigned v) (Z.lnot 56)))))))) = ILLEGAL_OPERAND) by reflexivity.
    rewrite X. split; [|discriminate]. split; [discriminate|]. intros H. exfalso. apply E, RV, LI, H.
Qed.
Lemma mode_line : operands_text addr symbol function mode_form t rest v v -> -2^31 <= int_of v < 2^32 ->
  exists i, z80_encode a (indent ++ s2l "IM" ++ gap ++ b0 ++ t) addr = Val (L_insn i rest) /\
    (i_err i = OK <-> In (int_of v) [0; 1; 2]) /\ (i_err i = OK -> i_code i = [0xED; if int_of v =? 0 then 0x46 else if int_of v =? 1 then 0x56 else 0x5E]).
Proof.
  intros OT R. destruct (form_encode a indent gap b0 mode_form t rest v v addr 0xED (E1 0x46 "IM" M_IMMD) eq_refl eq_refl eq_refl AR ltac:(vm_compute; reflexivity) ltac:(vm_compute; reflexivity) BI BG NG B0 LR OT) as (I1 & _ & EN).
  cbn [fm_name mode_form one] in EN. rewrite EN. clear EN. specialize (I1 eq_refl).
  unfold fin. change (e_ixbit (E1 0x46 "IM" M_IMMD)) with false. change (e_dst (E1 0x46 "IM" M_IMMD)) with M_IMMD. change (e_src (E1 0x46 "IM" M_IMMD)) with M_NONE. change (e_opc (E1 0x46 "IM" M_IMMD)) with 0x46.
  change (kind_o (fm_first mode_form)) with K_word. change (kind2 mode_form) with K_none. change (op_of K_none v) with no_operand. change (op_of K_word v) with (mkOp M_IM16 REG_UNDEF v OK).
  unfold encodeOperand at 1. cbv zeta. cbn [o_err o_val]. rewrite noerr. modes.
  change (match R_R with Z.pos q => (19 =? q)%positive | _ => false end) with false. cbv iota.
  rewrite !small_u by (exact I1 || exact R || lia).
  assert (FIN : forall o er, byte o -> exists i, bind (bind (Val (mkAI (new_insn addr) er 0xED o)) (fun ai => bind (encodeOperand false no_operand M_NONE (mkOp M_IM16 REG_UNDEF v OK) ai)
     (fun ai => Val (i_seterr (ai_err (ai_emitInsn ai)) (ai_insn (ai_emitInsn ai)))))) (fun i => Val (L_insn i rest)) = Val (L_insn i rest) /\ i_code i = [0xED; o] /\ i_err i = er).
  { intros o er BO. cbn [bind]. rewrite step_none. cbn [bind]. eexists. split; [reflexivity|]. change (new_insn addr) with (part addr (base 0xED) []).
    destruct (fin_err addr 0xED o [] er ltac:(unfold byte; lia) BO ltac:(cbn; lia)) as (C & X). split; [exact C|exact X]. }
  cbn [In]. destruct (Z.eqb_spec (int_of v) 0); [|destruct (Z.eqb_spec (int_of v) 1); [|destruct (Z.eqb_spec (int_of v) 2)]];
    unfold ai_embed, ai_setErrorIf; cbn [ai_insn ai_err ai_prefix ai_opc].
  - destruct (FIN 0x46 OK ltac:(unfold byte; lia)) as (i & E & C & X). exists i. split; [exact E|]. rewrite C, X. intuition lia.
  - destruct (FIN (u8 (Z.lor 0x46 0x10)) OK ltac:(unfold byte; cbn; lia)) as (i & E & C & X). exists i. split; [exact E|]. rewrite C, X. split; [split; [intros _|]; auto|reflexivity].
  - destruct (FIN (u8 (Z.lor 0x46 0x18)) OK ltac:(unfold byte; cbn; lia)) as (i & E & C & X). exists i. split; [exact E|]. rewrite C, X. split; [split; [intros _|]; auto|reflexivity].
  - destruct (FIN 0x46 (setErrorIfAt OK ILLEGAL_OPERAND) ltac:(unfold byte; lia)) as (i & E & C & X). exists i. split; [exact E|]. rewrite C, X. split; [split; [discriminate|lia]|discriminate].
Qed.
End Single.

(* ------------------------------------------------------------ all forms *)
Definition one_number (f : form) : bool := xorb (numeric (fm_first f)) (numeric2 f).
Definition all_plain (m : Z) (l : list form) : bool := forallb (fun f => one_number f && check_plain f m m) l.
Lemma plain_forms : all_plain M_IM8 byte_forms && all_plain M_IOA port_forms && all_plain M_IM16 word_forms && all_plain M_ABS memory_forms && all_plain M_IDX index_forms &&
  forallb (fun f => numeric (fm_first f) && numeric2 f && check_plain f M_IDX M_IM8) index_byte_forms = true.
Proof. vm_compute. reflexivity. Qed.
Lemma other_forms : forallb check_rel branch_forms && forallb (fun '(f, x) => check_bit f x) bit_forms && forallb (fun '(f, x) => check_shift f x) index_shift_forms &&
  forallb (fun '(f, x) => check_ixbit f x) index_bit_forms = true.
Proof. vm_compute. reflexivity. Qed.
Lemma one_plain symbol function indent gap b0 t rest v addr f m l :
  blanks indent -> blanks gap -> gap <> [] -> blanks b0 -> 0 <= addr < 2^16 -> line_end rest -> operands_text addr symbol function f t rest v v ->
  all_plain m l = true -> In f l ->
  exists i, z80_encode (z80_asm symbol function 10) (indent ++ s2l (fm_name f) ++ gap ++ b0 ++ t) addr = Val (L_insn i rest) /\ i_code i = fm_code f ++ num_bytes m (int_of v) /\
    i_err i = if num_ok m (int_of v) then OK else OVERFLOW_RANGE.
Proof.
  intros BI BG NG B0 AR LR OT AP IF. unfold all_plain in AP. rewrite forallb_forall in AP. specialize (AP f IF). apply andb_true_iff in AP. destruct AP as (ON & CP).
  destruct (plain_line symbol function indent gap b0 t rest v v addr f BI BG NG B0 AR LR OT m m CP) as (i & E & C & X). exists i. split; [exact E|]. rewrite C, X.
  unfold one_number, bytes1, bytes2, ok1, ok2 in *. destruct (numeric (fm_first f)), (numeric2 f); try discriminate; cbn [app negb orb andb]; rewrite ?app_nil_r, ?andb_true_r; auto.
Qed.
