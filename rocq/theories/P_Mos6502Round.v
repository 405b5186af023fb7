(** The 6502 family: proof of the round trip, whole instructions. *)
From Coq Require Import String ZArith List Bool Lia ZifyBool.
From Verif Require Import M_Char M_Error M_Value M_Text M_StrBuffer M_Format M_Number M_Insn M_Config M_Operators
  M_Parsers M_Expr M_Directive M_Table T_Tables M_Asm M_Dis M_Mos6502Defs T_Mos6502 M_Mos6502
  S_Value S_Number S_Expr S_ExprTree S_Table P_StrBuffer P_Number P_NumberRead
  P_ExprRead P_ExprTree P_ExprCase P_Table P_Insn P_Config P_Value P_Directive P_AsmText P_CpuShape P_CpuGood P_CpuText P_CpuSigned
  P_Mos6502 P_Mos6502Asm.
Import ListNotations.
Open Scope string_scope.
Open Scope list_scope.
Local Open Scope Z_scope.

(* ------------------------------------------------------------ bytes *)
Lemma pos_eq addr nb e o : ai_operandPos (mkAI (part addr 1 nb) e o) = Z.of_nat (1 + length nb).
Proof. exact (part_at addr 1 nb). Qed.
Lemma emit8 x z addr nb e o : byte x -> u8 z = x -> (length nb <= 8)%nat ->
  ai_emitOperand8 z (mkAI (part addr 1 nb) e o) = mkAI (part addr 1 (nb ++ [x])) e o.
Proof.
  intros X U L. unfold ai_emitOperand8. rewrite U, pos_eq. unfold ai_set. cbn [ai_insn ai_err ai_opc]. now rewrite part_byte by (auto; lia).
Qed.
Lemma emit16 hi lo z addr nb e o : byte hi -> byte lo -> u16 z = 256 * hi + lo -> (length nb <= 8)%nat ->
  ai_emitOperand16 z (mkAI (part addr 1 nb) e o) = mkAI (part addr 1 (nb ++ [lo; hi])) e o.
Proof.
  intros X Y U L. unfold ai_emitOperand16. rewrite U, pos_eq. unfold ai_set. cbn [ai_insn ai_err ai_opc]. rewrite (Z.add_comm (256 * hi)). now rewrite part_le by (auto; lia).
Qed.
Lemma noerr i e o : ai_setErrorIf OK (mkAI i e o) = mkAI i e o.
Proof. unfold ai_setErrorIf, setErrorIfAt. cbn. now rewrite andb_false_r. Qed.
Lemma imm_out w16 op v nb nb0 addr o : int_value (o_val op) -> int_of (o_val op) = v ->
  (if w16 : bool then exists lo hi, nb = [lo; hi] /\ byte hi /\ byte lo /\ v = 256 * hi + lo else nb = [v] /\ byte v) -> (length nb0 <= 8)%nat ->
  emitImmediate op w16 (mkAI (part addr 1 nb0) OK o) = mkAI (part addr 1 (nb0 ++ nb)) OK o.
Proof.
  intros IV IO H L. unfold emitImmediate. destruct w16.
  - destruct H as (lo & hi & -> & BH & BL & EV). unfold byte in *. unfold overflowUint16. rewrite (over _ v) by (auto; lia). destruct (Z.ltb_spec 65535 v); [lia|].
    rewrite (get_unsigned _ v) by (auto; lia). apply emit16; auto. unfold u16. rewrite Z.mod_small by lia. lia.
  - destruct H as (-> & BV). unfold byte in *. unfold overflowUint8. rewrite (over _ v) by (auto; lia). destruct (Z.ltb_spec 255 v); [lia|].
    rewrite (get_unsigned _ v) by (auto; lia). apply emit8; auto. unfold u8. now apply Z.mod_small.
Qed.
Definition fits (la li : bool) (K : kind) (m : Z) : bool :=
  let b := baseMode m in
  match K with
  | K_none => m =? M_NONE
  | K_reg r => hasRegister m
  | K_imm w => (b =? M_IMA) && Bool.eqb w la || (b =? M_IMX) && Bool.eqb w li || (b =? M_IM8) && negb w
  | K_abs => b =? M_ABS
  | K_absl _ => b =? M_ABSL
  | K_dpg => b =? M_DPG
  | K_rel => b =? M_REL
  | K_lrel => b =? M_LREL
  | K_bank => false
  end.
Lemma bank_ok ty v addr i : chk ty v addr = OK -> i_addr (ai_insn i) = addr -> ai_err i = OK -> checkBank ty v i = i.
Proof.
  intros C A E. unfold checkBank, chk in *. destruct (bankModel ty); [|reflexivity]. rewrite A, C. destruct i as [i e o]. cbn in E. subst e. apply noerr.
Qed.
Lemma part_addr addr base nb : i_addr (part addr base nb) = addr.
Proof. now destruct nb. Qed.
Lemma emit_piece ty st K k addr t nb v m op nb0 o fl :
  piece np_motorola ty K k addr (Z.of_nat (1 + length nb0)) t nb v -> kind_ok K -> fits (st_longa st) (st_longi st) K m = true -> reads K fl v op -> st_cpu st = ty ->
  0 <= addr < 2 ^ addressWidth ty -> (length nb0 <= 4)%nat -> K <> K_lrel \/ nb0 = [] -> (forall j, K = K_absl j -> ty = W65C816) ->
  encodeOperand st false m op (mkAI (part addr 1 nb0) OK o) = Val (mkAI (part addr 1 (nb0 ++ nb)) OK o).
Proof.
  intros P KO F (IM & OE & RDS) ST AR L0 LR AL. pose proof (piece_range _ _ _ _ _ _ _ _ P AR) as VR. pose proof (aw_small ty) as AWS. pose proof (aw_cases ty) as AWC.
  unfold encodeOperand. cbv zeta. rewrite ST.
  destruct K; cbn [piece kind_ok fits kwidth] in *.
  - destruct P as (_ & -> & _). apply Z.eqb_eq in F. subst m. rewrite app_nil_r. reflexivity.
  - destruct P as (_ & -> & _). rewrite app_nil_r. unfold hasRegister in F. set (b := baseMode m) in *.
    assert (B : b = 1 \/ b = 2 \/ b = 3 \/ b = 4) by (unfold M_REGA, M_REGS in F; lia). clearbody b. destruct B as [->|[->|[->| ->]]]; reflexivity.
  - destruct P as (u & _ & _ & P). destruct RDS as (IV & IO). set (b := baseMode m) in *. clearbody b.
    rewrite !orb_true_iff, !andb_true_iff in F. destruct F as [[(F & W)|(F & W)]|(F & W)]; apply Z.eqb_eq in F; subst b.
    + apply eqb_prop in W. subst w. cbn [Z.eqb M_IMA Pos.eqb]. f_equal. apply (imm_out _ _ v); auto; lia.
    + apply eqb_prop in W. subst w. cbn [Z.eqb M_IMA M_IMX Pos.eqb]. f_equal. apply (imm_out _ _ v); auto; lia.
    + apply negb_true_iff in W. subst w. cbn [Z.eqb M_IMA M_IMX M_IM8 M_ABS M_ABSL M_DPG Pos.eqb]. f_equal. apply (imm_out _ _ v); auto; lia.
  - destruct P as (lo & hi & u & -> & BH & BL & EV & _). destruct RDS as (IV & IO). apply Z.eqb_eq in F. rewrite F. cbn [Z.eqb M_IMA M_IMX M_ABS Pos.eqb].
    assert (O16 : overflowUint16 (o_val op) = false).
    { unfold overflowUint16. rewrite (over _ v) by (auto; lia). unfold byte in *. lia. }
    rewrite O16. f_equal. apply (imm_out true _ v); [exact IV|exact IO|exists lo, hi; auto|lia].
  - destruct P as (lo & hi & bk & u & -> & BH & BL & BB & EV & _). destruct RDS as (IV & IO). apply Z.eqb_eq in F. rewrite F. cbn [Z.eqb M_IMA M_IMX M_ABS M_ABSL Pos.eqb].
    rewrite (get_unsigned _ v) by (auto; lia). unfold byte in *.
    assert (CA : checkAddr (addressWidth ty) v false = OK).
    { rewrite (AL jsl eq_refl). apply C31_addr; [cbn; lia|lia|]. split; [cbn; lia|discriminate]. }
    rewrite CA. change (isOK OK) with true. cbn [negb].
    assert (E8 : forall e, ai_emitOperand8 (Z.shiftr v 16) (ai_emitOperand16 v (mkAI (part addr 1 nb0) e o)) = mkAI (part addr 1 (nb0 ++ [lo; hi; bk])) e o).
    { intros e. rewrite (emit16 hi lo); [|exact BH|exact BL|unfold u16; rewrite EV, (Z.mul_comm 65536), Z.add_comm; change (2^16) with 65536; rewrite Z_mod_plus_full; apply Z.mod_small; lia|lia].
      rewrite (emit8 bk); [now rewrite <- app_assoc|exact BB| |rewrite app_length; cbn; lia].
      rewrite Z.shiftr_div_pow2 by lia. change (2^16) with 65536. rewrite EV, Z.mul_comm, Z.div_add_l by lia. rewrite (Z.div_small (_ + _)) by lia. unfold u8. rewrite Z.add_0_r. apply Z.mod_small. change (2^8) with 256. lia. }
    now rewrite E8.
  - destruct P as (_ & -> & BV). destruct RDS as (IV & IO). apply Z.eqb_eq in F. rewrite F. cbn [Z.eqb M_IMA M_IMX M_ABS M_ABSL M_DPG Pos.eqb].
    assert (O8 : overflowUint8 (o_val op) = false).
    { unfold overflowUint8. rewrite (over _ v) by (auto; lia). unfold byte in *. lia. }
    rewrite O8. f_equal. apply (imm_out false _ v); auto; lia.
  - destruct P as (x & -> & X & EV & CK & _). destruct RDS as (IV & IO). apply Z.eqb_eq in F. rewrite F. cbn [Z.eqb M_IMA M_IMX M_IM8 M_ABS M_ABSL M_DPG M_REL M_LREL Pos.eqb orb].
    rewrite EV in CK. pose proof (int8_range x). destruct (goal_near ty addr (Z.of_nat (1 + length nb0)) 1 (int8 x) AR ltac:(lia) ltac:(lia) ltac:(lia) CK) as (TG & TR).
    rewrite <- EV in CK. rewrite TG in EV. unfold encodeRelative. cbv zeta. cbn [ai_insn ai_err andb]. rewrite OE. change (isOK OK) with true. cbn [negb].
    rewrite (get_unsigned _ v) by (auto; lia). rewrite (bank_ok ty v addr); [|exact CK|apply part_addr|reflexivity]. cbn [Z.eqb M_REL M_LREL Pos.eqb andb negb].
    assert (BS : u32 (i_addr (part addr 1 nb0) + (if i_len (part addr 1 nb0) =? 0 then 1 else i_len (part addr 1 nb0)) + 1) = addr + Z.of_nat (1 + length nb0) + 1).
    { change (if i_len (part addr 1 nb0) =? 0 then 1 else i_len (part addr 1 nb0)) with (part_pos 1 (part addr 1 nb0)). rewrite part_at, part_addr. unfold u32. apply Z.mod_small. lia. }
    rewrite BS. unfold short_branch. cbn [ai_err].
    assert (P15 : 2^15 <= 2 ^ (addressWidth ty - 1)) by (apply Z.pow_le_mono_r; lia).
    rewrite branch_near by lia. replace (v - (addr + Z.of_nat (1 + length nb0) + 1)) with (int8 x) by lia.
    destruct (C30_delta (int8 x) 8 ltac:(lia)) as (far & -> & FAR). assert (far = false) as -> by (apply FAR; change (2^(8-1)) with 128; lia).
    unfold ai_seterr. cbn [ai_insn ai_opc]. rewrite (emit8 x); [reflexivity|exact X| |lia].
    unfold u8. change (2^8) with 256. now apply int8_back.
  - destruct LR as [LR| ->]; [congruence|]. destruct P as (lo & hi & -> & BH & BL & EV & CK & _). destruct RDS as (IV & IO). apply Z.eqb_eq in F. rewrite F.
    cbn [Z.eqb M_IMA M_IMX M_IM8 M_ABS M_ABSL M_DPG M_REL M_LREL Pos.eqb orb]. cbn [length Nat.add] in EV. change (Z.of_nat 1) with 1 in EV.
    rewrite EV in CK. pose proof (int16_range (256 * hi + lo)). destruct (goal_near ty addr 1 2 (int16 (256 * hi + lo)) AR ltac:(lia) ltac:(lia) ltac:(lia) CK) as (TG & TR).
    rewrite <- EV in CK. rewrite TG in EV. unfold encodeRelative. cbv zeta. cbn [ai_insn ai_err andb]. rewrite OE. change (isOK OK) with true. cbn [negb].
    rewrite (get_unsigned _ v) by (auto; lia). rewrite (bank_ok ty v addr); [|exact CK|reflexivity|reflexivity]. cbn [Z.eqb M_REL M_LREL Pos.eqb andb negb].
    unfold long_branch. cbv zeta. rewrite OE. change (isOK OK) with true. cbn [negb]. rewrite (get_unsigned _ v) by (auto; lia). rewrite (bank_ok ty v addr); [|exact CK|reflexivity|reflexivity]. cbn [ai_insn ai_err part canon i_addr].
    replace (u32 (addr + 3)) with (addr + 3) by (unfold u32; symmetry; apply Z.mod_small; lia).
    assert (P15 : 2^15 <= 2 ^ (addressWidth ty - 1)) by (apply Z.pow_le_mono_r; lia).
    rewrite branch_near by lia. replace (v - (addr + 3)) with (int16 (256 * hi + lo)) by lia.
    unfold ai_seterr. cbn [ai_insn ai_opc]. change (canon addr []) with (part addr 1 []). rewrite (emit16 hi lo); [reflexivity|exact BH|exact BL| |cbn; lia].
    unfold u16. change (2^16) with 65536. apply int16_back. unfold byte in *. lia.
  - discriminate.
Qed.

(* ------------------------------------------------------------ every opcode *)
Definition is_none (K : kind) : bool := match K with K_none => true | _ => false end.
Lemma is_none_ok K : is_none K = true <-> K = K_none.
Proof. destruct K; cbn; split; congruence. Qed.
Definition kind_okb (K : kind) : bool := match K with K_reg r => existsb (Z.eqb r) regs | _ => true end.
Lemma kind_okb_ok K : kind_okb K = true -> kind_ok K.
Proof.
  destruct K; cbn [kind_okb kind_ok]; auto. intros H. apply existsb_exists in H. destruct H as (x & I & E). apply Z.eqb_eq in E. now subst.
Qed.
Definition silent (K : kind) : bool := match K with K_none | K_reg _ => true | _ => false end.
Definition is_absl (K : kind) : bool := match K with K_absl _ => true | _ => false end.
Definition is_lrel (K : kind) : bool := match K with K_lrel => true | _ => false end.
(* [f1], [f2]: the brackets of the first two operands; [bk]: a block move *)
Definition check_one (ty : Z) (la li : bool) (k : option bool) (opc : Z) (nm : text) (bk : bool) (K1 K2 K3 : kind) (f1 f2 : Z) : bool :=
  let nm := map (conv k) nm in
  plain_name sp_mostek mos6502_specials mos6502_directives nm && is_alpha (peek nm) &&
  match hasOperand ty nm with Val h => h || is_none K1 | _ => false end &&
  (negb (is_none K1) || is_none K2) && (negb (is_none K2) || is_none K3) &&
  kind_okb K1 && kind_okb K2 && kind_okb K3 && silent K3 && negb (is_lrel K2) &&
  ((ty =? W65C816) || negb (is_absl K1 || is_absl K2)) &&
  ((f1 =? 0) || (f1 =? 16) || (f1 =? 32)) && ((f2 =? 0) || (f2 =? f1)) &&
  ((f1 =? 0) || negb (is_imm K1 || is_none K1)) && ((f2 =? 0) || negb (is_imm K2 || is_none K2)) &&
  forallb (fun om1 => forallb (fun om2 => forallb (fun om3 =>
    match mos6502_searchName ty nm om1 om2 om3 with
    | Val (OK, Some e') => (e_opc e' =? opc) && if bk then is_bank e' else negb (is_bank e') && fits la li K1 (e_m1 e') && fits la li K2 (e_m2 e')
    | _ => false
    end) (modes_of K3)) (map (embedFlags f2) (modes_of K2))) (map (embedFlags f1) (modes_of K1)).
Definition check (ty : Z) (il la li : bool) (k : option bool) (opc : Z) : bool :=
  match look il ty opc with
  | None => true
  | Some e =>
    let f1 := indirectFlags (e_m1 e) in
    let f2 := indirectFlags (e_m2 e) in
    let K m := kind_of la li opc m in
    if is_bank e then check_one ty la li k opc (entry_name e) true K_bank K_bank K_none 0 0
    else
      Bool.eqb (indirect (e_m1 e)) (f1 =? 16) && Bool.eqb (longIndirect (e_m1 e)) (f1 =? 32) &&
      Bool.eqb (indirect (e_m2 e)) (f2 =? 16) && Bool.eqb (longIndirect (e_m2 e)) (f2 =? 32) &&
      Bool.eqb (is_none (K (e_m1 e))) (e_m1 e =? M_NONE) && Bool.eqb (is_none (K (e_m2 e))) (e_m2 e =? M_NONE) && Bool.eqb (is_none (K (e_m3 e))) (e_m3 e =? M_NONE) &&
      check_one ty la li k opc (entry_name e) false (K (e_m1 e)) (K (e_m2 e)) (K (e_m3 e)) f1 f2
  end.
Lemma check_all : forallb (fun k => forallb (fun '(ty, il, la, li) => forallb (check ty il la li (Some k)) all_bytes) setups) [false; true] = true.
Proof. vm_compute. reflexivity. Qed.
Lemma check_at k ty il opt opc : In ty types -> byte opc -> check ty il (longImmediate ty opt M_IMA) (longImmediate ty opt M_IMX) (Some k) opc = true.
Proof.
  intros T O. pose proof check_all as H. rewrite forallb_forall in H. specialize (H k ltac:(destruct k; cbn; auto)).
  rewrite forallb_forall in H. specialize (H _ (setup_in ty il opt T)). cbv beta iota in H. rewrite forallb_forall in H. apply H, all_in, O.
Qed.
(* the operands of an instruction; [sp]: the spaces after a comma *)
Definition sep (sp : text) (K : kind) : text := if is_none K then [] else 44 :: sp.
Definition opens (f : Z) : bool := negb (f =? 0).
Definition three (ty : Z) (k : option bool) (addr : Z) (sp : text) (K1 K2 K3 : kind) (f1 f2 v1 v2 : Z) (n1 n2 n3 : list Z) (t : text) : Prop :=
  exists t1 t2 t3 v3, piece np_motorola ty K1 k addr 1 t1 n1 v1 /\ piece np_motorola ty K2 k addr (Z.of_nat (1 + length n1)) t2 n2 v2 /\
    piece np_motorola ty K3 k addr (Z.of_nat (1 + length n1 + length n2)) t3 n3 v3 /\
    t = wrap f1 (opens f1) (opens f1 && (f2 =? 0)) t1 ++ sep sp K2 ++ wrap f2 false (opens f2) t2 ++ sep sp K3 ++ t3.
Lemma piece_none ty K k addr pos t nb v : is_none K = true -> piece np_motorola ty K k addr pos t nb v -> t = [] /\ nb = [] /\ v = 0.
Proof. intros N. apply is_none_ok in N. now subst. Qed.
Lemma none_piece ty K k addr pos : is_none K = true -> piece np_motorola ty K k addr pos [] [] 0.
Proof. intros N. apply is_none_ok in N. subst. cbn. auto. Qed.
Lemma more_piece ty opt o m b1 b2 h t nb nm' : is_none (kind1 ty opt o m) = (m =? M_NONE) -> (m =? M_NONE = true -> b1 = false /\ b2 = false) -> R_more np_motorola ty opt o m b1 b2 h t nb nm' ->
  nm' = h_nm h /\ exists u v, piece np_motorola ty (kind1 ty opt o m) (h_case h) (h_addr h) (Z.of_nat (length (h_bs h))) u nb v /\ t = sep [] (kind1 ty opt o m) ++ u ++ close_text b1 b2.
Proof.
  intros N BB. unfold R_more, sep. rewrite N. destruct (m =? M_NONE).
  - intros (-> & -> & ->). split; [reflexivity|]. exists [], 0. destruct (BB eq_refl) as (-> & ->). split; [now apply none_piece|reflexivity].
  - intros (t1 & t2 & n1 & n2 & nm1 & -> & -> & (-> & -> & ->) & t3 & t4 & n3 & n4 & nm2 & -> & -> & (-> & v & P) & (-> & -> & ->)). rel_out. cbn [app] in *. rewrite ?app_nil_r in *.
    split; [reflexivity|]. exists t3, v. auto.
Qed.
Lemma check_flags ty la li k opc nm bk K1 K2 K3 f1 f2 : check_one ty la li k opc nm bk K1 K2 K3 f1 f2 = true ->
  (f1 = 0 \/ f1 = 16 \/ f1 = 32) /\ (f2 = 0 \/ f2 = f1) /\ (f1 = 0 \/ is_imm K1 = false /\ is_none K1 = false) /\ (f2 = 0 \/ is_imm K2 = false /\ is_none K2 = false).
Proof.
  intros CK. unfold check_one in CK. cbv zeta in CK. rewrite !andb_true_iff in CK. destruct CK as (((((_ & F1) & F2) & G1) & G2) & _).
  split; [lia|]. split; [lia|]. rewrite !orb_true_iff, !negb_true_iff, !orb_false_iff, !Z.eqb_eq in *. auto.
Qed.
Lemma chain_three ty opt o k h t nb nm' : In ty types -> byte o -> h_case h = Some k -> h_bs h = [o] -> R_chain np_motorola ty opt o h t nb nm' ->
  exists nm bk sp K1 K2 K3 f1 f2 v1 v2 n1 n2 n3,
    check_one ty (longImmediate ty opt M_IMA) (longImmediate ty opt M_IMX) (Some k) o nm bk K1 K2 K3 f1 f2 = true /\ nm' = firstn 11 (map (conv (Some k)) nm) /\ blanks sp /\
    three ty (Some k) (h_addr h) sp K1 K2 K3 f1 f2 v1 v2 n1 n2 n3 t /\
    (bk = true -> K1 = K_bank /\ K2 = K_bank) /\
    (if bk then exists x y, byte x /\ byte y /\ v1 = 65536 * x /\ v2 = 65536 * y /\ nb = [y; x] else nb = n1 ++ n2 ++ n3).
Proof.
  intros T O HC HB (e & L & Q). pose proof (check_at k ty (op_indirectLong opt) opt o T O) as CK. unfold check in CK. rewrite L in CK. cbv zeta in CK.
  destruct Q as (t0 & tr & n0 & nr & nm1 & -> & -> & (-> & -> & ->) & Q). unfold R_tail in Q. destruct (is_bank e) eqn:BK.
  - destruct Q as (-> & db & sb & t1 & t2 & -> & B1 & B2 & N1 & N2 & ->). rel_out. rewrite HC in *.
    exists (entry_name e), true, [32], K_bank, K_bank, K_none, 0, 0, (65536 * sb), (65536 * db), [], [], []. split; [exact CK|]. split; [reflexivity|]. split; [repeat constructor|].
    split; [|split; [auto|exists sb, db; auto 10]]. exists t1, t2, [], 0. cbn [piece length]. split; [eauto|]. split; [eauto|]. split; [auto|]. unfold wrap. cbn. now rewrite !app_nil_r.
  - rewrite !andb_true_iff in CK. destruct CK as (((((((I1 & J1) & I2) & J2) & N1) & N2) & N3) & CK).
    apply eqb_prop in I1, J1, I2, J2, N1, N2, N3.
    destruct Q as (t1 & t2' & n1 & n2' & nm2 & -> & -> & Q1 & t2 & t3 & n2 & n3 & nm3 & -> & -> & Q2 & Q3). rel_out. rewrite ?app_nil_r in *. rewrite HC, HB in *.
    destruct (check_flags _ _ _ _ _ _ _ _ _ _ _ _ CK) as (F1 & F2 & G1 & G2).
    set (f1 := indirectFlags (e_m1 e)) in *. set (f2 := indirectFlags (e_m2 e)) in *.
    assert (C2 : close_text (indirect (e_m2 e)) (longIndirect (e_m2 e)) = if opens f2 then [closer f2] else []).
    { unfold close_text. rewrite I2, J2. destruct F2 as [->| ->]; [reflexivity|]. destruct F1 as [->|[->| ->]]; reflexivity. }
    destruct (more_piece ty opt o (e_m3 e) false false _ _ _ _ N3 ltac:(auto) Q3) as (-> & u3 & v3 & P3 & ->). rel_out.
    destruct (more_piece ty opt o (e_m2 e) (indirect (e_m2 e)) (longIndirect (e_m2 e)) _ _ _ _ N2 ltac:(intros E; rewrite I2, J2; destruct F2 as [->|F2]; [auto|]; change (kind_of _ _ o (e_m2 e)) with (kind1 ty opt o (e_m2 e)) in *; rewrite N2, E in G2; destruct G2 as [->|G2]; [auto|intuition discriminate]) Q2) as (-> & u2 & v2 & P2 & ->). rel_out.
    rewrite C2. rewrite ?app_nil_r in *. rewrite ?app_length in *. cbn [length] in *.
    assert (Q1' : nm2 = firstn 11 (map (conv (Some k)) (entry_name e)) /\ exists u1 v1, piece np_motorola ty (kind1 ty opt o (e_m1 e)) (Some k) (h_addr h) 1 u1 n1 v1 /\
        t1 = wrap f1 (opens f1) (opens f1 && (f2 =? 0)) u1).
    { unfold R_first in Q1. destruct (e_m1 e =? M_NONE) eqn:M1.
      - destruct Q1 as (-> & -> & ->). split; [reflexivity|]. exists [], 0. change (kind_of _ _ o (e_m1 e)) with (kind1 ty opt o (e_m1 e)) in *. split; [now apply none_piece|].
        destruct G1 as [->|G1]; [reflexivity|]. rewrite N1 in G1. intuition discriminate.
      - destruct Q1 as (x1 & x2 & y1 & y2 & nm4 & -> & -> & (-> & -> & ->) & x3 & x4 & y3 & y4 & nm5 & -> & -> & (-> & v & P) & (-> & -> & ->)). rel_out. cbn [app] in *. rewrite ?app_nil_r in *.
        split; [reflexivity|]. exists x3, v. split; [exact P|]. unfold wrap. f_equal; [|f_equal].
        + unfold open_text. rewrite I1, J1. destruct F1 as [->|[->| ->]]; reflexivity.
        + unfold close_text. rewrite I1, J1, I2, J2. destruct F2 as [->| ->]; destruct F1 as [->|[->| ->]]; reflexivity. }
    destruct Q1' as (-> & u1 & v1 & P1 & ->).
    exists (entry_name e), false, [], (kind1 ty opt o (e_m1 e)), (kind1 ty opt o (e_m2 e)), (kind1 ty opt o (e_m3 e)), f1, f2, v1, v2, n1, n2, n3.
    split; [exact CK|]. split; [reflexivity|]. split; [constructor|]. split; [|split; [discriminate|reflexivity]].
    exists u1, u2, u3, v3. split; [exact P1|]. split; [exact P2|]. split; [exact P3|]. unfold wrap. cbn [app close_text]. rewrite <- ?app_assoc. reflexivity.
Qed.

(* ------------------------------------------------------------ reading it back *)
Lemma operand_skip a loc s i : parseOperand a loc (skipSpaces s) i = parseOperand a loc s i.
Proof. unfold parseOperand. now rewrite P_CpuRange.skip_skip. Qed.
Definition more (a : asm) (loc : Z) (scan : text) (indir : Z) : res (operand * text * Z) :=
  let scan := skipSpaces scan in
  match expect_char 44 scan with
  | Some scan => parseOperand a loc scan indir
  | None => Val (no_operand, scan, indir)
  end.
Lemma more_ok ty K k addr pos t nb v a b1 sp b rest f c :
  a_pl a = pl_mos6502 -> a_radix a = 10 -> kind_ok K -> piece np_motorola ty K (Some k) addr pos t nb v ->
  0 <= addr < 2 ^ addressWidth ty -> 0 <= pos <= 8 -> flags_ok f false c -> (is_imm K = true -> f = 0 /\ c = false) ->
  (is_none K = true -> f = 0 /\ last_rest rest) -> blanks b1 -> blanks sp -> blanks b -> c = true \/ tail rest ->
  exists b' op, blanks b' /\ more a addr (b1 ++ sep sp K ++ wrap f false c t ++ b ++ rest) (closer f) = Val (op, b' ++ rest, if c then 0 else closer f) /\
    reads K f v op.
Proof.
  intros PL RX KO P AR PR FL IMM NN B1 BS B T. unfold sep. destruct (is_none K) eqn:N.
  - destruct (NN eq_refl) as (-> & LR). apply is_none_ok in N. subst K. cbn [piece] in P. destruct P as (-> & -> & ->).
    assert (c = false) as -> by (destruct FL as [(_ & _ & FL)|[FL|FL]]; [exact FL|discriminate..]).
    exists [], no_operand. split; [constructor|]. split; [|split; [cbn; auto|auto]].
    unfold more. cbn [app wrap]. cbv zeta. rewrite skip_blanks by exact B1. rewrite last_skip by assumption. rewrite last_nocomma by assumption. reflexivity.
  - unfold more. cbv zeta. rewrite skip_blanks by exact B1. cbn [app]. rewrite (skip_none 44) by reflexivity. cbn [expect_char]. change (44 =? 44) with true. cbv iota.
    destruct (parse_el ty K k addr pos t nb v a sp b rest f false c) as (b' & op & B' & PO & RD); auto.
    { intros ->. discriminate. }
    { intros I. destruct (IMM I). auto. }
    exists b', op. auto.
Qed.
Lemma parse_three ty k addr sp K1 K2 K3 f1 f2 v1 v2 n1 n2 n3 t a b rest :
  a_pl a = pl_mos6502 -> a_radix a = 10 -> kind_ok K1 -> kind_ok K2 -> kind_ok K3 -> K1 <> K_none ->
  (is_none K2 = true -> is_none K3 = true) -> silent K3 = true -> (length n1 + length n2 <= 6)%nat ->
  (f1 = 0 \/ f1 = 16 \/ f1 = 32) -> (f2 = 0 \/ f2 = f1) -> (f1 = 0 \/ is_imm K1 = false /\ is_none K1 = false) -> (f2 = 0 \/ is_imm K2 = false /\ is_none K2 = false) ->
  three ty (Some k) addr sp K1 K2 K3 f1 f2 v1 v2 n1 n2 n3 t -> 0 <= addr < 2 ^ addressWidth ty -> blanks sp -> blanks b -> last_rest rest ->
  exists o1 o2 o3 b', blanks b' /\ parseOperands a addr (skipSpaces (t ++ b ++ rest)) = Val (Three o1 o2 o3 (b' ++ rest)) /\
    reads K1 f1 v1 o1 /\ reads K2 f2 v2 o2 /\ In (o_mode o3) (modes_of K3).
Proof.
  intros PL RX KO1 KO2 KO3 NK1 N23 S3 LN F1 F2 G1 G2 (t1 & t2 & t3 & v3 & P1 & P2 & P3 & ->) AR BS B LR. pose proof (last_tail _ LR) as TR.
  set (c1 := opens f1 && (f2 =? 0)). set (c2 := opens f2).
  assert (FL1 : flags_ok f1 (opens f1) c1).
  { unfold flags_ok, c1, opens. destruct F1 as [->|[->| ->]]; auto. }
  assert (FL2 : flags_ok f2 false c2).
  { unfold flags_ok, c2, opens. destruct F2 as [->| ->]; [auto|]. destruct F1 as [->|[->| ->]]; auto. }
  assert (IN1 : (if opens f1 then 0 else closer f1) = 0) by (unfold opens; destruct F1 as [->|[->| ->]]; reflexivity).
  assert (IN2 : (if c1 then 0 else closer f1) = closer f2).
  { unfold c1, opens. destruct F2 as [->| ->]; destruct F1 as [->|[->| ->]]; reflexivity. }
  assert (IN3 : (if c2 then 0 else closer f2) = 0).
  { unfold c2, opens. destruct F2 as [->| ->]; [reflexivity|]. destruct F1 as [->|[->| ->]]; reflexivity. }
  assert (IM1 : is_imm K1 = true -> f1 = 0 /\ opens f1 = false /\ c1 = false).
  { intros I. destruct G1 as [->|(G & _)]; [auto|congruence]. }
  assert (IM2 : is_imm K2 = true -> f2 = 0 /\ c2 = false).
  { intros I. destruct G2 as [->|(G & _)]; [auto|congruence]. }
  assert (FIN : forall o3 v, reads K3 0 v o3 -> In (o_mode o3) (modes_of K3)).
  { intros o3 v (I & _). apply in_map_iff in I. destruct I as (m & <- & I).
    destruct K3; try discriminate S3; cbn in I; destruct I as [<-|[]]; cbn; auto. left. clear. unfold regName2AddrMode.
    destruct (r =? REG_X); [reflexivity|]. destruct (r =? REG_Y); [reflexivity|]. destruct (r =? REG_S); reflexivity. }
  destruct (is_none K3) eqn:N3; [destruct (is_none K2) eqn:N2|].
  - (* one operand *)
    destruct (piece_none _ _ _ _ _ _ _ _ N2 P2) as (-> & -> & ->). destruct (piece_none _ _ _ _ _ _ _ _ N3 P3) as (-> & -> & ->).
    assert (f2 = 0) as E2 by (destruct G2 as [G|(_ & G)]; [exact G|congruence]).
    assert (EQ : wrap f2 false c2 [] = []) by (unfold c2; rewrite E2; reflexivity).
    unfold sep. rewrite N2, N3, EQ. cbn [app]. rewrite !app_nil_r.
    destruct (parse_el ty K1 k addr 1 t1 n1 v1 a [] b rest f1 (opens f1) c1) as (b1 & o1 & B1 & PO1 & RD1); auto; try lia; [constructor|].
    destruct (more_ok ty K2 k addr (Z.of_nat (1 + length n1)) [] [] 0 a b1 sp [] rest f2 c2) as (b2 & o2 & B2 & PO2 & RD2); auto; try lia; [constructor|].
    destruct (more_ok ty K3 k addr (Z.of_nat (1 + length n1)) [] [] 0 a b2 sp [] rest 0 false) as (b3 & o3 & B3 & PO3 & RD3); auto; try lia; [now apply none_piece|left; auto|constructor|].
    unfold sep in PO2, PO3. rewrite N2 in PO2. rewrite N3 in PO3. rewrite EQ in PO2. cbn [app wrap] in PO1, PO2, PO3.
    exists o1, o2, o3, b3. split; [exact B3|]. split; [|eauto].
    unfold parseOperands. rewrite operand_skip. rewrite IN1 in PO1. rewrite PO1. cbn [bind]. destruct RD1 as (RD1 & E1 & RX1). rewrite E1. change (hasError OK) with false. cbv iota zeta.
    fold (more a addr (b1 ++ rest) (if c1 then 0 else closer f1)). rewrite IN2, PO2. cbn [bind]. destruct RD2 as (RD2 & E2' & RX2). rewrite E2'. change (hasError OK) with false. cbv iota.
    rewrite IN3. change (0 =? 0) with true. cbn [negb]. fold (more a addr (b2 ++ rest) 0). change 0 with (closer 0). rewrite PO3. cbn [bind]. destruct RD3 as (RD3 & E3 & RX3). rewrite E3. reflexivity.
  - (* two *)
    destruct (piece_none _ _ _ _ _ _ _ _ N3 P3) as (-> & -> & ->).
    set (mid := wrap f2 false c2 t2 ++ b ++ rest).
    destruct (parse_el ty K1 k addr 1 t1 n1 v1 a [] [] (44 :: sp ++ mid) f1 (opens f1) c1) as (b1 & o1 & B1 & PO1 & RD1); auto; try lia; [constructor|constructor|right; right; eauto|].
    destruct (more_ok ty K2 k addr (Z.of_nat (1 + length n1)) t2 n2 v2 a b1 sp b rest f2 c2) as (b2 & o2 & B2 & PO2 & RD2); auto; try lia; [intros Q; rewrite Q in N2; discriminate|].
    destruct (more_ok ty K3 k addr (Z.of_nat (1 + length n1)) [] [] 0 a b2 sp [] rest 0 false) as (b3 & o3 & B3 & PO3 & RD3); auto; try lia; [now apply none_piece|left; auto|constructor|].
    unfold sep in *. rewrite N2 in *. rewrite N3 in *. cbn [app] in PO1, PO2, PO3. change (wrap 0 false false [] ++ rest) with rest in PO3.
    exists o1, o2, o3, b3. split; [exact B3|]. split; [|eauto].
    replace ((wrap f1 (opens f1) c1 t1 ++ (44 :: sp) ++ wrap f2 false c2 t2 ++ [] ++ []) ++ b ++ rest) with (wrap f1 (opens f1) c1 t1 ++ 44 :: sp ++ mid)
      by (unfold mid; cbn [app]; rewrite ?app_nil_r, <- ?app_assoc; cbn [app]; rewrite <- ?app_assoc; reflexivity).
    unfold parseOperands. rewrite operand_skip. rewrite IN1 in PO1. rewrite PO1. cbn [bind]. destruct RD1 as (RD1 & E1 & RX1). rewrite E1. change (hasError OK) with false. cbv iota zeta.
    fold (more a addr (b1 ++ 44 :: sp ++ mid) (if c1 then 0 else closer f1)). rewrite IN2. fold mid in PO2. rewrite PO2. cbn [bind]. destruct RD2 as (RD2 & E2' & RX2). rewrite E2'. change (hasError OK) with false. cbv iota.
    rewrite IN3. change (0 =? 0) with true. cbn [negb]. fold (more a addr (b2 ++ rest) 0). change 0 with (closer 0). rewrite PO3. cbn [bind]. destruct RD3 as (RD3 & E3 & RX3). rewrite E3. reflexivity.
  - (* three *)
    destruct (is_none K2) eqn:N2; [specialize (N23 eq_refl); congruence|].
    set (end3 := 44 :: sp ++ t3 ++ b ++ rest). set (mid := wrap f2 false c2 t2 ++ end3).
    assert (TE : tail end3) by (right; unfold end3; eauto).
    destruct (parse_el ty K1 k addr 1 t1 n1 v1 a [] [] (44 :: sp ++ mid) f1 (opens f1) c1) as (b1 & o1 & B1 & PO1 & RD1); auto; try lia; [constructor|constructor|right; right; eauto|].
    destruct (more_ok ty K2 k addr (Z.of_nat (1 + length n1)) t2 n2 v2 a b1 sp [] end3 f2 c2) as (b2 & o2 & B2 & PO2 & RD2); auto; try lia; [intros Q; rewrite Q in N2; discriminate|constructor|].
    destruct (more_ok ty K3 k addr (Z.of_nat (1 + length n1 + length n2)) t3 n3 v3 a b2 sp b rest 0 false) as (b3 & o3 & B3 & PO3 & RD3); auto; try lia; [left; auto|].
    unfold sep in *. rewrite N2 in *. rewrite N3 in *. cbn [app] in PO1, PO2, PO3.
    assert (W0 : wrap 0 false false t3 = t3) by (unfold wrap; cbn [app]; apply app_nil_r). rewrite W0 in PO3.
    exists o1, o2, o3, b3. split; [exact B3|]. split; [|eauto].
    replace ((wrap f1 (opens f1) c1 t1 ++ (44 :: sp) ++ wrap f2 false c2 t2 ++ (44 :: sp) ++ t3) ++ b ++ rest) with (wrap f1 (opens f1) c1 t1 ++ 44 :: sp ++ mid)
      by (unfold mid, end3; cbn [app]; rewrite <- ?app_assoc; cbn [app]; rewrite <- ?app_assoc; cbn [app]; rewrite <- ?app_assoc; reflexivity).
    unfold parseOperands. rewrite operand_skip. rewrite IN1 in PO1. rewrite PO1. cbn [bind]. destruct RD1 as (RD1 & E1 & RX1). rewrite E1. change (hasError OK) with false. cbv iota zeta.
    fold (more a addr (b1 ++ 44 :: sp ++ mid) (if c1 then 0 else closer f1)). rewrite IN2. fold mid in PO2. rewrite PO2. cbn [bind]. destruct RD2 as (RD2 & E2' & RX2). rewrite E2'. change (hasError OK) with false. cbv iota.
    rewrite IN3. change (0 =? 0) with true. cbn [negb]. fold (more a addr (b2 ++ end3) 0). change 0 with (closer 0). unfold end3. rewrite PO3. cbn [bind]. destruct RD3 as (RD3 & E3 & RX3). rewrite E3. reflexivity.
Qed.
Lemma plain_semicolon nm z : is_alpha (peek nm) = true -> eol_semicolon (nm ++ z) = (false, nm ++ z).
Proof.
  intros A. unfold eol_semicolon. destruct nm as [|c nm]; [discriminate|]. cbn [app peek] in *.
  rewrite skip_none; [|unfold is_space, is_alpha, is_upper, is_lower in *; lia]. cbv zeta. cbn [peek].
  replace ((c =? 0) || (c =? 59)) with false; [reflexivity|]. unfold is_alpha, is_upper, is_lower in A. lia.
Qed.
Lemma piece_len ty K k addr pos t nb v : piece np_motorola ty K k addr pos t nb v -> (length nb <= 3)%nat /\ (silent K = true -> nb = []).
Proof.
  destruct K; cbn [piece silent]; intros H; (split; [|try discriminate; intros _; tauto]).
  - destruct H as (_ & -> & _). cbn. lia.
  - destruct H as (_ & -> & _). cbn. lia.
  - destruct H as (u & _ & _ & H). destruct w; [destruct H as (lo & hi & -> & _)|destruct H as (-> & _)]; cbn; lia.
  - destruct H as (lo & hi & u & -> & _). cbn. lia.
  - destruct H as (lo & hi & bk & u & -> & _). cbn. lia.
  - destruct H as (_ & -> & _). cbn. lia.
  - destruct H as (x & -> & _). cbn. lia.
  - destruct H as (lo & hi & -> & _). cbn. lia.
  - destruct H as (_ & -> & _). cbn. lia.
Qed.
Lemma none_ops a addr rest : a_pl a = pl_mos6502 -> last_rest rest -> parseOperands a addr rest = Val (Three no_operand no_operand no_operand rest).
Proof.
  intros PL LR. pose proof (last_skip [] rest (Forall_nil _) LR) as LS. cbn [app] in LS.
  assert (PO : parseOperand a addr rest 0 = Val (no_operand, rest, 0)).
  { unfold parseOperand. cbv zeta. rewrite LS, PL. change (p_eol pl_mos6502) with eol_star.
    replace (fst (eol_star rest)) with true; [reflexivity|]. destruct LR as [->|(u & ->)]; reflexivity. }
  unfold parseOperands. rewrite PO. cbn [bind]. change (hasError (o_err no_operand)) with false. cbv iota zeta. rewrite LS, (last_nocomma _ LR). cbn [bind].
  change (hasError (o_err no_operand)) with false. cbv iota. change (0 =? 0) with true. cbn [negb]. rewrite LS, (last_nocomma _ LR). reflexivity.
Qed.
Lemma encode_ok ty st k opc nm bk sp K1 K2 K3 f1 f2 v1 v2 n1 n2 n3 addr t nb a indent gap b rest :
  In ty types -> (bk = true -> K1 = K_bank /\ K2 = K_bank) -> check_one ty (st_longa st) (st_longi st) (Some k) opc nm bk K1 K2 K3 f1 f2 = true ->
  three ty (Some k) addr sp K1 K2 K3 f1 f2 v1 v2 n1 n2 n3 t ->
  (if bk then exists x y, byte x /\ byte y /\ v1 = 65536 * x /\ v2 = 65536 * y /\ nb = [y; x] else nb = n1 ++ n2 ++ n3) -> byte opc ->
  st_cpu st = ty -> a_pl a = pl_mos6502 -> a_radix a = 10 -> a_aw a = addressWidth ty -> blanks sp ->
  blanks indent -> blanks gap -> gap <> [] \/ t = [] -> blanks b -> last_rest rest -> 0 <= addr < 2 ^ addressWidth ty -> checkAddr (addressWidth ty) addr false = OK ->
  mos6502_encode st false a (indent ++ firstn 11 (map (conv (Some k)) nm) ++ gap ++ t ++ b ++ rest) addr =
  Val (L_insn (canon addr (opc :: nb)) rest).
Proof.
  intros TY BANK CK TH NB BO ST PL RX AW BS BI BG NG BB LR AR CA. destruct (check_flags _ _ _ _ _ _ _ _ _ _ _ _ CK) as (F1 & F2 & G1 & G2).
  unfold check_one in CK. cbv zeta in CK.
  rewrite !andb_true_iff in CK. destruct CK as (((((((((((((((PN & AL) & HO) & N12) & N23) & KO1) & KO2) & KO3) & S3) & LR2) & AB) & _) & _) & _) & _) & CK).
  apply kind_okb_ok in KO1, KO2, KO3. set (nm' := map (conv (Some k)) nm) in *.
  assert (LN : firstn 11 nm' = nm').
  { apply firstn_all2. unfold plain_name in PN. rewrite !andb_true_iff in PN. destruct PN as (((_ & L) & _) & _). now apply Nat.leb_le in L. }
  rewrite LN. unfold mos6502_encode. rewrite line_insn; [| | |exact BI|exact BG| |].
  2:{ rewrite PL. exact PN. }
  2:{ intros z. rewrite PL. now apply plain_semicolon. }
  2:{ rewrite PL. apply name_ends; auto. intros c I. cbn in I. repeat (destruct I as [<-|I]; [reflexivity|]). contradiction. }
  2:{ rewrite AW. exact CA. }
  unfold mos6502_encodeImpl. rewrite ST. destruct (hasOperand ty nm') as [h| | | |]; try discriminate. cbn [bind].
  destruct TH as (t1 & t2 & t3 & v3 & P1 & P2 & P3 & ET).
  destruct (piece_len _ _ _ _ _ _ _ _ P1) as (L1 & _). destruct (piece_len _ _ _ _ _ _ _ _ P2) as (L2 & _). destruct (piece_len _ _ _ _ _ _ _ _ P3) as (_ & L3). specialize (L3 S3). subst n3.
  assert (OPS : exists o1 o2 o3 scan, skipSpaces scan = rest /\
    (if h then parseOperands a addr (skipSpaces (t ++ b ++ rest)) else Val (Three no_operand no_operand no_operand (skipSpaces (t ++ b ++ rest)))) = Val (Three o1 o2 o3 scan) /\
    reads K1 f1 v1 o1 /\ reads K2 f2 v2 o2 /\ In (o_mode o3) (modes_of K3)).
  { destruct (is_none K1) eqn:NK1; cbn [negb orb] in *.
    - assert (is_none K2 = true) as NK2 by exact N12. assert (is_none K3 = true) as NK3 by (rewrite NK2 in N23; exact N23).
      assert (f1 = 0) as -> by (destruct G1 as [G1|(_ & G1)]; [exact G1|congruence]). assert (f2 = 0) as -> by (destruct F2; assumption).
      destruct (piece_none _ _ _ _ _ _ _ _ NK1 P1) as (-> & -> & ->). destruct (piece_none _ _ _ _ _ _ _ _ NK2 P2) as (-> & -> & ->). destruct (piece_none _ _ _ _ _ _ _ _ NK3 P3) as (-> & _ & ->).
      assert (t = []) as -> by (rewrite ET; unfold sep; rewrite NK2, NK3; reflexivity).
      apply is_none_ok in NK1, NK2, NK3. subst K1 K2 K3. cbn [app]. rewrite last_skip by assumption.
      exists no_operand, no_operand, no_operand, rest. pose proof (last_skip [] rest (Forall_nil _) LR) as LS. cbn [app] in LS. split; [exact LS|].
      split; [destruct h; [now apply none_ops|reflexivity]|]. split; [|split]; unfold reads; cbn; auto.
    - rewrite orb_false_r in HO. subst h.
      destruct (parse_three ty k addr sp K1 K2 K3 f1 f2 v1 v2 n1 n2 [] t a b rest) as (o1 & o2 & o3 & b' & B' & PO & R1 & R2 & R3); auto; try lia.
      { intros ->. discriminate. }
      { intros E. rewrite E in N23. exact N23. }
      { destruct G1 as [G1|(G1 & _)]; auto. }
      { exists t1, t2, t3, v3. auto. }
      exists o1, o2, o3, (b' ++ rest). rewrite last_skip by assumption. auto 10. }
  destruct OPS as (o1 & o2 & o3 & scan & SK & PO & R1 & R2 & R3).
  rewrite PO. cbn [bind]. cbv zeta. rewrite SK.
  rewrite forallb_forall in CK. specialize (CK _ (proj1 R1)). rewrite forallb_forall in CK. specialize (CK _ (proj1 R2)). rewrite forallb_forall in CK. specialize (CK _ R3).
  destruct (mos6502_searchName ty nm' (o_mode o1) (o_mode o2) (o_mode o3)) as [[er [e'|]]| | | |]; try discriminate.
  2:{ destruct er; discriminate. }
  destruct er; try discriminate. rewrite !andb_true_iff in CK. destruct CK as (C2 & CK). apply Z.eqb_eq in C2. cbn [bind]. change (isOK OK) with true. cbn [negb].
  rewrite (proj1 (proj2 R1)), (proj1 (proj2 R2)), !noerr. change (new_insn addr) with (part addr 1 []). change ((e_m1 e' =? M_BANK) && (e_m2 e' =? M_BANK)) with (is_bank e').
  assert (LNB : (length nb <= 60)%nat).
  { destruct bk; [destruct NB as (x & y & _ & _ & _ & _ & ->); cbn; lia|]. rewrite NB, !app_length. cbn. lia. }
  destruct (part_done 0 opc addr nb ltac:(unfold byte; lia) BO LNB) as (D1 & _).
  assert (FIN : forall ai, ai = mkAI (part addr 1 nb) OK (e_opc e') -> i_seterr (ai_err (ai_emitInsn ai)) (ai_insn (ai_emitInsn ai)) = canon addr (opc :: nb)).
  { intros ai ->. unfold ai_emitInsn, ai_set. cbn [ai_insn ai_err ai_opc]. rewrite C2, D1. reflexivity. }
  destruct bk.
  - rewrite CK. destruct NB as (x & y & BX & BY & -> & -> & ->). cbn [bind].
    assert (K1 = K_bank /\ K2 = K_bank) as (-> & ->) by (destruct (BANK eq_refl); auto).
    destruct R1 as (_ & _ & V1 & I1). destruct R2 as (_ & _ & V2 & I2). unfold byte in BX, BY.
    rewrite (get_unsigned _ (65536 * x)) by (auto; lia). rewrite (get_unsigned _ (65536 * y)) by (auto; lia).
    rewrite !Z.shiftr_div_pow2 by lia. change (2^16) with 65536. rewrite !(Z.mul_comm 65536), !Z.div_mul by lia.
    rewrite (emit8 y y); [|exact BY|unfold u8; now apply Z.mod_small|cbn; lia].
    rewrite (emit8 x x); [|exact BX|unfold u8; now apply Z.mod_small|cbn; lia].
    cbn [app].
    rewrite (FIN _ eq_refl). reflexivity.
  - rewrite !andb_true_iff in CK. destruct CK as ((NBK & FT1) & FT2). apply negb_true_iff in NBK. rewrite NBK.
    rewrite (emit_piece ty st K1 (Some k) addr t1 n1 v1 (e_m1 e') o1 [] (e_opc e') f1 P1 KO1 FT1 R1 ST AR ltac:(cbn; lia) (or_intror eq_refl)).
    2:{ intros j ->. apply orb_true_iff in AB. destruct AB as [AB|AB]; [now apply Z.eqb_eq|discriminate]. }
    cbn [bind app].
    rewrite (emit_piece ty st K2 (Some k) addr t2 n2 v2 (e_m2 e') o2 n1 (e_opc e') f2 P2 KO2 FT2 R2 ST AR ltac:(lia)).
    2:{ left. intros ->. discriminate. }
    2:{ intros j ->. apply orb_true_iff in AB. destruct AB as [AB|AB]; [now apply Z.eqb_eq|]. rewrite orb_true_r in AB. discriminate. }
    cbn [bind]. rewrite (FIN _ ltac:(rewrite NB, !app_nil_r; reflexivity)). reflexivity.
Qed.

(* ------------------------------------------------------------ the disassembler *)
Section Whole.
Variables (np : number_parser) (d : disasm) (ty : Z) (opt : options).
Hypothesis RD : reads_as np d ty.
Hypothesis TY : In ty types.
Let pfx (c : Z) : bool := false.
Let F (p o : Z) : step := decode_opcode d ty opt o.
Let n (p o : Z) : nat := if p =? 0 then n_chain ty opt o else 0%nat.
Let P0 : pfx 0 = false := eq_refl.
Let START : forall p o addr mem s, (p = 0 \/ pfx p = true) -> byte p -> byte o -> within addr mem 2 s -> F p o s = (fun _ o => chain d ty opt o) p o (t_seterr OK s).
Proof. intros p o addr mem s Q BP BO W. now apply chain_start. Qed.
Let GOOD : forall p o, (p = 0 \/ pfx p = true) -> byte p -> byte o -> good (n p o) ((fun _ o => R_chain np ty opt o) p o) ((fun _ o => chain d ty opt o) p o).
Proof. intros p o [->|Q] BP BO; [|discriminate]. now apply good_chain. Qed.
Let LEN : forall p o, (p = 0 \/ pfx p = true) -> byte p -> byte o -> (length (opcode_bytes p o) + n p o <= 4)%nat.
Proof. intros p o [->|Q] BP BO; [|discriminate]. now apply chain_len. Qed.
Lemma decode_eq mem addr size : mos6502_decode d ty opt mem addr size = dis_decode d (decode_impl pfx F) mem addr size.
Proof. reflexivity. Qed.
Lemma mos6502_total mem addr size : Forall byte mem -> exists r, mos6502_decode d ty opt mem addr size = Val r.
Proof. intros FM. rewrite decode_eq. exact (decode_total d pfx F _ _ n 4 START GOOD LEN ltac:(lia) mem addr size FM). Qed.
Lemma mos6502_within mem addr size r : Forall byte mem -> mos6502_decode d ty opt mem addr size = Val r ->
  exists m, mem = i_code (r_insn r) ++ m /\ (length (i_code (r_insn r)) <= 4)%nat.
Proof. intros FM. rewrite decode_eq. exact (decode_within d pfx F _ _ n 4 P0 START GOOD LEN ltac:(lia) mem addr size r FM). Qed.
Lemma mos6502_takes : takes d (mos6502_decodeImpl d ty opt) 4.
Proof. exact (decode_takes d pfx F _ _ n 4 P0 START GOOD LEN ltac:(lia)). Qed.
Lemma mos6502_accepts mem addr size r : Forall byte mem -> mem <> [] -> mos6502_decode d ty opt mem addr size = Val r -> i_err (r_insn r) = OK ->
  checkAddr (addressWidth ty) addr false = OK /\
  exists o nb m, byte o /\ mem = (o :: nb) ++ m /\ (length (o :: nb) <= 4)%nat /\
    r_insn r = canon addr (o :: nb) /\
    R_chain np ty opt o (mkH (Some (da_uppercase d)) addr [o] []) (r_operands r) nb (r_name r) /\
    forall m', Forall byte m' -> mos6502_decode d ty opt ((o :: nb) ++ m') addr size = Val r.
Proof.
  intros FM NE H E. rewrite decode_eq in H.
  destruct (decode_accepts d pfx F _ _ n 4 P0 START GOOD LEN ltac:(lia) mem addr size r FM NE H E)
    as (CA & p & o & nb & m & [->|PP] & BP & BO & EM & L & RI & Q & FR); [|discriminate].
  destruct RD as (_ & _ & AW & _). rewrite AW in CA. split; [exact CA|]. exists o, nb, m. auto 10.
Qed.
End Whole.
Lemma mos6502_round d ty opt mem addr size r st a indent gap b rest :
  reads_as np_motorola d ty -> In ty types -> Forall byte mem -> mem <> [] -> mos6502_decode d ty opt mem addr size = Val r -> i_err (r_insn r) = OK ->
  st_cpu st = ty -> st_longa st = longImmediate ty opt M_IMA -> st_longi st = longImmediate ty opt M_IMX ->
  a_pl a = pl_mos6502 -> a_radix a = 10 -> a_aw a = addressWidth ty -> 0 <= addr < 2^32 ->
  blanks indent -> blanks gap -> gap <> [] \/ r_operands r = [] -> blanks b -> last_rest rest ->
  mos6502_encode st false a (indent ++ r_name r ++ gap ++ r_operands r ++ b ++ rest) addr = Val (L_insn (r_insn r) rest).
Proof.
  intros RD TY FM NE H E ST SA SX PL RX AW AR BI BG NG BB LR. destruct (mos6502_accepts np_motorola d ty opt RD TY mem addr size r FM NE H E) as (CA & o & nb & m & BO & _ & _ & RI & Q & _).
  destruct (chain_three ty opt o (da_uppercase d) (mkH (Some (da_uppercase d)) addr [o] []) (r_operands r) nb (r_name r) TY BO eq_refl eq_refl Q)
    as (nm & bk & sp & K1 & K2 & K3 & f1 & f2 & v1 & v2 & n1 & n2 & n3 & CK & NM & BS & TH & BK & NB).
  rewrite RI, NM. apply (encode_ok ty st (da_uppercase d) o nm bk sp K1 K2 K3 f1 f2 v1 v2 n1 n2 n3); auto.
  - rewrite SA, SX. exact CK.
  - apply C31_addr in CA; [|pose proof (aw_cases ty); lia|exact AR]. lia.
Qed.
