(** The TMS32010 family: what the instructions with numbers give for every value. *)
From Coq Require Import String ZArith List Bool Lia ZifyBool.
From Verif Require Import M_Char M_Error M_Value M_Text M_StrBuffer M_Format M_Number M_Insn M_Config M_Operators
  M_Parsers M_Expr M_Directive M_Table T_Tables M_Asm M_Dis M_Tms32010Defs T_Tms32010 M_Tms32010
  S_Value S_Number S_Expr S_ExprTree S_Table S_Cpu S_Tms32010 P_StrBuffer P_Number P_NumberRead
  P_ExprRead P_ExprTree P_ExprCase P_Table P_TableData P_Insn P_Config P_Value P_Directive P_AsmText P_CpuShape P_CpuGood P_CpuText P_CpuRange P_CpuSigned P_CpuWord.
From Verif Require P_Tms32010.
Import ListNotations.
Open Scope string_scope.
Open Scope list_scope.
Local Open Scope Z_scope.

Lemma loop_digits p : forall v l v' l' z, regNumber_loop p v l = (v', l', z) -> exists n, p = n ++ z /\ Forall (fun d => is_digit d = true) n /\ (n = [] -> v' = v /\ l' = l) /\ v' = decimal v n.
Proof.
  induction p as [|c p IH]; intros v l v' l' z; cbn [regNumber_loop].
  - intros H. injection H as <- <- <-. exists []. cbn. auto.
  - destruct (is_digit c && (v <? 1000)) eqn:E.
    + intros H. destruct (IH _ _ _ _ _ H) as (n & -> & F & _ & DV). apply andb_true_iff in E. exists (c :: n). cbn [app]. split; [reflexivity|].
      split; [constructor; tauto|]. split; [discriminate|exact DV].
    + intros H. injection H as <- <- <-. exists []. cbn. auto.
Qed.
Lemma number_digits p n t : parseRegNumber p = Some (n, t) -> exists m z, p = m ++ z /\ m <> [] /\ Forall (fun d => is_digit d = true) m /\ is_alnum (peek z) = false /\ peek z <> 95 /\ decimal 0 m = n.
Proof.
  unfold parseRegNumber. destruct (regNumber_loop p 0 0) as [[v l] z] eqn:L. destruct (isIdLetter (peek z)) eqn:I; [discriminate|].
  destruct (loop_digits _ _ _ _ _ _ L) as (m & -> & F & N0 & DV). match goal with |- (if ?c then _ else _) = _ -> _ => destruct c eqn:B end; [discriminate|]. intros H. injection H as <- <-.
  exists m, z. split; [reflexivity|]. split; [intros E'; destruct (N0 E') as (-> & ->); discriminate|]. split; [exact F|]. unfold isIdLetter in I. apply orb_false_iff in I. split; [tauto|]. split; [apply Z.eqb_neq; tauto|congruence].
Qed.
Lemma upper_is c u : is_upper u = true -> to_upper c = u -> c = u \/ c = u + 32.
Proof. unfold to_upper, is_lower, is_upper. intros U. destruct ((97 <=? c) && (c <=? 122)) eqn:E; lia. Qed.
Lemma lower_is c u : is_upper u = true -> to_lower u = to_lower c -> c = u \/ c = u + 32.
Proof. unfold to_lower, is_lower, is_upper. intros U. rewrite U. destruct ((65 <=? c) && (c <=? 90)) eqn:E; lia. Qed.
Lemma two_letters a b s p : is_upper a = true -> is_upper b = true -> iexpectText [a; b] s = Some p -> exists c d, s = c :: d :: p /\ (c = a \/ c = a + 32) /\ (d = b \/ d = b + 32).
Proof.
  intros UA UB. cbn [iexpectText]. destruct s as [|c s]; [discriminate|]. destruct (Z.eqb_spec (to_lower a) (to_lower c)) as [E|]; [|discriminate].
  destruct s as [|d s]; [discriminate|]. destruct (Z.eqb_spec (to_lower b) (to_lower d)) as [E'|]; [|discriminate]. intros H. injection H as ->.
  exists c, d. split; [reflexivity|]. split; now apply lower_is.
Qed.
Lemma reg_none s : starts_number s -> parseRegName s = None.
Proof.
  intros (_ & H). unfold parseRegName. change (s2l "AR") with [65; 82]. change (s2l "PA") with [80; 65].
  destruct (iexpectText [65; 82] s) as [p|] eqn:X.
  - destruct (two_letters 65 82 s p eq_refl eq_refl X) as (c & d & -> & C & D). destruct (parseRegNumber p) as [[n t]|] eqn:Q; [|reflexivity]. destruct ((n <? 0) || (2 <=? n)) eqn:B; [reflexivity|]. exfalso. apply H.
    destruct (number_digits _ _ _ Q) as (m & z & -> & A & A2 & A3 & A4 & A5). exists c, d, m, z. split; [reflexivity|]. split; [left; lia|tauto].
  - destruct (iexpectText [80; 65] s) as [p|] eqn:Y; [|reflexivity].
    destruct (two_letters 80 65 s p eq_refl eq_refl Y) as (c & d & -> & C & D). destruct (parseRegNumber p) as [[n t]|] eqn:Q; [|reflexivity]. destruct ((n <? 0) || (8 <=? n)) eqn:B; [reflexivity|]. exfalso. apply H.
    destruct (number_digits _ _ _ Q) as (m & z & -> & A & A2 & A3 & A4 & A5). exists c, d, m, z. split; [reflexivity|]. split; [right; lia|tauto].
Qed.
Definition num_op (v : value) : operand := mkOp (constantType (getUnsigned v)) v OK.
Lemma parse_number a loc b0 e s rest v : a_pl a = pl_tms32010 -> a_radix a = 10 -> blanks b0 -> starts_number s ->
  derives fam_32010 (mkC loc (a_symbol a) (a_function a) 0) e s rest -> well_nested e -> value_slots e <= 8 -> operator_slots e <= 8 ->
  tail rest -> S_ExprTree.value_of e = Val (OK, v) ->
  exists b, blanks b /\ parseOperand a loc (b0 ++ s) = Val (OK, num_op v, b ++ rest).
Proof.
  intros PL RX B0 SN D W VS OS T V. destruct (parse_value fam_32010 a loc [] e s rest v) as (b & B & X); auto.
  { cbn. auto 40. } { apply Forall_nil. }
  cbn [app] in X. exists b. split; [exact B|]. unfold parseOperand. cbv zeta.
  assert (ST : P_Tms32010.starts s).
  { destruct SN as (SN & _). destruct s as [|c s]; [destruct SN|]. unfold P_Tms32010.starts. cbn [peek]. split; [discriminate|]. tauto. }
  assert (NS : expect_char 42 s = None).
  { destruct SN as (SN & _). destruct s as [|c s]; [destruct SN|]. cbn [expect_char]. destruct (Z.eqb_spec c 42); [tauto|reflexivity]. }
  pose proof (P_Tms32010.starts_skip b0 s [] B0 ST) as SK. rewrite !app_nil_r in SK. rewrite SK, PL. change (p_eol pl_tms32010) with eol_semicolon.
  pose proof (P_Tms32010.starts_more s [] ST) as SM. rewrite app_nil_r in SM. rewrite SM. cbv iota. rewrite NS, reg_none by exact SN.
  rewrite X. reflexivity.
Qed.

(* ------------------------------------------------------------ the numbers *)
Definition modes7 : list Z := [M_LS0; M_DPK; M_LS3; M_IM3; M_LS4; M_IM8; M_IM13].
Definition accepts (k : number_kind) (c : Z) : bool :=
  existsb (Z.eqb c) (match k with
    | Num_data | Num_status | Num_byte => [M_LS0; M_DPK; M_LS3; M_IM3; M_LS4; M_IM8]
    | Num_shift => [M_LS0; M_DPK; M_LS3; M_IM3; M_LS4]
    | Num_shift_high => [M_LS0; M_DPK; M_LS3]
    | Num_shift_none => [M_LS0]
    | Num_port => [M_LS0; M_DPK; M_LS3; M_IM3]
    | Num_register | Num_bit => [M_LS0; M_DPK]
    | Num_factor | Num_program => modes7
    end).
Definition mode_fits (k : number_kind) (m : Z) : bool :=
  existsb (Z.eqb m) (match k with
    | Num_data | Num_status => [M_MAM] | Num_shift => [M_LS4] | Num_shift_high => [M_LS3] | Num_shift_none => [M_LS0] | Num_port => [M_PA]
    | Num_register => [M_AR] | Num_bit => [M_ARK; M_DPK] | Num_byte => [M_IM8] | Num_factor => [M_IM13] | Num_program => [M_PMA]
    end).
Lemma mode7 x : In (constantType x) modes7.
Proof. unfold constantType. cbv zeta. repeat match goal with |- context [if ?c then _ else _] => destruct c; [cbn; tauto|] end. cbn; tauto. Qed.
Definition cut_in (k : number_kind) (w : Z) : bool :=
  match k with
  | Num_data | Num_status | Num_byte => w <? 256 | Num_shift => w <? 16 | Num_shift_high => (w =? 0) || (w =? 1) || (w =? 4)
  | Num_shift_none => w =? 0 | Num_port => w <? 8 | Num_register | Num_bit => w <? 2 | Num_factor | Num_program => true
  end.
Lemma accepts_cut k v : int_value v -> accepts k (constantType (getUnsigned v)) = cut_in k (int_of v mod 65536).
Proof.
  intros IV. unfold constantType. cbv zeta. unfold u16. change 0x10000 with (2^16). rewrite <- Z.land_ones by lia. rewrite (land_low v 16) by (auto; lia).
  change (2^16) with 65536. pose proof (Z.mod_pos_bound (int_of v) 65536 ltac:(lia)) as B. set (w := int_of v mod 65536) in *. clearbody w.
  destruct (Z.eqb_spec w 0); [subst; destruct k; reflexivity|]. destruct (Z.eqb_spec w 1); [subst; destruct k; reflexivity|]. destruct (Z.eqb_spec w 4); [subst; destruct k; reflexivity|].
  destruct (Z.ltb_spec w 8); [destruct k; cbn; lia|]. destruct (Z.ltb_spec w 16); [destruct k; cbn; lia|]. destruct (Z.ltb_spec w 0x100); destruct k; cbn; lia.
Qed.
Lemma cut16 v : -32768 <= v < 65536 -> v mod 65536 = if v <? 0 then v + 65536 else v.
Proof.
  intros V. destruct (Z.ltb_spec v 0).
  - replace v with (v + 65536 + (-1) * 65536) at 1 by lia. rewrite Z.mod_add by lia. apply Z.mod_small. lia.
  - apply Z.mod_small. lia.
Qed.
Lemma cut32 v : -2^31 <= v < 2^32 -> v mod 2^32 = if v <? 0 then v + 2^32 else v.
Proof.
  intros V. destruct (Z.ltb_spec v 0).
  - replace v with (v + 2^32 + (-1) * 2^32) at 1 by lia. rewrite Z.mod_add by lia. apply Z.mod_small. lia.
  - apply Z.mod_small. lia.
Qed.
(* a number in range is accepted; one that is not is not, or it is one of the kinds that are checked later *)
Lemma range_accepted ct k v : in_range ct k v -> cut_in k (v mod 65536) = true.
Proof.
  assert (last_data ct <= 255) by (unfold last_data; destruct (ct =? TMS32010); lia).
  intros R. destruct k; cbn [in_range cut_in] in *; try reflexivity; rewrite ?Z.mod_small by lia; lia.
Qed.
Definition checked (k : number_kind) : bool := match k with Num_data | Num_status | Num_factor | Num_program => true | _ => false end.
Lemma accepted_range ct k v : uncut k v -> checked k = false -> cut_in k (v mod 65536) = true -> in_range ct k v.
Proof.
  intros U C H. destruct k; try discriminate; cbn [uncut in_range cut_in] in *; rewrite cut16 in H by exact U; destruct (Z.ltb_spec v 0); lia.
Qed.
(* ------------------------------------------------------------ the operands *)
Lemma limit ct : dataMemoryLimit ct = last_data ct.
Proof. reflexivity. Qed.
Lemma noerr i e o : ai_setErrorIf OK (mkAI i e o) = mkAI i e o.
Proof. unfold ai_setErrorIf. cbn [ai_insn ai_err ai_opc]. now destruct e. Qed.
Definition next_insn (k : number_kind) (v addr : Z) : insn := match k with Num_program => part addr 2 [v mod 256; v / 256] | _ => canon addr [] end.
Ltac modes := cbn [Z.eqb M_NONE M_LS0 M_DPK M_ARK M_AR M_NARP M_LS3 M_IM3 M_PA M_LS4 M_IM8 M_MAM M_PMA M_IM13 M_ARP M_INC M_DEC Pos.eqb orb].
Lemma not_indirect x : (constantType x =? M_ARP) = false /\ (constantType x =? M_INC) = false /\ (constantType x =? M_DEC) = false.
Proof. pose proof (mode7 x) as H. cbn in H. repeat (destruct H as [<-|H]; [repeat split|]). contradiction. Qed.
Lemma embed_is x i e o : 0 <= x < 65536 -> ai_embed x (mkAI i e o) = mkAI i e (Z.lor o x).
Proof. intros X. unfold ai_embed. cbn [ai_insn ai_err ai_opc]. unfold u16. now rewrite Z.mod_small by lia. Qed.
Lemma enc_in ct k v m o addr : int_value v -> in_range ct k (int_of v) -> mode_fits k m = true -> (k = Num_data -> o <> SST) ->
  encodeOperand ct (num_op v) m (mkAI (canon addr []) OK o) = mkAI (next_insn k (int_of v) addr) OK (Z.lor o (part_of_word k (int_of v))).
Proof.
  intros IV R MF NS. assert (LD : last_data ct <= 255) by (unfold last_data; destruct (ct =? TMS32010); lia).
  destruct (not_indirect (getUnsigned v)) as (A1 & A2 & A3).
  assert (G : 0 <= int_of v < 2^32 -> getUnsigned v = int_of v) by (intros X; apply get_unsigned; auto).
  assert (SH : forall x, Z.shiftl x 8 = 256 * x) by (intros x; rewrite Z.shiftl_mul_pow2 by lia; change (2^8) with 256; lia).
  unfold encodeOperand. cbv zeta. cbn [num_op o_err o_val o_mode]. rewrite noerr.
  destruct k; cbn [mode_fits existsb] in MF; rewrite ?orb_false_r in MF; cbn [in_range part_of_word next_insn] in *.
  - apply Z.eqb_eq in MF. subst m. modes. rewrite A1, A2, A3, limit, G by lia. cbn [ai_opc].
    replace (last_data ct <? int_of v) with false by lia. cbn [ai_opc]. replace (o =? SST) with false by (specialize (NS eq_refl); lia). cbn [andb].
    change 0x7F with (Z.ones 7). rewrite Z.land_ones by lia. change (2^7) with 128. rewrite embed_is; [reflexivity|]. pose proof (Z.mod_pos_bound (int_of v) 128 ltac:(lia)). lia.
  - apply Z.eqb_eq in MF. subst m. modes. rewrite A1, A2, A3, limit, G by lia. cbn [ai_opc].
    replace (last_data ct <? int_of v) with false by lia. cbn [ai_opc]. replace (int_of v <? 0x80) with false by lia. rewrite andb_false_r.
    change 0x7F with (Z.ones 7). rewrite Z.land_ones by lia. change (2^7) with 128. rewrite embed_is; [reflexivity|]. pose proof (Z.mod_pos_bound (int_of v) 128 ltac:(lia)). lia.
  - apply Z.eqb_eq in MF. subst m. modes. rewrite G, SH, embed_is by lia. reflexivity.
  - apply Z.eqb_eq in MF. subst m. modes. rewrite G, SH, embed_is by lia. reflexivity.
  - apply Z.eqb_eq in MF. subst m. modes. rewrite R, Z.lor_0_r. reflexivity.
  - apply Z.eqb_eq in MF. subst m. modes. rewrite G, SH, embed_is by lia. reflexivity.
  - apply Z.eqb_eq in MF. subst m. modes. rewrite G, SH, embed_is by lia. reflexivity.
  - apply orb_true_iff in MF. destruct MF as [MF|MF]; apply Z.eqb_eq in MF; subst m; modes; rewrite G, embed_is by lia; reflexivity.
  - apply Z.eqb_eq in MF. subst m. modes. rewrite G, embed_is by lia. reflexivity.
  - apply Z.eqb_eq in MF. subst m. modes. rewrite (over_b v) by (auto; lia). replace (negb ((-0x1000 <=? int_of v) && (int_of v <=? 0xFFF))) with false by lia.
    change 0x1FFF with (Z.ones 13). rewrite land_low by (auto; lia). change (2^13) with 8192. rewrite embed_is; [reflexivity|]. pose proof (Z.mod_pos_bound (int_of v) 8192 ltac:(lia)). lia.
  - apply Z.eqb_eq in MF. subst m. modes. rewrite (over_b v) by (auto; lia). replace (negb ((0 <=? int_of v) && (int_of v <=? 0xFFF))) with false by lia.
    change 0xFFF with (Z.ones 12). rewrite land_low by (auto; lia). change (2^12) with 4096. rewrite Z.lor_0_r.
    unfold ai_emitOperand16. cbn [ai_insn ai_err ai_opc]. f_equal. rewrite Z.mod_small by lia. unfold u16. rewrite Z.mod_small by lia.
    pose proof (part_le (int_of v mod 256) (int_of v / 256) addr 2 []) as P. cbn [app] in P.
    replace (int_of v) with (256 * (int_of v / 256) + int_of v mod 256) at 1 by lia. rewrite (Z.add_comm (256 * _)). apply P; [unfold byte; lia|apply mod_byte|cbn; lia].
Qed.
Lemma set_err e e' : e <> OK -> setErrorIfAt e e' <> OK.
Proof. intros N. unfold setErrorIfAt. destruct e; try congruence; cbn [isOK andb]; discriminate. Qed.
Lemma set_bad e e' : e' <> OK -> setErrorIfAt e e' <> OK.
Proof. intros N. unfold setErrorIfAt, setError. destruct e; cbn [isOK andb]; try discriminate. destruct e'; try congruence; discriminate. Qed.
Ltac stay E := repeat (first [exact E | apply set_err | progress (unfold ai_setErrorIf, ai_embed, ai_setopc, ai_emitOperand16; cbn [ai_insn ai_err ai_opc])
   | match goal with |- context [if ?c then _ else _] => destruct c end]).
Lemma enc_err ct op m i : ai_err i <> OK -> ai_err (encodeOperand ct op m i) <> OK.
Proof. intros E. unfold encodeOperand. cbv zeta. stay E. Qed.
Lemma enc_out ct k v m i : int_value v -> uncut k (int_of v) -> checked k = true -> ~ in_range ct k (int_of v) -> mode_fits k m = true -> (k = Num_status -> ai_opc i = SST) ->
  ai_err (encodeOperand ct (num_op v) m i) <> OK.
Proof.
  intros IV U C R MF SS. destruct (not_indirect (getUnsigned v)) as (A1 & A2 & A3).
  assert (OV : forall e j, e <> OK -> ai_err (ai_setErrorIf e j) <> OK) by (intros e j N; cbn [ai_setErrorIf ai_err]; now apply set_bad).
  assert (NO : OVERFLOW_RANGE <> OK) by discriminate.
  unfold encodeOperand. cbv zeta. cbn [num_op o_err o_val o_mode].
  destruct k; try discriminate; cbn [mode_fits existsb] in MF; rewrite ?orb_false_r in MF; apply Z.eqb_eq in MF; subst m; modes; cbn [in_range uncut] in *.
  - rewrite A1, A2, A3, limit. replace (last_data ct <? getUnsigned v) with true.
    2:{ symmetry. apply Z.ltb_lt. rewrite getUnsigned_mod, cut32 by assumption. assert (last_data ct <= 255) by (unfold last_data; destruct (ct =? TMS32010); lia). destruct (Z.ltb_spec (int_of v) 0); lia. }
    cbn [ai_embed ai_err]. destruct (_ && _); [apply OV, NO|]. apply OV, NO.
  - rewrite A1, A2, A3, limit. assert (LL : last_data ct <= 255) by (unfold last_data; destruct (ct =? TMS32010); lia). assert (GV : getUnsigned v = if int_of v <? 0 then int_of v + 2^32 else int_of v) by (rewrite getUnsigned_mod, cut32 by assumption; reflexivity).
    destruct (Z.ltb_spec (last_data ct) (getUnsigned v)) as [X|X].
    + cbn [ai_embed ai_err]. destruct (_ && _); [apply OV, NO|]. apply OV, NO.
    + assert (V1 : getUnsigned v < 128) by (destruct (Z.ltb_spec (int_of v) 0); lia).
      replace ((ai_opc (ai_setErrorIf OK i) =? SST) && (getUnsigned v <? 0x80)) with true; [apply OV, NO|]. symmetry. apply andb_true_iff. split; [|lia]. cbn [ai_setErrorIf ai_opc]. apply Z.eqb_eq. auto.
  - rewrite (over_b v) by (auto; lia). replace (negb ((-0x1000 <=? int_of v) && (int_of v <=? 0xFFF))) with true by lia. cbn [ai_embed ai_err]. apply OV, NO.
  - rewrite (over_b v) by (auto; lia). replace (negb ((0 <=? int_of v) && (int_of v <=? 0xFFF))) with true by lia. cbn [ai_emitOperand16 ai_err]. apply OV, NO.
Qed.
Lemma enc_absent ct m i e o : ((m =? M_NONE) || silent m) = true -> 0 <= o < 65536 -> encodeOperand ct no_operand m (mkAI i e o) = mkAI i e o.
Proof.
  intros S O. unfold encodeOperand. cbv zeta. cbn [no_operand o_err o_val o_mode]. rewrite noerr. unfold silent in S.
  assert (Q : m = M_NONE \/ m = M_LS4 \/ m = M_LS3 \/ m = M_LS0 \/ m = M_NARP) by lia.
  destruct Q as [->|[->|[->|[->| ->]]]]; modes; try reflexivity; unfold ai_embed; cbn [ai_insn ai_err ai_opc]; change (u16 (Z.shiftl (getUnsigned v_undef) 8)) with 0; now rewrite Z.lor_0_r.
Qed.

(* ------------------------------------------------------------ the lines *)
Definition name_fine (nm : text) (opc : Z) : bool := plain_name sp_tms32010 [] tms32010_directives nm && is_alpha (peek nm) && (0 <=? opc) && (opc <? 65536).
Definition gone (m : Z) : bool := (m =? M_NONE) || silent m.
Definition one_ok (ct : Z) (f : string * Z * number_kind) : bool :=
  let '(nm, opc, k) := f in
  name_fine (s2l nm) opc && match k with Num_data => negb (opc =? SST) | Num_status => opc =? SST | _ => true end &&
  forallb (fun c => match tms32010_searchName ct (s2l nm) c M_NONE M_NONE with
    | Val (OK, Some e) => accepts k c && (e_opc e =? opc) && mode_fits k (e_m1 e) && gone (e_m2 e) && gone (e_m3 e)
    | Val (er, _) => negb (isOK er) && negb (accepts k c)
    | _ => false end) modes7.
Lemma one_check : forallb (fun ct => forallb (one_ok ct) one_forms) tms_types = true.
Proof. vm_compute. reflexivity. Qed.
Definition two_ok (ct : Z) (f : string * Z * number_kind * number_kind) : bool :=
  let '(nm, opc, k1, k2) := f in
  name_fine (s2l nm) opc &&
  match k1, k2 with Num_data, (Num_shift | Num_shift_high | Num_shift_none | Num_port) => negb (opc =? SST) | Num_register, (Num_data | Num_byte) => true | _, _ => false end &&
  forallb (fun c1 => forallb (fun c2 => match tms32010_searchName ct (s2l nm) c1 c2 M_NONE with
    | Val (OK, Some e) => accepts k1 c1 && accepts k2 c2 && (e_opc e =? opc) && mode_fits k1 (e_m1 e) && mode_fits k2 (e_m2 e) && gone (e_m3 e)
    | Val (er, _) => negb (isOK er) && negb (accepts k1 c1 && accepts k2 c2)
    | _ => false end) modes7) modes7.
Lemma two_check : forallb (fun ct => forallb (two_ok ct) two_forms) tms_types = true.
Proof. vm_compute. reflexivity. Qed.
(* the numbers do not overlap the opcode *)
Definition width (k : number_kind) : Z := match k with Num_data | Num_status => 7 | Num_bit => 1 | Num_byte => 8 | Num_factor => 13 | _ => 0 end.
Lemma one_apart : forallb (fun f => Z.land (snd (fst f)) (Z.ones (width (snd f))) =? 0) one_forms = true.
Proof. vm_compute. reflexivity. Qed.
Definition few (k : number_kind) : list Z := match k with Num_shift | Num_shift_high | Num_shift_none | Num_port | Num_register => [0;1;2;3;4;5;6;7;8;9;10;11;12;13;14;15] | _ => [] end.
Definition fewb (k : number_kind) (v : Z) : bool := match k with Num_shift => true | Num_shift_high => v <? 5 | Num_shift_none => v =? 0 | Num_port => v <? 8 | Num_register => v <? 2 | _ => false end.
Definition apart (opc : Z) (k k' : number_kind) : bool :=
  forallb (fun v => negb (fewb k v) || ((Z.lor opc (256 * v) =? opc + 256 * v) && (Z.land (opc + 256 * v) (Z.ones (width k')) =? 0) && (opc + 256 * v <? 65536 - 256) && negb (opc + 256 * v =? SST))) (few k).
Lemma two_apart : forallb (fun '(_, opc, k1, k2) => match k1 with Num_data => apart opc k2 k1 | _ => apart opc k1 k2 end) two_forms = true.
Proof. vm_compute. reflexivity. Qed.
Lemma part_width ct k v : in_range ct k v -> 0 < width k -> 0 <= part_of_word k v < 2^width k.
Proof.
  intros R W. assert (last_data ct <= 255) by (unfold last_data; destruct (ct =? TMS32010); lia).
  destruct k; cbn [width part_of_word in_range] in *; lia.
Qed.
Lemma in_dec ct k v : in_range ct k v \/ ~ in_range ct k v.
Proof. destruct k; cbn [in_range]; lia. Qed.
Lemma few_in ct k v : in_range ct k v -> In k [Num_shift; Num_shift_high; Num_shift_none; Num_port; Num_register] -> In v (few k) /\ fewb k v = true /\ part_of_word k v = 256 * v.
Proof.
  intros R I. assert (E : 0 <= v <= 15 -> In v [0;1;2;3;4;5;6;7;8;9;10;11;12;13;14;15]) by (intros N; cbn; lia).
  cbn in I. destruct I as [<-|[<-|[<-|[<-|[<-|[]]]]]]; cbn [in_range few fewb part_of_word] in *; (split; [apply E; lia|]); split; lia.
Qed.
Lemma opens nm opc a ct indent gap ops addr : name_fine nm opc = true ->
  a_pl a = pl_tms32010 -> a_aw a = 12 -> blanks indent -> blanks gap -> gap <> [] -> 0 <= addr < 4096 ->
  tms32010_encode a ct (indent ++ nm ++ gap ++ ops) addr =
  bind (tms32010_encodeImpl a ct addr nm (skipSpaces ops) (new_insn addr)) (fun '(i, scan) => Val (L_insn i scan)).
Proof.
  intros FK PL AW BI BG NG AR. unfold name_fine in FK. rewrite !andb_true_iff in FK. destruct FK as (((PN & AL) & O1) & O2).
  unfold tms32010_encode. rewrite line_insn; [reflexivity| | |exact BI|exact BG| |].
  - rewrite PL. exact PN.
  - intros z. rewrite PL. now apply P_Tms32010.plain_tms.
  - rewrite PL. destruct gap as [|c gap]; [congruence|]. inversion BG as [|? ? C ?]; subst. cbn [app peek]. apply space_cases in C.
    destruct C as [->|[->|[->|[->|[->| ->]]]]]; reflexivity.
  - rewrite AW. apply C31_addr; [lia|lia|]. split; [change (2^12) with 4096; lia|discriminate].
Qed.
Lemma skip_parse a loc t : parseOperand a loc (skipSpaces t) = parseOperand a loc t.
Proof. unfold parseOperand. now rewrite skip_skip. Qed.
Lemma no_more a loc rest : last_rest rest -> parseMore a loc rest = Val (OK, no_operand, rest).
Proof. intros LR. unfold parseMore. now rewrite (last_nocomma _ LR). Qed.
Lemma i_bad e i : e <> OK -> i_err (i_seterr e i) <> OK.
Proof. auto. Qed.
Lemma emit_err i : ai_err (ai_emitInsn i) = ai_err i.
Proof. reflexivity. Qed.
Lemma ok_err e : setErrorIfAt OK e = e.
Proof. unfold setErrorIfAt, setError. change (isOK OK) with true. cbn [andb]. destruct (isOK e) eqn:X; [apply isOK_e in X; now rewrite X|reflexivity]. Qed.
Lemma final o addr nb (e : err) : 0 <= o < 65536 -> (length nb <= 60)%nat -> ai_emitInsn (mkAI (part addr 2 nb) e o) = mkAI (canon addr (word_bytes o ++ nb)) e o.
Proof. intros O L. unfold ai_emitInsn. cbn [ai_insn ai_err ai_opc]. now rewrite part_word. Qed.
Lemma next_part k v addr : next_insn k v addr = part addr 2 (in_bytes (next_words k v)).
Proof. destruct k; reflexivity. Qed.
Section Ranges.
Variables (symbol : text -> option value) (function : text -> option functor) (indent gap b0 : text)
  (e : expr) (s rest : text) (v : value) (addr ct : Z).
Hypotheses (CT : In ct tms_types) (BI : blanks indent) (BG : blanks gap) (NG : gap <> []) (B0 : blanks b0) (AR : 0 <= addr < 4096).
Let a := tms32010_asm symbol function 10.
Hypotheses (D : derives fam_32010 (mkC addr symbol function 0) e s rest) (W : well_nested e) (VS : value_slots e <= 8) (OS : operator_slots e <= 8)
  (V : S_ExprTree.value_of e = Val (OK, v)) (SN : starts_number s) (IV : int_value v).
Lemma one_line nm opc k : In (nm, opc, k) one_forms -> last_rest rest -> uncut k (int_of v) ->
  exists i, tms32010_encode a ct (indent ++ s2l nm ++ gap ++ b0 ++ s) addr = Val (L_insn i rest) /\
    (i_err i = OK <-> in_range ct k (int_of v)) /\
    (in_range ct k (int_of v) -> i_code i = in_bytes (opc + part_of_word k (int_of v) :: next_words k (int_of v))).
Proof.
  intros F LR U. pose proof one_check as H. rewrite forallb_forall in H. specialize (H ct CT). rewrite forallb_forall in H. specialize (H _ F). unfold one_ok in H.
  pose proof one_apart as AP. rewrite forallb_forall in AP. specialize (AP _ F). cbn [fst snd] in AP. apply Z.eqb_eq in AP.
  rewrite !andb_true_iff in H. destruct H as ((NF & SS) & H). rewrite forallb_forall in H.
  destruct (parse_number a addr b0 e s rest v eq_refl eq_refl B0 SN D W VS OS (last_tail _ LR) V) as (b & BB & PO).
  assert (PS : parseOperands a addr (skipSpaces (b0 ++ s)) = Val (Three (num_op v) no_operand no_operand rest)).
  { unfold parseOperands. rewrite skip_parse, PO. cbn [bind]. change (isOK OK) with true. cbn [negb andb]. rewrite last_skip, no_more by assumption. cbn [bind].
    change (isOK OK) with true. cbn [negb]. rewrite no_more by assumption. reflexivity. }
  rewrite (opens (s2l nm) opc) by (auto; reflexivity). unfold tms32010_encodeImpl. rewrite PS. cbn [bind].
  set (c := constantType (getUnsigned v)) in *. specialize (H c (mode7 _)).
  assert (AC : accepts k c = cut_in k (int_of v mod 65536)) by now apply accepts_cut.
  assert (O : 0 <= opc < 65536) by (unfold name_fine in NF; lia).
  change (tms32010_searchName ct (s2l nm) (o_mode (num_op v)) (o_mode no_operand) (o_mode no_operand)) with (tms32010_searchName ct (s2l nm) c M_NONE M_NONE).
  destruct (tms32010_searchName ct (s2l nm) c M_NONE M_NONE) as [[er fo]| | | |]; try discriminate.
  destruct (isOK er) eqn:ER.
  - apply isOK_e in ER. subst er. destruct fo as [f|]; [|discriminate]. rewrite !andb_true_iff in H. destruct H as ((((A & FO) & MF) & G2) & G3). apply Z.eqb_eq in FO.
    cbn [bind i_err new_insn]. change (setErrorIfAt OK OK) with OK. change (isOK OK) with true. cbn [negb].
    cbv zeta.
    rewrite FO, !ok_err. change (new_insn addr) with (canon addr []).
    eexists. split; [reflexivity|]. change (mkOp M_NONE v_undef OK) with no_operand. fold no_operand. change (mkOp c v OK) with (num_op v).
    assert (IN : in_range ct k (int_of v) -> ai_emitInsn (encodeOperand ct no_operand (e_m3 f) (encodeOperand ct no_operand (e_m2 f) (encodeOperand ct (num_op v) (e_m1 f) (mkAI (canon addr []) OK opc)))) =
      mkAI (canon addr (in_bytes (opc + part_of_word k (int_of v) :: next_words k (int_of v)))) OK (opc + part_of_word k (int_of v))).
    { intros R. rewrite (enc_in ct k) by (auto; intros ->; lia).
      assert (LO : Z.lor opc (part_of_word k (int_of v)) = opc + part_of_word k (int_of v) /\ 0 <= opc + part_of_word k (int_of v) < 65536).
      { destruct (Z.eq_dec (width k) 0) as [E0|E0].
        - assert (part_of_word k (int_of v) = 0) as ->; [|rewrite Z.lor_0_r; lia].
          cbn [one_forms map app fst snd In] in F. repeat (destruct F as [F|F]; [injection F as _ _ <-; try discriminate E0; reflexivity|]). contradiction.
        - assert (W0 : 0 < width k) by (destruct k; cbn in *; lia). pose proof (part_width ct k (int_of v) R W0) as PW.
          rewrite (lor_add opc (width k)) by (auto; lia). split; [reflexivity|].
          assert (LL : forallb (fun f => snd (fst f) + 2^width (snd f) <=? 65536) one_forms = true) by (vm_compute; reflexivity).
          rewrite forallb_forall in LL. specialize (LL _ F). cbn [fst snd] in LL. lia. }
      destruct LO as (-> & LO). rewrite !enc_absent by auto. rewrite next_part, final by (auto; destruct k; cbn; lia). reflexivity. }
    destruct (in_dec ct k (int_of v)) as [R|R].
    + rewrite (IN R). cbn [ai_err ai_insn]. split; [split; [auto|reflexivity]|]. intros _. unfold i_code, i_seterr. cbn [i_len i_bytes]. fold (i_code (canon addr (in_bytes (opc + part_of_word k (int_of v) :: next_words k (int_of v))))). apply canon_code.
    + split; [|tauto]. split; [|tauto]. intros E. exfalso. cbn [i_seterr i_err] in E. rewrite emit_err in E.
      destruct (checked k) eqn:CK; [|apply R; apply accepted_range; auto; congruence].
      revert E. do 2 apply enc_err. apply (enc_out ct k); auto. intros ->. cbn [ai_opc]. lia.
  - assert (NR : ~ in_range ct k (int_of v)).
    { intros R. apply (range_accepted ct k) in R. assert (accepts k c = false) by (destruct er; try discriminate; apply andb_true_iff in H; destruct H as (_ & H); now apply negb_true_iff in H). congruence. }
    assert (EN : er <> OK) by (intros ->; discriminate). cbn [bind i_err new_insn]. rewrite ok_err, ER. cbn [negb]. eexists. split; [reflexivity|]. cbn [i_seterr i_err]. tauto.
Qed.
Lemma two_line nm opc k1 k2 b1 e2 s2 rest2 w : In (nm, opc, k1, k2) two_forms -> uncut k1 (int_of v) -> uncut k2 (int_of w) ->
  rest = 44 :: b1 ++ s2 -> blanks b1 ->
  derives fam_32010 (mkC addr symbol function 0) e2 s2 rest2 -> well_nested e2 -> value_slots e2 <= 8 -> operator_slots e2 <= 8 ->
  S_ExprTree.value_of e2 = Val (OK, w) -> starts_number s2 -> int_value w -> last_rest rest2 ->
  exists i, tms32010_encode a ct (indent ++ s2l nm ++ gap ++ b0 ++ s) addr = Val (L_insn i rest2) /\
    (i_err i = OK <-> in_range ct k1 (int_of v) /\ in_range ct k2 (int_of w)) /\
    (in_range ct k1 (int_of v) -> in_range ct k2 (int_of w) -> i_code i = in_bytes [opc + part_of_word k1 (int_of v) + part_of_word k2 (int_of w)]).
Proof.
  intros F U U2 ER B1 D2 W2 VS2 OS2 V2 SN2 IW LR. pose proof two_check as H. rewrite forallb_forall in H. specialize (H ct CT). rewrite forallb_forall in H. specialize (H _ F). unfold two_ok in H.
  pose proof two_apart as AP. rewrite forallb_forall in AP. specialize (AP _ F). cbv beta iota in AP.
  rewrite !andb_true_iff in H. destruct H as ((NF & SS) & H). rewrite forallb_forall in H.
  assert (T : tail rest) by (right; exists 44, (b1 ++ s2); auto).
  destruct (parse_number a addr b0 e s rest v eq_refl eq_refl B0 SN D W VS OS T V) as (b & BB & PO).
  destruct (parse_number a addr b1 e2 s2 rest2 w eq_refl eq_refl B1 SN2 D2 W2 VS2 OS2 (last_tail _ LR) V2) as (b' & BB' & PO2).
  assert (SK : skipSpaces (b ++ rest) = 44 :: b1 ++ s2) by (rewrite skip_blanks by exact BB; rewrite ER; now apply skip_none).
  assert (PS : parseOperands a addr (skipSpaces (b0 ++ s)) = Val (Three (num_op v) (num_op w) no_operand rest2)).
  { unfold parseOperands. rewrite skip_parse, PO. cbn [bind]. change (isOK OK) with true. cbn [negb andb]. rewrite SK.
    assert (PM : parseMore a addr (44 :: b1 ++ s2) = Val (OK, num_op w, rest2)).
    { unfold parseMore. cbn [expect_char]. change (44 =? 44) with true. cbv iota. rewrite PO2. cbn [bind]. change (isOK OK) with true. cbn [negb andb]. now rewrite last_skip. }
    rewrite PM. cbn [bind]. change (isOK OK) with true. cbn [negb]. rewrite no_more by assumption. reflexivity. }
  rewrite (opens (s2l nm) opc) by (auto; reflexivity). unfold tms32010_encodeImpl. rewrite PS. cbn [bind].
  set (c := constantType (getUnsigned v)) in *. set (d := constantType (getUnsigned w)) in *. specialize (H c (mode7 _)). rewrite forallb_forall in H. specialize (H d (mode7 _)).
  assert (AC : accepts k1 c = cut_in k1 (int_of v mod 65536)) by now apply accepts_cut.
  assert (AD : accepts k2 d = cut_in k2 (int_of w mod 65536)) by now apply accepts_cut.
  assert (O : 0 <= opc < 65536) by (unfold name_fine in NF; lia).
  change (tms32010_searchName ct (s2l nm) (o_mode (num_op v)) (o_mode (num_op w)) (o_mode no_operand)) with (tms32010_searchName ct (s2l nm) c d M_NONE).
  destruct (tms32010_searchName ct (s2l nm) c d M_NONE) as [[er fo]| | | |]; try discriminate.
  destruct (isOK er) eqn:EK.
  - apply isOK_e in EK. subst er. destruct fo as [f|]; [|discriminate]. rewrite !andb_true_iff in H. destruct H as (((((A & A2) & FO) & MF) & MF2) & G3). apply Z.eqb_eq in FO.
    cbn [bind i_err new_insn]. change (setErrorIfAt OK OK) with OK. change (isOK OK) with true. cbn [negb]. cbv zeta. rewrite FO, !ok_err. change (new_insn addr) with (canon addr []).
    eexists. split; [reflexivity|]. change (mkOp M_NONE v_undef OK) with no_operand. fold no_operand. change (mkOp c v OK) with (num_op v). change (mkOp d w OK) with (num_op w).
    assert (N1 : next_insn k1 (int_of v) addr = canon addr [] /\ next_insn k2 (int_of w) addr = canon addr []) by (destruct k1, k2; try discriminate; auto).
    assert (NST : k1 <> Num_status /\ k2 <> Num_status) by (destruct k1, k2; try discriminate; split; discriminate).
    set (o := opc + part_of_word k1 (int_of v) + part_of_word k2 (int_of w)).
    assert (IN : in_range ct k1 (int_of v) -> in_range ct k2 (int_of w) ->
      ai_emitInsn (encodeOperand ct no_operand (e_m3 f) (encodeOperand ct (num_op w) (e_m2 f) (encodeOperand ct (num_op v) (e_m1 f) (mkAI (canon addr []) OK opc)))) = mkAI (canon addr (in_bytes [o])) OK o).
    { intros R R2.
      assert (Q : (k1 = Num_data -> opc <> SST) /\ (k2 = Num_data -> Z.lor opc (part_of_word k1 (int_of v)) <> SST) /\
        Z.lor (Z.lor opc (part_of_word k1 (int_of v))) (part_of_word k2 (int_of w)) = o /\ 0 <= o < 65536).
      { assert (G : forall k v k' w, apart opc k k' = true -> In k [Num_shift; Num_shift_high; Num_shift_none; Num_port; Num_register] -> In k' [Num_data; Num_byte] ->
          in_range ct k v -> in_range ct k' w ->
          Z.lor opc (part_of_word k v) <> SST /\ Z.lor (Z.lor opc (part_of_word k v)) (part_of_word k' w) = opc + part_of_word k v + part_of_word k' w /\ 0 <= opc + part_of_word k v + part_of_word k' w < 65536).
        { intros k x k' y AA IK IK' RX RY. destruct (few_in ct k x RX IK) as (IX & FX & ->). unfold apart in AA. rewrite forallb_forall in AA. specialize (AA x IX). rewrite FX in AA. cbn [negb orb] in AA.
          rewrite !andb_true_iff in AA. destruct AA as (((L1 & L2) & L3) & L4). apply Z.eqb_eq in L1, L2. apply negb_true_iff, Z.eqb_neq in L4. rewrite L1.
          assert (W0 : 0 < width k') by (cbn in IK'; destruct IK' as [<-|[<-|[]]]; cbn; lia). assert (W8 : 2^width k' <= 256) by (cbn in IK'; destruct IK' as [<-|[<-|[]]]; cbn; lia).
          pose proof (part_width ct k' y RY W0) as PW. split; [exact L4|]. rewrite (lor_add _ (width k')) by (auto; lia). split; [reflexivity|].
          assert (0 <= x) by (cbn in IK; destruct IK as [<-|[<-|[<-|[<-|[<-|[]]]]]]; cbn [in_range] in RX; lia). lia. }
        unfold o. destruct k1; try discriminate.
        - assert (K2 : In k2 [Num_shift; Num_shift_high; Num_shift_none; Num_port; Num_register]) by (destruct k2; try discriminate; cbn; tauto).
          destruct (G k2 (int_of w) Num_data (int_of v) AP K2 ltac:(cbn; auto) R2 R) as (X1 & X2 & X3). split; [intros _; destruct k2; try discriminate; lia|]. split; [intros ->; discriminate|].
          rewrite <- Z.lor_assoc, (Z.lor_comm (part_of_word Num_data _)), Z.lor_assoc. split; [lia|lia].
        - assert (K2 : In k2 [Num_data; Num_byte]) by (destruct k2; try discriminate; cbn; tauto).
          destruct (G Num_register (int_of v) k2 (int_of w) AP ltac:(cbn; tauto) K2 R R2) as (X1 & X2 & X3). split; [discriminate|]. split; [intros _; exact X1|]. split; assumption. }
      destruct Q as (Q1 & Q2 & Q3 & Q4). rewrite (enc_in ct k1) by auto. rewrite (proj1 N1). rewrite (enc_in ct k2) by auto. rewrite (proj2 N1), Q3. rewrite enc_absent by auto.
      change (canon addr []) with (part addr 2 []). rewrite final by (auto; cbn; lia). reflexivity. }
    destruct (in_dec ct k1 (int_of v)) as [R|R]; [destruct (in_dec ct k2 (int_of w)) as [R2|R2]|].
    + rewrite (IN R R2). cbn [ai_err ai_insn]. split; [split; [auto|reflexivity]|]. intros _ _. unfold i_code, i_seterr. cbn [i_len i_bytes]. fold (i_code (canon addr (in_bytes [o]))). apply canon_code.
    + split; [|tauto]. split; [|tauto]. intros E. exfalso. cbn [i_seterr i_err] in E. rewrite emit_err in E.
      destruct (checked k2) eqn:CK; [|apply R2; apply accepted_range; auto; congruence].
      revert E. apply enc_err. apply (enc_out ct k2); auto. intros X. destruct NST. contradiction.
    + split; [|tauto]. split; [|tauto]. intros E. exfalso. cbn [i_seterr i_err] in E. rewrite emit_err in E.
      destruct (checked k1) eqn:CK; [|apply R; apply accepted_range; auto; congruence].
      revert E. do 2 apply enc_err. apply (enc_out ct k1); auto. intros X. destruct NST. contradiction.
  - assert (NR : ~ (in_range ct k1 (int_of v) /\ in_range ct k2 (int_of w))).
    { intros (R & R2). apply (range_accepted ct k1) in R. apply (range_accepted ct k2) in R2.
      assert (accepts k1 c && accepts k2 d = false) as X by (destruct er; try discriminate; apply andb_true_iff in H; destruct H as (_ & H); now apply negb_true_iff in H).
      rewrite AC, AD, R, R2 in X. discriminate. }
    assert (EN : er <> OK) by (intros ->; discriminate). cbn [bind i_err new_insn]. rewrite ok_err, EK. cbn [negb]. eexists. split; [reflexivity|]. cbn [i_seterr i_err]. tauto.
Qed.
End Ranges.
