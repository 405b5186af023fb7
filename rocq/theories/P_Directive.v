(** Proofs about origin, alignment and space. *)
From Coq Require Import ZArith Lia ZifyBool String List Bool.
From Verif Require Import M_Char M_Error M_Value M_Text M_Insn M_Config M_Operators M_Parsers M_Expr M_Directive S_Value S_Insn S_Expr S_ExprTree S_Directive P_Value P_Operators P_Insn P_Config.
Import ListNotations.
Open Scope list_scope.
Local Open Scope Z_scope.

Lemma getUnsigned_mod v : int_value v -> getUnsigned v = int_of v mod 2^32.
Proof.
  intros I. unfold getUnsigned, int_of. destruct (v_type v); try reflexivity.
  replace (v_bits v - 2^64) with (v_bits v + (- 2^32) * 2^32) by lia. now rewrite Z.mod_add by lia.
Qed.
Lemma isOK_false e : e <> OK -> isOK e = false. Proof. destruct e; try reflexivity. contradiction. Qed.
Lemma least_unique n x m m' : least_multiple n x m -> least_multiple n x m' -> m = m'.
Proof. intros ((q & ->) & A & B) ((q' & ->) & A' & B'). specialize (B q' A'). specialize (B' q A). lia. Qed.
Lemma aligned_least n x : 0 < n -> least_multiple n x (if x mod n =? 0 then x else x + (n - x mod n)).
Proof.
  intros N. pose proof (Z.div_mod x n ltac:(lia)) as E. pose proof (Z.mod_pos_bound x n N) as R.
  destruct (Z.eqb_spec (x mod n) 0) as [K|K].
  - split; [exists (x / n); lia|]. split; lia.
  - split; [exists (x / n + 1); lia|]. split; [lia|]. intros q H.
    assert (x / n < q); [|nia]. apply Z.div_lt_upper_bound; [lia|]. destruct (Z.eq_dec x (n * q)) as [->|]; [|lia].
    exfalso. apply K. rewrite Z.mul_comm. apply Z.mod_mul. lia.
Qed.
Lemma seterr_loc e s : ds_loc (ds_seterr e s) = ds_loc s /\ ds_scan (ds_seterr e s) = ds_scan s /\ i_addr (ds_insn (ds_seterr e s)) = i_addr (ds_insn s) /\ i_code (ds_insn (ds_seterr e s)) = i_code (ds_insn s) /\ i_err (ds_insn (ds_seterr e s)) = e.
Proof. repeat split. Qed.
Lemma err_addr aw m : 1 <= aw <= 32 -> 0 <= m < 2^32 -> setErrorIfAt OK (checkAddr aw m false) = if m <? 2^aw then OK else OVERFLOW_RANGE.
Proof. intros A M. rewrite checkAddr_false by lia. cbn [andb]. destruct (Z.leb_spec (2^aw) m); [replace (m <? 2^aw) with false by lia|replace (m <? 2^aw) with true by lia]; reflexivity. Qed.
Lemma align_to_least a n s m : 1 <= a_aw a <= 32 -> 0 < n -> 0 <= i_addr (ds_insn s) -> i_err (ds_insn s) = OK -> least_multiple n (i_addr (ds_insn s)) m -> m < 2^32 ->
  exists s', align_to a n s = Val (if m <? 2^(a_aw a) then OK else OVERFLOW_RANGE, s') /\
    ds_loc s' = m /\ i_addr (ds_insn s') = m /\ i_code (ds_insn s') = i_code (ds_insn s) /\ ds_scan s' = ds_scan s.
Proof.
  intros AW N A E L M. pose proof (least_unique _ _ _ _ L (aligned_least n (i_addr (ds_insn s)) N)) as ->. destruct L as (_ & L1 & _).
  unfold align_to, i_align. replace (n =? 0) with false by lia. unfold setCurrentLocation, insn_setErrorIf.
  destruct (i_addr (ds_insn s) mod n =? 0) eqn:R.
  - cbn [ds_set_insn ds_insn]. rewrite E, err_addr by lia. eexists. split; [reflexivity|]. repeat split.
  - cbn [ds_set_insn ds_insn i_setaddr i_addr i_err]. rewrite E. rewrite Z.mod_small in * by lia. rewrite err_addr by lia. eexists. split; [reflexivity|]. repeat split.
Qed.
Lemma align_parts a n p s : 0 <= n <= 255 -> operand a s n p -> alignOrigin a ALIGN_VAR s = align_to a n (ds_set_scan p s).
Proof.
  intros N (v & V & I & <-). unfold alignOrigin, ALIGN_VAR, ALIGN_ODD. cbn [Z.eqb]. rewrite V. cbn [bind isOK err_eqb err_code Z.eqb negb].
  destruct (overflow v 255 0) eqn:O. { apply (C24_overflow v 255 0 I) in O; lia. }
  rewrite getUnsigned_mod by auto. rewrite (Z.mod_small _ (2^32)) by lia. rewrite Z.mod_small by lia. reflexivity.
Qed.
Lemma C32_var a s n p m : 1 <= a_aw a <= 32 -> 1 <= n <= 255 -> operand a s n p -> 0 <= i_addr (ds_insn s) -> i_err (ds_insn s) = OK ->
  least_multiple n (i_addr (ds_insn s)) m -> m < 2^32 ->
  exists s', alignOrigin a ALIGN_VAR s = Val (if m <? 2^(a_aw a) then OK else OVERFLOW_RANGE, s') /\
    ds_loc s' = m /\ i_addr (ds_insn s') = m /\ i_code (ds_insn s') = i_code (ds_insn s) /\ ds_scan s' = p.
Proof.
  intros AW N O A E L M. rewrite (align_parts a n p s ltac:(lia) O).
  destruct (align_to_least a n (ds_set_scan p s) m AW ltac:(lia) A E L M) as (s' & H & R). exists s'. split; [exact H|]. exact R.
Qed.
Lemma C32_even a s m : 1 <= a_aw a <= 32 -> 0 <= i_addr (ds_insn s) -> i_err (ds_insn s) = OK ->
  least_multiple 2 (i_addr (ds_insn s)) m -> m < 2^32 ->
  exists s', alignOrigin a ALIGN_EVEN s = Val (if m <? 2^(a_aw a) then OK else OVERFLOW_RANGE, s') /\
    ds_loc s' = m /\ i_addr (ds_insn s') = m /\ i_code (ds_insn s') = i_code (ds_insn s) /\ ds_scan s' = ds_scan s.
Proof. intros AW A E L M. exact (align_to_least a 2 s m AW ltac:(lia) A E L M). Qed.
Lemma C32_odd a s : 1 <= a_aw a <= 32 -> 0 <= i_addr (ds_insn s) < 2^32 -> i_err (ds_insn s) = OK ->
  let m := if Z.even (i_addr (ds_insn s)) then i_addr (ds_insn s) + 1 else i_addr (ds_insn s) in
  exists s', alignOrigin a ALIGN_ODD s = Val (if m <? 2^(a_aw a) then OK else OVERFLOW_RANGE, s') /\
    ds_loc s' = m /\ i_addr (ds_insn s') = m /\ ds_scan s' = ds_scan s.
Proof.
  intros AW A E. cbv zeta. unfold alignOrigin, ALIGN_ODD. cbn [Z.eqb Pos.eqb]. rewrite Zmod_even. unfold setCurrentLocation, insn_setErrorIf.
  destruct (Z.even (i_addr (ds_insn s))) eqn:EV; cbn [Z.eqb].
  - assert (i_addr (ds_insn s) + 1 < 2^32). { destruct (Z.eq_dec (i_addr (ds_insn s)) (2^32 - 1)) as [K|]; [rewrite K in EV; discriminate|lia]. }
    rewrite Z.mod_small by lia. cbn [ds_insn ds_set_insn i_reset i_addr i_err]. rewrite err_addr by lia. eexists. split; [reflexivity|]. repeat split.
  - cbn [ds_insn]. rewrite E, err_addr by lia. eexists. split; [reflexivity|]. repeat split.
Qed.
Lemma C32_range a s n p : (n < 0 \/ 255 < n) -> operand a s n p ->
  exists s', alignOrigin a ALIGN_VAR s = Val (OVERFLOW_RANGE, s') /\ ds_loc s' = ds_loc s /\ i_addr (ds_insn s') = i_addr (ds_insn s) /\ i_err (ds_insn s') = OVERFLOW_RANGE.
Proof.
  intros N (v & V & I & <-). unfold alignOrigin, ALIGN_VAR, ALIGN_ODD. cbn [Z.eqb]. rewrite V. cbn [bind isOK err_eqb err_code Z.eqb negb].
  rewrite (proj2 (C24_overflow v 255 0 I ltac:(lia) ltac:(lia))) by lia. eexists. split; [reflexivity|]. repeat split.
Qed.
Lemma C32_zero a s p : operand a s 0 p -> alignOrigin a ALIGN_VAR s = UB.
Proof. intros O. rewrite (align_parts a 0 p s ltac:(lia) O). reflexivity. Qed.
Lemma C32_error a s e : operand_error a s e ->
  exists s', alignOrigin a ALIGN_VAR s = Val (e, s') /\ ds_loc s' = ds_loc s /\ i_addr (ds_insn s') = i_addr (ds_insn s) /\ i_err (ds_insn s') = e.
Proof.
  intros (E & v & p & V). unfold alignOrigin, ALIGN_VAR, ALIGN_ODD. cbn [Z.eqb]. rewrite V. cbn [bind]. rewrite isOK_false by auto. eexists. split; [reflexivity|]. repeat split.
Qed.

(* ------------------------------------------------------------ C34 *)
Lemma C34_org a s n p : 1 <= a_aw a <= 32 -> 0 <= n < 2^(a_aw a) -> operand a s n p -> i_err (ds_insn s) = OK ->
  exists s', defineOrigin a s = Val (OK, s') /\ ds_loc s' = n /\ i_addr (ds_insn s') = n /\ i_code (ds_insn s') = [] /\ ds_scan s' = p /\ i_err (ds_insn s') = OK.
Proof.
  intros AW N (v & V & I & <-) E. pose proof (pow_le (a_aw a) 32 ltac:(lia)). unfold defineOrigin. rewrite V. cbn [bind isOK err_eqb err_code Z.eqb negb].
  rewrite getUnsigned_mod, Z.mod_small by (auto; lia). unfold setCurrentLocation, insn_setErrorIf. cbn [ds_insn]. rewrite E, err_addr by lia.
  replace (int_of v <? 2 ^ a_aw a) with true by lia. eexists. split; [reflexivity|]. repeat split.
Qed.
Lemma C34_org_range a s n p : 1 <= a_aw a <= 32 -> 2^(a_aw a) <= n < 2^32 \/ (a_aw a < 32 /\ - 2^31 <= n < 0) -> operand a s n p -> i_err (ds_insn s) = OK ->
  exists s', defineOrigin a s = Val (OVERFLOW_RANGE, s') /\ i_addr (ds_insn s') = i_addr (ds_insn s) /\ i_err (ds_insn s') = OVERFLOW_RANGE.
Proof.
  intros AW N (v & V & I & <-) E. pose proof (pow_le (a_aw a) 32 ltac:(lia)). unfold defineOrigin. rewrite V. cbn [bind isOK err_eqb err_code Z.eqb negb].
  rewrite getUnsigned_mod by auto. unfold setCurrentLocation, insn_setErrorIf. cbn [ds_insn]. rewrite E.
  assert (2^(a_aw a) <= int_of v mod 2^32 < 2^32) as K.
  { split; [|apply Z.mod_pos_bound; lia]. destruct N as [N|(A1 & N)].
    - rewrite Z.mod_small by lia. lia.
    - pose proof (pow_le (a_aw a) 31 ltac:(lia)). replace (int_of v) with (int_of v + 2^32 + (-1) * 2^32) by lia. rewrite Z.mod_add, Z.mod_small by lia. lia. }
  rewrite err_addr by lia. replace (int_of v mod 2^32 <? 2 ^ a_aw a) with false by lia. eexists. split; [reflexivity|]. repeat split.
Qed.
Lemma C34_org_error a s e : operand_error a s e ->
  exists s', defineOrigin a s = Val (e, s') /\ ds_loc s' = ds_loc s /\ i_addr (ds_insn s') = i_addr (ds_insn s) /\ i_err (ds_insn s') = e.
Proof. intros (E & v & p & V). unfold defineOrigin. rewrite V. cbn [bind]. rewrite isOK_false by auto. eexists. split; [reflexivity|]. repeat split. Qed.

Lemma space_aligned align i : 0 <= i_addr i < 2^32 -> space_start align (i_addr i) < 2^32 ->
  (if align && negb (i_addr i mod 2 =? 0) then i_align 2 i else Some i) = Some (i_setaddr (space_start align (i_addr i)) i).
Proof.
  intros A S. unfold space_start in *. rewrite Zmod_odd. assert (i_setaddr (i_addr i) i = i) as K by (destruct i; reflexivity).
  destruct align; cbn [andb] in *; [|now rewrite K]. unfold i_align. rewrite Zmod_odd. cbn [Z.eqb].
  destruct (Z.odd (i_addr i)); cbn [Z.eqb negb]; [|now rewrite K].
  replace (i_addr i + (2 - 1)) with (i_addr i + 1) by lia. now rewrite Z.mod_small by lia.
Qed.
Definition at_start (align : bool) (s : dstate) : dstate := ds_set_insn (i_setaddr (space_start align (i_addr (ds_insn s))) (ds_insn s)) s.
Lemma parse_start a align s d : parseExpr a (at_start align s) d = parseExpr a s d. Proof. reflexivity. Qed.
Lemma C34_space a ty align s n p to : 1 <= a_aw a <= 32 -> (a_unit a = 1 \/ a_unit a = 2) -> 0 <= n < 2^16 -> operand a s n p -> i_err (ds_insn s) = OK ->
  0 <= i_addr (ds_insn s) -> to = space_start align (i_addr (ds_insn s)) + n * space_unit ty / a_unit a -> to < 2^32 ->
  exists s', allocateSpaces a ty align s = Val (OK, s') /\ ds_loc s' = to /\ i_addr (ds_insn s') = space_start align (i_addr (ds_insn s)) /\
    i_code (ds_insn s') = i_code (ds_insn s) /\ ds_scan s' = p /\ i_err (ds_insn s') = checkAddr (a_aw a) to align.
Proof.
  intros AW U N O E A -> L. assert (0 <= n * space_unit ty < 2^18) as B by (destruct ty; cbn [space_unit]; lia).
  assert (0 <= n * space_unit ty / a_unit a) as D by (apply Z.div_pos; lia).
  assert (i_addr (ds_insn s) <= space_start align (i_addr (ds_insn s))) as S1 by (unfold space_start; destruct (align && _); lia).
  unfold allocateSpaces. rewrite space_aligned by lia. fold (at_start align s). rewrite parse_start.
  destruct O as (v & V & I & <-). rewrite V. cbn [bind isOK err_eqb err_code Z.eqb negb].
  destruct (overflowUint16 v) eqn:OV. { apply (C24_overflow v 65535 (-32768) I) in OV; lia. }
  rewrite getUnsigned_mod, Z.mod_small by (auto; lia). unfold u32. rewrite (Z.mod_small (int_of v * _)) by lia. 
  cbn [i_setaddr i_addr]. rewrite (Z.mod_small (_ + _)) by lia.
  unfold setCurrentLocation, insn_setErrorIf. eexists. split; [reflexivity|]. cbn [ds_set_scan ds_seterr ds_loc ds_insn ds_scan i_seterr i_err i_addr at_start ds_set_insn i_setaddr].
  rewrite E. repeat split. unfold setErrorIfAt. cbn [isOK err_eqb err_code Z.eqb andb]. destruct (checkAddr _ _ _); reflexivity.
Qed.
Lemma C34_space_range a ty align s n p : n < - 2^15 \/ 2^16 <= n -> operand a s n p -> 0 <= i_addr (ds_insn s) -> space_start align (i_addr (ds_insn s)) < 2^32 ->
  exists s', allocateSpaces a ty align s = Val (OVERFLOW_RANGE, s') /\ ds_loc s' = ds_loc s /\ i_err (ds_insn s') = OVERFLOW_RANGE.
Proof.
  intros N (v & V & I & <-) A L. assert (i_addr (ds_insn s) <= space_start align (i_addr (ds_insn s))) as S1 by (unfold space_start; destruct (align && _); lia).
  unfold allocateSpaces. rewrite space_aligned by lia. fold (at_start align s). rewrite parse_start. rewrite V. cbn [bind isOK err_eqb err_code Z.eqb negb].
  assert (overflowUint16 v = true) as -> by (apply (C24_overflow v 65535 (-32768) I); lia). eexists. split; [reflexivity|]. repeat split.
Qed.
Lemma C34_space_error a ty align s e : operand_error a s e -> 0 <= i_addr (ds_insn s) -> space_start align (i_addr (ds_insn s)) < 2^32 ->
  exists s', allocateSpaces a ty align s = Val (e, s') /\ ds_loc s' = ds_loc s /\ i_err (ds_insn s') = e.
Proof.
  intros (E & v & p & V) A L. assert (i_addr (ds_insn s) <= space_start align (i_addr (ds_insn s))) as S1 by (unfold space_start; destruct (align && _); lia).
  unfold allocateSpaces. rewrite space_aligned by lia. fold (at_start align s). rewrite parse_start. rewrite V. cbn [bind]. rewrite isOK_false by auto. eexists. split; [reflexivity|]. repeat split.
Qed.
