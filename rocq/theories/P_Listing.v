From Coq Require Import String ZArith List Bool Lia ZifyBool.
From Verif Require Import M_Char M_Error M_Value M_StrBuffer M_Format M_Insn M_Operators M_Listing
  S_Value S_Number S_Listing P_Value P_StrBuffer P_Number P_Insn.
Import ListNotations.
Local Open Scope Z_scope.
Ltac Zify.zify_post_hook ::= Z.div_mod_to_equations.

(* ------------------------------------------------------------ output with room *)
Lemma letter_room c b : b_mark b < b_max b -> letter c b = appb b [conv (b_case b) c].
Proof. intros R. unfold letter, rletter. replace (b_mark b <? b_max b) with true by lia. reflexivity. Qed.
Lemma text_room t : forall b, b_case b = None -> b_mark b + Z.of_nat (length t) <= b_max b -> out_text t b = appb b t.
Proof.
  induction t as [|c t IH]; intros b C R; [now rewrite appb_nil|]. cbn [out_text fold_left length] in *.
  rewrite letter_room by lia. change (fold_left (fun b c => letter c b) t ?x) with (out_text t x). rewrite IH.
  - rewrite appb_app, C. reflexivity.
  - exact C.
  - rewrite appb_mark. cbn [length]. change (b_max (appb b [conv (b_case b) c])) with (b_max b). lia.
Qed.
Lemma spaces_room n b : b_case b = None -> b_mark b + Z.max n 0 <= b_max b -> outSpaces n b = appb b (blanks n).
Proof. intros C R. unfold outSpaces, blanks. apply text_room; [exact C|]. rewrite repeat_length. lia. Qed.
(* whatever the room is, a part of the text is appended *)
Lemma text_prefix t : forall b, b_case b = None -> exists n, b_txt (out_text t b) = b_txt b ++ firstn n t.
Proof.
  induction t as [|c t IH]; intros b C; [exists O; cbn; now rewrite app_nil_r|]. cbn [out_text fold_left].
  change (fold_left (fun b c => letter c b) t ?x) with (out_text t x).
  destruct (Z.ltb_spec (b_mark b) (b_max b)) as [L|L].
  - rewrite letter_room by lia. destruct (IH (appb b [conv (b_case b) c]) C) as (n & N). exists (S n). rewrite N, C. cbn [firstn conv appb b_txt].
    now rewrite <- app_assoc.
  - assert (F : forall t b, b_max b <= b_mark b -> b_txt (out_text t b) = b_txt b).
    { clear. induction t as [|c t IH]; intros b L; [reflexivity|]. cbn [out_text fold_left].
      change (fold_left (fun b c => letter c b) t ?x) with (out_text t x).
      assert (E : letter c b = b_seterr BUFFER_OVERFLOW b) by (unfold letter, rletter; replace (b_mark b <? b_max b) with false by lia; reflexivity).
      rewrite E, IH by exact L. reflexivity. }
    assert (E : letter c b = b_seterr BUFFER_OVERFLOW b) by (unfold letter, rletter; replace (b_mark b <? b_max b) with false by lia; reflexivity).
    rewrite E, F by exact L. exists O. cbn. now rewrite app_nil_r.
Qed.

(* ------------------------------------------------------------ numbers *)
Lemma drev_len r : 2 <= r -> forall fuel n v, 0 <= v < r ^ Z.of_nat n -> (length (drev fuel r v) <= n)%nat.
Proof.
  intros R. induction fuel as [|fuel IH]; intros n v V; cbn [drev]; [cbn; lia|].
  destruct (Z.eqb_spec v 0); [cbn; lia|]. destruct n as [|n]; [change (r ^ Z.of_nat 0) with 1 in V; lia|]. cbn [length].
  assert (X : (length (drev fuel r (v / r)) <= n)%nat); [|lia]. apply IH.
  rewrite Nat2Z.inj_succ, Z.pow_succ_r in V by lia. split; [apply Z.div_pos; lia|]. apply Z.div_lt_upper_bound; lia.
Qed.
Lemma digit_room r fuel : forall v b, b_mark b + Z.of_nat (length (drev fuel r v)) <= b_max b ->
  digit_loop fuel r v b = appb b (map (dl (b_case b)) (drev fuel r v)).
Proof.
  induction fuel as [|fuel IH]; intros v b R; cbn [digit_loop drev] in *; [now rewrite appb_nil|].
  destruct (v =? 0); [cbn; now rewrite appb_nil|]. cbn [length] in R. rewrite letter_room by lia. rewrite IH.
  - rewrite appb_case, appb_app. reflexivity.
  - rewrite appb_mark. cbn [length]. change (b_max (appb b ?t)) with (b_max b). lia.
Qed.
Lemma fill_room fuel start n : forall b, b_err b = OK -> start <= b_mark b -> start + n <= b_max b -> b_err (fill_loop fuel start n b) = OK.
Proof.
  induction fuel as [|fuel IH]; intros b E S R; cbn [fill_loop]; [exact E|]. rewrite E. change (isOK OK) with true. rewrite andb_true_r.
  destruct (Z.ltb_spec (b_mark b - start) n); [|exact E]. rewrite letter_room by lia. apply IH; [exact E| |exact R]. rewrite appb_mark. cbn. lia.
Qed.
Lemma number_room r n v b : 2 <= r <= 16 -> 1 <= n -> 0 <= v < r ^ n -> b_err b = OK -> b_mark b + n <= b_max b ->
  exists ds, reverse (b_mark b) (zero_fill (b_mark b) n (out_digits r v b)) = appb b ds /\ spelled r n v ds.
Proof.
  intros R N V E M. assert (L : (length (drev (dfuel v) r v) <= Z.to_nat n)%nat) by (apply drev_len; [lia|]; rewrite Z2Nat.id by lia; exact V).
  assert (D : out_digits r v b = appb b (map (dl (b_case b)) (drev (dfuel v) r v))) by (apply digit_room; fold (dfuel v); lia).
  assert (K : b_err (zero_fill (b_mark b) n (out_digits r v b)) = OK).
  { apply fill_room; [rewrite D; exact E|rewrite D, appb_mark; lia|rewrite D; exact M]. }
  unfold zero_fill in *. rewrite D in K |- *.
  destruct (fill_loop_ok _ _ _ _ K) as (m & A & B & C); [rewrite appb_mark; lia|].
  destruct (drev_ok r (b_case b) R (dfuel v) v ltac:(lia)) as (D1 & D2 & D3); [right; unfold dfuel; pose proof (Z.log2_nonneg v); lia|].
  rewrite A, appb_app, reverse_appb. eexists. split; [reflexivity|]. rewrite rev_app_distr, rev_repeat.
  rewrite appb_mark, map_length in *. split; [|split].
  - apply Forall_app. split; [|apply Forall_rev, Forall_dl; auto].
    apply Forall_forall. intros x Hx. apply repeat_spec in Hx. subst. exists 0. split; [reflexivity|lia].
  - rewrite pos_zeros. exact D2.
  - rewrite app_length, repeat_length, rev_length, map_length. destruct m; [lia|]. specialize (C ltac:(congruence)). lia.
Qed.
Lemma positional_bound r ds : 2 <= r -> Forall (is_digit_in r) ds -> 0 <= positional r ds < r ^ Z.of_nat (length ds).
Proof.
  intros R. induction ds as [|c ds IH] using rev_ind; intros F; [cbn; lia|]. apply Forall_app in F. destruct F as (F & G).
  inversion_clear G as [|? ? (d & D & DR) _]. specialize (IH F). rewrite pos_app, D, app_length, Nat2Z.inj_add. cbn [length].
  change (Z.of_nat 1) with 1. rewrite Z.pow_add_r by lia. rewrite Z.pow_1_r.
  assert (0 <= d) by (apply digit_cases in D; lia).
  set (p := positional r ds) in *. set (q := r ^ Z.of_nat (length ds)) in *. assert (p * r <= (q - 1) * r) by (apply Z.mul_le_mono_nonneg_r; lia).
  assert (0 <= p * r) by (apply Z.mul_nonneg_nonneg; lia). lia.
Qed.
Lemma no_leading_zero r n v ds : 2 <= r -> spelled r n v ds -> 1 <= n -> (n = 1 \/ r ^ (n - 1) <= v) -> hd 0 ds = 48 -> ds = [48].
Proof.
  intros R (F & P & L) N B H. destruct ds as [|c ds]; [cbn in L; lia|]. cbn [hd] in H. subst c. cbn [length] in L.
  destruct ds as [|c ds]; [reflexivity|]. exfalso. inversion_clear F as [|? ? _ F']. pose proof (positional_bound r (c :: ds) R F') as PB.
  change (48 :: c :: ds) with (repeat 48 1 ++ c :: ds) in P. rewrite pos_zeros in P.
  destruct B as [B|B]; [cbn [length] in L; lia|]. replace (n - 1) with (Z.of_nat (length (c :: ds))) in B by lia. lia.
Qed.

(* ------------------------------------------------------------ bits and digits *)
Lemma bits_loop_ok v : 0 <= v -> forall fuel bits, 1 <= bits <= Z.of_nat fuel -> v < 2 ^ bits ->
  let b := bits_loop fuel v (2 ^ (bits - 1)) bits in 1 <= b <= bits /\ v < 2 ^ b /\ (b = 1 \/ 2 ^ (b - 1) <= v).
Proof.
  intros V. induction fuel as [|fuel IH]; intros bits B L b; [lia|]. subst b. cbn [bits_loop].
  destruct (Z.eq_dec bits 1) as [->|N1]; [change (2 <=? 2 ^ (1 - 1)) with false; cbn [andb]; repeat split; try lia; auto|].
  assert (P : 2 <= 2 ^ (bits - 1)). { change 2 with (2 ^ 1) at 1. apply Z.pow_le_mono_r; lia. }
  replace (2 <=? 2 ^ (bits - 1)) with true by lia. cbn [andb].
  assert (D : 2 ^ bits = 2 * 2 ^ (bits - 1)) by (rewrite <- Z.pow_succ_r by lia; f_equal; lia).
  assert (T : (Z.land v (2 ^ (bits - 1)) =? 0) = (v <? 2 ^ (bits - 1))).
  { destruct (Z.ltb_spec v (2 ^ (bits - 1))) as [Q|Q].
    - apply Z.eqb_eq. rewrite Z.land_comm. apply Z.bits_inj'. intros k K. rewrite Z.land_spec, Z.pow2_bits_eqb, Z.bits_0 by lia.
      destruct (Z.eqb_spec (bits - 1) k) as [<-|]; [|reflexivity]. cbn [andb]. rewrite <- (Z.mod_small v (2 ^ (bits - 1))) by lia. apply Z.mod_pow2_bits_high. lia.
    - apply Z.eqb_neq. intros E. assert (X : Z.testbit (Z.land v (2 ^ (bits - 1))) (bits - 1) = false) by now rewrite E, Z.bits_0.
      rewrite Z.land_spec, Z.pow2_bits_true, andb_true_r in X by lia. rewrite Z.testbit_false in X by lia.
      assert (v / 2 ^ (bits - 1) = 1) by (symmetry; apply (Z.div_unique _ _ _ (v - 2 ^ (bits - 1))); lia). rewrite H in X. discriminate. }
  rewrite T. destruct (Z.ltb_spec v (2 ^ (bits - 1))) as [Q|Q].
  - specialize (IH (bits - 1) ltac:(lia) Q). cbn zeta in IH. rewrite Z.shiftr_div_pow2 by lia. change (2 ^ 1) with 2.
    replace (2 ^ (bits - 1) / 2) with (2 ^ (bits - 1 - 1)).
    + destruct IH as (A & B1 & C). repeat split; (lia || auto).
    + assert (2 ^ (bits - 1) = 2 ^ (bits - 1 - 1) * 2) as ->; [|now rewrite Z.div_mul]. rewrite Z.mul_comm, <- Z.pow_succ_r by lia. f_equal. lia.
  - repeat split; try lia.
Qed.
Lemma calcBits_ok v : 0 <= v < 2^32 -> 1 <= calcBits v <= 32 /\ v < 2 ^ calcBits v /\ (calcBits v = 1 \/ 2 ^ (calcBits v - 1) <= v).
Proof. intros V. apply (bits_loop_ok v (proj1 V) 32 32); [lia|apply V]. Qed.

Notation radix := list_radix.
Lemma radix_bits o : calcRadixBits (radix o) = if lo_octal o then 3 else 4.
Proof. unfold radix. now destruct (lo_octal o). Qed.
Lemma field_ceil o bits : 1 <= bits ->
  bits / calcRadixBits (radix o) + (if bits mod calcRadixBits (radix o) =? 0 then 0 else 1) = field_digits (radix o) bits.
Proof.
  intros B. rewrite radix_bits. unfold field_digits, radix. destruct (lo_octal o).
  - destruct (Z.eqb_spec (bits mod 3) 0); change (8 =? 8) with true; cbv iota; lia.
  - destruct (Z.eqb_spec (bits mod 4) 0); change (16 =? 8) with false; cbv iota; lia.
Qed.
Lemma field_pow o bits : 1 <= bits -> 1 <= field_digits (radix o) bits <= bits /\ 2 ^ bits <= radix o ^ field_digits (radix o) bits /\
  radix o ^ (field_digits (radix o) bits - 1) <= 2 ^ (bits - 1).
Proof.
  intros B. unfold field_digits, radix. destruct (lo_octal o).
  - change (8 =? 8) with true. cbv iota. change 8 with (2 ^ 3). rewrite <- !Z.pow_mul_r by lia. split; [lia|]. split; apply Z.pow_le_mono_r; lia.
  - change (16 =? 8) with false. cbv iota. change 16 with (2 ^ 4). rewrite <- !Z.pow_mul_r by lia. split; [lia|]. split; apply Z.pow_le_mono_r; lia.
Qed.
Lemma absolute_pos v bits : 1 <= bits -> 0 <= v < 2 ^ bits -> absolute v bits = (false, v).
Proof.
  intros B V. unfold absolute. replace (bits <? 0) with false by lia. cbn [andb]. rewrite Z.abs_eq by lia.
  replace (2 ^ bits - 1) with (Z.ones bits) by (rewrite Z.ones_equiv; lia). rewrite Z.land_ones by lia. now rewrite Z.mod_small.
Qed.
Lemma case_appb up b ds : over (appb (case_buf up b) ds) b = appb b ds.
Proof. reflexivity. Qed.

(* the digits of formatValue *)
Lemma value_digits o v bits out : 1 <= bits -> 0 <= v < 2 ^ bits -> b_err out = OK -> b_mark out + field_digits (radix o) bits <= b_max out ->
  exists ds, (if lo_octal o then formatOct fp_default v bits out else over (formatHex fp_default v bits (case_buf (lo_upper o) out)) out) = appb out ds /\
    spelled (radix o) (field_digits (radix o) bits) v ds.
Proof.
  intros B V E R. destruct (field_pow o bits B) as (F1 & F2 & _). unfold formatOct, formatHex, format_signed. rewrite absolute_pos by assumption. rewrite Z.abs_eq by lia.
  cbn [fp_default f_oct f_hex]. pose proof (field_ceil o bits B) as FC. rewrite radix_bits in FC. unfold radix in *.
  destruct (lo_octal o).
  - unfold OctFormatter, outOct. rewrite FC. apply number_room; (lia || auto).
  - unfold HexFormatter, outHex. rewrite FC. destruct (number_room 16 (field_digits 16 bits) v (case_buf (lo_upper o) out)) as (ds & A & S); try (lia || auto).
    exists ds. rewrite A, case_appb. auto.
Qed.
Lemma value_right o v bits width z out : 1 <= bits -> 0 <= v < 2 ^ bits -> 0 <= width -> b_err out = OK -> b_case out = None ->
  b_mark out + Z.max width (field_digits (radix o) bits) <= b_max out ->
  exists ds, formatValue o v bits width z out = appb out ((if 0 <? width then blanks (width - field_digits (radix o) bits) else []) ++ ds) /\
    spelled (radix o) (field_digits (radix o) bits) v ds.
Proof.
  intros B V W E C R. unfold formatValue. replace (bits =? 0) with false by lia. rewrite field_ceil by exact B. replace (width <? 0) with false by lia.
  destruct (field_pow o bits B) as (F1 & _ & _).
  destruct (Z.ltb_spec 0 width) as [P|P].
  - rewrite spaces_room by (auto; lia). destruct (value_digits o v bits (appb out (blanks (width - field_digits (radix o) bits)))) as (ds & A & S); auto.
    + rewrite appb_mark. unfold blanks at 1. rewrite repeat_length. change (b_max (appb out ?t)) with (b_max out). lia.
    + cbv zeta. rewrite A, appb_app. eauto.
  - cbv zeta. destruct (value_digits o v bits out) as (ds & A & S); auto; [lia|]. rewrite A. cbn [app]. eauto.
Qed.
Lemma value_left o v bits width out : 1 <= bits -> 0 <= v < 2 ^ bits -> 1 <= width -> b_err out = OK -> b_case out = None ->
  b_mark out + Z.max width (field_digits (radix o) bits) <= b_max out ->
  exists ds, formatValue o v bits (- width) false out = appb out (ds ++ blanks (width - field_digits (radix o) bits)) /\
    spelled (radix o) (field_digits (radix o) bits) v ds.
Proof.
  intros B V W E C R. unfold formatValue. replace (bits =? 0) with false by lia. replace (0 <? - width) with false by lia. replace (- width <? 0) with true by lia.
  destruct (field_pow o bits B) as (F1 & _ & _). cbv zeta.
  destruct (value_digits o v bits out) as (ds & A & S); auto; [lia|]. rewrite A. exists ds. split; [|exact S].
  cbn [appb b_txt b_max b_err b_case]. rewrite skipn_app, skipn_all, Nat.sub_diag, firstn_app, firstn_all, Nat.sub_diag. cbn [firstn skipn app repeat].
  rewrite Nat.sub_diag. cbn [repeat]. rewrite !app_nil_r. change (mkB (b_txt out ++ ds) (b_max out) (b_err out) (b_case out)) with (appb out ds).
  destruct S as (_ & _ & LS). rewrite spaces_room, appb_app by (try exact C; rewrite appb_mark; change (b_max (appb out ds)) with (b_max out); lia).
  do 3 f_equal. lia.
Qed.
Lemma appb_max b t : b_max (appb b t) = b_max b. Proof. reflexivity. Qed.
Lemma blanks_len n : Z.of_nat (length (blanks n)) = Z.max n 0.
Proof. unfold blanks. rewrite repeat_length. lia. Qed.

(* ------------------------------------------------------------ the address *)
Lemma address_ok o a out : 0 <= a < 2^32 -> b_err out = OK -> b_case out = None -> b_mark out + 13 <= b_max out ->
  exists t, formatAddress o a out = appb out (t ++ [32; 58]) /\ address_shown (radix o) a t /\ Z.of_nat (length t) <= 11.
Proof.
  intros A E C R. destruct (calcBits_ok a A) as (B & V & L). unfold formatAddress, formatValue. cbn [Z.eqb].
  pose proof (field_ceil o (calcBits a) ltac:(lia)) as FC.
  destruct (value_right o a (calcBits a) 8 true out) as (ds & F & S); auto; try lia.
  { unfold field_digits, radix. destruct (lo_octal o); [change (8 =? 8) with true|change (16 =? 8) with false]; cbv iota; lia. }
  unfold formatValue in F. replace (calcBits a =? 0) with false in F by lia. change (addressColumnWidth - 2) with 8. rewrite F. clear F.
  change (0 <? 8) with true. cbv iota. destruct (field_pow o (calcBits a) ltac:(lia)) as (F1 & F2 & F3).
  assert (N : field_digits (radix o) (calcBits a) <= 11).
  { unfold field_digits, radix. destruct (lo_octal o); [change (8 =? 8) with true|change (16 =? 8) with false]; cbv iota; lia. }
  assert (LT : Z.of_nat (length (blanks (8 - field_digits (radix o) (calcBits a)) ++ ds)) <= 11).
  { destruct S as (_ & _ & LS). rewrite app_length, Nat2Z.inj_add, blanks_len, LS. lia. }
  set (t := blanks _ ++ ds) in *.
  exists t. split; [|split; [|exact LT]].
  - rewrite (letter_room 32) by (rewrite appb_mark, appb_max; lia). rewrite appb_case, C, appb_app. cbn [conv].
    rewrite letter_room by (rewrite appb_mark, appb_max, app_length; cbn [length]; lia). rewrite appb_case, C, appb_app, <- app_assoc. reflexivity.
  - exists ds, (field_digits (radix o) (calcBits a)). split; [lia|]. split; [reflexivity|]. split; [exact S|]. apply (no_leading_zero (radix o) (field_digits (radix o) (calcBits a)) a).
    + unfold radix. destruct (lo_octal o); lia.
    + exact S.
    + lia.
    + destruct L as [L|L]; [left; rewrite L; unfold field_digits; now destruct (_ =? 8)|right; lia].
Qed.

(* ------------------------------------------------------------ the line number *)
Lemma digits_loop_len r : 2 <= r -> forall fuel f v, 0 <= v < r ^ Z.of_nat fuel -> (v = 0 \/ Z.log2 v < Z.of_nat f) -> fuel <> O ->
  digits_loop fuel v r = Z.max 1 (Z.of_nat (length (drev f r v))).
Proof.
  intros R. induction fuel as [|fuel IH]; intros f v V F N; [congruence|]. cbn [digits_loop].
  assert (V' : 0 <= v / r < r ^ Z.of_nat fuel).
  { rewrite Nat2Z.inj_succ, Z.pow_succ_r in V by lia. split; [apply Z.div_pos; lia|apply Z.div_lt_upper_bound; lia]. }
  destruct f as [|f]; [destruct F as [->|F]; [|pose proof (Z.log2_nonneg v); lia]; rewrite Z.div_0_l by lia; reflexivity|]. cbn [drev].
  destruct (Z.eqb_spec v 0) as [->|Nv]; [rewrite Z.div_0_l by lia; reflexivity|]. cbn [length]. destruct (Z.eqb_spec (v / r) 0) as [Q|Q].
  - rewrite Q. replace (drev f r 0) with (@nil Z) by (destruct f; reflexivity). reflexivity.
  - destruct fuel as [|fuel]; [change (r ^ Z.of_nat 0) with 1 in V'; lia|].
    pose proof (log2_div r v R ltac:(lia) Q) as LD.
    rewrite (IH f (v / r) V' ltac:(right; lia) ltac:(congruence)).
    assert (drev f r (v / r) <> []). { destruct f as [|f]; [pose proof (Z.log2_nonneg (v / r)); lia|]. cbn [drev]. replace (v / r =? 0) with false by lia. discriminate. }
    destruct (drev f r (v / r)); [congruence|]. cbn [length]. lia.
Qed.
Lemma dec_room v out : 0 <= v < 2^32 -> b_err out = OK -> b_mark out + 10 <= b_max out ->
  exists ds, formatDec fp_default v 32 out = appb out ds /\ decimal v ds /\ Z.of_nat (length ds) = calcDigits v 10 /\ Z.of_nat (length ds) <= 10.
Proof.
  intros V E R. unfold formatDec, format_signed. rewrite absolute_pos by (lia || exact V). cbn [fp_default f_dec].
  assert (L : (length (drev (dfuel v) 10 v) <= 10)%nat) by (apply drev_len; [lia|]; change (10 ^ Z.of_nat 10) with 10000000000; lia).
  assert (D : out_digits 10 v out = appb out (map (dl (b_case out)) (drev (dfuel v) 10 v))) by (apply digit_room; fold (dfuel v); lia).
  assert (CD : calcDigits v 10 = Z.max 1 (Z.of_nat (length (drev (dfuel v) 10 v)))).
  { apply digits_loop_len; [lia| |right; unfold dfuel; pose proof (Z.log2_nonneg v); lia|discriminate]. split; [lia|].
    apply Z.lt_le_trans with (2^32); [lia|]. vm_compute. discriminate. }
  assert (K : b_err (DecFormatter v (Z.abs 32) out) = OK).
  { unfold DecFormatter, outDec. cbv zeta. rewrite D. rewrite appb_mark, map_length.
    destruct (Z.eqb_spec (b_mark out + Z.of_nat (length (drev (dfuel v) 10 v))) (b_mark out)) as [Q|Q].
    - rewrite letter_room by (rewrite appb_mark, map_length, appb_max; lia). rewrite appb_app, reverse_appb. exact E.
    - rewrite reverse_appb. exact E. }
  destruct (dec_ok v (Z.abs 32) out ltac:(lia) K) as (_ & ds & A & (B1 & B2 & B3) & H0). exists ds. split; [exact A|].
  assert (LD : Z.of_nat (length ds) = calcDigits v 10).
  { rewrite CD. revert A. unfold DecFormatter, outDec. cbv zeta. rewrite D, appb_mark, map_length.
    destruct (Z.eqb_spec (b_mark out + Z.of_nat (length (drev (dfuel v) 10 v))) (b_mark out)) as [Q|Q]; intros A.
    - rewrite letter_room in A by (rewrite appb_mark, map_length, appb_max; lia). rewrite appb_app, reverse_appb in A.
      apply (f_equal b_txt) in A. rewrite !appb_txt in A. apply app_inv_head in A. rewrite <- A. rewrite rev_length, app_length, map_length. cbn [length]. lia.
    - rewrite reverse_appb in A. apply (f_equal b_txt) in A. rewrite !appb_txt in A. apply app_inv_head in A. rewrite <- A. rewrite rev_length, map_length. lia. }
  split; [|split; [exact LD|rewrite LD, CD; lia]]. exists (Z.of_nat (length ds)). split; [rewrite LD, CD; lia|]. split; [split; [exact B2|split; [exact B3|reflexivity]]|exact H0].
Qed.
Lemma dec_left v width out : 0 <= v < 2^32 -> 0 <= width <= 10 -> b_err out = OK -> b_case out = None -> b_mark out + 20 <= b_max out ->
  exists ds, list_formatDec v width out = appb out ((if 0 <? width then blanks (width - Z.of_nat (length ds)) else []) ++ ds) /\ decimal v ds /\ Z.of_nat (length ds) <= 10.
Proof.
  intros V W E C R. unfold list_formatDec. cbv zeta. replace (width <? 0) with false by lia. destruct (Z.ltb_spec 0 width) as [P|P].
  - destruct (dec_room v (mkB [] 255 OK None) V eq_refl ltac:(cbn; lia)) as (ds0 & _ & _ & L0 & L1).
    rewrite spaces_room by (auto; lia). destruct (dec_room v (appb out (blanks (width - calcDigits v 10))) V E) as (ds & A & D & L & L2).
    + rewrite appb_mark, blanks_len, appb_max. lia.
    + rewrite A, appb_app, <- L. eauto.
  - destruct (dec_room v out V E ltac:(lia)) as (ds & A & D & L & L2). exists ds. rewrite A. auto.
Qed.
Lemma lead_ok l next : 0 <= next -> al_nest l - 1 < 2^32 -> match al_lineno l with Some n => 0 <= n < 2^32 | None => True end ->
  exists t, formatLineNumber l next (mkB [] 255 OK None) = appb (mkB [] 255 OK None) t /\ lead_shown (al_nest l) (al_lineno l) (next =? 0) t /\ Z.of_nat (length t) <= 30.
Proof.
  intros N NE LN. unfold formatLineNumber, lead_shown. set (new := mkB [] 255 OK None).
  assert (M0 : forall t, b_mark (appb new t) = Z.of_nat (length t)) by (intros; rewrite appb_mark; reflexivity).
  assert (X0 : forall t, b_max (appb new t) = 255) by reflexivity.
  destruct (Z.eqb_spec next 0) as [->|NZ]; [|replace (next <=? 0) with false by lia].
  - change (0 <=? 0) with true. cbv iota.
    assert (A : exists a, (if 1 <? al_nest l then letter 41 (list_formatDec (al_nest l - 1) 0 (letter 40 new)) else outSpaces 3 new) = appb new a /\
      (if 1 <? al_nest l then exists ds, decimal (al_nest l - 1) ds /\ a = [40] ++ ds ++ [41] else a = blanks 3) /\ Z.of_nat (length a) <= 12).
    { destruct (Z.ltb_spec 1 (al_nest l)) as [P|P].
      - rewrite (letter_room 40) by (cbn; lia). change (conv (b_case new) 40) with 40.
        destruct (dec_left (al_nest l - 1) 0 (appb new [40])) as (ds & D & DE & L); [lia|lia|reflexivity|reflexivity|cbn; lia|].
        rewrite D. change (0 <? 0) with false. cbv iota. cbn [app]. rewrite appb_app.
        rewrite letter_room by (rewrite M0, X0, app_length; cbn [length]; lia). rewrite appb_app. eexists. split; [reflexivity|]. split.
        + exists ds. split; [exact DE|]. cbn. reflexivity.
        + rewrite !app_length. cbn [length]. lia.
      - rewrite spaces_room by (reflexivity || (cbn; lia)). exists (blanks 3). split; [reflexivity|]. split; [reflexivity|rewrite blanks_len; lia]. }
    destruct A as (a & -> & A & LA). destruct (al_lineno l) as [n|].
    + destruct (dec_left n 5 (appb new a)) as (ds & D & DE & L); [lia|lia|reflexivity|reflexivity|rewrite M0, X0; lia|].
      rewrite D. change (0 <? 5) with true. cbv iota. rewrite appb_app.
      assert (LB : Z.of_nat (length (blanks (5 - Z.of_nat (length ds)) ++ ds)) <= 15) by (rewrite app_length, Nat2Z.inj_add, blanks_len; lia).
      rewrite letter_room by (rewrite M0, X0, app_length; lia). rewrite appb_app. eexists. split; [reflexivity|]. split.
      * exists a, (blanks (5 - Z.of_nat (length ds)) ++ ds ++ [47]). split; [rewrite <- !app_assoc; reflexivity|]. split; [exact A|]. exists ds. auto.
      * rewrite !app_length in *. cbn [length]. lia.
    + exists a. split; [reflexivity|]. split; [|lia]. exists a, []. rewrite app_nil_r. auto.
  - eexists. rewrite spaces_room; [split; [reflexivity|]; split|reflexivity|].
    + destruct (al_lineno l); reflexivity.
    + rewrite blanks_len. destruct (al_lineno l); lia.
    + destruct (al_lineno l); cbn; lia.
Qed.

(* ------------------------------------------------------------ the column of bytes *)
Lemma byte_at i code k : has_code i code -> 0 <= k < Z.of_nat (length code) ->
  exists b, getByte i k = Val b /\ skipn (Z.to_nat k) code = b :: skipn (Z.to_nat (k + 1)) code /\ 0 <= b < 256 /\ b = nth (Z.to_nat k) code 0.
Proof.
  intros (LB & SZ & FB & LC & BY & _) K. assert (L : (Z.to_nat k < length code)%nat) by lia.
  exists (nth (Z.to_nat k) code 0). assert (N : nth_error code (Z.to_nat k) = Some (nth (Z.to_nat k) code 0)) by now apply nth_error_nth'.
  split; [|split; [|split; [|reflexivity]]].
  - assert (F : nth_error (li_bytes i) (Z.to_nat k) = Some (nth (Z.to_nat k) code 0)); [|unfold getByte; now rewrite F].
    rewrite <- N, <- FB. rewrite FB. clear - L FB. replace (nth_error code (Z.to_nat k)) with (nth_error (firstn (length code) (li_bytes i)) (Z.to_nat k)) by now rewrite FB. clear FB. revert L. generalize (li_bytes i) as l. generalize (Z.to_nat k) as n. generalize (length code) as m. intros m n l. revert m l.
    induction n as [|n IH]; intros [|m] [|x l] H; cbn in *; try lia; try reflexivity. apply IH. lia.
  - replace (Z.to_nat (k + 1)) with (S (Z.to_nat k)) by lia. clear - N. revert N. generalize (nth (Z.to_nat k) code 0) as b. generalize (Z.to_nat k) as n. intros n b. revert code.
    induction n as [|n IH]; intros [|x l] H; cbn in *; try discriminate; [congruence|]. now apply IH.
  - rewrite Forall_forall in BY. apply BY. now apply nth_error_In in N.
Qed.
Lemma word_join (big : bool) v w : 0 <= v < 256 -> 0 <= w < 256 -> (if big then Z.lor (Z.shiftl v 8) w else Z.lor v (Z.shiftl w 8)) = word_of big v w.
Proof. intros V W. unfold word_of. destruct big; [|rewrite Z.lor_comm]; rewrite lor_sh by (cbn; lia); change (2 ^ 8) with 256; lia. Qed.
Lemma full_digits o : calcDigits 0xFFFF (radix o) = field_digits (radix o) 16.
Proof. unfold radix. now destruct (lo_octal o). Qed.
Lemma half_full o : 2 <= field_digits (radix o) 8 <= 3 /\ 4 <= field_digits (radix o) 16 <= 6 /\ 3 <= field_digits (radix o) 12 <= 4 /\
  field_digits (radix o) 8 <= field_digits (radix o) 16.
Proof. unfold radix. destruct (lo_octal o); vm_compute; intuition discriminate. Qed.

Section Column.
Variables (c : lconf) (o : lopts) (i : listed_insn) (code : list Z) (offset : Z).
Hypothesis HC : has_code i code.
Hypothesis MC : machine_code c code.
Hypothesis O0 : 0 <= offset.
(* a machine that addresses words starts lines at whole words *)
Hypothesis OE : lc_unit c = 2 -> Z.Even offset.
Notation odd len := ((li_addr i + (offset + len)) mod 2 =? 1).
Notation rest k := (skipn (Z.to_nat k) code).

Lemma column fuel : forall pos len out, 0 <= pos -> 0 <= len -> offset + len <= Z.of_nat (length code) -> 6 - pos <= Z.of_nat fuel ->
  b_err out = OK -> b_case out = None -> b_mark out + 7 * Z.max 0 (6 - pos) <= b_max out ->
  (pos = 0 -> len = 0) ->
  (lc_width c = 16 -> lc_unit c = 1 -> pos <> 0 -> odd len = false \/ offset + len = Z.of_nat (length code)) ->
  (lc_unit c = 2 -> Z.Even len) ->
  exists bs col n, bytes_loop fuel c o i offset pos len out = Val (appb out col, n) /\ n = len + Z.of_nat (length bs) /\
    rest (offset + len) = bs ++ rest (offset + n) /\ shows c (radix o) (odd len) bs col /\
    offset + n <= Z.of_nat (length code) /\ Z.of_nat (length col) <= 7 * Z.max 0 (6 - pos) /\ (lc_unit c = 2 -> Z.Even n) /\
    (offset + len < Z.of_nat (length code) -> pos < 6 -> bs <> []) /\
    (offset + n = Z.of_nat (length code) \/ 6 - pos <= Z.of_nat (length bs)).
Proof.
  induction fuel as [|fuel IH]; intros pos len out P0 L0 LE FU E C R PL PH EV; cbn [bytes_loop].
  { exists [], [], len. rewrite appb_nil. cbn [app length]. repeat split; auto; try lia. constructor. }
  pose proof HC as (LB & SZ & FB & LC & BY & AR). rewrite SZ.
  destruct (Z.ltb_spec (offset + len) (Z.of_nat (length code))) as [LT|LT]; cbn [andb]; [destruct (Z.ltb_spec pos bytesInLine) as [PT|PT]|]; unfold bytesInLine in *;
    [|exists [], [], len; rewrite appb_nil; cbn [app length]; repeat split; auto; try lia; constructor
     |exists [], [], len; rewrite appb_nil; cbn [app length]; repeat split; auto; try lia; constructor].
  destruct (byte_at i code (offset + len) HC ltac:(lia)) as (v & G & SK & V & NV). rewrite G. cbn [bind].
  rewrite letter_room by lia. rewrite C. change (conv None 32) with 32. set (out1 := appb out [32]).
  assert (M1 : b_mark out1 = b_mark out + 1) by (unfold out1; rewrite appb_mark; reflexivity).
  assert (X1 : b_max out1 = b_max out) by reflexivity.
  destruct (half_full o) as (H8 & H16 & H12 & HH). rewrite full_digits.
  (* one byte in a cell of its own, then the others *)
  assert (ONE : forall t, Z.of_nat (length t) <= 6 -> (lc_width c = 16 -> lc_unit c = 1 -> odd (len + 1) = false \/ offset + (len + 1) = Z.of_nat (length code)) ->
    (lc_unit c <> 2) ->
    exists bs col n, bytes_loop fuel c o i offset (pos + 1) (len + 1) (appb out1 t) = Val (appb out ((32 :: t) ++ col), n) /\ n = len + Z.of_nat (length (v :: bs)) /\
      rest (offset + len) = (v :: bs) ++ rest (offset + n) /\ shows c (radix o) (odd (len + 1)) bs col /\
      offset + n <= Z.of_nat (length code) /\ Z.of_nat (length ((32 :: t) ++ col)) <= 7 * Z.max 0 (6 - pos) /\
      (offset + n = Z.of_nat (length code) \/ 6 - pos <= Z.of_nat (length (v :: bs))) /\
      (offset + (len + 1) = Z.of_nat (length code) -> bs = [] /\ col = [])).
  { intros t LT' PH' NU. destruct (IH (pos + 1) (len + 1) (appb out1 t)) as (bs & col & n & A1 & A2 & A3 & A4 & A5 & A6 & A7 & A8 & A9); auto; try lia; try tauto.
    - rewrite appb_mark, appb_max. lia.
    - exists bs, col, n. rewrite A1. unfold out1. rewrite !appb_app. split; [reflexivity|]. cbn [length app]. split; [lia|].
      split; [rewrite SK, Z.add_assoc in *; now rewrite A3|]. split; [exact A4|]. split; [lia|].
      split; [rewrite app_length; lia|]. split; [lia|]. intros Q. rewrite Q in A3. rewrite Nat2Z.id, skipn_all in A3. destruct bs; [|discriminate]. split; [reflexivity|].
      inversion A4. reflexivity. }
  destruct ((lc_width c =? 16) && (lc_unit c =? 1) && (pos =? 0) && ((offset + li_addr i) mod 2 =? 1)) eqn:Q1.
  - (* the second byte of a word *)
    assert (W : lc_width c = 16) by lia. assert (U : lc_unit c = 1) by lia. assert (Z0 : pos = 0) by lia. pose proof (PL Z0) as Z1.
    assert (OD : odd len = true) by (rewrite Z1; lia). assert (OD' : odd (len + 1) = false) by (rewrite Z1; lia).
    set (gap := blanks (field_digits (radix o) 16 - field_digits (radix o) 8)).
    assert (T : exists t, formatValue o v 8 (if lc_big c then field_digits (radix o) 16 else - field_digits (radix o) 16) false out1 =
        appb out1 (if lc_big c then gap ++ t else t ++ gap) /\ spelled (radix o) (field_digits (radix o) 8) v t).
    { destruct (lc_big c).
      - destruct (value_right o v 8 (field_digits (radix o) 16) false out1) as (t & F & S); auto; try lia. exists t. rewrite F. split; [|exact S].
        replace (0 <? field_digits (radix o) 16) with true by lia. reflexivity.
      - destruct (value_left o v 8 (field_digits (radix o) 16) out1) as (t & F & S); auto; try lia. exists t. rewrite F. split; [reflexivity|exact S]. }
    destruct T as (t & -> & S). assert (LG : Z.of_nat (length gap) = field_digits (radix o) 16 - field_digits (radix o) 8) by (unfold gap; rewrite blanks_len; lia).
    destruct (ONE (if lc_big c then gap ++ t else t ++ gap)) as (bs & col & n & A1 & A2 & A3 & A4 & A5 & A6 & A9 & A7); [|auto|lia|].
    { destruct S as (_ & _ & LS). destruct (lc_big c); rewrite app_length; lia. }
    exists (v :: bs), ((32 :: (if lc_big c then gap ++ t else t ++ gap)) ++ col), n. split; [exact A1|]. split; [exact A2|]. split; [exact A3|].
    split; [|split; [exact A5|split; [exact A6|split; [lia|split; [discriminate|exact A9]]]]]. rewrite OD. rewrite OD' in A4. apply (shows_second c (radix o) v bs t col gap W U S eq_refl A4).
  - destruct ((lc_width c =? 16) && (lc_unit c =? 1) && (offset + (len + 1) =? Z.of_nat (length code))) eqn:Q2.
    + (* the last byte *)
      assert (W : lc_width c = 16) by lia. assert (U : lc_unit c = 1) by lia. assert (LA : offset + (len + 1) = Z.of_nat (length code)) by lia.
      assert (OD : odd len = false).
      { destruct (Z.eq_dec pos 0) as [Z0|Z0]; [pose proof (PL Z0) as Z1; rewrite Z1; lia|]. destruct (PH W U Z0); [assumption|lia]. }
      set (gap := blanks (field_digits (radix o) 16 - field_digits (radix o) 8)).
      assert (T : exists t, formatValue o v 8 (if lc_big c then 0 else field_digits (radix o) 16) false out1 =
          appb out1 (if lc_big c then t else gap ++ t) /\ spelled (radix o) (field_digits (radix o) 8) v t).
      { destruct (lc_big c).
        - destruct (value_right o v 8 0 false out1) as (t & F & S); auto; try lia. exists t. rewrite F. split; [reflexivity|exact S].
        - destruct (value_right o v 8 (field_digits (radix o) 16) false out1) as (t & F & S); auto; try lia. exists t. rewrite F. split; [|exact S].
          replace (0 <? field_digits (radix o) 16) with true by lia. reflexivity. }
      destruct T as (t & -> & S). assert (LG : Z.of_nat (length gap) = field_digits (radix o) 16 - field_digits (radix o) 8) by (unfold gap; rewrite blanks_len; lia).
      destruct (ONE (if lc_big c then t else gap ++ t)) as (bs & col & n & A1 & A2 & A3 & A4 & A5 & A6 & A9 & A7); [|auto|lia|].
      { destruct S as (_ & _ & LS). destruct (lc_big c); try rewrite app_length; lia. }
      destruct (A7 LA) as (-> & ->). rewrite app_nil_r in *.
      exists [v], (32 :: (if lc_big c then t else gap ++ t)), n. split; [exact A1|]. split; [exact A2|]. split; [exact A3|].
      split; [|split; [exact A5|split; [exact A6|split; [lia|split; [discriminate|exact A9]]]]]. rewrite OD. apply (shows_last c (radix o) v t gap W U S eq_refl).
    + destruct (Z.eqb_spec (lc_width c) 8) as [W|W].
      * (* a byte *)
        assert (U : lc_unit c = 1) by (destruct MC as [M|[M|[M|M]]]; lia).
        destruct (value_right o v 8 0 false out1) as (t & F & S); auto; try lia. rewrite F. change (0 <? 0) with false. cbv iota. cbn [app].
        destruct (ONE t) as (bs & col & n & A1 & A2 & A3 & A4 & A5 & A6 & A9 & A7); [destruct S as (_ & _ & LS); lia|lia|lia|].
        exists (v :: bs), ((32 :: t) ++ col), n. split; [exact A1|]. split; [exact A2|]. split; [exact A3|].
        split; [|split; [exact A5|split; [exact A6|split; [lia|split; [discriminate|exact A9]]]]]. apply shows_byte; [exact W|exact S|].
        replace (negb (odd len)) with (odd (len + 1)); [exact A4|]. destruct (Z.eqb_spec ((li_addr i + (offset + (len + 1))) mod 2) 1), (Z.eqb_spec ((li_addr i + (offset + len)) mod 2) 1); cbn [negb]; lia.
      * (* a word *)
        assert (LT2 : offset + (len + 1) < Z.of_nat (length code)).
        { assert (X : lc_unit c = 2 -> Nat.Even (length code) -> offset + (len + 1) <> Z.of_nat (length code)).
          { intros U (k & K) X. destruct (OE U) as (k1 & K1), (EV U) as (k2 & K2). lia. }
          destruct MC as [M|[M|[(M1' & M2' & M3')|(M1' & M2' & M3' & M4' & M5')]]]; try lia; specialize (X M2' ltac:(assumption)); lia. }
        destruct (byte_at i code (offset + (len + 1)) HC ltac:(lia)) as (w & G' & SK' & V' & NV'). rewrite G'. cbn [bind]. rewrite word_join by assumption.
        assert (WB : 1 <= lc_width c /\ 0 <= word_of (lc_big c) v w < 2 ^ lc_width c /\ 3 <= field_digits (radix o) (lc_width c) <= 6).
        { assert (WW : 0 <= word_of (lc_big c) v w < 65536) by (unfold word_of; destruct (lc_big c); lia).
          destruct MC as [M|[(M & _)|[(M & _)|(M1' & M2' & M3' & M4' & M5')]]]; [lia|rewrite M; change (2 ^ 16) with 65536; lia|rewrite M; change (2 ^ 16) with 65536; lia|].
          rewrite M1', M3'. change (2 ^ 12) with 4096. split; [lia|]. split; [|lia]. unfold word_of.
          assert (v < 16); [|lia]. rewrite NV. apply M5'. destruct (OE M2') as (k1 & K1), (EV M2') as (k2 & K2). exists (Z.to_nat (k1 + k2)). lia. }
        destruct WB as (WB1 & WB2 & WB3).
        destruct (value_right o (word_of (lc_big c) v w) (lc_width c) 0 false out1) as (t & F & S); auto; try lia. rewrite F. change (0 <? 0) with false. cbv iota. cbn [app].
        assert (LS : Z.of_nat (length t) <= 6) by (destruct S as (_ & _ & LS); lia).
        destruct (IH (pos + 2) (len + 1 + 1) (appb out1 t)) as (bs & col & n & A1 & A2 & A3 & A4 & A5 & A6 & A7 & A8 & A9); auto; try lia.
        { rewrite appb_mark, appb_max. lia. }
        { intros U. destruct (EV U) as (k & K). exists (k + 1). lia. }
        exists (v :: w :: bs), ((32 :: t) ++ col), n. rewrite A1. unfold out1. rewrite !appb_app. split; [reflexivity|]. cbn [length app]. split; [lia|].
        split. { replace (offset + len + 1) with (offset + (len + 1)) in SK by lia. rewrite SK, SK'. do 2 f_equal. rewrite <- A3. do 2 f_equal. lia. }
        split; [|split; [exact A5|split; [cbn [length]; rewrite app_length; lia|split; [exact A7|split; [discriminate|cbn [length]; lia]]]]].
        apply shows_word; [exact W| |exact S|].
        -- destruct MC as [M|[(M1' & M2')|[M|M]]]; [lia| |lia|lia]. right. right.
           destruct (Z.eq_dec pos 0) as [Z0|Z0]; [pose proof (PL Z0) as Z1; rewrite Z1 in *; lia|]. destruct (PH M1' M2' Z0) as [X|X]; [exact X|lia].
        -- replace (odd len) with (odd (len + 1 + 1)); [exact A4|]. f_equal. lia.
Qed.
End Column.

(* ------------------------------------------------------------ a line *)
Lemma tab_stop_ok fuel : forall tab pos, pos + 1 - tab <= Z.of_nat fuel ->
  exists j, 0 <= j /\ tab_stop fuel tab pos = tab + 4 * j /\ pos < tab + 4 * j /\ (j = 0 \/ tab + 4 * j <= pos + 4).
Proof.
  induction fuel as [|fuel IH]; intros tab pos H; cbn [tab_stop]; [exists 0; lia|]. destruct (Z.ltb_spec tab (pos + 1)); [|exists 0; lia].
  destruct (IH (tab + 4) pos ltac:(lia)) as (j & A & B & C & D). exists (j + 1). lia.
Qed.
Lemma line_ok l code next : has_code (al_insn l) code -> machine_code (al_conf l) code -> isUndefined (al_value l) = true ->
  al_nest l - 1 < 2^32 -> match al_lineno l with Some n => 0 <= n < 2^32 | None => True end ->
  (lc_unit (al_conf l) = 1 \/ next = 0) -> (lc_unit (al_conf l) = 2 -> Z.Even next) -> 0 <= next <= Z.of_nat (length code) ->
  exists out bs n, asm_line l next = Val (out, n) /\ n = next + Z.of_nat (length bs) /\
    skipn (Z.to_nat next) code = bs ++ skipn (Z.to_nat n) code /\ line_shows l next bs (b_txt out) /\ n <= Z.of_nat (length code) /\
    (next < Z.of_nat (length code) -> bs <> []) /\ (lc_unit (al_conf l) = 2 -> Z.Even n) /\
    (n = Z.of_nat (length code) \/ 6 <= Z.of_nat (length bs)).
Proof.
  intros HC MC UV NE LN UN EV NR. unfold asm_line. cbv zeta. rewrite UV.
  destruct (lead_ok l next ltac:(lia) NE LN) as (lead & LE & LS & LL). rewrite LE. set (new := mkB [] 255 OK None) in *.
  assert (M0 : forall t, b_mark (appb new t) = Z.of_nat (length t)) by (intros; rewrite appb_mark; reflexivity).
  assert (X0 : forall t, b_max (appb new t) = 255) by reflexivity.
  destruct (address_ok (al_opts l) ((li_addr (al_insn l) + next) mod 2^32) (appb new lead)) as (addr & AE & AS & AL);
    [apply Z.mod_pos_bound; lia|reflexivity|reflexivity|rewrite M0, X0; lia|].
  rewrite AE, appb_app. set (head := lead ++ addr ++ [32; 58]).
  assert (LH : Z.of_nat (length head) <= 43) by (unfold head; rewrite !app_length; cbn [length]; lia).
  destruct (column (al_conf l) (al_opts l) (al_insn l) code next HC MC ltac:(lia) EV 6 0 0 (appb new head)) as (bs & col & n & B1 & B2 & B3 & B4 & B5 & B6 & B7 & B8 & B9);
    try lia; try reflexivity.
  { intros _. exists 0. lia. }
  unfold formatBytes. rewrite B1. cbn [bind]. rewrite appb_app.
  rewrite Z.add_0_r in *. cbn [Z.add] in B2.
  assert (AD : address_shown (list_radix (al_opts l)) (byte_address l next) addr).
  { unfold byte_address. replace (next / lc_unit (al_conf l)) with next; [exact AS|]. destruct UN as [->| ->]; [now rewrite Z.div_1_r|reflexivity]. }
  assert (FIN : forall tail, source_shown (al_source l) (next =? 0) col tail -> line_shows l next bs ((head ++ col) ++ tail)).
  { intros tail T. exists lead, addr, col, tail. split; [unfold head; rewrite <- !app_assoc; reflexivity|]. split; [exact LS|]. split; [exact AD|]. split; [exact B4|exact T]. }
  unfold source_shown in FIN. destruct ((next =? 0) && (0 <? Z.of_nat (length (al_source l)))) eqn:Q.
  - assert (TB : exists k, formatTab (b_mark (appb new head) + bytesColumnWidth + 1) (appb new (head ++ col)) = appb new ((head ++ col) ++ blanks k) /\
      1 <= k /\ 20 <= Z.of_nat (length col) + k /\ (Z.of_nat (length col) + k) mod 4 = 0 /\ (Z.of_nat (length col) + k = 20 \/ k <= 4)).
    { unfold formatTab. cbv zeta. rewrite !M0. unfold bytesColumnWidth. rewrite !app_length.
      destruct (tab_stop_ok (Z.to_nat (Z.of_nat (length head + length col) + 1 - (Z.of_nat (length head) + 19 + 1))) (Z.of_nat (length head) + 19 + 1) (Z.of_nat (length head + length col)) ltac:(lia)) as (j & J0 & J1 & J2 & J3).
      rewrite J1. eexists. rewrite spaces_room; [rewrite appb_app; split; [reflexivity|]|reflexivity|rewrite M0, X0, app_length; lia].
      lia. }
    destruct TB as (k & -> & K1 & K2 & K3 & K4).
    destruct (text_prefix (al_source l) (appb new ((head ++ col) ++ blanks k)) eq_refl) as (m & T).
    eexists _, bs, (next + n). split; [reflexivity|]. split; [lia|]. split; [exact B3|]. split; [|split; [exact B5|split; [intros; apply B8; lia|split; [|lia]]]].
    + rewrite T, appb_txt. cbn [b_txt new app]. rewrite <- app_assoc. apply FIN. exists k, (length (blanks k) + m)%nat. split; [|auto].
      now rewrite firstn_app_2.
    + intros U. destruct (EV U) as (k1 & E1), (B7 U) as (k2 & E2). exists (k1 + k2). lia.
  - eexists _, bs, (next + n). split; [reflexivity|]. split; [lia|]. split; [exact B3|]. split; [|split; [exact B5|split; [intros; apply B8; lia|split; [|lia]]]].
    + rewrite appb_txt. cbn [b_txt new app]. rewrite <- (app_nil_r (head ++ col)). now apply FIN.
    + intros U. destruct (EV U) as (k1 & E1), (B7 U) as (k2 & E2). exists (k1 + k2). lia.
Qed.

Lemma lines_ok l code : has_code (al_insn l) code -> machine_code (al_conf l) code -> isUndefined (al_value l) = true ->
  al_nest l - 1 < 2^32 -> match al_lineno l with Some n => 0 <= n < 2^32 | None => True end ->
  (lc_unit (al_conf l) = 1 \/ (length code <= 6)%nat) -> forall fuel next, (lc_unit (al_conf l) = 1 \/ next = 0) ->
  0 <= next <= Z.of_nat (length code) -> Z.of_nat (length code) - next <= Z.of_nat fuel -> fuel <> O ->
  exists ts, asm_lines fuel l next = Val ts /\ listing_shows l next (skipn (Z.to_nat next) code) ts.
Proof.
  intros HC MC UV NE LN UL. induction fuel as [|fuel IH]; intros next UN NR FU F0; [congruence|]. cbn [asm_lines].
  destruct (line_ok l code next HC MC UV NE LN UN) as (out & bs & n & A1 & A2 & A3 & A4 & A5 & A6 & A7 & A8); [|exact NR|].
  { intros U. destruct UN as [U1|U1]; [lia|subst; exists 0; lia]. }
  rewrite A1. cbn [bind]. pose proof HC as (_ & SZ & _). rewrite SZ. destruct (Z.ltb_spec n (Z.of_nat (length code))) as [Q|Q].
  - destruct (IH n) as (ts & E & L); try lia. rewrite E. cbn [bind]. eexists. split; [reflexivity|]. rewrite A3. apply more_lines; [apply A6; lia| |exact A4|].
    + intros X. apply (f_equal (@length Z)) in X. rewrite skipn_length in X. cbn in X. lia.
    + rewrite <- A2. exact L.
  - eexists. split; [reflexivity|]. apply one_line. rewrite A3. rewrite (skipn_all2 (n := Z.to_nat n)) by lia. now rewrite app_nil_r.
Qed.
Lemma listing_ok l code : has_code (al_insn l) code -> machine_code (al_conf l) code -> isUndefined (al_value l) = true ->
  al_nest l - 1 < 2^32 -> match al_lineno l with Some n => 0 <= n < 2^32 | None => True end ->
  (lc_unit (al_conf l) = 1 \/ (length code <= 6)%nat) ->
  exists ts, asm_listing l None = Val ts /\ listing_shows l 0 code ts.
Proof.
  intros HC MC UV NE LN UL. pose proof HC as (_ & _ & _ & LC & _).
  destruct (lines_ok l code HC MC UV NE LN UL 64 0) as (ts & E & L); try lia. exists ts. unfold asm_listing. rewrite E. auto.
Qed.

(* ------------------------------------------------------------ the column determines the bytes *)
Lemma app_len_inj {A} (a a' b b' : list A) : length a = length a' -> a ++ b = a' ++ b' -> a = a' /\ b = b'.
Proof.
  revert a'. induction a as [|x a IH]; intros [|x' a'] L E; cbn in *; try discriminate; [auto|]. injection E as -> E. destruct (IH a') as (-> & ->); auto.
Qed.
Lemma digit_not_blank r c : is_digit_in r c -> c <> 32.
Proof. intros (d & D & _) ->. discriminate. Qed.
Lemma word_inj big a b a' b' : 0 <= a < 256 -> 0 <= b < 256 -> 0 <= a' < 256 -> 0 <= b' < 256 -> word_of big a b = word_of big a' b' -> a = a' /\ b = b'.
Proof. unfold word_of. destruct big; lia. Qed.
Lemma half_lt_full r : r = 8 \/ r = 16 -> 0 < field_digits r 8 < field_digits r 16.
Proof. intros [-> | ->]; vm_compute; split; reflexivity. Qed.
Lemma spelled_inj r n v v' t t' x x' : spelled r n v t -> spelled r n v' t' -> t ++ x = t' ++ x' -> v = v' /\ x = x'.
Proof. intros (_ & P & L) (_ & P' & L') E. apply app_len_inj in E; [|lia]. destruct E as (-> & ->). split; [congruence|reflexivity]. Qed.
Lemma shows_inj c r odd bs t : r = 8 \/ r = 16 -> shows c r odd bs t -> Forall (fun b => 0 <= b < 256) bs ->
  forall bs', shows c r odd bs' t -> Forall (fun b => 0 <= b < 256) bs' -> bs = bs'.
Proof.
  intros R H. pose proof (half_lt_full r R) as HF. remember (field_digits r 8) as h8. remember (field_digits r 16) as h16.
  induction H as [odd|odd b bs t t' W S H IH|odd b b' bs t t' W O S H IH|b bs t t' gap W U S G H IH|b t gap W U S G]; intros FB bs2 H2 FB2.
  - inversion H2; reflexivity.
  - inversion_clear FB as [|? ? B1 FB']. inversion H2 as [|odd0 c0 cs u u' W0 S0 H0|odd0 c0 c0' cs u u' W0 O0 S0 H0|c0 cs u u' gap0 W0 U0 S0 G0 H0|c0 u gap0 W0 U0 S0 G0]; subst bs2; try lia; try match goal with E : _ ++ _ = _ |- _ => rename E into HE | E : (if _ then _ else _) ++ _ = _ |- _ => rename E into HE | E : (if _ then _ else _) = _ |- _ => rename E into HE | E : _ ++ _ = (if _ then _ else _) |- _ => rename E into HE end.
    destruct (spelled_inj _ _ _ _ _ _ _ _ S0 S HE) as (-> & ->). inversion_clear FB2. f_equal. now apply IH.
  - inversion_clear FB as [|? ? B1 FB1]. inversion_clear FB1 as [|? ? B2 FB'].
    inversion H2 as [|odd0 c0 cs u u' W0 S0 H0|odd0 c0 c0' cs u u' W0 O0 S0 H0|c0 cs u u' gap0 W0 U0 S0 G0 H0|c0 u gap0 W0 U0 S0 G0]; subst bs2; try lia; try match goal with E : _ ++ _ = _ |- _ => rename E into HE | E : (if _ then _ else _) ++ _ = _ |- _ => rename E into HE | E : (if _ then _ else _) = _ |- _ => rename E into HE | E : _ ++ _ = (if _ then _ else _) |- _ => rename E into HE end.
    + destruct (spelled_inj _ _ _ _ _ _ _ _ S0 S HE) as (E & ->). inversion_clear FB2 as [|? ? B3 FB3]. inversion_clear FB3 as [|? ? B4 FB4].
      destruct (word_inj _ _ _ _ _ B3 B4 B1 B2 E) as (-> & ->). do 2 f_equal. now apply IH.
    + exfalso. destruct O as [O|[O|O]]; [lia|lia|congruence].
    + exfalso. rewrite W0 in S. rewrite <- Heqh16 in S. rewrite <- Heqh8 in S0. destruct S as (F & _ & L), S0 as (_ & _ & L0). destruct (lc_big c).
      * apply (f_equal (@length Z)) in HE. rewrite app_length in HE. lia.
      * rewrite G0 in HE. destruct t as [|x t]; [cbn in L; lia|]. unfold blanks in HE. rewrite <- Heqh16, <- Heqh8 in HE. destruct (Z.to_nat (h16 - h8)) as [|k] eqn:K; [lia|].
        cbn in HE. injection HE as HE _. inversion_clear F as [|? ? D _]. apply digit_not_blank in D. congruence.
  - inversion_clear FB as [|? ? B1 FB'].
    inversion H2 as [|odd0 c0 cs u u' W0 S0 H0|odd0 c0 c0' cs u u' W0 O0 S0 H0|c0 cs u u' gap0 W0 U0 S0 G0 H0|c0 u gap0 W0 U0 S0 G0]; subst bs2; try lia; try match goal with E : _ ++ _ = _ |- _ => rename E into HE | E : (if _ then _ else _) ++ _ = _ |- _ => rename E into HE | E : (if _ then _ else _) = _ |- _ => rename E into HE | E : _ ++ _ = (if _ then _ else _) |- _ => rename E into HE end.
    + subst gap gap0. assert (E : b = c0 /\ t' = u').
      { destruct (lc_big c).
        - rewrite <- !app_assoc in HE. apply app_inv_head in HE. destruct (spelled_inj _ _ _ _ _ _ _ _ S0 S HE); auto.
        - rewrite <- !app_assoc in HE. destruct (spelled_inj _ _ _ _ _ _ _ _ S0 S HE) as (-> & E). apply app_inv_head in E. auto. }
      destruct E as (-> & ->). inversion_clear FB2. f_equal. now apply IH.
  - inversion H2 as [|odd0 c0 cs u u' W0 S0 H0|odd0 c0 c0' cs u u' W0 O0 S0 H0|c0 cs u u' gap0 W0 U0 S0 G0 H0|c0 u gap0 W0 U0 S0 G0]; subst bs2; try lia; try match goal with E : _ ++ _ = _ |- _ => rename E into HE | E : (if _ then _ else _) ++ _ = _ |- _ => rename E into HE | E : (if _ then _ else _) = _ |- _ => rename E into HE | E : _ ++ _ = (if _ then _ else _) |- _ => rename E into HE end.
    + exfalso. rewrite W in S0. rewrite <- Heqh16 in S0. rewrite <- Heqh8 in S. destruct S0 as (F & _ & L), S as (_ & _ & L0). destruct (lc_big c).
      * apply (f_equal (@length Z)) in HE. rewrite app_length in HE. lia.
      * rewrite G in HE. destruct u as [|x u]; [cbn in L; lia|]. unfold blanks in HE. rewrite <- Heqh16, <- Heqh8 in HE. destruct (Z.to_nat (h16 - h8)) as [|k] eqn:K; [lia|].
        cbn in HE. injection HE as HE _. inversion_clear F as [|? ? D _]. apply digit_not_blank in D. congruence.
    + subst gap gap0. f_equal. destruct (lc_big c).
      * rewrite <- (app_nil_r t), <- (app_nil_r u) in HE. destruct (spelled_inj _ _ _ _ _ _ _ _ S0 S HE); auto.
      * apply app_inv_head in HE. rewrite <- (app_nil_r t), <- (app_nil_r u) in HE. destruct (spelled_inj _ _ _ _ _ _ _ _ S0 S HE); auto.
Qed.

(* ------------------------------------------------------------ reading the address of a line *)
Fixpoint drop_blanks (t : text) : text := match t with 32 :: t' => drop_blanks t' | _ => t end.
Fixpoint upto_blank (t : text) : text := match t with [] => [] | c :: t' => if c =? 32 then [] else c :: upto_blank t' end.
Lemma drop_blanks_app n t : drop_blanks (blanks n ++ t) = drop_blanks t.
Proof. unfold blanks. induction (Z.to_nat n) as [|m IH]; [reflexivity|exact IH]. Qed.
Lemma drop_blanks_digit r c t : is_digit_in r c -> drop_blanks (c :: t) = c :: t.
Proof.
  intros D. apply digit_not_blank in D. cbn [drop_blanks]. destruct c as [|p|p]; try reflexivity. do 6 (destruct p as [p|p|]; try reflexivity). congruence.
Qed.
Lemma upto_digits r ds t : Forall (is_digit_in r) ds -> upto_blank (ds ++ 32 :: t) = ds.
Proof.
  induction 1 as [|c ds D F IH]; [reflexivity|]. cbn [app upto_blank]. apply digit_not_blank in D. destruct (Z.eqb_spec c 32); [contradiction|]. now rewrite IH.
Qed.
Lemma address_read l offset bs t : offset <> 0 -> line_shows l offset bs t ->
  positional (list_radix (al_opts l)) (upto_blank (drop_blanks t)) = byte_address l offset.
Proof.
  intros N (lead & addr & col & tail & -> & LS & (ds & n & N1 & -> & (F & P & L) & Z0) & _). unfold lead_shown in LS. replace (offset =? 0) with false in LS by lia. rewrite LS.
  rewrite drop_blanks_app, <- app_assoc, drop_blanks_app. destruct ds as [|c ds].
  - cbn in L. lia.
  - cbn [app]. inversion F as [|? ? D F']. subst. rewrite (drop_blanks_digit _ _ _ D). change (c :: ds ++ 32 :: 58 :: col ++ tail) with ((c :: ds) ++ 32 :: 58 :: col ++ tail).
    rewrite (upto_digits _ _ _ F). exact P.
Qed.
