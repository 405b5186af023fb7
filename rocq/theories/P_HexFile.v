(** Proofs about the object file formats. *)
From Coq Require Import String ZArith List Bool Lia ZifyBool.
From Verif Require Import M_Char M_Map M_BinMemory M_HexFile S_ByteMap S_Memory P_BinMemory.
Import ListNotations.
Local Open Scope string_scope.
Local Open Scope list_scope.
Local Open Scope Z_scope.
Ltac Zify.zify_post_hook ::= Z.div_mod_to_equations.

(* ---- bits ---- *)
Lemma lor_add h l k : 0 <= k -> 0 <= l < 2^k -> Z.lor (h * 2^k) l = h * 2^k + l.
Proof.
  intros Hk Hl. symmetry.
  rewrite <- Z.lxor_lor.
  - apply Z.add_nocarry_lxor.
    apply Z.bits_inj'. intros n Hn. rewrite Z.land_spec, Z.bits_0.
    destruct (Z.lt_ge_cases n k).
    + rewrite Z.mul_pow2_bits_low by lia. reflexivity.
    + replace (Z.testbit l n) with false; [apply andb_false_r|].
      symmetry. destruct (Z.eq_dec l 0); [subst; apply Z.bits_0|].
      apply Z.bits_above_log2; [lia|]. apply Z.log2_lt_pow2; [lia|].
      apply Z.lt_le_trans with (2^k); [lia|]. apply Z.pow_le_mono_r; lia.
  - apply Z.bits_inj'. intros n Hn. rewrite Z.land_spec, Z.bits_0.
    destruct (Z.lt_ge_cases n k).
    + rewrite Z.mul_pow2_bits_low by lia. reflexivity.
    + replace (Z.testbit l n) with false; [apply andb_false_r|].
      symmetry. destruct (Z.eq_dec l 0); [subst; apply Z.bits_0|].
      apply Z.bits_above_log2; [lia|]. apply Z.log2_lt_pow2; [lia|].
      apply Z.lt_le_trans with (2^k); [lia|]. apply Z.pow_le_mono_r; lia.
Qed.

Lemma lxor_high a b : 0 <= a < 2^32 -> 0 <= b < 2^32 ->
  (Z.lxor a b / 65536 =? 0) = (a / 65536 =? b / 65536).
Proof.
  intros Ha Hb. change 65536 with (2^16). rewrite <- !Z.shiftr_div_pow2 by lia.
  rewrite Z.shiftr_lxor.
  destruct (Z.eqb_spec (Z.lxor (Z.shiftr a 16) (Z.shiftr b 16)) 0) as [E|E].
  - apply Z.lxor_eq in E. symmetry. apply Z.eqb_eq. exact E.
  - symmetry. apply Z.eqb_neq. intros E2. apply E. rewrite E2. apply Z.lxor_nilpotent.
Qed.

(* ---- hex text ---- *)
Lemma hexd_ok d : 0 <= d < 16 -> is_xdigit (hexd d) = true /\ parseHex (hexd d) = d.
Proof.
  intros H. assert (F : forallb (fun d => is_xdigit (hexd d) && (parseHex (hexd d) =? d))
     (map Z.of_nat (seq 0 16)) = true) by reflexivity.
  rewrite forallb_forall in F. specialize (F d).
  assert (I : In d (map Z.of_nat (seq 0 16))).
  { apply in_map_iff. exists (Z.to_nat d). split; [lia|]. apply in_seq. lia. }
  apply F in I. apply andb_true_iff in I as [I1 I2]. apply Z.eqb_eq in I2. auto.
Qed.

Lemma hexn_2 v : hexn 2 v = [hexd (v / 16 mod 16); hexd (v mod 16)].
Proof. reflexivity. Qed.
Lemma hexn_4 v : hexn 4 v = hexn 2 (v / 256) ++ hexn 2 v.
Proof.
  cbn [hexn app]. rewrite !Z.div_div by lia. reflexivity.
Qed.
Lemma hexn_8 v : hexn 8 v = hexn 4 (v / 65536) ++ hexn 4 v.
Proof. cbn [hexn app]. rewrite !Z.div_div by lia. reflexivity. Qed.

Lemma parseByte_hexn v r : parseByte (hexn 2 v ++ r) = Some (v mod 256, r).
Proof.
  rewrite hexn_2. unfold parseByte. cbn [app expect].
  destruct (hexd_ok (v / 16 mod 16)) as [X1 P1]; [lia|].
  destruct (hexd_ok (v mod 16)) as [X2 P2]; [lia|].
  rewrite X1. cbn [expect]. rewrite X2, P1, P2. rewrite (Z.mod_small (v / 16 mod 16 * 16)) by lia.
  change 16 with (2^4) at 2. rewrite (lor_add _ _ 4) by lia. f_equal. f_equal. lia.
Qed.
Lemma parseUint16_hexn v r : parseUint16 (hexn 4 v ++ r) = Some (v mod 65536, r).
Proof.
  rewrite hexn_4. unfold parseUint16. rewrite <- app_assoc, !parseByte_hexn.
  change 256 with (2^8) at 2. rewrite (lor_add _ _ 8) by lia. f_equal. f_equal. lia.
Qed.
Lemma parseUint24_hexn v r : 
  parseUint24 (hexn 2 (v / 65536) ++ hexn 4 v ++ r) = Some (v mod 16777216, r).
Proof.
  unfold parseUint24. rewrite parseByte_hexn, parseUint16_hexn.
  change 65536 with (2^16) at 2. rewrite (lor_add _ _ 16) by lia. f_equal. f_equal. lia.
Qed.
Lemma parseUint32_hexn v r : parseUint32 (hexn 8 v ++ r) = Some (v mod 2^32, r).
Proof.
  rewrite hexn_8. unfold parseUint32. rewrite <- app_assoc, !parseUint16_hexn.
  change 65536 with (2^16) at 2. rewrite (lor_add _ _ 16) by lia. f_equal. f_equal. lia.
Qed.

Lemma hexn_mod v : hexn 2 (v mod 256) = hexn 2 v.
Proof. rewrite !hexn_2. f_equal; [f_equal; lia|f_equal; f_equal; lia]. Qed.
Lemma hexn4_mod v : hexn 4 (v mod 65536) = hexn 4 v.
Proof.
  rewrite !hexn_4. f_equal; rewrite <- hexn_mod, <- (hexn_mod (v / 256)) || rewrite <- hexn_mod, <- (hexn_mod v);
  f_equal; lia.
Qed.

(* ---- checksums ---- *)
Lemma addSum8_range s d : 0 <= addSum8 s d < 256.
Proof. unfold addSum8. lia. Qed.
Lemma fold_sum_range d s : 0 <= s < 256 -> 0 <= fold_left addSum8 d s < 256.
Proof.
  revert s; induction d as [|x d IH]; intros s H; [exact H|]. cbn. apply IH. apply addSum8_range.
Qed.
Lemma ih_sum_zero s : 0 <= s < 256 -> addSum8 s (ih_getSum s) = 0.
Proof. intros. unfold addSum8, ih_getSum. lia. Qed.

(* ---- the data loop ---- *)
Fixpoint wr (m : memory) (addr : Z) (d : list Z) : memory :=
  match d with [] => m | x :: t => wr (writeByte m (addr mod 2^32) x) (addr + 1) t end.

Definition bytes (d : list Z) : Prop := Forall is_byte d.

Lemma decode_data_ok d addr i rest s m : bytes d ->
  decode_data (length d) addr i (flat_map (hexn 2) d ++ rest) s m =
  (Some (rest, fold_left addSum8 d s), wr m (addr + i) d).
Proof.
  revert i s m; induction d as [|x d IH]; intros i s m B; [reflexivity|].
  inversion B as [|? ? Bx B']; subst. unfold is_byte in Bx.
  cbn [length decode_data flat_map]. rewrite <- app_assoc, parseByte_hexn.
  rewrite Z.mod_small by lia. rewrite IH by auto. cbn [fold_left wr].
  rewrite Z.add_assoc. reflexivity.
Qed.

Lemma firstn_dsize (d : list Z) : firstn (Z.to_nat (dsize d)) d = d.
Proof. unfold dsize. rewrite Nat2Z.id. apply firstn_all. Qed.
Lemma firstn_ge (d : list Z) n : dsize d <= n -> firstn (Z.to_nat n) d = d.
Proof. intros. unfold dsize in *. apply firstn_all2. lia. Qed.

(* decoding one encoded Intel HEX data line *)
Lemma ih_decode_line next addr d m : bytes d -> dsize d <= 255 ->
  ih_decode next (encodeLine addr d (dsize d)) m =
  (dsize d, next, wr m (Z.lor next (addr mod 65536)) d).
Proof.
  intros B L. unfold encodeLine. rewrite firstn_dsize.
  unfold ih_decode.
  match goal with |- context[expect (Z.eqb 58) (?P ++ ?X)] =>
    change (expect (Z.eqb 58) (P ++ X)) with (Some (58, X)) end.
  cbv beta iota. rewrite parseByte_hexn. rewrite parseUint16_hexn, parseByte_hexn.
  pose proof (dsize_nonneg d).
  change (0 mod 256) with 0. change (0 =? 4) with false. change (negb (0 =? 0)) with false.
  cbv iota. rewrite (Z.mod_small (dsize d)) by lia.
  rewrite Z.mod_mod by lia.
  replace (Z.to_nat (dsize d)) with (length d) by (unfold dsize; lia).
  rewrite decode_data_ok by auto.
  rewrite <- (app_nil_r (hexn 2 (ih_getSum _))), parseByte_hexn.
  set (s := fold_left _ _ _).
  assert (R : 0 <= s < 256) by (apply fold_sum_range; apply addSum8_range).
  replace (ih_getSum s mod 256) with (ih_getSum s) by (unfold ih_getSum; lia).
  rewrite ih_sum_zero by exact R. cbn. rewrite Z.add_0_r. reflexivity.
Qed.

(* decoding one extended linear address line *)
Definition ela_sum (ela : Z) : Z :=
  ih_getSum (addSum16 (addSum8 (addSum16 (addSum8 0 2) 0) 4) ela).

Lemma ih_decode_ela next addr m : 16 <= ela_sum ((addr / 65536) mod 65536) -> 0 <= addr < 2^32 ->
  forall aw l, formatEla aw addr = [l] -> ih_decode next l m = (0, addr / 65536 * 65536, m).
Proof.
  intros Hs Ha aw l. unfold formatEla. destruct (addressSize aw <=? 2); [discriminate|].
  intros E. apply (f_equal (hd [])) in E. cbn [hd] in E. subst l.
  unfold ih_decode.
  match goal with |- context[expect (Z.eqb 58) (?P ++ ?X)] =>
    change (expect (Z.eqb 58) (P ++ X)) with (Some (58, X)) end.
  cbv beta iota. rewrite parseByte_hexn. rewrite parseUint16_hexn, parseByte_hexn.
  change (4 mod 256) with 4. change (4 =? 4) with true. cbv iota.
  rewrite parseUint16_hexn. fold (ela_sum ((addr / 65536) mod 65536)).
  set (el := (addr / 65536) mod 65536) in *.
  assert (Ee : el = addr / 65536) by (subst el; lia).
  unfold hex2_blank. destruct (Z.ltb_spec (ela_sum el) 16); [lia|].
  rewrite <- (app_nil_r (hexn 2 (ela_sum el))), parseByte_hexn.
  rewrite (Z.mod_small el) by (subst el; lia).
  replace (ela_sum el mod 256) with (ela_sum el) by (unfold ela_sum, ih_getSum; lia).
  change (2 mod 256) with 2. change (0 mod 65536) with 0.
  unfold ela_sum at 1. rewrite ih_sum_zero by apply addSum8_range.
  cbn. rewrite Ee. f_equal. f_equal. lia.
Qed.

(* ---- records ---- *)
Definition rec_total (rs : list (Z * list Z)) : Z := fold_right (fun r n => dsize (snd r) + n) 0 rs.
Fixpoint wr_all (m : memory) (rs : list (Z * list Z)) : memory :=
  match rs with [] => m | (a, d) :: t => wr_all (wr m a d) t end.

(* conditions under which a record survives Intel HEX *)
Definition ih_rec_ok (aw : Z) (r : Z * list Z) : Prop :=
  0 <= fst r < 2^32 /\ bytes (snd r) /\ 0 < dsize (snd r) <= 255 /\
  fst r mod 65536 + dsize (snd r) <= 65536 /\
  (if aw <=? 16 then fst r < 65536 else 16 <= ela_sum (fst r / 65536)).

Definition ih_inv (aw : Z) (st : ihex) (dn : Z) : Prop :=
  if aw <=? 16 then dn = 0
  else st = ih_reset \/ (0 <= ih_last st < 2^32 /\ dn = ih_last st / 65536 * 65536).

Lemma addressSize_16 aw : (addressSize aw <=? 2) = (aw <=? 16).
Proof. unfold addressSize. destruct (Z.leb_spec aw 16); [reflexivity|]. destruct (aw <=? 24); reflexivity. Qed.

Lemma ih_one aw st dn a d : ih_rec_ok aw (a, d) -> ih_inv aw st dn ->
  let '(ls, st') := ih_encode aw st a d (dsize d) in
  exists dn', ih_inv aw st' dn' /\
  forall tail sz m, ih_decode_lines dn (ls ++ tail) sz m =
     ih_decode_lines dn' tail (sz + dsize d) (wr m a d).
Proof.
  intros (Ha & B & Hd & Hf & Hx) I. cbn [fst snd] in *.
  unfold ih_encode.
  (* the data line(s) *)
  set (pre := if _ || _ then formatEla aw a else []).
  assert (P : exists dn', (aw <=? 16 = true -> dn' = 0) /\ dn' = a / 65536 * 65536 /\
    forall tail sz m, ih_decode_lines dn (pre ++ tail) sz m = ih_decode_lines dn' tail sz m).
  { subst pre. unfold ih_inv in I. unfold formatEla at 1. rewrite addressSize_16.
    destruct (aw <=? 16) eqn:Eaw.
    - subst dn. exists 0. split; [auto|]. split; [lia|].
      destruct (_ || _); reflexivity.
    - exists (a / 65536 * 65536). split; [congruence|]. split; [reflexivity|].
      intros tail sz m.
      assert (ELA : forall dn0, ih_decode_lines dn0 (formatEla aw a ++ tail) sz m =
                ih_decode_lines (a / 65536 * 65536) tail sz m).
      { intros dn0. destruct (formatEla aw a) as [|l [|l2 t]] eqn:Ef.
        - unfold formatEla in Ef. rewrite addressSize_16, Eaw in Ef. discriminate.
        - cbn [app ih_decode_lines].
          erewrite ih_decode_ela; [| |exact Ha|exact Ef].
          + change (0 <? 0) with false. cbv iota. rewrite Z.add_0_r. reflexivity.
          + rewrite Z.mod_small by lia. exact Hx.
        - unfold formatEla in Ef. rewrite addressSize_16, Eaw in Ef. discriminate. }
      replace (if negb (a =? ih_next st) || negb (Z.lxor a (ih_last st) / 65536 =? 0)
               then _ else []) with
        (if negb (a =? ih_next st) || negb (Z.lxor a (ih_last st) / 65536 =? 0)
               then formatEla aw a else [])
        by (unfold formatEla; rewrite addressSize_16, Eaw; reflexivity).
      destruct I as [->|[Hl ->]].
      + cbn [ih_next ih_last ih_reset].
        rewrite lxor_high by lia.
        destruct (Z.eqb_spec a 0); cbn [negb orb]; [|apply ELA].
        subst a. change (0 / 65536 =? (2 ^ 32 - 1) / 65536) with false. cbn [negb orb]. apply ELA.
      + rewrite lxor_high by lia.
        destruct (Z.eqb_spec a (ih_next st)); cbn [negb orb]; [|apply ELA].
        destruct (Z.eqb_spec (a / 65536) (ih_last st / 65536)) as [E|E]; cbn [negb]; [|apply ELA].
        rewrite E. reflexivity. }
  destruct P as (dn' & P16 & Pn & P).
  assert (LN : forall m, ih_decode dn' (encodeLine a d (dsize d)) m = (dsize d, dn', wr m a d)).
  { intros m. rewrite ih_decode_line by (auto; lia). f_equal. f_equal.
    rewrite Pn. change 65536 with (2^16) at 2. rewrite (lor_add _ _ 16) by lia.
    lia. }
  assert (LN' : forall tail sz m, ih_decode_lines dn' (encodeLine a d (dsize d) :: tail) sz m =
     ih_decode_lines dn' tail (sz + dsize d) (wr m a d)).
  { intros. cbn [ih_decode_lines]. rewrite LN.
    destruct (Z.ltb_spec (dsize d) 0); [lia|reflexivity]. }
  assert (INV : forall n, ih_inv aw (mkIhex a n) dn').
  { intros n. unfold ih_inv. destruct (aw <=? 16); [auto|]. right. cbn. auto. }
  rewrite lxor_high by lia.
  destruct (Z.eqb_spec (a / 65536) ((a + dsize d) mod 2^32 / 65536)) as [E|E]; cbn [negb].
  - exists dn'. split; [apply INV|].
    intros tail sz m. rewrite <- app_assoc, P. cbn [app]. apply LN'.
  - (* the record ends exactly at a 64 KiB boundary *)
    assert (Ec : ((a + dsize d) mod 2^32 / 65536 * 65536 - a) mod 256 = dsize d) by lia.
    rewrite Ec.
    replace ((dsize d - dsize d) mod 256) with 0 by (rewrite Z.sub_diag; reflexivity).
    change (0 =? 0) with true. cbv iota.
    exists dn'. split; [apply INV|].
    intros tail sz m. rewrite <- app_assoc, P. cbn [app]. apply LN'.
Qed.

Lemma ih_all aw rs st dn : Forall (ih_rec_ok aw) rs -> ih_inv aw st dn ->
  exists dn', forall tail sz m, ih_decode_lines dn (ih_lines aw st rs ++ tail) sz m =
    ih_decode_lines dn' tail (sz + rec_total rs) (wr_all m rs).
Proof.
  intros F. revert st dn. induction F as [|[a d] t R _ IH]; intros st dn I.
  - exists dn. intros. cbn. rewrite Z.add_0_r. reflexivity.
  - cbn [ih_lines]. pose proof (ih_one aw st dn a d R I) as O.
    destruct (ih_encode aw st a d (dsize d)) as [ls st'].
    destruct O as (dn1 & I1 & O). destruct (IH st' dn1 I1) as (dn2 & T).
    exists dn2. intros. rewrite <- app_assoc, O, T. cbn [rec_total fold_right wr_all snd].
    fold (rec_total t). f_equal. lia.
Qed.

Lemma ih_lines_first aw st rs : Forall (ih_rec_ok aw) rs ->
  exists l t, ih_lines aw st rs ++ [s2l ":00000001FF"] = l :: t /\ peek l = 58.
Proof.
  destruct rs as [|[a d] t]; intros F.
  - cbn. do 2 eexists. split; reflexivity.
  - cbn [ih_lines]. unfold ih_encode.
    assert (G : forall pre l1 x, (pre = [] \/ exists y, pre = [y] /\ peek y = 58) ->
       peek l1 = 58 -> exists l t, (pre ++ l1 :: x) = l :: t /\ peek l = 58).
    { intros pre l1 x [->|(y & -> & Hy)] Hl; cbn; eauto. }
    assert (PR : forall c : bool, (if c then formatEla aw a else []) = [] \/
         exists y, (if c then formatEla aw a else []) = [y] /\ peek y = 58).
    { intros c. destruct c; [|auto]. unfold formatEla. destruct (addressSize aw <=? 2); [auto|].
      right. eexists. split; reflexivity. }
    repeat match goal with |- context[if ?c then _ else _] => 
      match c with context[_ || _] => fail 1 | _ => destruct c end end;
    rewrite <- !app_assoc; cbn [app]; apply G; try apply PR; reflexivity.
Qed.

Lemma ih_file_decode aw rs m : Forall (ih_rec_ok aw) rs ->
  decode_file (ih_lines aw ih_reset rs ++ [s2l ":00000001FF"]) m = (rec_total rs, wr_all m rs).
Proof.
  intros F. destruct (ih_lines_first aw ih_reset rs F) as (l & t & E & Hp).
  rewrite E. cbn [decode_file]. rewrite Hp. cbn [Z.eqb Pos.eqb].
  rewrite <- E.
  assert (I : ih_inv aw ih_reset 0) by (unfold ih_inv; destruct (aw <=? 16); auto).
  destruct (ih_all aw rs ih_reset 0 F I) as (dn & H). cbn [ih_next ih_reset].
  rewrite H. cbn [ih_decode_lines].
  change (ih_decode dn (s2l ":00000001FF") (wr_all m rs)) with (0, dn, wr_all m rs).
  cbv beta iota. change (0 <? 0) with false. cbv iota. f_equal. lia.
Qed.

(* ---- S-records ---- *)
Definition sr_rec_ok (aw : Z) (r : Z * list Z) : Prop :=
  0 <= fst r < 2^(8 * addressSize aw) /\ bytes (snd r) /\
  addressSize aw + dsize (snd r) + 1 <= 255.

Lemma sr_tail_ok addr d s m : bytes d -> 0 <= s < 256 ->
  sr_decode_tail addr (dsize d + 1) (flat_map (hexn 2) d ++ hexn 2 (sr_getSum (fold_left addSum8 d s))) s m
  = (dsize d, wr m addr d).
Proof.
  intros B Hs. unfold sr_decode_tail. pose proof (dsize_nonneg d).
  destruct (Z.ltb_spec (dsize d + 1) 1); [lia|].
  replace (Z.to_nat (dsize d + 1 - 1)) with (length d) by (unfold dsize; lia).
  rewrite decode_data_ok by auto.
  rewrite <- (app_nil_r (hexn 2 _)), parseByte_hexn.
  set (x := fold_left _ _ _).
  assert (R : 0 <= x < 256) by (apply fold_sum_range; auto).
  unfold sr_getSum. rewrite Z.mod_small by lia. rewrite Z.eqb_refl.
  rewrite Z.add_0_r. f_equal. lia.
Qed.

Lemma addSum16_mod s d : addSum16 s (d mod 65536) = addSum16 s d.
Proof. unfold addSum16, addSum8. lia. Qed.
Lemma addSum24_mod s d : addSum24 s (d mod 16777216) = addSum24 s d.
Proof. unfold addSum24, addSum16, addSum8. lia. Qed.

Lemma sr_decode_line aw a d m : sr_rec_ok aw (a, d) ->
  sr_decode (sr_encode aw a d (dsize d)) m = (dsize d, wr m a d).
Proof.
  intros (Ha & B & L). cbn [fst snd] in *.
  pose proof (dsize_nonneg d).
  assert (AS : addressSize aw = 2 \/ addressSize aw = 3 \/ addressSize aw = 4).
  { unfold addressSize. destruct (aw <=? 16); auto. destruct (aw <=? 24); auto. }
  unfold sr_encode. rewrite firstn_dsize.
  rewrite (Z.mod_small (addressSize aw + dsize d + 1)) by lia.
  destruct AS as [E|[E|E]]; rewrite E in *; cbn [Z.eqb Pos.eqb]; cbv beta iota zeta.
  - rewrite <- !app_assoc. unfold sr_decode.
    match goal with |- context[expect (Z.eqb 83) (?P ++ ?X)] =>
      change (expect (Z.eqb 83) (P ++ X)) with (Some (83, 49 :: X)) end.
    cbn [peek tl Z.eqb Pos.eqb orb andb negb].
    rewrite parseByte_hexn, Z.mod_small by lia.
    destruct (Z.ltb_spec (2 + dsize d + 1) 2); [lia|].
    rewrite parseUint16_hexn. rewrite Z.mod_mod by lia. rewrite addSum16_mod.
    replace (2 + dsize d + 1 - 2) with (dsize d + 1) by lia.
    rewrite sr_tail_ok by (auto; apply addSum8_range).
    rewrite Z.mod_small by lia. reflexivity.
  - rewrite <- !app_assoc. unfold sr_decode.
    match goal with |- context[expect (Z.eqb 83) (?P ++ ?X)] =>
      change (expect (Z.eqb 83) (P ++ X)) with (Some (83, 50 :: X)) end.
    cbn [peek tl Z.eqb Pos.eqb orb andb negb].
    rewrite parseByte_hexn, Z.mod_small by lia.
    destruct (Z.ltb_spec (3 + dsize d + 1) 3); [lia|].
    rewrite hexn_mod, hexn4_mod, parseUint24_hexn. rewrite addSum24_mod.
    replace (3 + dsize d + 1 - 3) with (dsize d + 1) by lia.
    rewrite sr_tail_ok by (auto; apply addSum8_range).
    rewrite Z.mod_small by lia. reflexivity.
  - rewrite <- !app_assoc. unfold sr_decode.
    match goal with |- context[expect (Z.eqb 83) (?P ++ ?X)] =>
      change (expect (Z.eqb 83) (P ++ X)) with (Some (83, 51 :: X)) end.
    cbn [peek tl Z.eqb Pos.eqb orb andb negb].
    rewrite parseByte_hexn, Z.mod_small by lia.
    destruct (Z.ltb_spec (4 + dsize d + 1) 4); [lia|].
    rewrite parseUint32_hexn. rewrite Z.mod_small by lia.
    replace (4 + dsize d + 1 - 4) with (dsize d + 1) by lia.
    rewrite sr_tail_ok by (auto; apply addSum8_range). reflexivity.
Qed.

Lemma sr_all aw rs tail sz m : Forall (sr_rec_ok aw) rs ->
  sr_decode_lines (map (fun x => sr_encode aw (fst x) (snd x) (dsize (snd x))) rs ++ tail) sz m =
  sr_decode_lines tail (sz + rec_total rs) (wr_all m rs).
Proof.
  intros F. revert sz m. induction F as [|[a d] t R _ IH]; intros sz m.
  - cbn. rewrite Z.add_0_r. reflexivity.
  - cbn [map app sr_decode_lines fst snd]. rewrite sr_decode_line by exact R.
    pose proof (dsize_nonneg d). destruct (Z.ltb_spec (dsize d) 0); [lia|].
    rewrite IH. cbn [rec_total fold_right wr_all snd]. fold (rec_total t). f_equal. lia.
Qed.

Lemma sr_file_decode aw rs m : Forall (sr_rec_ok aw) rs ->
  decode_file (s2l "S0030000FC" :: map (fun x => sr_encode aw (fst x) (snd x) (dsize (snd x))) rs
     ++ [sr_end aw]) m = (rec_total rs, wr_all m rs).
Proof.
  intros F. unfold decode_file. change (peek (s2l "S0030000FC") =? 83) with true. cbv iota.
  cbn [sr_decode_lines]. change (sr_decode (s2l "S0030000FC") m) with (0, m).
  cbv beta iota. change (0 <? 0) with false. cbv iota.
  rewrite sr_all by exact F. rewrite Z.add_0_l. cbn [sr_decode_lines Z.add].
  unfold sr_end. destruct (addressSize aw =? 2); [|destruct (addressSize aw =? 3)]; cbn; f_equal; lia.
Qed.
