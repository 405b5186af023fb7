(** More facts shared by the proofs about processors: signed decimals, little endian operands. *)
From Coq Require Import String ZArith List Bool Lia ZifyBool.
From Verif Require Import M_Char M_Error M_Value M_Text M_StrBuffer M_Format M_Number M_Insn M_Config M_Operators
  M_Parsers M_Expr M_Directive M_Table M_Asm M_Dis S_Value S_Number S_Expr S_ExprTree S_Table P_StrBuffer P_Number P_NumberRead
  P_ExprRead P_ExprTree P_ExprCase P_Table P_Insn P_Config P_Value P_Directive P_AsmText P_CpuShape P_CpuGood P_CpuText.
Import ListNotations.
Open Scope string_scope.
Open Scope list_scope.
Local Open Scope Z_scope.

(* a sign and a numeral *)
Definition signed_text (np : number_parser) (t : text) (z : Z) : Prop :=
  exists u n, numeral np u n /\ 0 <= n < 2^31 /\ (t = 43 :: u /\ z = n \/ t = 45 :: u /\ z = - n).
Lemma shown8 z : -128 <= z <= 127 -> shown (u32 z) (-8) = z.
Proof.
  intros H. unfold shown, u32. change (0 <? -8) with false. cbv iota. cbv zeta.
  change (Z.abs (-8)) with 8. change (2^8) with 256. change (2^(8-1)) with 128. change (2^32) with 4294967296.
  destruct (Z.neg_nonneg_cases z).
  - replace (z mod 4294967296) with (z + 4294967296) by (symmetry; replace z with (z + 4294967296 + (-1) * 4294967296) at 1 by lia; rewrite Z.mod_add by lia; apply Z.mod_small; lia).
    replace (z + 4294967296) with (z + 256 + 16777215 * 256) by lia. rewrite Z.mod_add by lia. rewrite Z.mod_small by lia.
    match goal with |- context [if ?b then _ else _] => destruct b eqn:? end; lia.
  - rewrite (Z.mod_small z) by lia. rewrite Z.mod_small by lia.
    match goal with |- context [if ?b then _ else _] => destruct b eqn:? end; lia.
Qed.
Lemma letter_plain c b : is_alpha c = false -> b_err (letter c b) = OK -> b_err b = OK /\ letter c b = appb b [c].
Proof.
  intros A X. rewrite letter_text in *. split; [eapply out_text_err, X|]. rewrite out_text_ok by exact X. cbn [map]. now rewrite (plain_symbol _ A).
Qed.
(* the decimal of a signed byte, always with a sign *)
Lemma good_signed8 d np z : da_symtab d = None -> da_reads d np -> -128 <= z <= 127 ->
  good 0 (R_text (fun _ t => signed_text np t z))
    (fun s => bind (Val (if 0 <=? z then t_put (letter 43) s else s)) (t_print (dis_outDec d (u32 z) (-8)))).
Proof.
  intros S (FD & FO & FH) V.
  set (F := fun out => dis_outDec d (u32 z) (-8) (if 0 <=? z then letter 43 out else out)).
  apply (good_ext _ _ (t_print F)).
  { intros s. cbn [bind]. unfold F, t_print, t_put. destruct (0 <=? z); reflexivity. }
  apply good_print; [intros out; unfold F; now apply outDec_val|]. intros out o H E. unfold F, dis_outDec, da_lookup in H. rewrite S in H. cbn [bind] in H.
  assert (X : exists f, fmt_reads f np 10 /\ o = hex_case d (format_signed f (u32 z) (-8)) (if 0 <=? z then letter 43 out else out)).
  { destruct (da_octal d); [specialize (FO eq_refl)|specialize (FD eq_refl)]; injection H as <-; eauto. }
  destruct X as (f & FR & ->). clear H. unfold hex_case, M_StrBuffer.over in *. cbn [b_err] in E. unfold format_signed in *.
  rewrite absolute_spec in * by (unfold u32; pose proof (Z.mod_pos_bound z (2^32)); lia). rewrite shown8 in * by lia.
  change (Z.abs (-8)) with 8 in *.
  destruct (fmt_numeral f np (Z.abs z) 8 _ FR ltac:(lia) ltac:(lia) E) as (E1 & u & A & N). rewrite A.
  destruct (Z.leb_spec 0 z); destruct (Z.ltb_spec z 0); try lia.
  - assert (E2 : b_err (letter 43 out) = OK) by (destruct (letter 43 out); exact E1).
    destruct (letter_plain 43 out eq_refl E2) as (E3 & L). split; [exact E3|]. exists (43 :: u). split.
    + rewrite L. unfold appb, case_buf. cbn. now rewrite <- app_assoc.
    + exists u, (Z.abs z). split; [exact N|]. split; [lia|]. left. split; [reflexivity|lia].
  - destruct (letter_plain 45 _ eq_refl E1) as (E3 & L). split; [destruct out; exact E3|]. exists (45 :: u). split.
    + rewrite L. unfold appb, case_buf. cbn. now rewrite <- app_assoc.
    + exists u, (Z.abs z). split; [exact N|]. split; [lia|]. right. split; [reflexivity|lia].
Qed.

(* reading it *)
Lemma parse_signed f a loc delim b0 t z b rest lv :
  In f tree_families -> a_pl a = fam_pl f -> a_radix a = 10 -> In delim [0; 41; 44; 93] ->
  (forall u n, numeral (p_number (fam_pl f)) u n -> head_ok f u) ->
  0 < lv -> In (ent "+" lv RIGHT unary_plus) (fam_prefix f) -> In (ent "-" lv RIGHT unary_minus) (fam_prefix f) ->
  (forall d, In d (fam_prefix f) -> (1 < length (d_text d))%nat -> forall r, d_text d <> 43 :: r /\ d_text d <> 45 :: r) ->
  signed_text (p_number (fam_pl f)) t z -> blanks b0 -> blanks b ->
  (rest = [] \/ exists c u, rest = c :: u /\ (c = 44 \/ c = 59 \/ (c = delim /\ c <> 0))) ->
  exists b' w, blanks b' /\ parseInteger a loc (b0 ++ t ++ b ++ rest) OK delim = Val (w, OK, b' ++ rest) /\
    int_value w /\ int_of w = z.
Proof.
  intros I PL RX DL HD LV PLUS MINUS SEP (u & n & N & NR & P) B0 B R.
  set (cx := mkC loc (a_symbol a) (a_function a) delim).
  assert (EN : ends cx rest).
  { unfold ends. destruct R as [->|(x & v & -> & C)]; [trivial|]. cbn [c_delim cx]. tauto. }
  assert (TE : token_end (b ++ rest)).
  { destruct b as [|x b]; [|cbn; left; now inversion B]. cbn [app].
    destruct R as [->|(x & v & -> & C)]; [exact Logic.I|]. cbn [token_end]. right.
    cbn in DL. cbn. intuition (subst; auto 20). }
  assert (NUM : derives f cx (Num u (mkV V_UNSIGNED n)) (u ++ b ++ rest) rest).
  { constructor; auto; [eapply HD; eauto|]. intros r T. apply N, token_boundary, T. }
  assert (GO : forall d sg w, d = ent "+" lv RIGHT unary_plus /\ sg = 43 \/ d = ent "-" lv RIGHT unary_minus /\ sg = 45 ->
     eval1 (d_fn d) (mkV V_UNSIGNED n) = Some w ->
     exists b', blanks b' /\ parseInteger a loc (b0 ++ (sg :: u) ++ b ++ rest) OK delim = Val (w, OK, b' ++ rest)).
  { intros d sg w DS V.
    assert (D : derives f cx (Un d (Num u (mkV V_UNSIGNED n))) ((sg :: u) ++ b ++ rest) rest).
    { apply (D_un f cx d [sg] [] _ (u ++ b ++ rest)).
      - destruct DS as [(-> & _)|(-> & _)]; assumption.
      - left. destruct DS as [(-> & ->)|(-> & ->)]; reflexivity.
      - apply Forall_nil.
      - split.
        + intros d' I' L' (r & SW). cbn [app] in SW. destruct (d_text d') as [|x y] eqn:TX; [cbn in L'; lia|].
          cbn [app] in SW. injection SW as <- _. destruct (SEP d' I' ltac:(rewrite TX; exact L') y) as (S1 & S2). destruct DS as [(_ & ->)|(_ & ->)]; congruence.
        + cbn [last]. destruct DS as [(_ & ->)|(_ & ->)]; discriminate.
      - exact NUM. }
    assert (WN : well_nested (Un d (Num u (mkV V_UNSIGNED n)))).
    { cbn. split; [left|exact Logic.I]. destruct DS as [(-> & _)|(-> & _)]; cbn; lia. }
    assert (VO : value_of (Un d (Num u (mkV V_UNSIGNED n))) = Val (OK, w)).
    { cbn [value_of andthen]. change (isOK OK) with true. cbv iota. now rewrite V. }
    pose proof (C18_exact f cx _ b0 _ rest I DL B0 D WN EN ltac:(cbn; lia) ltac:(cbn; lia)) as X. rewrite VO in X.
    destruct X as (b' & BB & X). exists b'. split; [exact BB|]. unfold parseInteger. rewrite PL, RX. fold cx. rewrite X. reflexivity. }
  assert (IN : int_value (mkV V_UNSIGNED n)) by (cbn; lia).
  destruct P as [(-> & ->)|(-> & ->)].
  - destruct (GO _ 43 (mkV V_UNSIGNED n) (or_introl (conj eq_refl eq_refl)) eq_refl) as (b' & BB & X). exists b', (mkV V_UNSIGNED n). auto.
  - destruct (v_neg_ok (mkV V_UNSIGNED n) IN ltac:(cbn; lia)) as (w & EV & IW & OW).
    destruct (GO _ 45 w (or_intror (conj eq_refl eq_refl)) EV) as (b' & BB & X). exists b', w. auto.
Qed.
(* what is done with the value *)
Lemma over_signed w v m n : int_value w -> int_of w = v -> n <= v <= m -> m < 2^32 -> -2^31 <= n -> 0 <= m -> n <= 0 -> overflow w m n = false.
Proof.
  intros IV IO V M N M0 N0. pose proof (overflow_ok w m n IV ltac:(lia) ltac:(lia)) as O. rewrite IO in O.
  destruct (overflow w m n); auto. destruct O as [O _]; specialize (O eq_refl); lia.
Qed.
Lemma low8_int8 w x : int_value w -> int_of w = int8 x -> byte x -> getUnsigned w mod 2^8 = x.
Proof.
  intros IV IO X. rewrite getUnsigned_mod by exact IV. rewrite IO. change (2^8) with 256. change (2^32) with (16777216 * 256).
  rewrite Z.mul_comm, Z.rem_mul_r by lia. rewrite (Z.mul_comm 256), Z.mod_add, Z.mod_mod by lia. now apply int8_back.
Qed.

(* ------------------------------------------------------------ little endian *)
Lemma emit_le hi lo pos i : byte hi -> byte lo ->
  snd (emitUint16Le_at (lo + 256 * hi) pos i) = snd (emitByte_at hi (pos + 1) (snd (emitByte_at lo pos i))).
Proof.
  intros X Y. unfold emitUint16Le_at.
  assert (E1 : forall i p, emitByte_at (Z.shiftr (lo + 256 * hi) 0) p i = emitByte_at lo p i).
  { intros j p. unfold emitByte_at. rewrite Z.shiftr_0_r. change (2^8) with 256.
    replace ((lo + 256 * hi) mod 256) with (lo mod 256); [reflexivity|]. rewrite (Z.mul_comm 256), Z_mod_plus_full. reflexivity. }
  assert (E2 : Z.shiftr (lo + 256 * hi) 8 = hi).
  { rewrite Z.shiftr_div_pow2 by lia. change (2^8) with 256. rewrite (Z.mul_comm 256), Z_div_plus by lia.
    unfold byte in Y. rewrite Z.div_small by lia. lia. }
  rewrite E2, Z.add_0_r, E1. destruct (emitByte_at lo pos i) as [e j]. reflexivity.
Qed.
Lemma part_le lo hi addr base nb : byte hi -> byte lo -> (base + length nb < 63)%nat ->
  snd (emitUint16Le_at (lo + 256 * hi) (Z.of_nat (base + length nb)) (part addr base nb)) = part addr base (nb ++ [lo; hi]).
Proof.
  intros X Y L. rewrite emit_le by assumption. rewrite part_byte by (auto; lia).
  replace (Z.of_nat (base + length nb) + 1) with (Z.of_nat (base + length (nb ++ [lo]))) by (rewrite app_length; cbn; lia).
  rewrite part_byte by (auto; rewrite app_length; cbn; lia). now rewrite <- app_assoc.
Qed.
