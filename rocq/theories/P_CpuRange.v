(** What is shared by the proofs about the instructions that have a number, for every value. *)
From Coq Require Import String ZArith List Bool Lia ZifyBool.
From Verif Require Import M_Char M_Error M_Value M_Text M_StrBuffer M_Format M_Number M_Insn M_Config M_Operators
  M_Parsers M_Expr M_Directive M_Table T_Tables M_Asm M_Dis S_Value S_Number S_Expr S_ExprTree S_Table S_Cpu P_StrBuffer P_Number P_NumberRead
  P_ExprRead P_ExprTree P_ExprCase P_Table P_TableData P_Insn P_Config P_Value P_Directive P_AsmText P_CpuShape P_CpuGood P_CpuText.
Import ListNotations.
Open Scope string_scope.
Open Scope list_scope.
Local Open Scope Z_scope.

(* ------------------------------------------------------------ reading *)
Lemma parse_value F a loc b0 e s rest v : In F tree_families -> a_pl a = fam_pl F -> a_radix a = 10 -> blanks b0 ->
  derives F (mkC loc (a_symbol a) (a_function a) 0) e s rest -> well_nested e -> value_slots e <= 8 -> operator_slots e <= 8 ->
  tail rest -> value_of e = Val (OK, v) ->
  exists b, blanks b /\ parseInteger a loc (b0 ++ s) OK 0 = Val (v, OK, b ++ rest).
Proof.
  intros IF PL RX B0 D W VS OS T V.
  assert (EN : ends (mkC loc (a_symbol a) (a_function a) 0) rest).
  { destruct T as [->|(c & u & -> & C)]; cbn; tauto. }
  pose proof (C18_exact F (mkC loc (a_symbol a) (a_function a) 0) e b0 s rest IF ltac:(cbn; auto) B0 D W EN VS OS) as X.
  rewrite V in X. destruct X as (b & B & X). exists b. split; [exact B|].
  unfold parseInteger. rewrite PL, RX. rewrite X. reflexivity.
Qed.
Lemma parse_until F a loc delim s rest v : In F tree_families -> a_pl a = fam_pl F -> a_radix a = 10 -> In delim [0; 41; 44; 93] ->
  expression_until delim F loc (a_symbol a) (a_function a) s rest v ->
  match rest with [] => True | c :: _ => c = 44 \/ c = 59 \/ (c = delim /\ c <> 0) end ->
  int_value v /\ exists b, blanks b /\ parseInteger a loc s OK delim = Val (v, OK, b ++ rest).
Proof.
  intros IF PL RX DL (e & D & W & VS & OS & V & IV) EN. split; [exact IV|].
  pose proof (C18_exact F (mkC loc (a_symbol a) (a_function a) delim) e [] s rest IF DL (Forall_nil _) D W EN VS OS) as X.
  rewrite V in X. destruct X as (b & B & X). exists b. split; [exact B|].
  unfold parseInteger. rewrite PL, RX. cbn [app] in X. rewrite X. reflexivity.
Qed.
Lemma take_split p s w z : takeWhile p s = (w, z) -> s = w ++ z /\ forallb p w = true.
Proof.
  revert w z. induction s as [|c s IH]; cbn [takeWhile]; intros w z; [injection 1 as <- <-; auto|].
  destruct (p c) eqn:P.
  - destruct (takeWhile p s) as [a b] eqn:T. injection 1 as <- <-. destruct (IH _ _ eq_refl) as (E & F). cbn. now rewrite P, <- E, F.
  - injection 1 as <- <-. auto.
Qed.
Lemma searchText_none {A} (nm : A -> text) s items : forallb (fun a => cstringb (nm a)) items = true ->
  (forall a, In a items -> ~ same_name (leading_word s) (nm a)) -> searchText nm s items = Val (None, s).
Proof.
  intros C N. change (leading_word s) with (fst (takeWhile isNameLetter s)) in N. unfold searchText, searchSymbol.
  destruct (takeWhile isNameLetter s) as [w z] eqn:T. cbn [fst] in N.
  destruct (Nat.eqb_spec (length w) 0); [reflexivity|].
  assert (SW : s = w ++ z /\ forallb isNameLetter w = true) by (apply (take_split _ _ _ _ T)). destruct SW as (-> & W).
  rewrite bsearch_never; [reflexivity|]. apply Forall_forall. intros x I.
  rewrite forallb_forall in C. specialize (C x I).
  assert (CW : cstring w).
  { apply Forall_forall. intros c IC. rewrite forallb_forall in W. specialize (W c IC).
    unfold isNameLetter, is_alnum, is_alpha, is_upper, is_lower, is_digit in W. lia. }
  destruct (textMatcher_spec w (length w) (nm x) (le_n _) CW (cstringb_spec _ C)) as (E & _).
  intros M. apply (N x I). rewrite firstn_all in E. apply E. rewrite <- M. unfold textMatcher. now rewrite strn_app.
Qed.
Lemma parse_name_none entries undef names s : forallb (fun a => cstringb (nm_text a)) entries = true ->
  forallb (fun a => existsb (String.eqb (fst a)) names) entries = true ->
  (forall n, In n names -> ~ same_name (leading_word s) (s2l n)) -> parse_name entries undef s = Val (undef, s).
Proof.
  intros C S N. unfold parse_name. rewrite searchText_none; [reflexivity|exact C|]. intros a I. rewrite forallb_forall in S. specialize (S a I).
  apply existsb_exists in S. destruct S as (x & IX & E). apply String.eqb_eq in E. unfold nm_text. rewrite E. now apply N.
Qed.
Lemma skip_skip t : skipSpaces (skipSpaces t) = skipSpaces t.
Proof. unfold skipSpaces. induction t as [|c t IH]; [reflexivity|]. cbn [trimStart]. destruct (is_space c) eqn:C; [exact IH|]. cbn [trimStart]. now rewrite C. Qed.

(* ------------------------------------------------------------ parts of a value *)
Lemma low8 v : int_value v -> getUnsigned v mod 2^8 = int_of v mod 256.
Proof.
  intros H. rewrite getUnsigned_mod by exact H. change (2^8) with 256. change (2^32) with 4294967296.
  now rewrite <- (Znumtheory.Zmod_div_mod 256 4294967296) by (lia || now exists 16777216).
Qed.
Lemma low16 v : int_value v -> getUnsigned v mod 2^16 = 256 * (int_of v / 256 mod 256) + int_of v mod 256.
Proof.
  intros H. rewrite getUnsigned_mod by exact H. change (2^16) with (256 * 256). change (2^32) with 4294967296.
  rewrite <- (Znumtheory.Zmod_div_mod (256 * 256) 4294967296) by (lia || now exists 65536).
  rewrite Z.rem_mul_r by lia. lia.
Qed.
Lemma land_low v n : int_value v -> 0 <= n <= 32 -> Z.land (getUnsigned v) (Z.ones n) = int_of v mod 2^n.
Proof.
  intros H N. rewrite getUnsigned_mod by exact H. rewrite Z.land_ones by lia.
  rewrite <- (Znumtheory.Zmod_div_mod (2^n) (2^32)); [reflexivity|lia|lia|]. exists (2^(32-n)). rewrite <- Z.pow_add_r by lia. f_equal. lia.
Qed.
Lemma mod_byte x : byte (x mod 256).
Proof. apply Z.mod_pos_bound. lia. Qed.
Lemma over_if {A} v mx mn (x y : A) : int_value v -> 0 <= mx < 2^32 -> -2^31 <= mn < 2^31 ->
  (if overflow v mx mn then x else y) = if (mn <=? int_of v) && (int_of v <=? mx) then y else x.
Proof.
  intros IV M N. pose proof (overflow_ok v mx mn IV M N) as O. destruct (overflow v mx mn).
  - destruct ((mn <=? int_of v) && (int_of v <=? mx)) eqn:Q; [|reflexivity]. destruct O as [O _]. specialize (O eq_refl). lia.
  - destruct ((mn <=? int_of v) && (int_of v <=? mx)) eqn:Q; [reflexivity|]. destruct O as [_ O]. assert (false = true) by (apply O; lia). discriminate.
Qed.
Lemma over_b v mx mn : int_value v -> 0 <= mx < 2^32 -> -2^31 <= mn < 2^31 -> overflow v mx mn = negb ((mn <=? int_of v) && (int_of v <=? mx)).
Proof. intros. pose proof (over_if v mx mn true false H H0 H1) as E. destruct (overflow v mx mn), (_ && _); auto; discriminate. Qed.
Lemma lor_add o n x : 0 <= n -> 0 <= x < 2^n -> Z.land o (Z.ones n) = 0 -> Z.lor o x = o + x.
Proof.
  intros N X L. assert (D : Z.land o x = 0); [|now rewrite Z.add_nocarry_lxor, Z.lxor_lor by exact D].
  - apply Z.bits_inj'. intros k K. rewrite Z.land_spec, Z.bits_0. destruct (Z.ltb_spec k n) as [H|H].
    + assert (Z.testbit (Z.land o (Z.ones n)) k = false) as E by (rewrite L; apply Z.bits_0). rewrite Z.land_spec, Z.ones_spec_low in E by lia.
      rewrite andb_true_r in E. now rewrite E.
    + replace (Z.testbit x k) with false; [apply andb_false_r|]. symmetry. destruct (Z.eq_dec x 0) as [->|NX]; [apply Z.bits_0|].
      apply Z.bits_above_log2; [lia|]. apply Z.log2_lt_pow2; [lia|]. apply Z.lt_le_trans with (2^n); [lia|]. apply Z.pow_le_mono_r; lia.
Qed.
(* [getUnsigned v] is a small number exactly when [v] is *)
Lemma small_u v n : int_value v -> 0 <= n < 2^16 -> -2^31 <= int_of v < 2^32 -> (getUnsigned v =? n) = (int_of v =? n).
Proof.
  intros H N R. rewrite getUnsigned_mod by exact H. destruct (Z.ltb_spec (int_of v) 0).
  - replace (int_of v) with (int_of v + 2^32 + (-1) * 2^32) at 1 by lia. rewrite Z.mod_add by lia. rewrite Z.mod_small by lia. lia.
  - now rewrite Z.mod_small by lia.
Qed.

(* ------------------------------------------------------------ errors *)
Definition er1 (b : bool) (e0 e : err) : err := if b then setErrorIfAt e0 e else e0.
Lemma er2_ok b1 b2 x y : x <> OK -> y <> OK -> er1 b2 (er1 b1 OK x) y = OK <-> b1 = false /\ b2 = false.
Proof.
  intros X Y. assert (S : forall z, z <> OK -> setErrorIfAt OK z = z) by (intros []; try congruence; reflexivity).
  unfold er1. destruct b1, b2; split; intros H; try tauto; try (destruct H; discriminate); try discriminate; rewrite ?S in H by assumption; try congruence.
  rewrite seterr_stays in H; congruence.
Qed.

(* ------------------------------------------------------------ branches *)
Lemma branch16 base target : 0 <= base <= 2^16 -> 0 <= target < 2^32 ->
  exists delta e, branchDelta 16 base target OK = Some (delta, e) /\ (delta - (target - base)) mod 65536 = 0 /\ -32768 <= delta < 32768 /\
    (e = OK \/ e = OVERFLOW_RANGE) /\ (e = OK <-> target < 2^16 /\ -32768 <= target - base < 32768) /\ (e = OK -> delta = target - base).
Proof.
  intros B T. destruct (Z.eq_dec base (2^16)) as [->|NE].
  - unfold branchDelta. destruct (C30_sign (M_Config.u32 (target - 2^16)) 16 ltac:(lia)) as (dl & E & R & M & UN).
    { apply Z.mod_pos_bound. lia. }
    assert (CG : forall x, (x - M_Config.u32 (target - 2^16)) mod 2^16 = (x - target) mod 65536).
    { intros x. unfold M_Config.u32. change (2^16) with 65536. change (2^32) with (65536 * 65536). rewrite Z.rem_mul_r by lia.
      replace (x - _) with (x - (target - 65536) mod 65536 + (- ((target - 65536) / 65536 mod 65536)) * 65536) by lia.
      rewrite Z_mod_plus_full, Zminus_mod_idemp_r. replace (x - (target - 65536)) with (x - target + 1 * 65536) by lia. apply Z_mod_plus_full. }
    rewrite CG in M. change (2^(16-1)) with 32768 in *. rewrite E. destruct (C31_addr 16 target false ltac:(lia) T) as (A1 & A2).
    exists dl. assert (MD : (dl - (target - 2^16)) mod 65536 = 0).
    { replace (dl - (target - 2^16)) with (dl - target + 1 * 65536) by lia. now rewrite Z_mod_plus_full. }
    destruct (Z.leb_spec (2^16) target) as [L|L].
    + assert (CK : checkAddr 16 target false = OVERFLOW_RANGE) by (now apply A2). rewrite CK. change (setErrorIfAt OK OVERFLOW_RANGE) with OVERFLOW_RANGE.
      change (setErrorIfAt OVERFLOW_RANGE OVERFLOW_RANGE) with OVERFLOW_RANGE. exists OVERFLOW_RANGE. split; [now destruct (_ || _)|].
      split; [exact MD|]. split; [lia|]. split; [now right|]. split; [split; [discriminate|lia]|discriminate].
    + assert (CK : checkAddr 16 target false = OK) by (apply A1; split; [exact L|discriminate]). rewrite CK. change (setErrorIfAt OK OK) with OK. change (setErrorIfAt OK OVERFLOW_RANGE) with OVERFLOW_RANGE.
      destruct (Z.leb_spec 32768 target) as [L2|L2].
      * assert (DL : target - 2^16 = dl). { apply UN; [lia|]. rewrite CG. replace (target - 2^16 - target) with ((-1) * 65536) by lia. apply Z_mod_mult. }
        exists OK. split; [now replace (_ || _) with false by lia|]. split; [exact MD|]. split; [lia|]. split; [now left|]. split; [split; [lia|reflexivity]|lia].
      * assert (DL : target = dl). { apply UN; [lia|]. rewrite CG. now rewrite Z.sub_diag. }
        exists OVERFLOW_RANGE. split; [now replace (_ || _) with true by lia|]. split; [exact MD|]. split; [lia|]. split; [now right|]. split; [split; [discriminate|lia]|discriminate].
  - destruct (C30_branch 16 base target ltac:(lia) ltac:(lia) T) as (dl & e & E & M & R & OR & OI & OK1). exists dl, e. split; [exact E|].
    split; [|auto]. change 65536 with (2^16). replace (dl - (target - base)) with (base + dl - target) by lia. exact M.
Qed.
(* the displacement of one byte, from [base], of the branch to the value [v] *)
Lemma branch_byte base v : int_value v -> 0 <= base <= 2^16 ->
  exists delta e far, branchDelta 16 base (getUnsigned v) OK = Some (delta, e) /\ overflowDelta delta 8 = Some far /\
    delta mod 256 = (int_of v - base) mod 256 /\
    ((if far then setErrorIfAt e OPERAND_TOO_FAR else e) = OK <-> int_of v mod 2^32 < 65536 /\ -128 <= int_of v mod 2^32 - base <= 127).
Proof.
  intros IV BR. rewrite getUnsigned_mod by exact IV.
  set (t := int_of v mod 2^32). assert (TR : 0 <= t < 2^32) by (apply Z.mod_pos_bound; lia).
  destruct (branch16 base t BR TR) as (dl & e & E & M & R & OR & OI & OK1). exists dl, e, ((dl <? -128) || (128 <=? dl)).
  split; [exact E|]. split; [reflexivity|]. split.
  { apply Z.mod_divide in M; [|lia]. destruct M as (k & M). replace dl with (t - base + (k * 256) * 256) by lia. rewrite Z_mod_plus_full.
    unfold t. change (2^32) with (256 * 16777216). rewrite Z.rem_mul_r by lia.
    replace (_ - base) with (int_of v mod 256 - base + (int_of v / 256 mod 16777216) * 256) by lia. now rewrite Z_mod_plus_full, Zminus_mod_idemp_l. }
  destruct OR as [-> | ->].
  - destruct OI as (OI & _). specialize (OI eq_refl). specialize (OK1 eq_refl). subst dl. change (setErrorIfAt OK OPERAND_TOO_FAR) with OPERAND_TOO_FAR.
    destruct ((t - base <? -128) || (128 <=? t - base)) eqn:F; (split; [intros X; try discriminate X; lia|intros; try reflexivity; lia]).
  - change (setErrorIfAt OVERFLOW_RANGE OPERAND_TOO_FAR) with OVERFLOW_RANGE. split.
    + destruct ((dl <? -128) || (128 <=? dl)); discriminate.
    + intros (Q1 & Q2). destruct OI as (_ & OI). specialize (OI ltac:(lia)). discriminate.
Qed.
