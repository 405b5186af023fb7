From Coq Require Import ZArith String List Bool Lia ZifyBool.
From Verif Require Import M_Char M_Error M_Value M_Text M_StrBuffer M_Format M_Number S_Value S_Number
  P_Value P_StrBuffer P_Number.
Import ListNotations.
Local Open Scope string_scope.
Local Open Scope list_scope.
Local Open Scope Z_scope.
Ltac Zify.zify_post_hook ::= Z.div_mod_to_equations.

(* parsers that fall back to the Intel notation when the text starts with a digit *)
Definition fallback (np : number_parser) : Prop := forall s dr,
  is_digit (peek s) = true -> peek (trimStart (is_digit_r 10) s) <> 46 -> np s dr = np_intel s dr.

Lemma iexpect_digit c s : is_digit (peek s) = true -> is_digit c = false -> iexpect c s = None.
Proof.
  destruct s as [|a s]; [reflexivity|]. cbn [peek iexpect]. intros A C.
  replace (to_upper a =? to_upper c) with false; [reflexivity|]. chr.
Qed.
Lemma prefix_none hex bin oct dec s : is_digit (peek s) = true ->
  is_digit hex = false -> is_digit bin = false -> is_digit oct = false -> is_digit dec = false ->
  prefix_of hex bin oct dec s = (RADIX_NONE, s).
Proof.
  intros D A B C E. unfold prefix_of, has_prefix1. rewrite !iexpect_digit by auto.
  destruct (hex =? 0), (bin =? 0), (oct =? 0), (dec =? 0); reflexivity.
Qed.
Lemma fb_intel : fallback np_intel. Proof. intros s dr _ _. reflexivity. Qed.
Lemma fb_prefix hex bin oct dec : is_digit hex = false -> is_digit bin = false -> is_digit oct = false ->
  is_digit dec = false -> fallback (np_prefix hex bin oct dec).
Proof. intros A B C E s dr D _. unfold np_prefix. now rewrite prefix_none. Qed.
Lemma fb_ibm hex bin oct dec : is_digit hex = false -> is_digit bin = false -> is_digit oct = false ->
  is_digit dec = false -> fallback (np_ibm hex bin oct dec).
Proof. intros A B C E s dr D _. unfold np_ibm. now rewrite prefix_none. Qed.
Lemma fb_national hex bin oct dec : is_digit hex = false -> is_digit bin = false -> is_digit oct = false ->
  is_digit dec = false -> fallback (np_national hex bin oct dec).
Proof.
  intros A B C E s dr D _. unfold np_national, national_prefix.
  rewrite (iexpect_digit 88), (iexpect_digit 72), (iexpect_digit 79), prefix_none by auto.
  destruct (hex =? 0), (oct =? 81); reflexivity.
Qed.
Lemma peek_not_digit s c : is_digit (peek s) = true -> is_digit c = false -> (peek s =? c) = false.
Proof. intros. chr. Qed.
Lemma fb_rca : fallback np_rca.
Proof.
  intros s dr D N. unfold np_rca. rewrite (peek_not_digit s 35) by auto. cbn [andb].
  now apply fb_ibm.
Qed.
Lemma fb_fairchild : fallback np_fairchild.
Proof.
  intros s dr D N. unfold np_fairchild. rewrite (peek_not_digit s 36) by auto. cbn [andb]. now apply fb_ibm.
Qed.
Lemma fb_zilog : fallback np_zilog.
Proof.
  intros s dr D N. unfold np_zilog, zilog_prefix. destruct s as [|a s]; [reflexivity|]. cbn [peek] in D.
  change (s2l "%(8)") with [37;40;56;41]. change (s2l "%(2)") with [37;40;50;41].
  cbn [iexpectText expect_char]. replace (to_lower 37 =? to_lower a) with false by chr.
  replace (a =? 37) with false by chr. reflexivity.
Qed.
Lemma fb_pdp11 : fallback np_pdp11.
Proof.
  intros s dr D N. unfold np_pdp11. rewrite (peek_not_digit s 34) by auto. cbn [andb].
  assert (scanNumberEnd s RADIX_10 46 = None) as ->; [|reflexivity].
  unfold scanNumberEnd. cbn [andb]. change (RADIX_10 =? RADIX_2) with false. cbn [andb].
  destruct (is_digit_r RADIX_10 (peek s)); [|reflexivity]. change (RADIX_10 =? RADIX_16) with false. cbn [andb].
  change (46 =? 0) with false. cbn iota. change RADIX_10 with 10.
  destruct (trimStart (is_digit_r 10) s) as [|c t] eqn:E; [reflexivity|]. cbn [peek] in N. cbn [iexpect].
  replace (to_upper c =? to_upper 46) with false by chr. reflexivity.
Qed.

Definition family_parsers : list number_parser :=
  [np_intel; np_motorola; np_texas; np_zilog; np_panasonic; np_signetics; np_rca; np_fairchild;
   np_ins80xx; np_ns32000; np_pdp11].
Lemma fb_all np : In np family_parsers -> fallback np.
Proof.
  unfold family_parsers. cbn [In]. intros H.
  repeat (destruct H as [<-|H]; [|]); [..|contradiction].
  - apply fb_intel. 
  - apply fb_prefix; reflexivity. 
  - apply fb_prefix; reflexivity.
  - apply fb_zilog.
  - apply fb_ibm; reflexivity.
  - apply fb_ibm; reflexivity.
  - apply fb_rca.
  - apply fb_fairchild.
  - apply fb_national; reflexivity.
  - apply fb_national; reflexivity.
  - apply fb_pdp11.
Qed.

(* ---- text shapes ---- *)
Lemma hd_digit ds r : r <= 10 -> ds <> [] -> Forall (is_digit_in r) ds -> is_digit (hd 0 ds) = true.
Proof.
  intros R N F. destruct ds as [|c ds]; [contradiction|]. pose proof (Forall_inv F) as (d & E & L). cbn.
  apply digit_cases in E. chr.
Qed.
Lemma peek_app ds rest : ds <> [] -> peek (ds ++ rest) = hd 0 ds.
Proof. destruct ds; [contradiction|reflexivity]. Qed.
(* after digits, letters and a boundary there is no period *)
Lemma trim_not_dot ds rest : Forall (fun c => is_alnum c = true) ds -> boundary rest ->
  peek (trimStart (is_digit_r 10) (ds ++ rest)) <> 46.
Proof.
  intros F B. induction F as [|c ds A F IH]; cbn [app].
  - destruct rest as [|c t]; [cbn; lia|]. cbn [trimStart]. cbn in B. destruct B as (B1 & B2 & B3).
    assert (is_digit_r 10 c = false) as ->; [|exact B3].
    change (is_digit_r 10 c) with ((48 <=? c) && (c <? 58)). chr.
  - cbn [trimStart]. destruct (is_digit_r 10 c); [exact IH|]. cbn [peek]. chr.
Qed.
Lemma digits_alnum r ds : Forall (is_digit_in r) ds -> Forall (fun c => is_alnum c = true) ds.
Proof. apply Forall_impl. intros c (d & E & _). now apply digit_alnum in E. Qed.

Ltac alnum_list := repeat first [ apply Forall_app; split | apply Forall_cons | apply Forall_nil ];
  try (eapply digits_alnum; eassumption); try reflexivity.

(* the conclusion of a formatting lemma, with the text made explicit *)
Lemma sfx k r f suf v w b : base_ok f r -> 0 <= v -> 1 <= w -> b_err (letter suf (f v w b)) = OK -> b_case b = k ->
  b_err b = OK /\ exists ds, letter suf (f v w b) = appb b (ds ++ [conv k suf]) /\ digits r ds v.
Proof.
  intros F V W H K. pose proof (letter_err _ _ H) as E. destruct (F v w b V W E) as (E0 & ds & A & D).
  split; [auto|]. exists ds. split; [|auto]. pose proof (letter_ok _ _ H) as L. rewrite A in L. rewrite A, L, appb_app, appb_case. now subst.
Qed.
Lemma pfx k r f pre v w b : base_ok f r -> 0 <= v -> 1 <= w -> b_err (f v w (out_text pre b)) = OK -> b_case b = k ->
  b_err b = OK /\ exists ds, f v w (out_text pre b) = appb b (map (conv k) pre ++ ds) /\ digits r ds v.
Proof.
  intros F V W H K. destruct (F v w _ V W H) as (E0 & ds & A & D). pose proof (out_text_err _ _ E0) as E1.
  split; [auto|]. exists ds. split; [|auto]. rewrite A, (out_text_ok _ _ E0), appb_app. now subst.
Qed.
Lemma rpfx r f pre v w b : base_ok f r -> 0 <= v -> 1 <= w -> b_err (f v w (out_rtext pre b)) = OK ->
  b_err b = OK /\ exists ds, f v w (out_rtext pre b) = appb b (pre ++ ds) /\ digits r ds v.
Proof.
  intros F V W H. destruct (F v w _ V W H) as (E0 & ds & A & D). pose proof (out_rtext_err _ _ E0) as E1.
  split; [auto|]. exists ds. split; [|auto]. rewrite A, (out_rtext_ok _ _ E0), appb_app. reflexivity.
Qed.
Lemma srnd k r f pre suf v w b : base_ok f r -> 0 <= v -> 1 <= w -> b_err (letter suf (f v w (out_text pre b))) = OK ->
  b_case b = k -> b_err b = OK /\ exists ds, letter suf (f v w (out_text pre b)) =
    appb b (map (conv k) pre ++ ds ++ [conv k suf]) /\ digits r ds v.
Proof.
  intros F V W H K. pose proof (letter_err _ _ H) as E. destruct (pfx k r f pre v w b F V W E K) as (E0 & ds & A & D).
  split; [auto|]. exists ds. split; [|auto]. pose proof (letter_ok _ _ H) as L. rewrite A in L.
  rewrite A, L, appb_app, appb_case, <- app_assoc. now subst.
Qed.

Lemma lt64 v : 0 <= v < 2^32 -> v < 2^64. Proof. lia. Qed.
#[local] Hint Resolve lt64 boundary_no_digit : core.

(* ---- decimal in every family ---- *)
Lemma dec_reads np : fallback np -> fmt_reads DecFormatter np 10.
Proof.
  intros FB v w b rest V W B H. destruct (dec_ok v w b ltac:(lia) H) as (E & ds & A & D & Z).
  split; [auto|]. exists ds. split; [auto|]. pose proof D as (N & F & _).
  rewrite FB.
  - apply intel_dec; auto.
  - rewrite peek_app by auto. eapply hd_digit; eauto. lia.
  - apply trim_not_dot; auto. alnum_list.
Qed.

(* ---- C style in every family ---- *)
Lemma c_bin_reads np dr : fallback np -> fmt_reads (f_bin fp_cstyle) np dr.
Proof.
  intros FB v w b rest V W B H. cbn [f_bin fp_cstyle] in *. unfold RawPrefixFormatter in *.
  destruct (rpfx 2 BinFormatter _ v w b bin_base ltac:(lia) W H) as (E & ds & A & D).
  split; [auto|]. eexists. split; [exact A|]. pose proof D as (N & F & _).
  change (s2l "0b") with [48; 98]. cbn [app]. rewrite FB.
  - unfold np_intel. rewrite (intel_suffix_0b ds v) by auto. apply cstyle_bin; auto.
  - reflexivity.
  - change (48 :: 98 :: ds ++ rest) with ((48 :: 98 :: ds) ++ rest). apply trim_not_dot; auto. alnum_list.
Qed.
Lemma c_hex_reads np dr : fallback np -> fmt_reads (f_hex fp_cstyle) np dr.
Proof.
  intros FB v w b rest V W B H. cbn [f_hex fp_cstyle] in *. unfold RawPrefixFormatter in *.
  destruct (rpfx 16 HexFormatter _ v w b hex_base ltac:(lia) W H) as (E & ds & A & D).
  split; [auto|]. eexists. split; [exact A|]. pose proof D as (N & F & _).
  change (s2l "0x") with [48; 120]. cbn [app]. rewrite FB.
  - unfold np_intel. rewrite intel_suffix_0x. apply cstyle_hex; auto.
  - reflexivity.
  - change (48 :: 120 :: ds ++ rest) with ((48 :: 120 :: ds) ++ rest). apply trim_not_dot; auto. alnum_list.
Qed.
Lemma c_oct_reads np dr : fallback np -> fmt_reads (f_oct fp_cstyle) np dr.
Proof.
  intros FB v w b rest V W B H. cbn [f_oct fp_cstyle] in *. unfold PrefixFormatter in *.
  destruct (pfx _ 8 OctFormatter _ v w b oct_base ltac:(lia) W H eq_refl) as (E & ds & A & D).
  split; [auto|]. eexists. split; [exact A|]. pose proof D as (N & F & _).
  change (s2l "0") with [48]. cbn [app map]. rewrite conv_zero. rewrite FB.
  - unfold np_intel. change (48 :: ds ++ rest) with ((48 :: ds) ++ rest). rewrite intel_suffix_plain; auto.
    + apply cstyle_oct; auto.
    + constructor; [reflexivity|]. now apply in8_plain.
  - reflexivity.
  - change (48 :: ds ++ rest) with ((48 :: ds) ++ rest). apply trim_not_dot; auto. alnum_list.
Qed.

(* ---- Intel in every family ---- *)
Lemma alnum_upper c x : to_upper c = x -> 65 <= x <= 90 -> is_alnum c = true.
Proof. intros. chr. Qed.
Lemma i_bin_reads np dr : fallback np -> fmt_reads (f_bin fp_intel) np dr.
Proof.
  intros FB v w b rest V W B H. cbn [f_bin fp_intel] in *. unfold SuffixFormatter in *.
  destruct (sfx _ 2 BinFormatter 66 v w b bin_base ltac:(lia) W H eq_refl) as (E & ds & A & D).
  split; [auto|]. eexists. split; [exact A|]. pose proof D as (N & F & _).
  assert (U : to_upper (conv (b_case b) 66) = 66) by (apply conv_upper'; lia).
  rewrite FB; [rewrite <- app_assoc; cbn [app]; apply intel_bin; auto|..].
  - rewrite <- app_assoc, peek_app by auto. eapply hd_digit; [|eauto|eauto]. lia.
  - apply trim_not_dot; auto. alnum_list. eapply alnum_upper; [exact U|lia].
Qed.
Lemma i_oct_reads np dr : fallback np -> fmt_reads (f_oct fp_intel) np dr.
Proof.
  intros FB v w b rest V W B H. cbn [f_oct fp_intel] in *. unfold SuffixFormatter in *.
  destruct (sfx _ 8 OctFormatter 81 v w b oct_base ltac:(lia) W H eq_refl) as (E & ds & A & D).
  split; [auto|]. eexists. split; [exact A|]. pose proof D as (N & F & _).
  assert (U : to_upper (conv (b_case b) 81) = 81) by (apply conv_upper'; lia).
  rewrite FB; [rewrite <- app_assoc; cbn [app]; apply intel_oct; auto|..].
  - rewrite <- app_assoc, peek_app by auto. eapply hd_digit; [|eauto|eauto]. lia.
  - apply trim_not_dot; auto. alnum_list. eapply alnum_upper; [exact U|lia].
Qed.
Lemma i_hex_reads suf np dr : (suf = 72 \/ suf = 104) -> fallback np -> fmt_reads (SuffixHexFormatter suf) np dr.
Proof.
  intros S FB v w b rest V W B H.
  destruct (sufhex_ok suf v w b ltac:(lia) W H) as (E & ds & A & D & Z).
  split; [auto|]. eexists. split; [exact A|]. pose proof D as (N & F & _).
  assert (U : to_upper (conv (b_case b) suf) = 72).
  { destruct S as [-> | ->]; [apply conv_upper'; lia|apply conv_lower'; lia]. }
  rewrite FB; [rewrite <- app_assoc; cbn [app]; apply intel_hex; auto|..].
  - rewrite <- app_assoc, peek_app by auto. exact Z.
  - apply trim_not_dot; auto. alnum_list. eapply alnum_upper; [exact U|lia].
Qed.

(* ---- prefixed notations ---- *)
Lemma conv_sym k c : is_alpha c = false -> conv k c = c.
Proof. intros H. destruct k as [[|]|]; cbn; chr. Qed.
Lemma std_base r f : base_ok f r -> forall v w b rest (np : number_parser) dr pre, std_radix r -> 0 <= v < 2^32 -> 1 <= w -> boundary rest ->
  b_err (f v w (out_text pre b)) = OK ->
  (forall ds, digits r ds v -> np (map (conv (b_case b)) pre ++ ds ++ rest) dr = (OK, mkV V_UNSIGNED v, rest)) ->
  b_err b = OK /\ exists t, f v w (out_text pre b) = appb b t /\ np (t ++ rest) dr = (OK, mkV V_UNSIGNED v, rest).
Proof.
  intros F v w b rest np dr pre R V W B H P.
  destruct (pfx _ r f pre v w b F ltac:(lia) W H eq_refl) as (E & ds & A & D).
  split; [auto|]. eexists. split; [exact A|]. rewrite <- app_assoc. auto.
Qed.
Lemma std_srnd r f : base_ok f r -> forall v w b rest (np : number_parser) dr pre suf, std_radix r -> 0 <= v < 2^32 -> 1 <= w -> boundary rest ->
  b_err (letter suf (f v w (out_text pre b))) = OK -> is_alpha suf = false ->
  (forall ds, digits r ds v -> np (map (conv (b_case b)) pre ++ ds ++ suf :: rest) dr = (OK, mkV V_UNSIGNED v, rest)) ->
  b_err b = OK /\ exists t, letter suf (f v w (out_text pre b)) = appb b t /\ np (t ++ rest) dr = (OK, mkV V_UNSIGNED v, rest).
Proof.
  intros F v w b rest np dr pre suf R V W B H S P.
  destruct (srnd _ r f pre suf v w b F ltac:(lia) W H eq_refl) as (E & ds & A & D).
  split; [auto|]. eexists. split; [exact A|]. rewrite conv_sym by auto. rewrite <- !app_assoc. cbn [app]. auto.
Qed.

Lemma prefix1_reads r f p hex bin oct dec dr : base_ok f r -> std_radix r -> is_alpha p = false ->
  (forall s, prefix_of hex bin oct dec (p :: s) = (r, s)) ->
  fmt_reads (PrefixFormatter f [p]) (np_prefix hex bin oct dec) dr.
Proof.
  intros F R A P v w b rest V W B H. apply (std_base r f F v w b rest _ _ _ R V W B H).
  intros ds D. cbn [map app]. rewrite conv_sym by auto. unfold np_prefix. rewrite P.
  replace (r =? RADIX_NONE) with false by (unfold std_radix in R; unfold RADIX_NONE; lia).
  now rewrite (read_from_digits _ r ds v) by auto.
Qed.
Lemma m_bin dr : fmt_reads (f_bin fp_motorola) np_motorola dr.
Proof. apply (prefix1_reads 2 BinFormatter 37 _ _ _ _ dr bin_base std2 eq_refl). reflexivity. Qed.
Lemma m_oct dr : fmt_reads (f_oct fp_motorola) np_motorola dr.
Proof. apply (prefix1_reads 8 OctFormatter 64 _ _ _ _ dr oct_base std8 eq_refl). reflexivity. Qed.
Lemma m_hex dr : fmt_reads (f_hex fp_motorola) np_motorola dr.
Proof. apply (prefix1_reads 16 HexFormatter 36 _ _ _ _ dr hex_base std16 eq_refl). reflexivity. Qed.
Lemma t_bin dr : fmt_reads (f_bin fp_texas) np_texas dr.
Proof. apply (prefix1_reads 2 BinFormatter 63 _ _ _ _ dr bin_base std2 eq_refl). reflexivity. Qed.
Lemma t_hex dr : fmt_reads (f_hex fp_texas) np_texas dr.
Proof. apply (prefix1_reads 16 HexFormatter 62 _ _ _ _ dr hex_base std16 eq_refl). reflexivity. Qed.

Lemma z_bin dr : fmt_reads (f_bin fp_zilog) np_zilog dr.
Proof.
  intros v w b rest V W B H. apply (std_base 2 BinFormatter bin_base v w b rest _ _ _ std2 V W B H).
  intros ds D. change (s2l "%(2)") with [37;40;50;41]. cbn [map]. rewrite !conv_sym by reflexivity.
  unfold np_zilog. change (zilog_prefix ([37;40;50;41] ++ ds ++ rest)) with (2, ds ++ rest). cbn iota.
  change (2 =? RADIX_NONE) with false. cbn iota. now rewrite (read_from_digits _ 2 ds v) by (auto with radix).
Qed.
Lemma z_oct dr : fmt_reads (f_oct fp_zilog) np_zilog dr.
Proof.
  intros v w b rest V W B H. apply (std_base 8 OctFormatter oct_base v w b rest _ _ _ std8 V W B H).
  intros ds D. change (s2l "%(8)") with [37;40;56;41]. cbn [map]. rewrite !conv_sym by reflexivity.
  unfold np_zilog. change (zilog_prefix ([37;40;56;41] ++ ds ++ rest)) with (8, ds ++ rest). cbn iota.
  change (8 =? RADIX_NONE) with false. cbn iota. now rewrite (read_from_digits _ 8 ds v) by (auto with radix).
Qed.
Lemma hd_xdigit ds v r : std_radix r -> digits r ds v -> is_digit_r r (hd 0 ds) = true.
Proof. intros R (N & F & _). destruct ds; [contradiction|]. apply is_digit_r_ok; auto. exact (Forall_inv F). Qed.
Lemma z_hex dr : fmt_reads (f_hex fp_zilog) np_zilog dr.
Proof.
  intros v w b rest V W B H. apply (std_base 16 HexFormatter hex_base v w b rest _ _ _ std16 V W B H).
  intros ds D. change (s2l "%") with [37]. cbn [map app]. rewrite !conv_sym by reflexivity.
  pose proof (hd_xdigit ds v 16 std16 D) as X. pose proof D as (N & F & _).
  destruct ds as [|a ds]; [contradiction|]. cbn [hd] in X. change (is_xdigit a = true) in X.
  assert (ZP : zilog_prefix (37 :: (a :: ds) ++ rest) = (16, (a :: ds) ++ rest)).
  { unfold zilog_prefix. change (s2l "%(8)") with [37;40;56;41]. change (s2l "%(2)") with [37;40;50;41].
    cbn [iexpectText expect_char app peek]. change (to_lower 37 =? to_lower 37) with true. cbn iota.
    replace (to_lower 40 =? to_lower a) with false by (unfold is_xdigit in X; chr).
    rewrite Z.eqb_refl. cbn [peek]. rewrite X. reflexivity. }
  unfold np_zilog. rewrite ZP. change (16 =? RADIX_NONE) with false. cbn iota.
  now rewrite (read_from_digits _ 16 (a :: ds) v) by (auto with radix).
Qed.

(* ---- quoted notations ---- *)
Lemma quote_no_digit r rest : no_digit r (39 :: rest).
Proof. intros c t [= <- <-] (d & E & _). discriminate. Qed.
#[local] Hint Resolve quote_no_digit : core.
Lemma ibm_reads (np : number_parser) r f p hex bin oct dec dr : base_ok f r -> std_radix r -> 97 <= p <= 122 ->
  (forall c s, is_alpha c = true -> np (c :: s) dr = np_ibm hex bin oct dec (c :: s) dr) ->
  (forall s c, to_upper c = p - 32 -> prefix_of hex bin oct dec (c :: s) = (r, s)) ->
  fmt_reads (SurroundFormatter f [p; 39] 39) np dr.
Proof.
  intros F R L NP P v w b rest V W B H. apply (std_srnd r f F v w b rest _ _ _ _ R V W B H eq_refl).
  intros ds D. cbn [map app]. rewrite (conv_sym _ 39) by auto.
  assert (U : to_upper (conv (b_case b) p) = p - 32) by (apply conv_lower'; auto).
  rewrite NP by (revert U; generalize (conv (b_case b) p); intros; chr). unfold np_ibm. rewrite P by auto.
  replace (r =? RADIX_NONE) with false by (unfold std_radix in R; unfold RADIX_NONE; lia).
  cbn [expect_char]. rewrite Z.eqb_refl. pose proof D as (N & Fa & _).
  rewrite peek_app by auto. rewrite (hd_xdigit ds v r R D).
  rewrite (v_read_digits r ds v) by auto. cbn [expect_char]. now rewrite Z.eqb_refl.
Qed.
Lemma nat_reads (np : number_parser) r f p hex bin oct dec dr : base_ok f r -> std_radix r -> 97 <= p <= 122 ->
  (forall c s, is_alpha c = true -> np (c :: s) dr = np_national hex bin oct dec (c :: s) dr) ->
  (forall s c, to_upper c = p - 32 -> national_prefix hex bin oct dec (c :: s) = (r, s)) ->
  fmt_reads (PrefixFormatter f [p; 39]) np dr.
Proof.
  intros F R L NP P v w b rest V W B H. apply (std_base r f F v w b rest _ _ _ R V W B H).
  intros ds D. cbn [map app]. rewrite (conv_sym _ 39) by auto.
  assert (U : to_upper (conv (b_case b) p) = p - 32) by (apply conv_lower'; auto).
  rewrite NP by (revert U; generalize (conv (b_case b) p); intros; chr). unfold np_national. rewrite P by auto.
  replace (r =? RADIX_NONE) with false by (unfold std_radix in R; unfold RADIX_NONE; lia).
  cbn [expect_char]. rewrite Z.eqb_refl. pose proof D as (N & Fa & _).
  rewrite peek_app by auto. rewrite (hd_xdigit ds v r R D).
  rewrite (v_read_digits r ds v) by auto.
  assert (expect_char 39 rest = None) as ->; [|reflexivity].
  destruct rest as [|c t]; [reflexivity|]. cbn in B. cbn [expect_char]. destruct (Z.eqb_spec c 39); [lia|reflexivity].
Qed.
Lemma two_cases c x : to_upper c = x -> 65 <= x <= 90 -> c = x \/ c = x + 32.
Proof. intros. chr. Qed.
Ltac two := let H := fresh in intros ? ? H; apply two_cases in H; [|lia]; destruct H as [-> | ->]; reflexivity.
Lemma fc_np c s dr : is_alpha c = true -> np_fairchild (c :: s) dr = np_ibm 72 66 79 68 (c :: s) dr.
Proof. intros A. unfold np_fairchild. cbn [peek]. replace (c =? 36) with false by chr. reflexivity. Qed.
Lemma rca_np c s dr : is_alpha c = true -> np_rca (c :: s) dr = np_ibm 88 66 0 68 (c :: s) dr.
Proof. intros A. unfold np_rca. cbn [peek]. replace (c =? 35) with false by chr. reflexivity. Qed.

Lemma f_bin_reads dr : fmt_reads (f_bin fp_fairchild) np_fairchild dr.
Proof. apply (ibm_reads _ 2 BinFormatter 98 72 66 79 68 dr bin_base std2 ltac:(lia) (fun c s => fc_np c s dr)); two. Qed.
Lemma f_oct_reads dr : fmt_reads (f_oct fp_fairchild) np_fairchild dr.
Proof. apply (ibm_reads _ 8 OctFormatter 111 72 66 79 68 dr oct_base std8 ltac:(lia) (fun c s => fc_np c s dr)); two. Qed.
Lemma f_hex_reads dr : fmt_reads (f_hex fp_fairchild) np_fairchild dr.
Proof. apply (ibm_reads _ 16 HexFormatter 104 72 66 79 68 dr hex_base std16 ltac:(lia) (fun c s => fc_np c s dr)); two. Qed.
Lemma cdp_hex_reads dr : fmt_reads (f_hex fp_cdp1802) np_rca dr.
Proof. apply (ibm_reads _ 16 HexFormatter 120 88 66 0 68 dr hex_base std16 ltac:(lia) (fun c s => rca_np c s dr)); two. Qed.
Lemma mn_hex_reads dr : fmt_reads (f_hex fp_mn1610) np_panasonic dr.
Proof. apply (ibm_reads _ 16 HexFormatter 120 88 0 0 0 dr hex_base std16 ltac:(lia) (fun c s _ => eq_refl)); two. Qed.
Lemma scn_hex_reads dr : fmt_reads (f_hex fp_scn2650) np_signetics dr.
Proof. apply (ibm_reads _ 16 HexFormatter 104 72 66 79 68 dr hex_base std16 ltac:(lia) (fun c s _ => eq_refl)); two. Qed.
Lemma ins_hex_reads dr : fmt_reads (f_hex fp_national) np_ins80xx dr.
Proof. apply (nat_reads _ 16 HexFormatter 120 88 0 0 0 dr hex_base std16 ltac:(lia) (fun c s _ => eq_refl)); two. Qed.
Lemma ns_hex_reads dr : fmt_reads (f_hex fp_ns32000) np_ns32000 dr.
Proof. apply (nat_reads _ 16 HexFormatter 120 0 66 81 68 dr hex_base std16 ltac:(lia) (fun c s _ => eq_refl)); two. Qed.

(* ---- plain octal where the default radix is 8 ---- *)
Lemma oct8_reads np : fallback np -> fmt_reads OctFormatter np 8.
Proof.
  intros FB v w b rest V W B H. destruct (oct_base v w b ltac:(lia) W H) as (E & ds & A & D).
  split; [auto|]. exists ds. split; [auto|]. pose proof D as (N & F & _).
  rewrite FB.
  - apply intel_oct_plain; auto.
  - rewrite peek_app by auto. eapply hd_digit; [|eauto|eauto]. lia.
  - apply trim_not_dot; auto. alnum_list.
Qed.

(* ---------------------------------------------------------------- C17 *)

Lemma C17_every np dr : In np family_parsers ->
  reads_back (formatBin fp_cstyle) np dr /\ reads_back (formatOct fp_cstyle) np dr /\
  reads_back (formatHex fp_cstyle) np dr /\
  reads_back (formatBin fp_intel) np dr /\ reads_back (formatOct fp_intel) np dr /\
  reads_back (formatHex fp_intel) np dr.
Proof.
  intros H. apply fb_all in H.
  repeat split; apply fmt_reads_back; auto using c_bin_reads, c_oct_reads, c_hex_reads, i_bin_reads, i_oct_reads.
  apply i_hex_reads; auto.
Qed.
Lemma C17_dec np p : In np family_parsers ->
  In p [fp_default; fp_cstyle; fp_intel; fp_motorola; fp_fairchild; fp_national; fp_texas; fp_zilog; fp_cdp1802;
        fp_mn1610; fp_mos6502; fp_scn2650; fp_tms32010; fp_ns32000] ->
  reads_back (formatDec p) np 10.
Proof.
  intros H P. apply fb_all in H. apply fmt_reads_back.
  assert (f_dec p = DecFormatter) as -> by (cbn [In] in P; intuition (subst; reflexivity)).
  now apply dec_reads.
Qed.
Lemma C17_native : 
  Forall (fun '(f, np) => forall dr, reads_back f np dr)
    [(formatBin fp_motorola, np_motorola); (formatOct fp_motorola, np_motorola); (formatHex fp_motorola, np_motorola);
     (formatBin fp_fairchild, np_fairchild); (formatOct fp_fairchild, np_fairchild); (formatHex fp_fairchild, np_fairchild);
     (formatBin fp_zilog, np_zilog); (formatOct fp_zilog, np_zilog); (formatHex fp_zilog, np_zilog);
     (formatBin fp_texas, np_texas); (formatHex fp_texas, np_texas);
     (formatHex fp_national, np_ins80xx); (formatHex fp_ns32000, np_ns32000);
     (formatHex fp_cdp1802, np_rca); (formatHex fp_mn1610, np_panasonic); (formatHex fp_mos6502, np_motorola);
     (formatHex fp_scn2650, np_signetics); (formatHex fp_tms32010, np_intel)].
Proof.
  repeat apply Forall_cons; try apply Forall_nil; intros dr; apply fmt_reads_back;
  auto using m_bin, m_oct, m_hex, f_bin_reads, f_oct_reads, f_hex_reads, z_bin, z_oct, z_hex, t_bin, t_hex,
    ins_hex_reads, ns_hex_reads, cdp_hex_reads, mn_hex_reads, scn_hex_reads.
  - apply i_hex_reads; auto using fb_intel.
Qed.
Lemma C17_oct8 np : In np family_parsers -> reads_back (formatOct fp_default) np 8.
Proof. intros H. apply fb_all in H. apply fmt_reads_back. now apply oct8_reads. Qed.

Definition eb : sbuf := mkB [] 100 OK (Some true).
Lemma not_reads f (np : number_parser) dr val bits : 0 <= val < 2^32 -> 1 <= Z.abs bits <= 32 ->
  b_err (f val bits eb) = OK -> shown val bits <? 0 = false ->
  np (b_txt (f val bits eb)) dr <> (OK, mkV V_UNSIGNED (Z.abs (shown val bits)), []) -> ~ reads_back f np dr.
Proof.
  intros V B E S N H. destruct (H val bits eb [] V B I E) as (t & A & P). rewrite S in A. cbn [app b_txt eb] in A.
  rewrite app_nil_r in P. apply N. rewrite A. exact P.
Qed.
Ltac refute val bits := apply (not_reads _ _ _ val bits); [lia|lia|reflexivity|reflexivity|vm_compute; discriminate].
Lemma C17_bad : 
  Forall (fun '(f, np, dr) => ~ reads_back f np dr)
    [(formatOct fp_texas, np_texas, 10); (formatOct fp_cdp1802, np_rca, 10); (formatOct fp_mn1610, np_panasonic, 10);
     (formatOct fp_mos6502, np_motorola, 10); (formatOct fp_scn2650, np_signetics, 10);
     (formatOct fp_tms32010, np_intel, 10); (formatOct fp_ns32000, np_ns32000, 10); (formatOct fp_national, np_ins80xx, 10);
     (formatHex fp_pdp11, np_pdp11, 8); (formatHex fp_pdp8, np_intel, 8); (formatDec fp_pdp8, np_intel, 8)].
Proof.
  repeat apply Forall_cons; try apply Forall_nil; refute 128 8.
Qed.
