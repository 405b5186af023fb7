(** How many letters the output functions add to a buffer, and which. *)
From Coq Require Import String ZArith List Bool Lia.
From Verif Require Import M_Char M_Error M_StrBuffer M_Format M_Config P_StrBuffer.
Import ListNotations.
Local Open Scope Z_scope.

Definition printable (c : Z) : Prop := 32 <= c <= 126.
Lemma printable_text t : forallb (fun c => (32 <=? c) && (c <=? 126)) t = true -> Forall printable t.
Proof. intros H. apply Forall_forall. intros c I. rewrite forallb_forall in H. specialize (H c I). unfold printable. lia. Qed.
(* [b'] is [b] with at most [n] letters more, all printable; with enough room there is no error *)
Definition adds (n : Z) (b b' : sbuf) : Prop :=
  b_max b' = b_max b /\ b_case b' = b_case b /\
  b_mark b <= b_mark b' <= b_mark b + n /\ (b_mark b <= b_max b -> b_mark b' <= b_max b) /\
  (exists s, b_txt b' = b_txt b ++ s /\ Forall printable s) /\
  (b_err b = OK -> b_mark b + n <= b_max b -> b_err b' = OK).

Lemma adds_refl b n : 0 <= n -> adds n b b.
Proof. intros N. repeat split; auto; try lia. exists []. rewrite app_nil_r. auto. Qed.
Lemma adds_trans n m b b' b'' : adds n b b' -> adds m b' b'' -> adds (n + m) b b''.
Proof.
  intros (M & C & L & F & (s & T & P) & E) (M' & C' & L' & F' & (s' & T' & P') & E'). repeat split; try congruence; try lia.

  - exists (s ++ s'). rewrite T', T, <- app_assoc. split; [reflexivity|]. now apply Forall_app.
  - intros H R. apply E'; [apply E; auto|]; lia.
Qed.
Lemma adds_le n m b b' : n <= m -> adds n b b' -> adds m b b'.
Proof. intros L (M & C & B & F & T & E). repeat split; auto; try lia. intros; apply E; auto; lia. Qed.
Lemma adds_rletter c b : printable c -> adds 1 b (rletter c b).
Proof.
  intros P. unfold rletter. destruct (Z.ltb_spec (b_mark b) (b_max b)) as [L|L].
  - unfold adds, b_mark in *. cbn [b_txt b_max b_err b_case]. rewrite app_length. cbn [length]. repeat split; auto; try lia.
    exists [c]. auto.
  - unfold adds, b_seterr, b_mark in *. cbn [b_txt b_max b_err b_case]. repeat split; auto; try lia. exists []. rewrite app_nil_r. auto.
Qed.
Lemma conv_plain k c : printable c -> printable (conv k c).
Proof.
  unfold printable, conv. destruct k as [[|]|]; [unfold to_upper|unfold to_lower|auto]; destruct (_ c) eqn:E; try lia;
    unfold is_lower, is_upper in E; lia.
Qed.
Lemma adds_letter c b : printable c -> adds 1 b (letter c b).
Proof. intros P. apply adds_rletter. now apply conv_plain. Qed.
Lemma adds_text t : forall b, Forall printable t -> adds (Z.of_nat (length t)) b (out_text t b).
Proof.
  induction t as [|c t IH]; intros b F; [now apply adds_refl|]. inversion F; subst. cbn [out_text fold_left length].
  replace (Z.of_nat (S (length t))) with (1 + Z.of_nat (length t)) by lia. eapply adds_trans; [apply (adds_letter c); assumption|]. now apply IH.
Qed.
Lemma adds_rtext t : forall b, Forall printable t -> adds (Z.of_nat (length t)) b (out_rtext t b).
Proof.
  induction t as [|c t IH]; intros b F; [now apply adds_refl|]. inversion F; subst. cbn [out_rtext fold_left length].
  replace (Z.of_nat (S (length t))) with (1 + Z.of_nat (length t)) by lia. eapply adds_trans; [apply (adds_rletter c); assumption|]. now apply IH.
Qed.
(* reversing what was added *)
Lemma adds_reverse n b b' : adds n b b' -> adds n b (reverse (b_mark b) b').
Proof.
  intros (M & C & L & F & (s & T & P) & E). unfold reverse. destruct (Z.ltb_spec (b_mark b') (b_mark b)) as [X|_]; [lia|]. cbv zeta.
  assert (Q : firstn (Z.to_nat (b_mark b)) (b_txt b') ++ rev (skipn (Z.to_nat (b_mark b)) (b_txt b')) = b_txt b ++ rev s).
  { unfold b_mark. rewrite Nat2Z.id, T, firstn_app, skipn_app, firstn_all, skipn_all, Nat.sub_diag. cbn. now rewrite app_nil_r. }
  rewrite Q. assert (LN : b_mark (mkB (b_txt b ++ rev s) (b_max b') (b_err b') (b_case b')) = b_mark b').
  { unfold b_mark. cbn. rewrite T, !app_length, rev_length. reflexivity. }
  unfold adds. rewrite LN. cbn [b_txt b_max b_err b_case]. repeat split; auto; try lia. exists (rev s). split; [reflexivity|]. now apply Forall_rev.
Qed.
Lemma digit_plain d : 0 <= d < 16 -> printable (digit_letter d).
Proof. intros D. unfold printable, digit_letter. destruct (Z.ltb_spec d 10); lia. Qed.
Lemma adds_digits fuel r : 2 <= r <= 16 -> forall v b, adds (Z.of_nat fuel) b (digit_loop fuel r v b).
Proof.
  intros R. induction fuel as [|fuel IH]; intros v b; cbn [digit_loop]; [now apply adds_refl|].
  destruct (v =? 0); [apply adds_refl; lia|]. replace (Z.of_nat (S fuel)) with (1 + Z.of_nat fuel) by lia.
  eapply adds_trans; [apply adds_letter, digit_plain|apply IH]. pose proof (Z.mod_pos_bound v r). lia.
Qed.
Lemma adds_out_digits r v b : 2 <= r <= 16 -> 0 <= v < 2^32 -> adds 32 b (out_digits r v b).
Proof.
  intros R V. unfold out_digits. apply (adds_le (Z.of_nat (S (Z.to_nat (Z.log2 v))))); [|now apply adds_digits].
  pose proof (Z.log2_nonneg v). destruct (Z.eq_dec v 0) as [->|N]; [cbn; lia|].
  assert (Z.log2 v < 32) by (apply Z.log2_lt_pow2; lia). lia.
Qed.
Lemma adds_fill fuel start n : forall b, adds (Z.of_nat fuel) b (fill_loop fuel start n b).
Proof.
  induction fuel as [|fuel IH]; intros b; cbn [fill_loop]; [now apply adds_refl|].
  destruct (_ && _); [|apply adds_refl; lia]. replace (Z.of_nat (S fuel)) with (1 + Z.of_nat fuel) by lia.
  eapply adds_trans; [apply (adds_letter 48); unfold printable; lia|apply IH].
Qed.
Definition limited (k : Z) (f : formatter) : Prop := forall v w b, 0 <= v < 2^32 -> 0 <= w <= 32 -> adds k b (f v w b).
Lemma adds_zero_fill start n k b : n <= k -> 0 <= k -> adds k b (zero_fill start n b).
Proof. intros A B. unfold zero_fill. apply (adds_le (Z.of_nat (Z.to_nat n))); [lia|]. apply adds_fill. Qed.
Lemma limited_le k k' f : k <= k' -> limited k f -> limited k' f.
Proof. intros L F v w b V W. eapply adds_le; [exact L|]. now apply F. Qed.
Lemma outHex_adds v w b : 0 <= v < 2^32 -> 0 <= w <= 32 -> adds 64 b (outHex v w b).
Proof.
  intros V W. unfold outHex. change 64 with (32 + 32). eapply adds_trans; [apply (adds_out_digits 16 v); [lia|exact V]|].
  apply adds_zero_fill; [|lia]. assert (w / 4 <= 8) by (apply Z.div_le_upper_bound; lia). destruct (_ =? 0); lia.
Qed.
Lemma limited_hex : limited 64 HexFormatter.
Proof. intros v w b V W. apply adds_reverse. now apply outHex_adds. Qed.
Lemma limited_oct : limited 64 OctFormatter.
Proof.
  intros v w b V W. apply adds_reverse. unfold outOct. change 64 with (32 + 32). eapply adds_trans; [apply (adds_out_digits 8 v); [lia|exact V]|].
  apply adds_zero_fill; [|lia]. assert (w / 3 <= 11) by (apply Z.div_le_upper_bound; lia). destruct (_ =? 0); lia.
Qed.
Lemma limited_bin : limited 64 BinFormatter.
Proof.
  intros v w b V W. apply adds_reverse. unfold outBin. change 64 with (32 + 32). eapply adds_trans; [apply (adds_out_digits 2 v); [lia|exact V]|].
  apply adds_zero_fill; lia.
Qed.
Lemma limited_dec : limited 64 DecFormatter.
Proof.
  intros v w b V W. apply adds_reverse. unfold outDec. cbv zeta. apply (adds_le 33); [lia|]. destruct (_ =? _).
  - change 33 with (32 + 1). eapply adds_trans; [apply (adds_out_digits 10 v); [lia|exact V]|]. apply adds_letter. unfold printable. lia.
  - apply (adds_le 32); [lia|]. apply (adds_out_digits 10 v); [lia|exact V].
Qed.
Lemma limited_prefix f pre k : Forall printable pre -> limited k f -> limited (Z.of_nat (length pre) + k) (PrefixFormatter f pre).
Proof. intros P F v w b V W. eapply adds_trans; [now apply adds_text|]. now apply F. Qed.
Lemma limited_raw f pre k : Forall printable pre -> limited k f -> limited (Z.of_nat (length pre) + k) (RawPrefixFormatter f pre).
Proof. intros P F v w b V W. eapply adds_trans; [now apply adds_rtext|]. now apply F. Qed.
Lemma limited_suffix f suf k : printable suf -> limited k f -> limited (k + 1) (SuffixFormatter f suf).
Proof. intros P F v w b V W. eapply adds_trans; [now apply F|]. now apply adds_letter. Qed.
Lemma limited_surround f pre suf k : Forall printable pre -> printable suf -> limited k f -> limited (Z.of_nat (length pre) + k + 1) (SurroundFormatter f pre suf).
Proof. intros P Q F v w b V W. eapply adds_trans; [|now apply adds_letter]. eapply adds_trans; [now apply adds_text|]. now apply F. Qed.
Lemma limited_suffixhex suf : printable suf -> limited 66 (SuffixHexFormatter suf).
Proof.
  intros P v w b V W. unfold SuffixHexFormatter. cbv zeta. change 66 with (65 + 1). eapply adds_trans; [|now apply adds_letter].
  apply adds_reverse. destruct (57 <? _).
  - change 65 with (64 + 1). eapply adds_trans; [now apply outHex_adds|]. apply adds_letter. unfold printable. lia.
  - apply (adds_le 64); [lia|]. now apply outHex_adds.
Qed.
Definition limited_plugin (k : Z) (p : fplugin) : Prop := limited k (f_dec p) /\ limited k (f_bin p) /\ limited k (f_oct p) /\ limited k (f_hex p).
Lemma cstyle_limited : limited_plugin 66 fp_cstyle.
Proof.
  split; [|split; [|split]]; cbn [fp_cstyle f_dec f_bin f_oct f_hex].
  - apply (limited_le 64); [lia|apply limited_dec].
  - apply (limited_raw BinFormatter (s2l "0b") 64); [now apply printable_text|apply limited_bin].
  - apply (limited_le 65); [lia|]. apply (limited_prefix OctFormatter (s2l "0") 64); [now apply printable_text|apply limited_oct].
  - apply (limited_raw HexFormatter (s2l "0x") 64); [now apply printable_text|apply limited_hex].
Qed.
Lemma intel_limited : limited_plugin 66 fp_intel.
Proof.
  split; [|split; [|split]]; cbn [fp_intel f_dec f_bin f_oct f_hex].
  - apply (limited_le 64); [lia|apply limited_dec].
  - apply (limited_le 65); [lia|]. apply (limited_suffix BinFormatter _ 64); [unfold printable; lia|apply limited_bin].
  - apply (limited_le 65); [lia|]. apply (limited_suffix OctFormatter _ 64); [unfold printable; lia|apply limited_oct].
  - apply limited_suffixhex. unfold printable. lia.
Qed.
Lemma format_adds f k v bits b : limited k f -> 0 <= v < 2^32 -> -32 <= bits <= 32 -> adds (k + 1) b (format_signed f v bits b).
Proof.
  intros F V B. unfold format_signed. destruct (absolute v bits) as [neg a] eqn:A.
  assert (R : 0 <= a < 2^32).
  { assert (X : a = snd (absolute v bits)) by now rewrite A. rewrite X. unfold absolute, snd. clear A X. assert (G : forall x, 0 <= x < 2^32 -> 0 <= Z.land x (2 ^ Z.abs bits - 1) < 2^32).
    { intros x X. replace (2 ^ Z.abs bits - 1) with (Z.ones (Z.abs bits)) by (rewrite Z.ones_equiv; lia). rewrite Z.land_ones by lia.
      pose proof (Z.mod_pos_bound x (2 ^ Z.abs bits) ltac:(apply Z.pow_pos_nonneg; lia)).
      pose proof (Z.mod_le x (2 ^ Z.abs bits) ltac:(lia) ltac:(apply Z.pow_pos_nonneg; lia)). lia. }
    apply G. match goal with |- context [if ?c then _ else _] => destruct c end; [apply Z.mod_pos_bound; lia|exact V]. }
  replace (k + 1) with (1 + k) by lia. eapply adds_trans; [|apply F; [exact R|lia]].
  destruct neg; [apply adds_letter; unfold printable; lia|apply adds_refl; lia].
Qed.
Lemma adds_over k up b b' : adds k (case_buf up b) b' -> adds k b (over b' b).
Proof. intros (M & C & L & F & T & E). unfold adds, over, case_buf, b_mark in *. cbn [b_txt b_max b_err b_case] in *. auto 10. Qed.
