(** Facts shared by the round trip proofs of the processors: what the disassembler's output
    functions print is a numeral the assembler reads, and how the assembler reads numerals,
    register names and mnemonics in a line. *)
From Coq Require Import String ZArith List Bool Lia ZifyBool.
From Verif Require Import M_Char M_Error M_Value M_Text M_StrBuffer M_Format M_Number M_Insn M_Config M_Operators
  M_Parsers M_Expr M_Directive M_Table M_Asm M_Dis S_Value S_Number S_Expr S_ExprTree S_Table P_StrBuffer P_Number P_NumberRead
  P_ExprRead P_ExprTree P_ExprCase P_Table P_Insn.
Import ListNotations.
Open Scope string_scope.
Open Scope list_scope.
Local Open Scope Z_scope.

(* ------------------------------------------------------------ printing *)
(* the text [t] is a numeral of value [v] for the number parser [np] *)
Definition numeral (np : number_parser) (t : text) (v : Z) : Prop :=
  forall r, boundary r -> np (t ++ r) 10 = (OK, mkV V_UNSIGNED v, r).
Definition reads_all (p : fplugin) (np : number_parser) : Prop :=
  fmt_reads (f_dec p) np 10 /\ fmt_reads (f_oct p) np 10 /\ fmt_reads (f_hex p) np 10.

(* what a disassembler uses of its formatters *)
Definition da_reads (d : disasm) (np : number_parser) : Prop :=
  (da_octal d = false -> fmt_reads (f_dec (da_formatter d)) np 10) /\ (da_octal d = true -> fmt_reads (f_oct (da_formatter d)) np 10) /\
  (da_octal d = false -> fmt_reads (f_hex (da_formatter d)) np 10).
Lemma all_reads d np : reads_all (da_formatter d) np -> da_reads d np.
Proof. intros (A & B & C). split; [intros _; exact A|]. split; [intros _; exact B|intros _; exact C]. Qed.

Lemma fmt_numeral f np v w b : fmt_reads f np 10 -> 0 <= v < 2^32 -> 1 <= w -> b_err (f v w b) = OK ->
  b_err b = OK /\ exists t, f v w b = appb b t /\ numeral np t v.
Proof.
  intros F V W E. destruct (F v w b [] V W Logic.I E) as (E0 & t & A & _). split; [exact E0|].
  exists t. split; [exact A|]. intros r R. destruct (F v w b r V W R E) as (_ & t' & A' & P).
  rewrite A in A'. apply (f_equal b_txt) in A'. rewrite !appb_txt in A'. apply app_inv_head in A'. subst t'. exact P.
Qed.

Lemma shown_pos v bits : 1 <= bits -> shown v bits = v mod 2 ^ bits.
Proof. intros H. unfold shown. destruct (Z.ltb_spec 0 bits); [reflexivity|lia]. Qed.

Lemma signed_numeral f np v bits b : fmt_reads f np 10 -> 0 <= v < 2^32 -> 1 <= bits <= 32 ->
  b_err (format_signed f v bits b) = OK ->
  b_err b = OK /\ exists t, format_signed f v bits b = appb b t /\ numeral np t (v mod 2 ^ bits).
Proof.
  intros F V B E. unfold format_signed in *. rewrite absolute_spec in * by lia.
  rewrite shown_pos in * by lia.
  assert (M : 0 <= v mod 2 ^ bits < 2 ^ 32).
  { assert (0 <= v mod 2 ^ bits <= v) by (split; [apply Z.mod_pos_bound; lia|apply Z.mod_le; lia]). lia. }
  replace (v mod 2 ^ bits <? 0) with false in * by lia.
  rewrite Z.abs_eq in * by lia. apply fmt_numeral; auto. lia.
Qed.

Lemma hex_case_numeral d f np v bits out : fmt_reads f np 10 -> 0 <= v < 2^32 -> 1 <= bits <= 32 ->
  b_err (hex_case d (format_signed f v bits) out) = OK ->
  b_err out = OK /\ exists t, hex_case d (format_signed f v bits) out = appb out t /\ numeral np t (v mod 2 ^ bits).
Proof.
  intros F V B E. unfold hex_case, over in *. cbn [b_err] in E.
  destruct (signed_numeral f np v bits _ F V B E) as (E0 & t & A & N). split; [exact E0|].
  exists t. split; [|exact N]. rewrite A. unfold appb, case_buf. cbn. reflexivity.
Qed.

Lemma outHex_numeral d np v bits relax out out' : da_symtab d = None -> da_reads d np ->
  0 <= v < 2^32 -> 1 <= bits <= 32 -> dis_outHex d v bits relax out = Val out' -> b_err out' = OK ->
  b_err out = OK /\ exists t, out' = appb out t /\ numeral np t (v mod 2 ^ bits).
Proof.
  intros S (FD & FO & FH) V B H E. unfold dis_outHex, da_lookup in H. rewrite S in H. cbn [bind] in H.
  destruct (da_octal d); [specialize (FO eq_refl)|specialize (FD eq_refl); specialize (FH eq_refl); destruct (relax && _)]; injection H as <-; eapply hex_case_numeral; eassumption.
Qed.
Lemma outAbs_numeral d np v width out out' : da_symtab d = None -> da_reads d np ->
  0 <= v < 2^32 -> 1 <= (if width =? 0 then da_aw d else width) <= 32 -> outAbsAddr d v width out = Val out' -> b_err out' = OK ->
  b_err out = OK /\ exists t, out' = appb out t /\ numeral np t (v mod 2 ^ (if width =? 0 then da_aw d else width)).
Proof.
  intros S (FD & FO & FH) V B H E. unfold outAbsAddr, da_lookup in H. rewrite S in H. cbn [bind] in H.
  destruct (da_octal d); [specialize (FO eq_refl)|specialize (FH eq_refl)]; injection H as <-; eapply hex_case_numeral; eassumption.
Qed.
Lemma outHex_val d v bits relax out : da_symtab d = None -> exists o, dis_outHex d v bits relax out = Val o.
Proof.
  intros S. unfold dis_outHex, da_lookup. rewrite S. cbn [bind].
  destruct (da_octal d); [eauto|destruct (relax && _); eauto].
Qed.
Lemma outAbs_val d v width out : da_symtab d = None -> exists o, outAbsAddr d v width out = Val o.
Proof. intros S. unfold outAbsAddr, da_lookup. rewrite S. cbn [bind]. destruct (da_octal d); eauto. Qed.

(* the notations that every family reads *)
Lemma universal_reads p np : In np family_parsers -> p = fp_cstyle \/ p = fp_intel -> reads_all p np.
Proof.
  intros I [->| ->]; apply fb_all in I; (split; [now apply dec_reads|split]);
  [now apply c_oct_reads|now apply c_hex_reads|now apply i_oct_reads|apply i_hex_reads; auto].
Qed.

(* octal digits without a mark are read in octal: by the parsers told so *)
Definition np_octal (np : number_parser) : number_parser := fun s _ => np s 8.
Lemma octal_reads d np : In np family_parsers -> da_octal d = true -> f_oct (da_formatter d) = OctFormatter -> da_reads d (np_octal np).
Proof.
  intros I O F. split; [congruence|]. split; [|congruence]. intros _. rewrite F. apply fb_all in I. intros v w b rest V W B E.
  exact (oct8_reads np I v w b rest V W B E).
Qed.

(* ------------------------------------------------------------ reading numbers *)
Lemma intel_head s e v r : np_intel s 10 = (e, v, r) -> e <> NOT_AN_EXPECTED -> is_digit (peek s) = true.
Proof.
  assert (X : forall r suf t, scanNumberEnd s r suf = Some t -> r = 16 \/ r = 8 \/ r = 2 \/ r = 10 -> is_digit (peek s) = true).
  { intros q suf t H Q. unfold scanNumberEnd in H. cbv zeta in H.
    destruct (_ && _ && _) in H; [discriminate|]. destruct (is_digit_r q (peek s)) eqn:D; [|discriminate].
    destruct Q as [->|Q].
    - cbn [Z.eqb RADIX_16 Pos.eqb andb] in H. destruct (is_digit_r RADIX_10 (peek s)) eqn:T; [|discriminate].
      unfold is_digit_r in T. change (RADIX_10 =? RADIX_16) with false in T. unfold RADIX_10 in T. unfold is_digit. lia.
    - unfold is_digit_r in D. replace (q =? RADIX_16) with false in D by (unfold RADIX_16; lia). unfold is_digit. lia. }
  unfold np_intel, intel_suffix. intros H N.
  destruct (scanNumberEnd s RADIX_16 72) eqn:S1; [eapply X; [exact S1|auto]|].
  destruct (scanNumberEnd s RADIX_8 79) eqn:S2; [eapply X; [exact S2|auto]|].
  destruct (scanNumberEnd s RADIX_8 81) eqn:S3; [eapply X; [exact S3|auto]|].
  destruct (scanNumberEnd s RADIX_2 66) eqn:S4; [eapply X; [exact S4|auto]|].
  destruct (scanNumberEnd s RADIX_10 68) eqn:S5; [eapply X; [exact S5|auto]|].
  cbn [Z.eqb RADIX_NONE] in H. unfold np_cstyle, cstyle_prefix in H.
  destruct (iexpectText (s2l "0x") s) eqn:P1.
  { destruct s as [|c s]; [discriminate|]. cbn [s2l iexpectText] in P1. cbn [peek]. unfold is_digit.
    destruct (to_lower _ =? to_lower c) eqn:L in P1; [|discriminate]. apply Z.eqb_eq in L.
    change (to_lower _) with 48 in L at 1. unfold to_lower, is_upper in L. destruct ((65 <=? c) && (c <=? 90)) eqn:?; lia. }
  destruct (iexpectText (s2l "0b") s) eqn:P2.
  { destruct s as [|c s]; [discriminate|]. cbn [s2l iexpectText] in P2. cbn [peek]. unfold is_digit.
    destruct (to_lower _ =? to_lower c) eqn:L in P2; [|discriminate]. apply Z.eqb_eq in L.
    change (to_lower _) with 48 in L at 1. unfold to_lower, is_upper in L. destruct ((65 <=? c) && (c <=? 90)) eqn:?; lia. }
  destruct ((peek s =? 48) && is_octal (peek_at 1 s)) eqn:P3; [unfold is_digit; lia|].
  destruct (is_digit_r 10 (peek s)) eqn:P4.
  - unfold is_digit_r in P4. change (10 =? RADIX_16) with false in P4. unfold is_digit. lia.
  - cbn [Z.eqb RADIX_NONE] in H. unfold not_expected in H. injection H as <- _ _. congruence.
Qed.

Lemma token_boundary r : token_end r -> boundary r.
Proof.
  destruct r as [|c r]; [trivial|]. cbn [token_end boundary]. intros [H|H].
  - unfold is_space in H. unfold is_alnum, is_alpha, is_upper, is_lower, is_digit. lia.
  - cbn in H. repeat (destruct H as [<-|H]; [split; [reflexivity|split; discriminate]|]). contradiction.
Qed.

(* a numeral in the line, with the blanks around it, up to the end of the operand *)
Lemma parse_numeral f a loc delim b0 t v b rest :
  In f tree_families -> a_pl a = fam_pl f -> a_radix a = 10 -> In delim [0; 41; 44; 93] ->
  (forall n g, a_function a n = Some g -> forall s r, f_eval g s r <> FUEL) ->
  is_digit (peek t) = true \/ In (peek t) (fam_leads f) -> numeral (p_number (fam_pl f)) t v ->
  blanks b0 -> blanks b ->
  (rest = [] \/ exists c u, rest = c :: u /\ (c = 44 \/ c = 59 \/ (c = delim /\ c <> 0))) ->
  exists b', blanks b' /\ parseInteger a loc (b0 ++ t ++ b ++ rest) OK delim = Val (mkV V_UNSIGNED v, OK, b' ++ rest).
Proof.
  intros I PL RX DL TF HD N B0 B R.
  set (cx := mkC loc (a_symbol a) (a_function a) delim).
  assert (TE : token_end (b ++ rest)).
  { destruct b as [|c b]; [|cbn; left; now inversion B]. cbn [app].
    destruct R as [->|(c & u & -> & C)]; [exact Logic.I|]. cbn [token_end]. right.
    cbn in DL. cbn. intuition (subst; auto 20). }
  assert (D : derives f cx (Num t (mkV V_UNSIGNED v)) (t ++ b ++ rest) rest).
  { constructor; auto. intros r T. apply N, token_boundary, T. }
  pose proof (C18_exact f cx _ b0 _ rest I DL B0 D Logic.I) as X. cbn [value_of value_slots operator_slots] in X.
  destruct X as (b' & BB & X); [|lia|lia|].
  { unfold ends. destruct R as [->|(c & u & -> & C)]; [trivial|]. cbn [c_delim cx]. tauto. }
  exists b'. split; [exact BB|]. unfold parseInteger. rewrite PL, RX. fold cx. rewrite X. reflexivity.
Qed.

(* ------------------------------------------------------------ reading names *)
Lemma skip_blanks b s : blanks b -> skipSpaces (b ++ s) = skipSpaces s.
Proof. induction 1 as [|c b C B IH]; [reflexivity|]. cbn [app skipSpaces trimStart] in *. now rewrite C. Qed.
Lemma skip_none c s : is_space c = false -> skipSpaces (c :: s) = c :: s.
Proof. intros H. unfold skipSpaces. cbn [trimStart]. now rewrite H. Qed.

Lemma take_app p w z : forallb p w = true -> p (peek z) = false -> takeWhile p (w ++ z) = (w, z).
Proof.
  intros W P. induction w as [|c w IH]; cbn [app takeWhile].
  - destruct z as [|c z]; [reflexivity|]. cbn [peek] in P. cbn [takeWhile]. now rewrite P.
  - cbn [forallb] in W. apply andb_true_iff in W. destruct W as [C W]. now rewrite C, (IH W).
Qed.
Lemma take_all p w : forallb p w = true -> takeWhile p w = (w, []).
Proof.
  intros W. induction w as [|c w IH]; [reflexivity|]. cbn [forallb takeWhile] in *.
  apply andb_true_iff in W. destruct W as [C W]. now rewrite C, (IH W).
Qed.
Lemma strn_app w z n : strncasecmp (w ++ z) n (length w) = strncasecmp w n (length w).
Proof.
  revert n. induction w as [|c w IH]; intros n; [reflexivity|]. cbn [app length strncasecmp].
  destruct n as [|y n]; [reflexivity|]. destruct (to_lower c - to_lower y =? 0); [apply IH|reflexivity].
Qed.
Lemma bsearch_ext {A} (f g : A -> Z) items : (forall x, f x = g x) -> binarySearch f items = binarySearch g items.
Proof.
  intros E. unfold binarySearch. generalize (S (length items)) as n. generalize (@None nat) as o, 0%nat as h, (length items) as t. intros o h t n. revert o h t.
  induction n as [|n IH]; intros o h t; [reflexivity|]. cbn [binarySearch_loop].
  destruct (Nat.eqb h t); [reflexivity|]. cbv zeta. unfold item_at. destruct (nth_error items _); [|reflexivity]. cbn [bind].
  rewrite E. destruct (0 <? g a); [apply IH|]. destruct (g a <? 0); apply IH.
Qed.
(* a whole token: the search looks at nothing else *)
Lemma searchText_app {A} (nm : A -> text) w z items : w <> [] -> forallb isNameLetter w = true -> isNameLetter (peek z) = false ->
  searchText nm (w ++ z) items =
    bind (searchText nm w items) (fun '(k, _) => Val (match k with Some i => (Some i, z) | None => (None, w ++ z) end)).
Proof.
  intros NE W Z. unfold searchText, searchSymbol. rewrite (take_app _ _ _ W Z), (take_all _ _ W).
  destruct (Nat.eqb_spec (length w) 0) as [L|L]; [now destruct w|].
  rewrite (bsearch_ext _ (fun a => textMatcher w (length w) (nm a))).
  - destruct (binarySearch _ items) as [[i|]| | | |]; reflexivity.
  - intros x. unfold textMatcher. now rewrite strn_app.
Qed.
(* a token starting with a digit is no name *)
Definition letter_named {A} (nm : A -> text) (items : list A) : bool :=
  forallb (fun a => negb (is_digit (peek (nm a)))) items.
Lemma bsearch_never {A} (cmp : A -> Z) items : Forall (fun a => cmp a <> 0) items -> binarySearch cmp items = Val None.
Proof.
  intros F. unfold binarySearch.
  enough (X : forall n h t, (t <= length items)%nat -> (h <= t)%nat -> (t - h < n)%nat ->
      binarySearch_loop cmp items n h t None = Val None) by (apply X; lia).
  induction n as [|n IH]; intros h t T H L; [lia|]. cbn [binarySearch_loop].
  destruct (Nat.eqb_spec h t); [reflexivity|]. cbv zeta.
  assert (M : (Nat.div (t - h) 2 < t - h)%nat) by (apply div2_lt; lia).
  unfold item_at. destruct (nth_error items (h + Nat.div (t - h) 2)) as [x|] eqn:E.
  2:{ apply nth_error_None in E. lia. }
  cbn [bind]. assert (cmp x <> 0). { rewrite Forall_forall in F. apply F. eapply nth_error_In; eauto. }
  destruct (Z.ltb_spec 0 (cmp x)); [apply IH; lia|]. destruct (Z.ltb_spec (cmp x) 0); [apply IH; lia|lia].
Qed.
Lemma lower_digit c d : is_digit c = true -> is_digit d = false -> to_lower c <> to_lower d.
Proof.
  unfold is_digit, to_lower, is_upper. intros C D.
  destruct ((65 <=? c) && (c <=? 90)) eqn:?; destruct ((65 <=? d) && (d <=? 90)) eqn:?; lia.
Qed.
Lemma searchText_digit {A} (nm : A -> text) s items : letter_named nm items = true -> is_digit (peek s) = true ->
  searchText nm s items = Val (None, s).
Proof.
  intros L D. unfold searchText, searchSymbol. destruct (takeWhile isNameLetter s) as [w z] eqn:T.
  destruct (Nat.eqb_spec (length w) 0); [reflexivity|].
  rewrite bsearch_never; [reflexivity|]. apply Forall_forall. intros x I.
  unfold letter_named in L. rewrite forallb_forall in L. specialize (L x I). apply negb_true_iff in L.
  destruct s as [|c s]; [cbn in D; discriminate|]. cbn [peek] in D.
  unfold textMatcher. destruct w as [|c' w]; [cbn in n; lia|]. cbn [length strncasecmp].
  destruct (nm x) as [|y t].
  - unfold to_lower, is_upper, is_digit in *. destruct (Z.eqb_spec (if (65 <=? c) && (c <=? 90) then c + 32 else c) 0); cbn [negb].
    + destruct ((65 <=? c) && (c <=? 90)); lia.
    + exact n0.
  - cbn [peek] in L. pose proof (lower_digit c y D L). destruct (Z.eqb_spec (to_lower c - to_lower y) 0) as [Q|Q]; [lia|].
    cbn [negb]. destruct (Z.eqb_spec (to_lower c - to_lower y) 0); [lia|]. cbn [negb]. exact Q.
Qed.

(* ------------------------------------------------------------ lines *)
Lemma firstn_short {A} n (l : list A) : (length l <= n)%nat -> firstn n l = l.
Proof. intros H. apply firstn_all2. exact H. Qed.

(* ------------------------------------------------------------ bytes *)
(* an instruction into which the bytes [bs] have been put from the start *)
Definition canon (addr : Z) (bs : list Z) : insn :=
  mkI addr (Z.of_nat (length bs)) (bs ++ repeat 0 (64 - length bs)) OK false.
Definition byte (x : Z) : Prop := 0 <= x < 256.

Lemma canon_new addr : new_insn addr = canon addr [].
Proof. reflexivity. Qed.
Lemma canon_code addr bs : i_code (canon addr bs) = bs.
Proof. unfold i_code, canon. cbn [i_len i_bytes]. rewrite Nat2Z.id. apply firstn_app_exact. Qed.
Lemma set_at_app (a : list Z) x n b : n = length a -> set_at n x (a ++ 0 :: b) = a ++ x :: b.
Proof. intros ->. induction a as [|y a IH]; [reflexivity|]. cbn [length app set_at]. now rewrite IH. Qed.
Lemma canon_emit addr bs x : byte x -> (length bs < 64)%nat -> emitByte x (canon addr bs) = (OK, canon addr (bs ++ [x])).
Proof.
  intros X L. unfold emitByte, emitByte_at, MAX_CODE. cbn [i_len canon]. change (2^8) with 256.
  rewrite (Z.mod_small x) by exact X. rewrite (Z.mod_small (Z.of_nat (length bs))) by lia.
  destruct (Z.leb_spec 64 (Z.of_nat (length bs))); [lia|].
  rewrite (Z.mod_small (_ + 1)) by lia. unfold store_byte, canon. cbn [i_bytes i_len i_addr i_err i_ub].
  assert (LL : length (bs ++ repeat 0 (64 - length bs)) = 64%nat) by (rewrite app_length, repeat_length; lia).
  rewrite LL. destruct (Z.leb_spec 0 (Z.of_nat (length bs))); [|lia]. destruct (Z.ltb_spec (Z.of_nat (length bs)) (Z.of_nat 64)); [|lia].
  cbn [andb i_len]. destruct (Z.ltb_spec (Z.of_nat (length bs)) (Z.of_nat (length bs) + 1)); [|lia].
  unfold i_setlen. cbn [i_addr i_bytes i_err i_ub]. rewrite Nat2Z.id, app_length. cbn [length].
  f_equal. f_equal; [lia|]. replace (64 - length bs)%nat with (S (64 - (length bs + 1))) by lia. cbn [repeat].
  rewrite set_at_app by reflexivity. now rewrite <- app_assoc.
Qed.
Lemma canon_read addr bs x m e : byte x -> (length bs < 64)%nat ->
  readByte (M_Insn.mkD (canon addr bs) (x :: m) e) = (x, M_Insn.mkD (canon addr (bs ++ [x])) m e).
Proof. intros X L. unfold readByte. cbn [d_mem d_insn d_err]. rewrite canon_emit by assumption. reflexivity. Qed.
Lemma no_read i e : readByte (M_Insn.mkD i [] e) = (0, M_Insn.mkD i [] (setErrorIfAt e NO_MEMORY)).
Proof. reflexivity. Qed.
Lemma word_le lo hi : byte lo -> byte hi -> Z.lor (Z.shiftl hi 8) lo = lo + 256 * hi.
Proof. unfold byte. intros L H. rewrite lor_sh by (change (2^8) with 256; lia). change (2^8) with 256. lia. Qed.
