(** More facts shared by the proofs about processors: names of registers, ends of lines, values of
    operands, branches. *)
From Coq Require Import String ZArith List Bool Lia ZifyBool.
From Verif Require Import M_Char M_Error M_Value M_Text M_StrBuffer M_Format M_Number M_Insn M_Config M_Operators
  M_Parsers M_Expr M_Directive M_Table M_Asm M_Dis S_Value S_Number S_Expr S_ExprTree S_Table P_StrBuffer P_Number P_NumberRead
  P_ExprRead P_ExprTree P_ExprCase P_Table P_Insn P_Config P_Value P_Directive P_AsmText P_CpuShape P_CpuGood.
Import ListNotations.
Open Scope string_scope.
Open Scope list_scope.
Local Open Scope Z_scope.

(* ------------------------------------------------------------ bytes *)
Definition all_bytes : list Z := map Z.of_nat (seq 0 256).
Lemma all_in c : byte c -> In c all_bytes.
Proof. intros O. unfold all_bytes. apply in_map_iff. exists (Z.to_nat c). unfold byte in O. split; [lia|]. apply in_seq. lia. Qed.
Lemma int8_range x : -128 <= int8 x <= 127.
Proof. unfold int8. pose proof (Z.mod_pos_bound (x + 128) 256). lia. Qed.
Lemma int8_back x : byte x -> int8 x mod 256 = x.
Proof.
  unfold int8, byte. intros X. replace ((x + 128) mod 256 - 128) with (x + (- ((x + 128) / 256)) * 256) by (pose proof (Z.div_mod (x + 128) 256); lia).
  rewrite Z.mod_add by lia. apply Z.mod_small. lia.
Qed.

(* ------------------------------------------------------------ values *)
Lemma get_unsigned w v : int_value w -> int_of w = v -> 0 <= v < 2^32 -> getUnsigned w = v.
Proof. intros IV IO V. rewrite getUnsigned_mod by exact IV. rewrite IO. now apply Z.mod_small. Qed.
Lemma get_signed w v : int_value w -> int_of w = v -> 0 <= v < 2^31 -> getSigned w = v.
Proof.
  intros IV IO V. pose proof (get_unsigned w v IV IO ltac:(lia)) as G. unfold getUnsigned in G. unfold getSigned. rewrite G.
  destruct (Z.ltb_spec v (2^31)); lia.
Qed.
Lemma over w v m n : int_value w -> int_of w = v -> 0 <= v -> 0 <= m < 2^32 -> n <= 0 -> -2^31 <= n -> overflow w m n = (m <? v).
Proof.
  intros IV IO V M N1 N2. pose proof (overflow_ok w m n IV M ltac:(lia)) as O. rewrite IO in O.
  destruct (overflow w m n), (Z.ltb_spec m v); auto; [destruct O as [O _]; specialize (O eq_refl); lia|destruct O as [_ O]; apply O; lia].
Qed.
Lemma set_unsigned v : 0 <= v < 2^32 -> int_value (setUnsigned v) /\ int_of (setUnsigned v) = v.
Proof.
  intros V. unfold setUnsigned. rewrite Z.mod_small by lia. unfold setU, u64. rewrite Z.mod_small by lia. split; [cbn; lia|reflexivity].
Qed.

(* ------------------------------------------------------------ names *)
Section Names.
Variables (entries : list (string * Z)) (undef : Z).
Definition nm_text (r : string * Z) : text := s2l (fst r).
Definition parse_name (s : text) : res (Z * text) :=
  bind (searchText nm_text s entries) (fun '(k, t) =>
    match k with
    | Some k => bind (item_at entries k) (fun r => Val (snd r, t))
    | None => Val (undef, t)
    end).
Definition names_ok : bool := forallb (fun e => negb (snd e =? undef) && negb (is_digit (peek (nm_text e))) && negb (existsb (Z.eqb 39) (nm_text e))) entries.
Hypothesis OKN : names_ok = true.
(* a token *)
Definition word (w : text) : bool := (1 <=? length w)%nat && forallb isNameLetter w.
Lemma name_app w z r : word w = true -> isNameLetter (peek z) = false -> r <> undef -> parse_name w = Val (r, []) -> parse_name (w ++ z) = Val (r, z).
Proof.
  unfold word. intros W Z NU. apply andb_true_iff in W. destruct W as (L & W). apply Nat.leb_le in L. unfold parse_name.
  rewrite searchText_app; [|destruct w; [cbn in L; lia|discriminate]|exact W|exact Z].
  destruct (searchText nm_text w entries) as [[[i|] t]| | | |]; cbn [bind]; try discriminate.
  - destruct (item_at entries i) as [x| | | |]; cbn [bind]; try discriminate. intros H. now injection H as -> _.
  - intros H. injection H as H _. congruence.
Qed.
Lemma name_none s : isNameLetter (peek s) = false \/ is_digit (peek s) = true -> parse_name s = Val (undef, s).
Proof.
  intros [H|H]; unfold parse_name.
  - unfold searchText, searchSymbol. change s with ([] ++ s) at 1. rewrite (take_app _ [] s eq_refl H). reflexivity.
  - rewrite searchText_digit; [reflexivity| |exact H]. unfold letter_named. apply forallb_forall. intros x I. unfold names_ok in OKN. rewrite forallb_forall in OKN.
    specialize (OKN x I). rewrite !andb_true_iff in OKN. tauto.
Qed.
(* a letter and a quote start no name *)
Lemma name_quote c s : isNameLetter c = true -> parse_name (c :: 39 :: s) = Val (undef, c :: 39 :: s).
Proof.
  intros C. unfold parse_name, searchText, searchSymbol. cbn [takeWhile]. rewrite C. change (isNameLetter 39) with true. cbv iota.
  destruct (takeWhile isNameLetter s) as [w z]. cbn [length Nat.eqb].
  rewrite bsearch_never; [reflexivity|]. apply Forall_forall. intros x I. unfold names_ok in OKN. rewrite forallb_forall in OKN. specialize (OKN x I).
  rewrite !andb_true_iff in OKN. destruct OKN as (_ & Q). apply negb_true_iff in Q. unfold textMatcher. cbn [strncasecmp].
  assert (CZ : to_lower c <> 0).
  { unfold isNameLetter, is_alnum, is_alpha, is_upper, is_lower, is_digit in C. unfold to_lower, is_upper. destruct (_ && _) eqn:E; lia. }
  destruct (nm_text x) as [|y t].
  - destruct (Z.eqb_spec (to_lower c) 0); [congruence|]. cbn [negb]. exact CZ.
  - destruct (Z.eqb_spec (to_lower c - to_lower y) 0) as [E|E].
    + cbn [existsb] in Q. apply orb_false_iff in Q. destruct Q as (_ & Q).
      destruct t as [|y2 t]; [cbn; discriminate|]. cbn [existsb] in Q. apply orb_false_iff in Q. destruct Q as (Q & _). apply Z.eqb_neq in Q.
      change (to_lower 39) with 39.
      assert (39 - to_lower y2 <> 0). { unfold to_lower, is_upper. destruct (_ && _) eqn:E2; lia. }
      destruct (Z.eqb_spec (39 - to_lower y2) 0); [congruence|]. destruct (Z.eqb_spec (39 - to_lower y2) 0); [congruence|]. cbn [negb]. assumption.
    + destruct (Z.eqb_spec (to_lower c - to_lower y) 0); [congruence|]. cbn [negb]. exact E.
Qed.
End Names.

(* ------------------------------------------------------------ ends *)
Definition tail (rest : text) : Prop := rest = [] \/ exists c u, rest = c :: u /\ (c = 44 \/ c = 59).
Definition last_rest (rest : text) : Prop := rest = [] \/ exists u, rest = 59 :: u.
Lemma last_skip b rest : blanks b -> last_rest rest -> skipSpaces (b ++ rest) = rest.
Proof. intros B R. rewrite skip_blanks by exact B. destruct R as [->|(u & ->)]; [reflexivity|now apply skip_none]. Qed.
Lemma last_nocomma rest : last_rest rest -> expect_char 44 rest = None.
Proof. intros [->|(u & ->)]; reflexivity. Qed.
Lemma last_tail rest : last_rest rest -> tail rest.
Proof. intros [->|(u & ->)]; [left; auto|right]. exists 59, u. auto. Qed.
Lemma space_cases c : is_space c = true -> c = 32 \/ c = 9 \/ c = 10 \/ c = 11 \/ c = 12 \/ c = 13.
Proof. unfold is_space. lia. Qed.
Lemma tail_noname b rest : blanks b -> tail rest -> isNameLetter (peek (b ++ rest)) = false.
Proof.
  intros B T. destruct b as [|c b]; cbn [app].
  - destruct T as [->|(c & u & -> & [->| ->])]; reflexivity.
  - inversion B as [|? ? C ?]; subst. cbn [peek]. apply space_cases in C. destruct C as [->|[->|[->|[->|[->| ->]]]]]; reflexivity.
Qed.
Lemma plain_star nm z : is_alpha (peek nm) = true -> line_star (nm ++ z) = (false, nm ++ z).
Proof.
  intros A. unfold line_star. destruct nm as [|c nm]; [discriminate|]. cbn [app peek] in *. replace ((c =? 42) || (c =? 59)) with false; [reflexivity|].
  unfold is_alpha, is_upper, is_lower in A. lia.
Qed.
Lemma name_ends (p : Z -> bool) gap t b rest : (forall c, In c [0; 9; 10; 11; 12; 13; 32; 59] -> p c = false) ->
  blanks gap -> gap <> [] \/ t = [] -> blanks b -> last_rest rest -> p (peek (gap ++ t ++ b ++ rest)) = false.
Proof.
  intros P BG NG BB LR.
  assert (SP : forall c, is_space c = true -> p c = false).
  { intros c C. apply P. apply space_cases in C. cbn. lia. }
  destruct gap as [|c gap]; [|apply SP; now inversion BG].
  destruct NG as [NG| ->]; [congruence|]. cbn [app]. destruct b as [|c b]; [|apply SP; now inversion BB].
  cbn [app]. destruct LR as [->|(u & ->)]; apply P; cbn; auto 10.
Qed.

(* ------------------------------------------------------------ branches *)
Lemma good_branch8 d np c tg : da_symtab d = None -> da_reads d np -> 1 <= da_aw d <= 31 ->
  (da_relative d = true -> da_cursym d = c) -> is_alpha c = false -> (forall v i, 0 <= tg v i < 2^32) ->
  good 1 (fun h t nb nm' => nm' = h_nm h /\ exists x, nb = [x] /\ byte x /\
      let v := tg x (canon (h_addr h) (h_bs h ++ [x])) in
      checkAddr (da_aw d) v false = OK /\
      (0 <= h_addr h < 2 ^ da_aw d -> Z.abs (v - h_addr h) < 2^8 -> place_text np c (h_addr h) t v))
    (fun s => let '(v, s) := t_byte s in
      let i := d_insn (t_in s) in
      t_print (outRelAddr d (tg v i) (i_addr i) 8) (t_setErrorIf (checkAddr (da_aw d) (tg v i) false) s)).
Proof.
  intros SY RD AW CS AC TR.
  set (g := fun v i s => bind (Val (t_setErrorIf (checkAddr (da_aw d) (tg v i) false) s)) (t_print (outRelAddr d (tg v i) (i_addr i) 8))).
  apply (good_ext _ _ (fun s => let '(v, s) := t_byte s in (fun s => g v (d_insn (t_in s)) s) s)).
  { intros s. unfold g. destruct (t_byte s) as [v s1]. reflexivity. }
  set (R := fun v i => R_seq (R_check (checkAddr (da_aw d) (tg v i) false))
     (R_text (fun _ t => 0 <= tg v i < 2 ^ da_aw d -> 0 <= i_addr i < 2 ^ da_aw d -> Z.abs (tg v i - i_addr i) < 2 ^ 8 ->
      place_text np (da_cursym d) (i_addr i) t (tg v i) /\ (da_relative d = false -> numeral np t (tg v i))))).
  assert (G : forall v i, good 0 (R v i) (g v i)).
  { intros v i. apply (good_seq 0 0); [apply good_check|]. apply good_rel; auto; try lia. intros Q. now rewrite (CS Q). }
  eapply good_weaken; [apply le_n| |apply (good_byte' 0 (fun v => R_insn (R v)) (fun v s => g v (d_insn (t_in s)) s)); intros v; apply (good_insn 0 (R v) (g v)); intros i; apply G].
  intros h t nb nm' (v & nb' & -> & B & t1 & t2 & n1 & n2 & nm1 & -> & -> & (CK & -> & -> & ->) & -> & -> & P). cbn [h_case h_addr h_bs h_nm] in *.
  split; [reflexivity|]. exists v. cbn [app]. split; [reflexivity|]. split; [exact B|]. split; [exact CK|]. intros AR LB.
  specialize (TR v (canon (h_addr h) (h_bs h ++ [v]))). apply (C31_addr (da_aw d) _ false) in CK; [|lia|exact TR].
  destruct CK as (CK & _). change (i_addr (canon (h_addr h) (h_bs h ++ [v]))) with (h_addr h) in P.
  destruct (P ltac:(lia) AR LB) as (P1 & P2). destruct (da_relative d) eqn:RL.
  - rewrite (CS eq_refl) in P1. exact P1.
  - left. auto.
Qed.
(* where a branch from a place in memory goes *)
Lemma rel_target base x : 0 <= base < 2^31 -> checkAddr 16 (u32 (u32 base + int8 x)) false = OK ->
  u32 (u32 base + int8 x) = base + int8 x /\ 0 <= base + int8 x < 65536.
Proof.
  intros B CK. apply C31_addr in CK; [|lia|unfold u32; apply Z.mod_pos_bound; lia]. destruct CK as (CK & _). change (2^16) with 65536 in CK.
  pose proof (int8_range x). unfold u32 in *. rewrite (Z.mod_small base) in * by lia.
  destruct (Z.neg_nonneg_cases (base + int8 x)) as [NG|NG].
  - exfalso. replace (base + int8 x) with (base + int8 x + 2^32 + (-1) * 2^32) in CK by lia. rewrite Z.mod_add, Z.mod_small in CK by lia. lia.
  - rewrite Z.mod_small in * by lia. lia.
Qed.

(* ------------------------------------------------------------ heads of numerals *)
Definition quoted (leads : list Z) (u : text) : Prop := exists c v, u = c :: 39 :: v /\ In c leads.
Lemma ibm_head h b o d u n : np_ibm h b o d u 10 = (OK, n, []) -> Forall (fun c => c = 0 \/ is_upper c = true) [h; b; o; d] ->
  is_digit (peek u) = true \/ quoted (flat_map (fun c => if c =? 0 then [] else [c; c + 32]) [h; b; o; d]) u.
Proof.
  intros N F. unfold np_ibm in N.
  assert (X : forall c r p, (c = 0 \/ is_upper c = true) -> has_prefix1 c r u = Some p -> exists y, u = y :: snd p /\ c <> 0 /\ (y = c \/ y = c + 32)).
  { intros c r p C. unfold has_prefix1. destruct (Z.eqb_spec c 0); [discriminate|]. destruct u as [|y u']; cbn [iexpect]; [intros Q; discriminate Q|].
    destruct (Z.eqb_spec (to_upper y) (to_upper c)) as [E|]; [|intros Q; discriminate Q]. intros Q. injection Q as <-. exists y. cbn [snd]. split; [reflexivity|].
    split; [assumption|]. destruct C as [C|C]; [congruence|]. unfold to_upper, is_upper, is_lower in *.
    repeat match type of E with context [if ?q then _ else _] => destruct q eqn:? end; lia. }
  assert (Y : forall c r p, In c [h; b; o; d] -> has_prefix1 c r u = Some p -> prefix_of h b o d u = p ->
     is_digit (peek u) = true \/ quoted (flat_map (fun c => if c =? 0 then [] else [c; c + 32]) [h; b; o; d]) u).
  { intros c r p I H P. rewrite Forall_forall in F. destruct (X c r p (F c I) H) as (y & E & NZ & YC). rewrite P in N.
    assert (RN : fst p =? RADIX_NONE = false \/ fst p =? RADIX_NONE = true) by (destruct (fst p =? RADIX_NONE); auto).
    destruct p as [r' p]. cbn [fst snd] in *. destruct RN as [RN|RN]; rewrite RN in N.
    - right. destruct p as [|q p]; [discriminate|]. cbn [expect_char] in N. destruct (Z.eqb_spec q 39); [subst q|discriminate].
      exists y, p. split; [exact E|]. apply in_flat_map. exists c. split; [exact I|]. destruct (Z.eqb_spec c 0); [congruence|]. cbn. intuition.
    - left. eapply intel_head; [exact N|discriminate]. }
  destruct (has_prefix1 h RADIX_16 u) as [p|] eqn:H1. { eapply Y; [|exact H1|unfold prefix_of; now rewrite H1]. cbn; auto. }
  destruct (has_prefix1 b RADIX_2 u) as [p|] eqn:H2. { eapply Y; [|exact H2|unfold prefix_of; now rewrite H1, H2]. cbn; auto. }
  destruct (has_prefix1 o RADIX_8 u) as [p|] eqn:H3. { eapply Y; [|exact H3|unfold prefix_of; now rewrite H1, H2, H3]. cbn; auto. }
  destruct (has_prefix1 d RADIX_10 u) as [p|] eqn:H4. { eapply Y; [|exact H4|unfold prefix_of; now rewrite H1, H2, H3, H4]. cbn; auto. }
  unfold prefix_of in N. rewrite H1, H2, H3, H4 in N. change (RADIX_NONE =? RADIX_NONE) with true in N. cbv iota in N.
  left. eapply intel_head; [exact N|discriminate].
Qed.
