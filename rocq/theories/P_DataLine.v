(** Proofs for S_Data.v: a line with a directive of any of the assemblers. *)
From Coq Require Import String ZArith List Bool Lia.
From Verif Require Import M_Char M_Error M_Value M_Text M_Insn M_Config M_Operators M_Parsers M_Expr M_Directive M_Table M_Asm M_AsmLine M_AsmRows T_Tables S_Value S_Insn S_Expr S_ExprTree S_Directive S_Table S_Data P_Insn P_Table P_TableProps P_ExprCase P_Directive P_Data P_AsmText P_CpuShape.
Import ListNotations.
Open Scope string_scope.
Open Scope list_scope.
Local Open Scope Z_scope.

(* the directive of a documented word *)
Definition directive_of (m : meaning) : directive :=
  match m with
  | Data ty al => D_DATA ty al
  | Space ty al => D_SPACE ty al
  | Strings => D_STRING
  | Origin => D_ORG
  | Align => D_ALIGN ALIGN_VAR
  | Even => D_ALIGN ALIGN_EVEN
  end.
Definition directive_eqb (d e : directive) : bool := if (ltac:(repeat decide equality) : {d = e} + {d <> e}) then true else false.
Lemma directive_eqb_eq d e : directive_eqb d e = true -> d = e.
Proof. unfold directive_eqb. match goal with |- context [if ?x then _ else _] => destruct x end; [trivial|discriminate]. Qed.

(* a word of a manual is found in the own table or, failing that, in the common one *)
Definition lettered (c : Z) : bool := is_alnum c || (c =? 46).
Definition word_row (p : assembler) (w : string) : option (nat * nat) :=
  match pseudo_search (s2l w) (as_tables p) 0 with Val r => r | _ => None end.
Definition word_ok (p : assembler) (w : string * meaning) : bool :=
  let nm := s2l (fst w) in
  insn_word (p_symbol (as_pl p)) nm && forallb lettered nm && Nat.leb 1 (length nm) && Nat.leb (length nm) 11 &&
  (is_alnum (peek nm) || negb (String.eqb (as_name p) "cdp1802")) &&
  forallb (fun s => negb (strcasecmp nm s =? 0)) (as_specials p) &&
  match word_row p (fst w) with
  | Some (t, k) => match directive_at (as_tables p) t k with Some d => directive_eqb d (directive_of (snd w)) | None => false end
  | None => false
  end.
Definition letters_52 : list Z := map Z.of_nat (seq 65 26 ++ seq 97 26).
Definition row_ok (p : assembler) : bool :=
  forallb (fun c => y_insn_letter (p_symbol (as_pl p)) c && negb (among (y_insn_end (p_symbol (as_pl p))) c)) letters_52 &&
  forallb (fun c => negb (y_insn_letter (p_symbol (as_pl p)) c)) [0; 32; 9; 10; 11; 12; 13] &&
  forallb P_TableData.cstringb (as_specials p) &&
  forallb (fun '(n, m) => negb (String.eqb n (as_name p)) ||
    (Bool.eqb (m_big m) (as_big p) && (m_unit m =? as_unit p) && (m_bits m =? as_aw p) && forallb (word_ok p) (m_words m))) manuals.
Lemma rows_ok : forallb row_ok assemblers = true.
Proof. vm_compute. reflexivity. Qed.

Lemma same_search tbl s w : In tbl directive_tables -> cstring w -> same_name s w ->
  pseudoSearch row_name s tbl = pseudoSearch row_name w tbl.
Proof.
  intros I CW SN. pose proof (same_name_cstring s w SN CW) as CS.
  pose proof (directive_search tbl w I CW) as W. pose proof (directive_search tbl s I CS) as S.
  destruct (pseudoSearch row_name w tbl) as [[k|]| | | |] eqn:EW; try contradiction.
  - destruct W as (r & K & R). apply (every_directive tbl k r s I K). exact (same_name_trans _ _ _ SN R).
  - destruct (pseudoSearch row_name s tbl) as [[j|]| | | |]; try contradiction; [|reflexivity].
    exfalso. destruct S as (r & K & R). apply W. exists r. split; [exact (nth_error_In _ _ K)|].
    exact (same_name_trans _ _ _ (same_name_sym _ _ SN) R).
Qed.
Lemma table_known p : In p assemblers -> In (as_table p) directive_tables.
Proof. intros I. unfold assemblers in I. cbn [In] in I. repeat (destruct I as [<-|I]; [cbn [as_table]; unfold directive_tables; cbn [In]; tauto|]). contradiction. Qed.
Lemma same_pseudo p s w : In p assemblers -> cstring w -> same_name s w -> pseudo_search s (as_tables p) 0 = pseudo_search w (as_tables p) 0.
Proof.
  intros I CW SN. unfold as_tables. cbn [pseudo_search]. rewrite (same_search (as_table p) s w (table_known p I) CW SN).
  rewrite (same_search d_base_PSEUDOS s w); [reflexivity|unfold directive_tables; cbn [In]; tauto|exact CW|exact SN].
Qed.

Lemma line_head p c z : In p assemblers -> is_alnum c = true \/ (c = 46 /\ as_name p <> "cdp1802") -> p_line (as_pl p) (c :: z) = (false, c :: z).
Proof.
  intros I H.
  assert (G : is_space c = false /\ (c =? 0) = false /\ (c =? 59) = false /\ (c =? 35) = false /\ (c =? 42) = false /\ (is_alnum c = true -> (c =? 46) = false)).
  { destruct H as [H|[-> _]]; [|repeat split; reflexivity || discriminate].
    unfold is_alnum, is_alpha, is_digit, is_upper, is_lower in H. unfold is_space.
    rewrite !orb_true_iff, !andb_true_iff, !Z.leb_le in H.
    repeat split; intros; rewrite ?orb_false_iff, ?andb_false_iff, ?Z.eqb_neq, ?Z.leb_gt; lia. }
  destruct G as (S & Z0 & Z59 & Z35 & Z42 & Z46).
  assert (L1 : eol_semicolon (c :: z) = (false, c :: z)).
  { unfold eol_semicolon. rewrite skip_none by exact S. cbn [peek]. now rewrite Z0, Z59. }
  assert (L2 : eol_sharp (c :: z) = (false, c :: z)) by (unfold eol_sharp; rewrite L1; cbn [peek orb]; now rewrite Z35).
  assert (L3 : line_star (c :: z) = (false, c :: z)) by (unfold line_star; cbn [peek]; now rewrite Z42, Z59).
  assert (L4 : line_tms32010 (c :: z) = (false, c :: z)) by (unfold line_tms32010; cbn [peek]; now rewrite Z42).
  assert (L5 : is_alnum c = true -> line_rca (c :: z) = (false, c :: z)).
  { intros A. unfold line_rca. replace (iexpectText (s2l "..") (c :: z)) with (@None text); [exact L1|].
    symmetry. change (s2l "..") with [46; 46]. cbn [iexpectText]. replace (to_lower 46 =? to_lower c) with false; [reflexivity|].
    symmetry. change (to_lower 46) with 46. apply Z.eqb_neq. unfold to_lower.
    destruct (is_upper c) eqn:Q; [unfold is_upper in Q; rewrite andb_true_iff, !Z.leb_le in Q; lia|].
    specialize (Z46 A). apply Z.eqb_neq in Z46. lia. }
  unfold assemblers in I. cbn [In] in I.
  repeat (destruct I as [<-|I]; [first [exact L1|exact L2|exact L3|exact L4|(apply L5; destruct H as [H|[_ H]]; [exact H|exfalso; now apply H])]|]). contradiction.
Qed.

Lemma same_lettered s w y : same_name s w -> (forall c, is_alpha c = true -> y_insn_letter y c && negb (among (y_insn_end y) c) = true) ->
  insn_word y w = true -> insn_word y s = true.
Proof.
  intros SN AL. induction SN as [|c d s w C SN IH]; [trivial|]. unfold insn_word in *. cbn [forallb]. rewrite !andb_true_iff.
  intros [W1 W2]. rewrite <- andb_true_iff. split; [|exact (IH W2)].
  destruct C as [->|[[C D]|[C D]]]; [now apply andb_true_iff| |]; apply AL; unfold is_alpha, is_upper, is_lower;
    rewrite orb_true_iff, !andb_true_iff, !Z.leb_le; lia.
Qed.
Lemma alpha_52 c : is_alpha c = true -> In c letters_52.
Proof.
  intros A. unfold is_alpha, is_upper, is_lower in A. rewrite orb_true_iff, !andb_true_iff, !Z.leb_le in A.
  unfold letters_52. apply in_map_iff. exists (Z.to_nat c). split; [lia|]. apply in_app_iff. rewrite !in_seq. lia.
Qed.
Lemma space_6 c : is_space c = true -> In c [0; 32; 9; 10; 11; 12; 13].
Proof. unfold is_space. rewrite orb_true_iff, andb_true_iff, Z.eqb_eq, !Z.leb_le. cbn [In]. lia. Qed.
Lemma no_special s w sp : cstring w -> same_name s w -> Forall cstring sp -> forallb (fun x => negb (strcasecmp w x =? 0)) sp = true ->
  linearSearch (fun x => strcasecmp s x =? 0) sp = None.
Proof.
  intros CW SN. pose proof (same_name_cstring s w SN CW) as CS. unfold linearSearch. generalize 0%nat.
  induction sp as [|x sp IH]; intros n CX; [reflexivity|]. cbn [forallb linearSearch_from]. rewrite andb_true_iff. intros [X R].
  inversion CX as [|? ? C1 C2]; subst. apply negb_true_iff, Z.eqb_neq in X.
  assert (strcasecmp s x =? 0 = false) as ->; [|now apply IH].
  apply Z.eqb_neq. intros E. apply X. apply (strcasecmp_eq w x CW C1). apply (strcasecmp_eq s x CS C1) in E.
  exact (same_name_trans _ _ _ (same_name_sym _ _ SN) E).
Qed.
Lemma same_lettered_head c d : same_letter c d -> lettered d = true ->
  lettered c = true /\ (is_alnum d = true -> is_alnum c = true) /\ is_space c = false /\ (c = 46 \/ is_alnum c = true).
Proof.
  unfold same_letter, lettered, is_alnum, is_alpha, is_upper, is_lower, is_digit, is_space.
  rewrite !orb_true_iff, !andb_true_iff, !Z.leb_le, !Z.eqb_eq, orb_false_iff, andb_false_iff, Z.eqb_neq, !Z.leb_gt. lia.
Qed.
Lemma lettered_cstring w : forallb lettered w = true -> cstring w.
Proof.
  intros H. apply Forall_forall. intros c I. pose proof (proj1 (forallb_forall _ _) H c I) as L. cbn beta in L.
  unfold lettered, is_alnum, is_alpha, is_upper, is_lower, is_digit in L. rewrite !orb_true_iff, !andb_true_iff, !Z.leb_le, !Z.eqb_eq in L. lia.
Qed.

Lemma word_line {O} (common own : list (string * option_of O)) special impl o p man w m name indent gap t symbol function addr :
  In p assemblers -> In (as_name p, man) manuals -> In (w, m) (m_words man) -> same_name name (s2l w) ->
  blanks indent -> blanks gap -> (gap <> [] \/ t = []) ->
  m_big man = as_big p /\ m_unit man = as_unit p /\ m_bits man = as_aw p /\
  encode_line (as_asm p symbol function) (as_specials p) (as_tables p) common own special impl addr (indent ++ name ++ gap ++ t) (new_insn addr) o =
  bind (run_directive (as_asm p symbol function) common own (directive_of m) (mkDS addr (skipSpaces t) (new_insn addr)) o)
    (fun '(s, o) => Val (ds_insn s, ds_loc s, o)).
Proof.
  intros I IM IW SN BI BG NG.
  pose proof (proj1 (forallb_forall _ _) rows_ok p I) as R. unfold row_ok in R. rewrite !andb_true_iff in R. destruct R as (((AL & SP) & CS) & MN).
  pose proof (proj1 (forallb_forall _ _) MN (as_name p, man) IM) as M. cbn beta iota in M. rewrite String.eqb_refl in M. cbn [negb orb] in M.
  rewrite !andb_true_iff in M. destruct M as (((MB & MU) & MW) & WS). apply eqb_prop in MB. apply Z.eqb_eq in MU. apply Z.eqb_eq in MW.
  split; [exact MB|]. split; [exact MU|]. split; [exact MW|].
  pose proof (proj1 (forallb_forall _ _) WS (w, m) IW) as K. unfold word_ok in K. cbn [fst snd] in K.
  rewrite !andb_true_iff in K. destruct K as ((((((WI & WL) & L1) & L11) & HD) & NS) & RW).
  apply Nat.leb_le in L1. apply Nat.leb_le in L11.
  pose proof (lettered_cstring _ WL) as CW.
  assert (WN : insn_word (p_symbol (as_pl p)) name = true).
  { apply (same_lettered name (s2l w)); [exact SN| |exact WI]. intros c A. exact (proj1 (forallb_forall _ _) AL c (alpha_52 c A)). }
  pose proof (same_name_length _ _ SN) as LN.
  destruct name as [|c nm]; [cbn in LN; lia|].
  assert (HC : is_space c = false /\ p_line (as_pl p) ((c :: nm) ++ gap ++ t) = (false, (c :: nm) ++ gap ++ t)).
  { remember (s2l w) as ww eqn:Eww. destruct ww as [|d ww]; [cbn in L1; lia|]. inversion SN as [|? ? ? ? C S2]; subst.
    cbn [forallb] in WL. apply andb_true_iff in WL. destruct WL as [WL _]. destruct (same_lettered_head c d C WL) as (_ & A1 & S & A2).
    split; [exact S|]. cbn [app]. apply line_head; [exact I|]. destruct A2 as [A2|A2]; [|left; exact A2]. subst c.
    right. split; [reflexivity|]. cbn [peek] in HD. apply orb_true_iff in HD. destruct HD as [HD|HD]; [now apply A1 in HD|].
    apply negb_true_iff, String.eqb_neq in HD. exact HD. }
  destruct HC as [HS HL].
  assert (NL : y_insn_letter (p_symbol (as_pl p)) (peek (gap ++ t)) = false).
  { apply negb_true_iff. apply (proj1 (forallb_forall _ _) SP). destruct gap as [|g gap].
    - destruct NG as [NG| ->]; [contradiction|]. cbn. auto.
    - inversion BG as [|? ? G1 G2]; subst. exact (space_6 g G1). }
  unfold encode_line, asm_encode. change (a_pl (as_asm p symbol function)) with (as_pl p).
  rewrite skip_blanks by exact BI. cbn [app]. rewrite skip_none by exact HS. cbn [app] in HL. rewrite HL.
  unfold readInstruction. change (c :: nm ++ gap ++ t) with ((c :: nm) ++ gap ++ t).
  rewrite insn_letters_app; [|exact WN|exact NL].
  unfold insn_name. rewrite firstn_all2 by (rewrite LN; exact L11).
  rewrite (no_special (c :: nm) (s2l w) (as_specials p) CW SN);
    [|apply Forall_forall; intros x Ix; apply P_TableData.cstringb_spec; exact (proj1 (forallb_forall _ _) CS x Ix)|exact NS].
  rewrite (same_pseudo p (c :: nm) (s2l w) I CW SN). unfold word_row in RW.
  destruct (pseudo_search (s2l w) (as_tables p) 0) as [[[tn k]|]| | | |]; try discriminate. cbn [bind].
  destruct (directive_at (as_tables p) tn k) as [d|]; [|discriminate]. apply directive_eqb_eq in RW. subst d.
  rewrite skip_blanks by exact BG. reflexivity.
Qed.

(* ------------------------------------------------------------ operands *)
Lemma data_skip f cx str its t : In f data_families -> data_text f cx str its t -> data_text f cx str its (skipSpaces t).
Proof.
  intros I D. inversion D as [i b s rest B IT LE|i l b s rest B IT DT]; subst;
    destruct (item_head _ _ _ _ _ _ I IT) as (_ & h & q & -> & S); rewrite skip_blanks by exact B; rewrite skip_none by exact S.
  - exact (DT_last f cx str i [] (h :: q) rest (Forall_nil _) IT LE).
  - exact (DT_more f cx str i l [] (h :: q) rest (Forall_nil _) IT DT).
Qed.
Lemma delimited_skip ls t : delimited_text ls t -> delimited_text ls (skipSpaces t).
Proof.
  intros D. inversion D as [b b' d l rest B B' (D0 & DS) L LE|b b' d l ls' rest B B' (D0 & DS) L DT]; subst;
    rewrite skip_blanks by exact B; rewrite skip_none by exact DS.
  - apply (DL_last [] b' d l rest); trivial; [constructor|now split].
  - apply (DL_more [] b' d l ls' rest); trivial; [constructor|now split].
Qed.
(* one constant up to the end of the line *)
Lemma const_operand f a loc i n t : In f data_families -> a_pl a = fam_pl f -> a_radix a = 10 ->
  data_text f (mkC loc (a_symbol a) (a_function a) 0) false [IConst n] t ->
  exists p, operand a (mkDS loc (skipSpaces t) i) n p.
Proof.
  intros I AP RX D. inversion D as [it b s rest B IT LE|it l b s rest B IT DT]; subst; [|inversion DT].
  destruct (item_head _ _ _ _ _ _ I IT) as (_ & h & q & Es & S).
  rewrite skip_blanks by exact B. rewrite Es, skip_none by exact S. rewrite <- Es.
  inversion IT as [x v t rest' DV W V1 V2 VO IV Q1 Q2|]; subst.
  assert (EN : ends (mkC loc (a_symbol a) (a_function a) 0) rest) by (destruct rest as [|c rest]; [exact Logic.I|]; cbn in LE |- *; auto).
  pose proof (C18_exact f (mkC loc (a_symbol a) (a_function a) 0) x [] (h :: q) rest (data_tree f I) (or_introl eq_refl) (Forall_nil _) DV W EN V1 V2) as X. rewrite VO in X.
  destruct X as (b2 & B2 & X). cbn [app] in X. exists (b2 ++ rest), v.
  split; [|split; [exact IV|reflexivity]].
  unfold parseExpr. cbn [ds_loc ds_scan]. rewrite AP, RX, X. reflexivity.
Qed.
Lemma rows_bits p : In p assemblers -> 1 <= as_aw p <= 32 /\ (as_unit p = 1 \/ as_unit p = 2).
Proof. intros I. unfold assemblers in I. cbn [In] in I. repeat (destruct I as [<-|I]; [cbn [as_aw as_unit]; lia|]). contradiction. Qed.

Section lines.
Context {O : Type} (common own : list (string * option_of O)) (special : nat -> dstate -> O -> res (dstate * O))
  (impl : text -> text -> insn -> res (insn * text)) (o : O) (p : assembler) (man : manual) (f : family).
Context (symbol : text -> option value) (function : text -> option functor) (addr : Z) (indent name gap t : text).
Hypothesis (Ip : In p assemblers) (Im : In (as_name p, man) manuals) (If : In f data_families) (Fp : fam_pl f = as_pl p).
Hypothesis (BI : blanks indent) (BG : blanks gap) (NG : gap <> [] \/ t = []) (A0 : 0 <= addr).
Let line := encode_line (as_asm p symbol function) (as_specials p) (as_tables p) common own special impl addr (indent ++ name ++ gap ++ t) (new_insn addr) o.

Lemma data_line w ty even its : In (w, Data ty even) (m_words man) -> same_name name (s2l w) -> integer_type ty = true ->
  space_start even addr < 2^32 -> total_functions (mkC (space_start even addr) symbol function 0) ->
  data_text f (mkC (space_start even addr) symbol function 0) (has_string ty) its t ->
  let all := flat_map (item_bytes (m_big man) (m_unit man) ty) its in
  exists i, line = Val (i, space_start even addr, o) /\ i_addr i = space_start even addr /\ i_code i = firstn 64 all /\
    i_err i = (if Z.of_nat (length all) <=? 64 then OK else NO_MEMORY).
Proof.
  intros IW SN TY AB TF D. destruct (word_line common own special impl o p man w _ name indent gap t symbol function addr Ip Im IW SN BI BG NG) as (MB & MU & MW & E).
  subst line. rewrite E. cbn [directive_of run_directive].
  set (s := mkDS addr (skipSpaces t) (new_insn addr)).
  assert (DL : data_loc even s = space_start even addr) by (unfold data_loc, data_start, s; cbn; destruct even; reflexivity).
  destruct (C33_lists f (as_asm p symbol function) ty even s its If) as (s' & E' & C1 & C2 & C3 & C4 & _).
  - symmetry. exact Fp.
  - reflexivity.
  - exact (proj2 (rows_bits p Ip)).
  - exact TY.
  - rewrite DL. exact TF.
  - exact (sound_new addr).
  - reflexivity.
  - exact A0.
  - exact AB.
  - rewrite DL. exact (data_skip _ _ _ _ _ If D).
  - rewrite E'. cbn [bind]. rewrite MB, MU. exists (ds_insn s'). rewrite C4, DL. split; [reflexivity|]. split; [exact C3|].
    split; [exact C1|exact C2].
Qed.
Lemma string_line w ls : In (w, Strings) (m_words man) -> same_name name (s2l w) -> delimited_text ls t ->
  let all := map (fun c => c mod 256) (concat ls) in
  exists i, line = Val (i, addr, o) /\ i_addr i = addr /\ i_code i = firstn 64 all /\ i_err i = (if Z.of_nat (length all) <=? 64 then OK else NO_MEMORY).
Proof.
  intros IW SN D. destruct (word_line common own special impl o p man w _ name indent gap t symbol function addr Ip Im IW SN BI BG NG) as (MB & MU & MW & E).
  subst line. rewrite E. cbn [directive_of run_directive].
  destruct (C33_delimited (mkDS addr (skipSpaces t) (new_insn addr)) ls (sound_new addr) eq_refl (delimited_skip _ _ D)) as (s' & E' & C1 & C2 & C3 & C4 & _).
  rewrite E'. cbn [bind]. exists (ds_insn s'). rewrite C4. split; [reflexivity|]. split; [exact C3|]. split; [exact C1|exact C2].
Qed.
Lemma space_line w ty even n to : In (w, Space ty even) (m_words man) -> same_name name (s2l w) -> 0 <= n < 2^16 ->
  data_text f (mkC addr symbol function 0) false [IConst n] t ->
  to = space_start even addr + n * space_unit ty / m_unit man -> to < 2^32 ->
  exists i, line = Val (i, to, o) /\ i_addr i = space_start even addr /\ i_code i = [] /\ i_err i = checkAddr (m_bits man) to even.
Proof.
  intros IW SN N D T TB. destruct (word_line common own special impl o p man w _ name indent gap t symbol function addr Ip Im IW SN BI BG NG) as (MB & MU & MW & E).
  subst line. rewrite E. cbn [directive_of run_directive].
  destruct (const_operand f (as_asm p symbol function) addr (new_insn addr) n t If (eq_sym Fp) eq_refl D) as (q & OP).
  destruct (rows_bits p Ip) as [W U].
  destruct (C34_space (as_asm p symbol function) ty even (mkDS addr (skipSpaces t) (new_insn addr)) n q to W U N OP eq_refl A0) as (s' & E' & C1 & C2 & C3 & _ & C5);
    [rewrite T, MU; reflexivity|exact TB|].
  rewrite E'. cbn [bind]. exists (ds_insn s'). rewrite C1. split; [reflexivity|]. split; [exact C2|]. split; [exact C3|rewrite MW; exact C5].
Qed.
Lemma origin_line w n : In (w, Origin) (m_words man) -> same_name name (s2l w) -> 0 <= n < 2^(m_bits man) ->
  data_text f (mkC addr symbol function 0) false [IConst n] t ->
  exists i, line = Val (i, n, o) /\ i_addr i = n /\ i_code i = [] /\ i_err i = OK.
Proof.
  intros IW SN N D. destruct (word_line common own special impl o p man w _ name indent gap t symbol function addr Ip Im IW SN BI BG NG) as (MB & MU & MW & E).
  subst line. rewrite E. cbn [directive_of run_directive].
  destruct (const_operand f (as_asm p symbol function) addr (new_insn addr) n t If (eq_sym Fp) eq_refl D) as (q & OP).
  destruct (rows_bits p Ip) as [W U]. rewrite MW in N.
  destruct (C34_org (as_asm p symbol function) (mkDS addr (skipSpaces t) (new_insn addr)) n q W N OP eq_refl) as (s' & E' & C1 & C2 & C3 & _ & C5).
  rewrite E'. cbn [bind]. exists (ds_insn s'). rewrite C1. auto.
Qed.
Lemma origin_refused w n : In (w, Origin) (m_words man) -> same_name name (s2l w) -> 2^(m_bits man) <= n < 2^32 ->
  data_text f (mkC addr symbol function 0) false [IConst n] t ->
  exists i loc, line = Val (i, loc, o) /\ i_addr i = addr /\ i_err i = OVERFLOW_RANGE.
Proof.
  intros IW SN N D. destruct (word_line common own special impl o p man w _ name indent gap t symbol function addr Ip Im IW SN BI BG NG) as (MB & MU & MW & E).
  subst line. rewrite E. cbn [directive_of run_directive].
  destruct (const_operand f (as_asm p symbol function) addr (new_insn addr) n t If (eq_sym Fp) eq_refl D) as (q & OP).
  destruct (rows_bits p Ip) as [W U]. rewrite MW in N.
  destruct (C34_org_range (as_asm p symbol function) (mkDS addr (skipSpaces t) (new_insn addr)) n q W (or_introl N) OP eq_refl) as (s' & E' & C1 & C2).
  rewrite E'. cbn [bind]. exists (ds_insn s'), (ds_loc s'). auto.
Qed.
Lemma align_err a st s e s' : alignOrigin a st s = Val (e, s') -> i_err (ds_insn s') = e.
Proof.
  assert (T : forall n s e s', align_to a n s = Val (e, s') -> i_err (ds_insn s') = e).
  { intros n s0 e1 s1. unfold align_to. destruct (i_align n (ds_insn s0)); [|discriminate].
    unfold setCurrentLocation. intros H. injection H as <- <-. reflexivity. }
  unfold alignOrigin. destruct (st =? ALIGN_ODD).
  - unfold setCurrentLocation. intros H. injection H as <- <-. reflexivity.
  - destruct (st =? ALIGN_VAR); [|apply T]. destruct (parseExpr a s 0) as [[[v ee] q]| | | |]; try discriminate. cbn [bind].
    destruct (negb (isOK ee)); [intros H; injection H as <- <-; reflexivity|].
    destruct (overflow v 255 0); [intros H; injection H as <- <-; reflexivity|apply T].
Qed.
Lemma align_line w n m : In (w, Align) (m_words man) -> same_name name (s2l w) -> 1 <= n <= 255 ->
  data_text f (mkC addr symbol function 0) false [IConst n] t -> least_multiple n addr m -> m < 2^32 ->
  exists i, line = Val (i, m, o) /\ i_addr i = m /\ i_code i = [] /\ i_err i = (if m <? 2^(m_bits man) then OK else OVERFLOW_RANGE).
Proof.
  intros IW SN N D LM MB32. destruct (word_line common own special impl o p man w _ name indent gap t symbol function addr Ip Im IW SN BI BG NG) as (MB & MU & MW & E).
  subst line. rewrite E. cbn [directive_of run_directive].
  destruct (const_operand f (as_asm p symbol function) addr (new_insn addr) n t If (eq_sym Fp) eq_refl D) as (q & OP).
  destruct (rows_bits p Ip) as [W U]. rewrite MW.
  destruct (C32_var (as_asm p symbol function) (mkDS addr (skipSpaces t) (new_insn addr)) n q m W N OP A0 eq_refl LM MB32) as (s' & E' & C1 & C2 & C3 & _).
  rewrite E'. cbn [bind]. exists (ds_insn s'). rewrite C1. split; [reflexivity|]. split; [exact C2|]. split; [exact C3|exact (align_err _ _ _ _ _ E')].
Qed.
Lemma even_line w m : In (w, Even) (m_words man) -> same_name name (s2l w) -> least_multiple 2 addr m -> m < 2^32 ->
  exists i, line = Val (i, m, o) /\ i_addr i = m /\ i_code i = [] /\ i_err i = (if m <? 2^(m_bits man) then OK else OVERFLOW_RANGE).
Proof.
  intros IW SN LM MB32. destruct (word_line common own special impl o p man w _ name indent gap t symbol function addr Ip Im IW SN BI BG NG) as (MB & MU & MW & E).
  subst line. rewrite E. cbn [directive_of run_directive].
  destruct (rows_bits p Ip) as [W U]. rewrite MW.
  destruct (C32_even (as_asm p symbol function) (mkDS addr (skipSpaces t) (new_insn addr)) m W A0 eq_refl LM MB32) as (s' & E' & C1 & C2 & C3 & _).
  rewrite E'. cbn [bind]. exists (ds_insn s'). rewrite C1. split; [reflexivity|]. split; [exact C2|]. split; [exact C3|exact (align_err _ _ _ _ _ E')].
Qed.
End lines.

Lemma every_assembler p : In p assemblers ->
  (exists man, In (as_name p, man) manuals) /\ (exists f, In f data_families /\ fam_pl f = as_pl p).
Proof.
  intros I. split.
  - assert (K : forallb (fun p => existsb (fun m => String.eqb (fst m) (as_name p)) manuals) assemblers = true) by (vm_compute; reflexivity).
    pose proof (proj1 (forallb_forall _ _) K p I) as E. cbn beta in E. apply existsb_exists in E. destruct E as ((n & m) & Im & E).
    apply String.eqb_eq in E. cbn [fst] in E. subst n. now exists m.
  - assert (In (as_pl p) (map fam_pl data_families)) as H.
    { unfold assemblers in I. cbn [In] in I. unfold data_families, tree_families. cbn [firstn skipn app map fam_pl].
      repeat (destruct I as [<-|I]; [cbn [as_pl In]; tauto|]). contradiction. }
    apply in_map_iff in H. destruct H as (f & E & H). now exists f.
Qed.
