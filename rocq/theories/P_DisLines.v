(** The lines of a disassembly that are not instructions, read by the assembler of the same processor. *)
From Coq Require Import String ZArith List Bool Lia.
From Verif Require Import M_Char M_Error M_Value M_Text M_StrBuffer M_Format M_Number M_Insn M_Config M_Operators M_BinMemory M_Listing
  M_Parsers M_Expr M_Directive M_Table T_Tables M_Asm M_Dis M_Symbols M_Sources M_AsmLine M_AsmDriver M_AsmRows M_DisDriver M_DisI8080 M_DisCpus
  S_Value S_Number S_Expr S_ExprTree S_Table S_Directive S_Data S_DisLines
  P_StrBuffer P_Room P_Number P_NumberRead P_ExprRead P_ExprTree P_Config P_AsmText P_CpuShape P_DataLine P_Reassemble P_Directive.
From Verif Require P_Value M_Mos6502 M_Mos6502Defs P_I8080 P_Mc6800 P_F3850 P_Z80 P_Mos6502 P_Cdp1802 P_I8051 P_I8048 P_Tms32010.
Import ListNotations.
Open Scope string_scope.
Open Scope list_scope.
Local Open Scope Z_scope.

(* ------------------------------------------------------------ what is written stays *)
Definition ext (b b' : sbuf) : Prop := exists s, b_txt b' = b_txt b ++ s.
Lemma ext_refl b : ext b b.
Proof. exists []. now rewrite app_nil_r. Qed.
Lemma ext_trans a b c : ext a b -> ext b c -> ext a c.
Proof. intros (s & S) (t & T). exists (s ++ t). now rewrite T, S, app_assoc. Qed.
Lemma ext_rletter c b : ext b (rletter c b).
Proof. unfold rletter. destruct (_ <? _); [now exists [c]|exists []; cbn; now rewrite app_nil_r]. Qed.
Lemma ext_letter c b : ext b (letter c b).
Proof. apply ext_rletter. Qed.
Lemma ext_text t : forall b, ext b (out_text t b).
Proof. induction t as [|c t IH]; intros b; [apply ext_refl|]. eapply ext_trans; [apply (ext_letter c)|apply IH]. Qed.
Lemma ext_rtext t : forall b, ext b (out_rtext t b).
Proof. induction t as [|c t IH]; intros b; [apply ext_refl|]. eapply ext_trans; [apply (ext_rletter c)|apply IH]. Qed.
Lemma ext_reverse b b' : ext b b' -> ext b (reverse (b_mark b) b').
Proof.
  intros (s & T). unfold reverse. destruct (_ <? _); [exists s; exact T|]. cbv zeta. exists (rev s). cbn [b_txt].
  unfold b_mark. rewrite Nat2Z.id, T, firstn_app, skipn_app, firstn_all, skipn_all, Nat.sub_diag. cbn. now rewrite app_nil_r.
Qed.
Lemma ext_digits fuel r : forall v b, ext b (digit_loop fuel r v b).
Proof.
  induction fuel as [|fuel IH]; intros v b; cbn [digit_loop]; [apply ext_refl|].
  match goal with |- context [if ?c then _ else _] => destruct c end; try apply ext_refl;
    (eapply ext_trans; [apply ext_letter|apply IH]).
Qed.
Lemma ext_fill fuel start n : forall b, ext b (fill_loop fuel start n b).
Proof. induction fuel as [|fuel IH]; intros b; cbn [fill_loop]; [apply ext_refl|]. destruct (_ && _); [eapply ext_trans; [apply ext_letter|apply IH]|apply ext_refl]. Qed.
Lemma ext_hex v w b : ext b (HexFormatter v w b).
Proof. apply ext_reverse. unfold outHex. eapply ext_trans; [apply ext_digits|apply ext_fill]. Qed.
Lemma ext_oct v w b : ext b (OctFormatter v w b).
Proof. apply ext_reverse. unfold outOct. eapply ext_trans; [apply ext_digits|apply ext_fill]. Qed.
Lemma ext_signed f v bits b : (forall v w b, ext b (f v w b)) -> ext b (format_signed f v bits b).
Proof. intros F. unfold format_signed. destruct (absolute v bits) as [neg a]. eapply ext_trans; [|apply F]. destruct neg; [apply ext_letter|apply ext_refl]. Qed.
Lemma ext_value o v bits width z out : ext out (formatValue o v bits width z out).
Proof.
  unfold formatValue. cbv zeta. set (b1 := if 0 <? width then _ else out).
  assert (E1 : ext out b1) by (subst b1; destruct (0 <? width); [apply ext_text|apply ext_refl]).
  eapply ext_trans; [exact E1|]. clearbody b1. clear E1 out.
  set (b2 := if lo_octal o then _ else _).
  assert (E2 : ext b1 b2).
  { subst b2. destruct (lo_octal o); [apply ext_signed, ext_oct|].
    destruct (ext_signed (f_hex fp_default) v (if bits =? 0 then calcBits v else bits) (case_buf (lo_upper o) b1) ext_hex) as (s & S). exists s. exact S. }
  clearbody b2. destruct (width <? 0); [|exact E2]. eapply ext_trans; [|apply ext_text]. destruct E2 as (s & S).
  eexists. cbn [b_txt]. rewrite S, firstn_app, firstn_all, Nat.sub_diag. cbn [firstn]. rewrite app_nil_r. reflexivity.
Qed.
Lemma ext_bytes fuel c o i offset : forall pos len out out' n, bytes_loop fuel c o i offset pos len out = Val (out', n) -> ext out out'.
Proof.
  induction fuel as [|fuel IH]; intros pos len out out' n H; cbn [bytes_loop] in H; [injection H as <- _; apply ext_refl|].
  destruct (_ && _) in H; [|injection H as <- _; apply ext_refl]. cbv zeta in H.
  destruct (getByte i (offset + len)) as [v| | | |]; try discriminate. cbn [bind] in H.
  eapply ext_trans; [apply (ext_letter 32)|].
  repeat match type of H with (if ?b then bytes_loop _ _ _ _ _ _ _ _ else _) = _ => destruct b; [apply IH in H; eapply ext_trans; [apply ext_value|exact H]|] end.
  destruct (getByte i (offset + (len + 1))) as [w| | | |]; try discriminate. cbn [bind] in H. apply IH in H. eapply ext_trans; [apply ext_value|exact H].
Qed.
Lemma ext_tab tab out : ext out (formatTab tab out).
Proof. unfold formatTab, outSpaces. apply ext_text. Qed.
Lemma ext_insn o label name ops out : ext out (formatInsn o label name ops out).
Proof.
  unfold formatInsn. cbv zeta. eapply ext_trans; [apply ext_tab|]. destruct ops as [|c ops]; [apply ext_text|].
  eapply ext_trans; [|apply ext_rtext]. eapply ext_trans; [apply ext_text|]. apply ext_tab.
Qed.
Lemma ext_line o r next out out' n : formatLine o r next out = Val (out', n) -> ext out out'.
Proof.
  unfold formatLine. cbv zeta. destruct (formatBytes _ _ _ _ _) as [[b m]| | | |] eqn:F; try discriminate. cbn [bind]. intros H.
  apply ext_bytes in F. injection H as <- _. eapply ext_trans; [|eapply ext_trans; [exact F|]].
  - unfold formatAddress. eapply ext_trans; [|apply ext_letter]. eapply ext_trans; [|apply ext_letter]. apply ext_value.
  - destruct (_ && _); [|apply ext_refl]. eapply ext_trans; [|apply ext_insn]. apply ext_tab.
Qed.
(* ------------------------------------------------------------ comments *)
Definition commented (o : dops) (l : text) : Prop := exists t, l = b_txt (formatComment o new_out) ++ t.
Lemma error_commented fuel o r : forall next ts, error_lines fuel o r next = Val ts -> Forall (commented o) ts.
Proof.
  induction fuel as [|fuel IH]; intros next ts H; cbn [error_lines] in H; [discriminate|].
  destruct (formatLine o r next (formatComment o new_out)) as [[b m]| | | |] eqn:F; try discriminate. cbn [bind] in H. apply ext_line in F.
  destruct (m <? _).
  - destruct (error_lines fuel o r m) as [us| | | |] eqn:E; try discriminate. cbn [bind] in H. injection H as <-. constructor; [exact F|]. eapply IH, E.
  - injection H as <-. constructor; [exact F|constructor].
Qed.
Lemma piece_commented o pc ts : i_err (r_insn (pc_dec pc)) <> OK -> piece_lines o pc = Val ts -> Forall (commented o) ts.
Proof.
  intros N. unfold piece_lines. destruct (isOK (i_err (r_insn (pc_dec pc)))) eqn:K; [exfalso; apply N; destruct (i_err (r_insn (pc_dec pc))); try discriminate; reflexivity|].
  destruct (error_lines 65 o (pc_dec pc) 0) as [us| | | |] eqn:E; try discriminate. cbn [bind]. intros H. injection H as <-.
  constructor; [apply ext_text|]. eapply error_commented, E.
Qed.
Lemma comment_read name o p l : disassembler name o -> In p assemblers -> as_name p = name -> commented o l -> fst (p_line (as_pl p) l) = true.
Proof.
  intros D I N (t & ->). assert (E : In name ["i8080"; "mc6800"; "f3850"; "z80"; "mos6502"; "w65816"; "cdp1802"; "i8051"; "i8048"; "tms32010"] /\
    b_txt (formatComment o new_out) = if existsb (String.eqb name) ["mc6800"; "f3850"; "tms32010"] then [42; 32] else if String.eqb name "cdp1802" then [46; 46; 32] else [59; 32]).
  { destruct D; (split; [cbn; auto 20|vm_compute; reflexivity]). }
  destruct E as (IN & ->). clear D.
  unfold assemblers in I. cbn [In] in I.
  repeat destruct I as [I|I]; try (destruct I; fail); subst p; cbn [as_name] in N; subst name; cbn [as_pl];
    first [reflexivity|exfalso; cbn in IN; intuition discriminate].
Qed.
Lemma comment_line {O} name o p pc ts l (v : env O) k obj i d src : disassembler name o -> In p assemblers -> as_name p = name ->
  i_err (r_insn (pc_dec pc)) <> OK -> piece_lines o pc = Val ts -> In l ts -> op_pl (e_ops v) obj = as_pl p ->
  dir_encode v k obj l i d src = Val (mkEnc OK OK v_undef i (i_addr i) d src).
Proof.
  intros D I N E H IL PL. pose proof (piece_commented o pc ts E H) as F. rewrite Forall_forall in F. specialize (F l IL).
  unfold dir_encode. cbv zeta. rewrite PL, (comment_read name o p l D I N F). reflexivity.
Qed.

(* ------------------------------------------------------------ the origin *)
Lemma limited_plugin_le k k' p : k <= k' -> limited_plugin k p -> limited_plugin k' p.
Proof. intros L (A & B & C & D). repeat split; eapply limited_le; eauto. Qed.
Lemma motorola_limited : limited_plugin 67 fp_motorola.
Proof.
  split; [|split; [|split]]; cbn [fp_motorola f_dec f_bin f_oct f_hex]; apply (limited_le 65); try lia.
  - apply (limited_le 64); [lia|apply limited_dec].
  - apply (limited_prefix BinFormatter (s2l "%") 64); [now apply printable_text|apply limited_bin].
  - apply (limited_prefix OctFormatter (s2l "@") 64); [now apply printable_text|apply limited_oct].
  - apply (limited_prefix HexFormatter (s2l "$") 64); [now apply printable_text|apply limited_hex].
Qed.
Lemma fairchild_limited : limited_plugin 67 fp_fairchild.
Proof.
  split; [|split; [|split]]; cbn [fp_fairchild f_dec f_bin f_oct f_hex].
  - apply (limited_le 64); [lia|apply limited_dec].
  - apply (limited_surround BinFormatter (s2l "b'") 39 64); [now apply printable_text|unfold printable; lia|apply limited_bin].
  - apply (limited_surround OctFormatter (s2l "o'") 39 64); [now apply printable_text|unfold printable; lia|apply limited_oct].
  - apply (limited_surround HexFormatter (s2l "h'") 39 64); [now apply printable_text|unfold printable; lia|apply limited_hex].
Qed.
Lemma own_limited h loc : limited 67 h -> limited_plugin 67 (M_Format.mkF DecFormatter BinFormatter OctFormatter h loc).
Proof.
  intros H. split; [|split; [|split]]; cbn [f_dec f_bin f_oct f_hex]; [| | |exact H]; apply (limited_le 64); try lia.
  - apply limited_dec. - apply limited_bin. - apply limited_oct.
Qed.
Lemma any_limited d p : da_plug d = p -> limited_plugin 67 p -> limited_plugin 67 (da_formatter d).
Proof.
  intros <- L. unfold da_formatter. destruct (da_cstyle d); [apply (limited_plugin_le 66); [lia|apply cstyle_limited]|].
  destruct (da_intelhex d); [apply (limited_plugin_le 66); [lia|apply intel_limited]|exact L].
Qed.
Lemma abs_text d np a b : da_symtab d = None -> da_reads d np -> 1 <= da_aw d <= 31 -> limited_plugin 67 (da_formatter d) -> 0 <= a < 2 ^ da_aw d ->
  outAbsAddr d a 0 (mkB [] 127 OK None) = Val b -> numeral np (b_txt b) a /\ (length (b_txt b) <= 127)%nat.
Proof.
  intros SY RD AW (L1 & L2 & L3 & L4) A D.
  assert (A32 : 0 <= a < 2^32) by (pose proof (Z.pow_le_mono_r 2 (da_aw d) 32 ltac:(lia) ltac:(lia)); lia).
  assert (AD : adds 68 (mkB [] 127 OK None) b).
  { revert D. unfold outAbsAddr, da_lookup. rewrite SY. cbn [bind]. change (0 =? 0) with true. cbv iota. unfold hex_case.
    destruct (da_octal d); intros D; injection D as <-; eapply adds_over, (format_adds _ 67); auto; lia. }
  destruct AD as (_ & _ & MK & _ & _ & NE). specialize (NE eq_refl ltac:(unfold b_mark; cbn; lia)).
  destruct (outAbs_numeral d np a 0 _ b SY RD A32 ltac:(cbn; lia) D NE) as (_ & t & EB & N).
  change (0 =? 0) with true in N. cbv iota in N. rewrite Z.mod_small in N by lia.
  assert (TT : b_txt b = t) by (rewrite EB; reflexivity). rewrite TT. split; [exact N|]. unfold b_mark in MK. rewrite TT in MK. cbn in MK. lia.
Qed.
Definition fits (o : dops) (p : assembler) : Prop := exists f man, In f tree_families /\ as_pl p = fam_pl f /\
  In (as_name p, man) manuals /\ In ("ORG", Origin) (m_words man) /\
  da_symtab (do_dis o) = None /\ da_reads (do_dis o) (p_number (fam_pl f)) /\ da_aw (do_dis o) = as_aw p /\ 1 <= as_aw p <= 31 /\
  limited_plugin 67 (da_formatter (do_dis o)) /\ do_nameMax o <= 20 /\
  (forall u n, numeral (p_number (fam_pl f)) u n -> is_digit (peek u) = true \/ In (peek u) (fam_leads f)).
Lemma case_name uc : same_name (case_text uc (s2l "ORG")) (s2l "ORG").
Proof. unfold same_name. destruct uc; cbn; repeat constructor; cbn; auto; unfold same_letter; cbn; lia. Qed.
Lemma set_unsigned_64 a : 0 <= a < 2^32 -> int_value (mkV V_UNSIGNED a) /\ int_of (mkV V_UNSIGNED a) = a.
Proof. intros A. pose proof (P_Value.setU_ok2 a ltac:(lia)) as X. unfold setU, u64 in X. rewrite Z.mod_small in X by lia. exact X. Qed.
Lemma lead_nospace f : In f tree_families -> forallb (fun c => negb (is_space c)) (fam_leads f) = true.
Proof. intros I. assert (H : forallb (fun f => forallb (fun c => negb (is_space c)) (fam_leads f)) tree_families = true) by reflexivity. rewrite forallb_forall in H. now apply H. Qed.
Lemma origin_fits {O} (common own : list (string * option_of O)) special impl obj o p symbol function addr a l : In p assemblers -> fits o p ->
  0 <= a < 2 ^ as_aw p -> 0 <= addr -> total_functions (mkC addr symbol function 0) -> org_line o a = Val l ->
  exists i, encode_line (as_asm p symbol function) (as_specials p) (as_tables p) common own special impl addr l (new_insn addr) obj = Val (i, a, obj) /\
    i_addr i = a /\ i_code i = [] /\ i_err i = OK.
Proof.
  intros I (f & man & If & FP & Im & IW & SY & RD & AWE & AW & LIM & NM & HD) A AD TF H.
  assert (A32 : 0 <= a < 2^32) by (pose proof (Z.pow_le_mono_r 2 (as_aw p) 32 ltac:(lia) ltac:(lia)); lia).
  unfold org_line in H. rewrite checkAddr_false in H by lia. rewrite AWE in H. replace (2 ^ as_aw p <=? a) with false in H by lia. cbn [andb] in H.
  change (isOK OK) with true in H. cbn [negb] in H.
  destruct (outAbsAddr (do_dis o) a 0 (mkB [] 127 OK None)) as [b| | | |] eqn:D; try discriminate. cbn [bind] in H.
  destruct (abs_text _ _ a b SY RD ltac:(lia) LIM ltac:(rewrite AWE; exact A) D) as (N & LT).
  set (t := b_txt b) in *. set (uc := da_uppercase (do_dis o)). set (nm := case_text uc (s2l "ORG")).
  destruct (insn_line_text o nm t) as (k & K & LL); [subst nm; destruct uc; discriminate|exact NM|subst nm; destruct uc; cbn; lia|exact LT|].
  assert (HT := HD _ _ N).
  assert (NT : t <> []).
  { intros E. rewrite E in HT. cbn [peek] in HT. destruct HT as [HT|HT]; [discriminate|]. revert If HT. clear.
    intros If HT. unfold tree_families in If. cbn [In] in If. repeat destruct If as [<-|If]; cbn in HT; intuition discriminate. }
  assert (SP : spaced t k = repeat 32 k ++ t) by (unfold spaced; destruct t; [congruence|reflexivity]). rewrite SP in LL.
  change (Val (insn_line o nm t) = Val l) in H. rewrite LL in H.
  pose proof (f_equal (fun r => match r with Val x => x | _ => [] end) H) as X. cbv beta iota in X. subst l. clear H.
  destruct (word_line common own special impl obj p man "ORG" Origin nm (repeat 32 6) (repeat 32 k) t symbol function addr I Im IW) as (_ & _ & MW & E).
  { apply case_name. } { apply blanks_repeat. } { apply blanks_repeat. } { left. destruct k; [lia|discriminate]. }
  rewrite E. cbn [directive_of run_directive].
  assert (ST : skipSpaces t = t).
  { destruct t as [|c t']; [reflexivity|]. apply skip_none. cbn [peek] in HT. destruct HT as [HT|HT].
    - unfold is_digit in HT. unfold is_space. lia.
    - pose proof (lead_nospace f If) as LS. rewrite forallb_forall in LS. specialize (LS c HT). now apply negb_true_iff. }
  rewrite ST.
  assert (OP : exists q, operand (as_asm p symbol function) (mkDS addr t (new_insn addr)) a q).
  { destruct (parse_numeral f (as_asm p symbol function) addr 0 [] t a [] []) as (b' & _ & PE);
      [exact If|exact FP|reflexivity|cbn; auto|intros n g G; exact (TF n g G)|exact HT|exact N|constructor|constructor|now left|].
    rewrite !app_nil_r in PE. cbn [app] in PE. exists b', (mkV V_UNSIGNED a). split; [exact PE|]. apply (set_unsigned_64 a). lia. }
  destruct OP as (q & OP).
  destruct (rows_bits p I) as [W U].
  destruct (C34_org (as_asm p symbol function) (mkDS addr t (new_insn addr)) a q W A OP eq_refl) as (s' & E' & C1 & C2 & C3 & _ & C5).
  rewrite E'. cbn [bind]. exists (ds_insn s'). rewrite C1. auto.
Qed.

Lemma manual_in n : (n <? length manuals)%nat = true -> In (nth n manuals ("", mkMan true 0 0 [])) manuals.
Proof. intros L. apply nth_In, Nat.ltb_lt, L. Qed.
Ltac pick I N := unfold assemblers in I; cbn [In] in I;
  repeat destruct I as [I|I]; try (destruct I; fail); subst; cbn [as_name] in N; try discriminate N.
(* the family [fam], the place [n] of the manual, the proofs that the numbers are read, that they are
   short and that they begin like numbers *)
Ltac row fam n reads short heads :=
  eexists fam, _; split; [cbn; auto 30|]; split; [reflexivity|]; split; [exact (manual_in n eq_refl)|];
  split; [cbn; auto 20|]; split; [reflexivity|]; split; [exact reads|]; split; [first [reflexivity|assumption]|]; split; [cbn; lia|];
  split; [eapply any_limited; [reflexivity|exact short]|]; split; [cbn; lia|]; exact heads.
Lemma intel_67 : limited_plugin 67 fp_intel.
Proof. apply (limited_plugin_le 66); [lia|apply intel_limited]. Qed.
Lemma cdp_67 : limited_plugin 67 fp_cdp1802.
Proof. apply own_limited. apply (limited_surround HexFormatter (s2l "x'") 39 64); [now apply printable_text|unfold printable; lia|apply limited_hex]. Qed.
Lemma mos_67 : limited_plugin 67 fp_mos6502.
Proof. apply own_limited. apply (limited_le 65); [lia|]. apply (limited_prefix HexFormatter (s2l "$") 64); [now apply printable_text|apply limited_hex]. Qed.
Lemma tms_67 : limited_plugin 67 fp_tms32010.
Proof. apply own_limited. apply (limited_le 66); [lia|]. apply (limited_suffixhex 104). unfold printable; lia. Qed.
Lemma rows name o p : disassembler name o -> octal_notation name o -> In p assemblers -> as_name p = name -> fits o p.
Proof.
  assert (B : forall cs ih, cs = true \/ ih = true -> cs || ih = true) by (intros [|] [|]; intuition).
  intros D OC I N. destruct D; unfold octal_notation in OC; cbn [do_dis da_octal da_cstyle da_intelhex] in OC; pick I N.
  - row (mkFam pl_i8080 prefix_intel infix_intel []) 4%nat (proj1 (proj2 (P_I8080.i8080_reads uh uc oc rel cs ih cur))) intel_67
      (fun u n X => or_introl (In (peek u) []) (P_I8080.numeral_digit u n X)).
  - row (mkFam pl_motorola prefix_c infix_motorola (s2l "$%@&")) 9%nat
      (proj1 (proj2 (P_Mc6800.mc6800_reads uh uc oc false cs ih cur ltac:(discriminate)))) motorola_limited P_Mc6800.head68.
  - row (mkFam pl_f3850 prefix_c infix_c (s2l "$HhBbOoDd")) 1%nat
      (proj1 (proj2 (P_F3850.f3850_reads uh uc oc false cs ih cur ltac:(discriminate)))) fairchild_limited P_F3850.head_f8.
  - row (mkFam pl_z80 prefix_zilog infix_zilog []) 26%nat
      (proj1 (proj2 (P_Z80.z80_reads uh uc oc false cs ih cur ltac:(discriminate)))) intel_67 P_Z80.head_z.
  - assert (OC' : oc = true -> cs = true \/ ih = true) by (intros E; destruct (OC E) as [X|X]; [cbn in X; intuition discriminate|exact X]).
    assert (AW : M_Mos6502.addressWidth ty = 16) by (unfold M_Mos6502.addressWidth, M_Mos6502.bankModel; destruct (Z.eqb_spec ty M_Mos6502Defs.W65C816); [congruence|reflexivity]).
    row (mkFam pl_mos6502 prefix_c infix_c (s2l "$%@&")) 15%nat
      (proj1 (proj2 (P_Mos6502.mos6502_reads ty uh uc oc false cs ih cur ltac:(discriminate) OC'))) mos_67 P_Mc6800.head68.
  - assert (OC' : oc = true -> cs = true \/ ih = true) by (intros E; destruct (OC E) as [X|X]; [cbn in X; intuition discriminate|exact X]).
    row (mkFam pl_mos6502 prefix_c infix_c (s2l "$%@&")) 16%nat
      (proj1 (proj2 (P_Mos6502.mos6502_reads M_Mos6502Defs.W65C816 uh uc oc false cs ih cur ltac:(discriminate) OC'))) mos_67 P_Mc6800.head68.
  - assert (OC' : oc = true -> cs || ih = true) by (intros E; apply B; destruct (OC E) as [X|X]; [cbn in X; intuition discriminate|exact X]).
    row (mkFam pl_cdp1802 prefix_c infix_c (s2l "#XxBbDd")) 0%nat
      (proj1 (proj2 (P_Cdp1802.cdp1802_reads uh uc oc false cs ih cur OC'))) cdp_67 P_Cdp1802.head_rca.
  - row (mkFam pl_intel prefix_intel infix_intel []) 3%nat
      (proj1 (proj2 (P_I8051.i8051_reads uh uc oc false cs ih cur ltac:(discriminate)))) intel_67 P_I8051.head_51.
  - row (mkFam pl_intel prefix_intel infix_intel []) 2%nat
      (proj1 (proj2 (P_I8048.i8048_reads uh uc oc false cs ih cur))) intel_67 P_I8048.head_48.
  - assert (OC' : oc = true -> cs || ih = true) by (intros E; apply B; destruct (OC E) as [X|X]; [cbn in X; intuition discriminate|exact X]).
    row (mkFam pl_tms32010 prefix_c infix_c []) 20%nat
      (proj1 (proj2 (P_Tms32010.tms32010_reads uh uc oc false cs ih cur OC'))) tms_67 P_Tms32010.head_tms.
Qed.
