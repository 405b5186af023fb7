(** Facts shared by the proofs that what an assembler emits is an instruction of the disassembler.
    [fine n k f]: with [n] bytes of memory and room for [k] letters the part [f] of a disassembler
    takes exactly those bytes and meets no error. *)
From Coq Require Import String ZArith List Bool Lia ZifyBool.
From Verif Require Import M_Char M_Error M_Value M_Text M_StrBuffer M_Format M_Number M_Insn M_Config M_Operators
  M_Parsers M_Expr M_Directive M_Table M_Asm M_Dis P_StrBuffer P_Table P_Insn P_Config P_Room P_AsmText P_CpuShape P_CpuText P_CpuGood P_CpuRange.
Import ListNotations.
Open Scope string_scope.
Open Scope list_scope.
Local Open Scope Z_scope.

(* ------------------------------------------------------------ numbers of up to 16 bits are short *)
Definition brief (k : Z) (f : formatter) : Prop := forall v w b, 0 <= v < 65536 -> 0 <= w <= 16 -> adds k b (f v w b).
Lemma brief_le k k' f : k <= k' -> brief k f -> brief k' f.
Proof. intros L F v w b V W. eapply adds_le; [exact L|]. now apply F. Qed.
Lemma brief_digits r v b : 2 <= r <= 16 -> 0 <= v < 65536 -> adds 16 b (out_digits r v b).
Proof.
  intros R V. unfold out_digits. apply (adds_le (Z.of_nat (S (Z.to_nat (Z.log2 v))))); [|now apply adds_digits].
  pose proof (Z.log2_nonneg v). destruct (Z.eq_dec v 0) as [->|N]; [cbn; lia|].
  assert (Z.log2 v < 16) by (apply Z.log2_lt_pow2; [lia|change (2^16) with 65536; lia]). lia.
Qed.
Lemma brief_outHex v w b : 0 <= v < 65536 -> 0 <= w <= 16 -> adds 22 b (outHex v w b).
Proof.
  intros V W. unfold outHex. change 22 with (16 + 6). eapply adds_trans; [apply (brief_digits 16 v); [lia|exact V]|].
  apply adds_zero_fill; [|lia]. assert (w / 4 <= 4) by (apply Z.div_le_upper_bound; lia). destruct (_ =? 0); lia.
Qed.
Lemma brief_hex : brief 22 HexFormatter.
Proof. intros v w b V W. apply adds_reverse. now apply brief_outHex. Qed.
Lemma brief_oct : brief 22 OctFormatter.
Proof.
  intros v w b V W. apply adds_reverse. unfold outOct. change 22 with (16 + 6). eapply adds_trans; [apply (brief_digits 8 v); [lia|exact V]|].
  apply adds_zero_fill; [|lia]. assert (w / 3 < 6) by (apply Z.div_lt_upper_bound; lia). destruct (_ =? 0); lia.
Qed.
Lemma brief_dec : brief 22 DecFormatter.
Proof.
  intros v w b V W. apply adds_reverse. unfold outDec. cbv zeta. apply (adds_le 17); [lia|]. destruct (_ =? _).
  - change 17 with (16 + 1). eapply adds_trans; [apply (brief_digits 10 v); [lia|exact V]|]. apply adds_letter. unfold printable. lia.
  - apply (adds_le 16); [lia|]. apply (brief_digits 10 v); [lia|exact V].
Qed.
Lemma brief_prefix f pre k : Forall printable pre -> brief k f -> brief (Z.of_nat (length pre) + k) (PrefixFormatter f pre).
Proof. intros P F v w b V W. eapply adds_trans; [now apply adds_text|]. now apply F. Qed.
Lemma brief_raw f pre k : Forall printable pre -> brief k f -> brief (Z.of_nat (length pre) + k) (RawPrefixFormatter f pre).
Proof. intros P F v w b V W. eapply adds_trans; [now apply adds_rtext|]. now apply F. Qed.
Lemma brief_suffix f suf k : printable suf -> brief k f -> brief (k + 1) (SuffixFormatter f suf).
Proof. intros P F v w b V W. eapply adds_trans; [now apply F|]. now apply adds_letter. Qed.
Lemma brief_surround f pre suf k : Forall printable pre -> printable suf -> brief k f -> brief (Z.of_nat (length pre) + k + 1) (SurroundFormatter f pre suf).
Proof. intros P Q F v w b V W. eapply adds_trans; [|now apply adds_letter]. eapply adds_trans; [now apply adds_text|]. now apply F. Qed.
Lemma brief_suffixhex suf : printable suf -> brief 24 (SuffixHexFormatter suf).
Proof.
  intros P v w b V W. unfold SuffixHexFormatter. cbv zeta. change 24 with (23 + 1). eapply adds_trans; [|now apply adds_letter].
  apply adds_reverse. destruct (57 <? _).
  - change 23 with (22 + 1). eapply adds_trans; [now apply brief_outHex|]. apply adds_letter. unfold printable. lia.
  - apply (adds_le 22); [lia|]. now apply brief_outHex.
Qed.
Definition brief_plugin (p : fplugin) : Prop := brief 25 (f_dec p) /\ brief 25 (f_oct p) /\ brief 25 (f_hex p).
Ltac brief_one :=
  first [ apply (brief_le 22); [lia|first [apply brief_dec|apply brief_oct|apply brief_hex]]
        | apply (brief_le 24); [lia|apply brief_suffixhex; unfold printable; lia]
        | match goal with
          | |- brief _ (PrefixFormatter ?f ?p) => eapply brief_le; [|apply (brief_prefix f p 22); [now apply printable_text|first [apply brief_dec|apply brief_oct|apply brief_hex]]]; cbn; lia
          | |- brief _ (RawPrefixFormatter ?f ?p) => eapply brief_le; [|apply (brief_raw f p 22); [now apply printable_text|first [apply brief_dec|apply brief_oct|apply brief_hex]]]; cbn; lia
          | |- brief _ (SuffixFormatter ?f ?p) => eapply brief_le; [|apply (brief_suffix f p 22); [unfold printable; lia|first [apply brief_dec|apply brief_oct|apply brief_hex]]]; cbn; lia
          | |- brief _ (SurroundFormatter ?f ?p ?q) => eapply brief_le; [|apply (brief_surround f p q 22); [now apply printable_text|unfold printable; lia|first [apply brief_dec|apply brief_oct|apply brief_hex]]]; cbn; lia
          end ].
Ltac brief_all := split; [|split]; cbn [f_dec f_oct f_hex]; brief_one.
Lemma brief_cstyle : brief_plugin fp_cstyle. Proof. unfold fp_cstyle. brief_all. Qed.
Lemma brief_intel : brief_plugin fp_intel. Proof. unfold fp_intel. brief_all. Qed.
Lemma brief_motorola : brief_plugin fp_motorola. Proof. unfold fp_motorola. brief_all. Qed.
Lemma brief_fairchild : brief_plugin fp_fairchild. Proof. unfold fp_fairchild. brief_all. Qed.
Lemma brief_cdp1802 : brief_plugin fp_cdp1802. Proof. unfold fp_cdp1802. brief_all. Qed.
Lemma brief_mos6502 : brief_plugin fp_mos6502. Proof. unfold fp_mos6502. brief_all. Qed.
Lemma brief_tms32010 : brief_plugin fp_tms32010. Proof. unfold fp_tms32010. brief_all. Qed.
Lemma brief_formatter d : brief_plugin (da_plug d) -> brief_plugin (da_formatter d).
Proof. intros B. unfold da_formatter. destruct (da_cstyle d); [apply brief_cstyle|]. destruct (da_intelhex d); [apply brief_intel|exact B]. Qed.

Lemma format_brief f v bits b : brief 25 f -> 0 <= v < 2^32 -> -16 <= bits <= 16 -> adds 26 b (format_signed f v bits b).
Proof.
  intros F V B. unfold format_signed. destruct (absolute v bits) as [neg a] eqn:A.
  assert (R : 0 <= a < 65536).
  { assert (X : a = snd (absolute v bits)) by now rewrite A. rewrite X. unfold absolute, snd. cbv zeta. clear A X.
    replace (2 ^ Z.abs bits - 1) with (Z.ones (Z.abs bits)) by (rewrite Z.ones_equiv; lia).
    rewrite Z.land_ones by lia.
    assert (G : forall x, 0 <= x mod 2 ^ Z.abs bits < 65536); [|apply G].
    intros x. pose proof (Z.mod_pos_bound x (2 ^ Z.abs bits) ltac:(apply Z.pow_pos_nonneg; lia)).
    assert (2 ^ Z.abs bits <= 2 ^ 16) by (apply Z.pow_le_mono_r; lia). change (2^16) with 65536 in *. lia. }
  change 26 with (1 + 25). destruct neg.
  - eapply adds_trans; [apply (adds_letter 45); unfold printable; lia|]. apply F; lia.
  - eapply adds_trans; [apply adds_refl; lia|]. apply F; lia.
Qed.

(* the printing functions of the disassembler *)
Definition prints (k : Z) (f : sbuf -> res sbuf) : Prop := forall out, exists o, f out = Val o /\ adds k out o.
Lemma hex_case_adds d k f out : (forall b, adds k b (f b)) -> adds k out (hex_case d f out).
Proof. intros F. unfold hex_case. apply (adds_over k (da_upperhex d)). apply F. Qed.
Section Prints.
Variable d : disasm.
Hypothesis NS : da_symtab d = None.
Hypothesis BP : brief_plugin (da_plug d).
Lemma prints_dec v bits : 0 <= v < 2^32 -> -16 <= bits <= 16 -> prints 26 (dis_outDec d v bits).
Proof.
  intros V B out. destruct (brief_formatter d BP) as (D & O & H). unfold dis_outDec, da_lookup. rewrite NS. cbn [bind].
  destruct (da_octal d); eexists; (split; [reflexivity|]); apply hex_case_adds; intros b; now apply format_brief.
Qed.
Lemma prints_hex v bits relax : 0 <= v < 2^32 -> -16 <= bits <= 16 -> prints 26 (dis_outHex d v bits relax).
Proof.
  intros V B out. destruct (brief_formatter d BP) as (D & O & H). unfold dis_outHex, da_lookup. rewrite NS. cbn [bind].
  destruct (da_octal d); [|destruct (relax && _)]; eexists; (split; [reflexivity|]); apply hex_case_adds; intros b; now apply format_brief.
Qed.
Lemma prints_abs v width : 0 <= v < 2^32 -> 0 <= width <= 16 -> 0 <= da_aw d <= 16 -> prints 26 (outAbsAddr d v width).
Proof.
  intros V B A out. destruct (brief_formatter d BP) as (D & O & H). unfold outAbsAddr, da_lookup. rewrite NS. cbn [bind]. cbv zeta.
  assert (W : -16 <= (if width =? 0 then da_aw d else width) <= 16) by (destruct (width =? 0); lia).
  destruct (da_octal d); eexists; (split; [reflexivity|]); apply hex_case_adds; intros b; now apply format_brief.
Qed.
Lemma prints_rel target origin bits : 0 <= target < 2^32 -> 0 <= bits <= 16 -> 0 <= da_aw d <= 16 -> printable (da_cursym d) -> prints 28 (outRelAddr d target origin bits).
Proof.
  intros V B A PC out. destruct (brief_formatter d BP) as (D & O & H). unfold outRelAddr. destruct (da_relative d); cbn [negb].
  2:{ destruct (prints_abs target 0 V ltac:(lia) A out) as (o & E & Q). exists o. split; [exact E|]. now apply (adds_le 26). }
  unfold da_lookup. rewrite NS. cbn [bind]. cbv zeta.
  assert (Q1 : adds 1 out (letter (da_cursym d) out)) by now apply adds_letter.
  destruct (s32 (target - origin) =? 0); [eexists; split; [reflexivity|]; now apply (adds_le 1)|].
  set (c := if _ <? 0 then 45 else 43). assert (PR : printable c) by (unfold c, printable; destruct (_ <? 0); lia).
  assert (Q2 : adds 2 out (letter c (letter (da_cursym d) out))) by (change 2 with (1 + 1); eapply adds_trans; [exact Q1|]; now apply adds_letter).
  assert (U : 0 <= u32 (Z.abs (s32 (target - origin))) < 2^32) by (apply Z.mod_pos_bound; lia).
  change 28 with (2 + 26).
  destruct (da_octal d) eqn:OC; [|destruct (bits <=? 14)].
  - eexists. split; [reflexivity|]. eapply adds_trans; [exact Q2|]. apply hex_case_adds; intros b; apply format_brief; auto; lia.
  - eexists. split; [reflexivity|]. eapply adds_trans; [exact Q2|]. apply hex_case_adds; intros b; apply format_brief; auto; lia.
  - destruct (prints_hex (u32 (Z.abs (s32 (target - origin)))) bits true U ltac:(lia) (case_buf (da_upperhex d) (letter c (letter (da_cursym d) out)))) as (o & E & Q).
    rewrite E. cbn [bind]. eexists. split; [reflexivity|]. eapply adds_trans; [exact Q2|]. now apply (adds_over 26 (da_upperhex d)).
Qed.
End Prints.

(* ------------------------------------------------------------ steps *)
Definition fine (n : nat) (k : Z) (f : step) : Prop := forall addr bs mem nm out, Forall byte mem -> (n <= length mem)%nat -> (length bs + n <= 64)%nat ->
  exists nm' out', f (at_ addr bs mem nm out) = Val (at_ addr (bs ++ firstn n mem) (skipn n mem) nm' out') /\ adds k out out'.
Lemma fine_le n k k' f : k <= k' -> fine n k f -> fine n k' f.
Proof. intros L F addr bs mem nm out A B C. destruct (F addr bs mem nm out A B C) as (nm' & out' & E & Q). exists nm', out'. split; [exact E|]. now apply (adds_le k). Qed.
Lemma fine_ext n k f g : (forall s, f s = g s) -> fine n k f -> fine n k g.
Proof. intros X F addr bs mem nm out A B C. rewrite <- X. now apply F. Qed.
Lemma skipn_bytes n (l : list Z) : Forall byte l -> Forall byte (skipn n l).
Proof. revert l. induction n as [|n IH]; intros [|x l] F; cbn [skipn]; auto. inversion F; auto. Qed.
Lemma skipn_add {A} n m : forall l : list A, skipn m (skipn n l) = skipn (n + m) l.
Proof. induction n as [|n IH]; intros l; [reflexivity|]. destruct l as [|x l]; [cbn; now destruct m|]. exact (IH l). Qed.
Lemma firstn_add {A} n m : forall l : list A, firstn n l ++ firstn m (skipn n l) = firstn (n + m) l.
Proof. induction n as [|n IH]; intros l; [reflexivity|]. destruct l as [|x l]; [cbn; now destruct m|]. cbn [firstn skipn Nat.add app]. now rewrite IH. Qed.
Lemma fine_seq n1 n2 k1 k2 f g : fine n1 k1 f -> fine n2 k2 g -> fine (n1 + n2) (k1 + k2) (fun s => bind (f s) g).
Proof.
  intros F G addr bs mem nm out A B C. destruct (F addr bs mem nm out A ltac:(lia) ltac:(lia)) as (nm1 & out1 & E1 & Q1).
  destruct (G addr (bs ++ firstn n1 mem) (skipn n1 mem) nm1 out1 (skipn_bytes _ _ A) ltac:(rewrite skipn_length; lia) ltac:(rewrite app_length, firstn_length; lia)) as (nm2 & out2 & E2 & Q2).
  exists nm2, out2. rewrite E1. cbn [bind]. rewrite E2. split; [|eapply adds_trans; eauto]. now rewrite <- app_assoc, skipn_add, firstn_add.
Qed.
Lemma fine_print k f : prints k f -> fine 0 k (t_print f).
Proof.
  intros P addr bs mem nm out A B C. destruct (P out) as (o & E & Q). exists nm, o. cbn [firstn skipn]. rewrite app_nil_r. split; [|exact Q].
  unfold t_print. cbn [at_ t_out]. rewrite E. reflexivity.
Qed.
Lemma fine_put k f : (forall b, adds k b (f b)) -> fine 0 k (fun s => Val (t_put f s)).
Proof. intros P addr bs mem nm out A B C. exists nm, (f out). cbn [firstn skipn]. rewrite app_nil_r. split; [reflexivity|apply P]. Qed.
Lemma fine_val : fine 0 0 (fun s => Val s).
Proof. intros addr bs mem nm out A B C. exists nm, out. cbn [firstn skipn]. rewrite app_nil_r. split; [reflexivity|apply adds_refl; lia]. Qed.
Lemma fine_name w : fine 0 0 (fun s => Val (t_readName w s)).
Proof. intros addr bs mem nm out A B C. eexists; exists out. cbn [firstn skipn]. rewrite app_nil_r. split; [reflexivity|apply adds_refl; lia]. Qed.
Lemma comma_adds b : adds 2 b (comma b).
Proof. unfold comma. change 2 with (1 + 1). eapply adds_trans; apply adds_rletter; unfold printable; lia. Qed.
Lemma fine_byte n k g : (forall v, byte v -> fine n k (g v)) -> fine (S n) k (fun s => let '(v, s) := t_byte s in g v s).
Proof.
  intros G addr bs mem nm out A B C. destruct mem as [|x mem]; [cbn in B; lia|]. inversion A as [|? ? X A']; subst. rewrite t_byte_at by (auto; lia).
  destruct (G x X addr (bs ++ [x]) mem nm out A' ltac:(cbn [length] in B; lia) ltac:(rewrite app_length; cbn [length]; lia)) as (nm' & out' & E & Q).
  exists nm', out'. rewrite E, <- app_assoc. split; [reflexivity|exact Q].
Qed.
Lemma fine_le16 n k g : (forall v, 0 <= v < 65536 -> fine n k (g v)) -> fine (S (S n)) k (fun s => let '(v, s) := t_uint16Le s in g v s).
Proof.
  intros G addr bs mem nm out A B C. destruct mem as [|x [|y mem]]; try (cbn in B; lia). inversion A as [|? ? X A']; subst. inversion A' as [|? ? Y A'']; subst. rewrite t_word_at by (auto; lia).
  destruct (G (x + 256 * y) ltac:(unfold byte in *; lia) addr (bs ++ [x; y]) mem nm out A'' ltac:(cbn [length] in B; lia) ltac:(rewrite app_length; cbn [length]; lia)) as (nm' & out' & E & Q).
  exists nm', out'. rewrite E, <- app_assoc. split; [reflexivity|exact Q].
Qed.
Lemma fine_insn n k (g : insn -> step) : (forall i, fine n k (g i)) -> fine n k (fun s => g (d_insn (t_in s)) s).
Proof. intros G addr bs mem nm out A B C. cbn [at_ t_in d_insn]. now apply G. Qed.

(* ------------------------------------------------------------ the whole *)
Lemma fine_decode d pfx F C p o nb m addr size k :
  (p = 0 /\ pfx o = false) \/ (p <> 0 /\ pfx p = true) -> byte p -> byte o ->
  (forall mem s, within addr mem 2 s -> F p o s = C p o (t_seterr OK s)) ->
  checkAddr (da_aw d) addr false = OK -> Forall byte nb -> Forall byte m -> (length nb <= 60)%nat -> fine (length nb) k (C p o) -> k <= size - 1 ->
  exists r, dis_decode d (decode_impl pfx F) (opcode_bytes p o ++ nb ++ m) addr size = Val r /\ r_insn r = canon addr (opcode_bytes p o ++ nb).
Proof.
  intros PO BP BO START CA BN BM LN FI SZ. unfold dis_decode. rewrite CA. cbn [isOK negb].
  set (out := mkB [] (size - 1) OK (Some (da_uppercase d))).
  assert (S0 : forall mem, mkDst (M_Insn.mkD (new_insn addr) mem OK) [] out = at_ addr [] mem [] out) by (intros mem; unfold at_; now rewrite canon_new).
  rewrite S0.
  assert (FB : Forall byte (nb ++ m)) by now apply Forall_app.
  assert (GO : decode_impl pfx F (at_ addr [] (opcode_bytes p o ++ nb ++ m) [] out) = C p o (at_ addr (opcode_bytes p o) (nb ++ m) [] out)).
  { unfold decode_impl, opcode_bytes. destruct PO as [(-> & PX)|(NP & PX)].
    - cbn [Z.eqb negb app]. rewrite t_byte_at by (auto; cbn; lia). rewrite PX. cbn [app]. rewrite (START (o :: nb ++ m)); [reflexivity|].
      split; [now constructor|]. exists [o]. cbn [at_ t_in d_mem d_insn app length]. auto with arith.
    - replace (p =? 0) with false by lia. cbn [negb app]. rewrite t_byte_at by (auto; cbn; lia). rewrite PX. cbn [app]. rewrite t_byte_at by (auto; cbn; lia).
      cbn [app]. change (d_err (t_in (at_ addr [p; o] (nb ++ m) [] out))) with OK. cbn [isOK negb]. rewrite (START (p :: o :: nb ++ m)); [reflexivity|].
      split; [constructor; [exact BP|now constructor]|]. exists [p; o]. cbn [at_ t_in d_mem d_insn app length]. auto with arith. }
  rewrite GO. assert (LO : (length (opcode_bytes p o) <= 2)%nat) by (unfold opcode_bytes; destruct (negb _); cbn; lia).
  destruct (FI addr (opcode_bytes p o) (nb ++ m) [] out FB ltac:(rewrite app_length; lia) ltac:(lia)) as (nm' & out' & E & Q).
  rewrite E. cbn [bind]. rewrite firstn_app, firstn_all, Nat.sub_diag. cbn [firstn]. rewrite app_nil_r.
  eexists. split; [reflexivity|]. cbn [r_insn at_ t_in d_err d_insn t_out].
  destruct Q as (_ & _ & _ & _ & _ & NE). assert (EO : b_err out' = OK) by (apply NE; [reflexivity|cbn; unfold b_mark; cbn; lia]).
  set (i := canon addr (opcode_bytes p o ++ nb)). assert (IE : i_seterr OK i = i) by reflexivity. rewrite IE. change (i_err i) with OK. cbn [isOK]. rewrite EO. exact IE.
Qed.

(* ------------------------------------------------------------ what a search gives *)
Lemma item_in {A} (l : list A) k a : item_at l k = Val a -> In a l.
Proof. unfold item_at. destruct (nth_error l k) as [x|] eqn:N; [|discriminate]. intros H. injection H as <-. eapply nth_error_In, N. Qed.
Lemma scan_found {A} cmp m2 (items : list A) index fuel : forall head r k, matchScan cmp m2 items index fuel head r = Val (Found k) -> (forall j, r <> Found j) ->
  exists a, nth_error items k = Some a /\ cmp a = 0 /\ m2 a = true.
Proof.
  induction fuel as [|fuel IH]; intros head r k H NR; [discriminate|]. cbn [matchScan] in H. destruct (_ <? _)%nat; [|injection H as H; now apply NR in H].
  unfold itemAt in H. destruct (item_at index head) as [z| | | |]; try discriminate. cbn [bind] in H. unfold item_at in H. destruct (nth_error items (Z.to_nat z)) as [a|] eqn:N; try discriminate.
  cbn [bind] in H. destruct (Z.eqb_spec (cmp a) 0) as [C|C]; cbn [negb] in H; [|injection H as H; now apply NR in H].
  destruct (m2 a) eqn:M; [injection H as <-; exists a; auto|]. apply (IH _ _ _ H). discriminate.
Qed.
Lemma search_found {I A} (nm : A -> text) s accept (pages : list (page I A)) : forall n seen pg i, searchName_from nm s accept pages n seen = Val (Hit pg i) ->
  (n <= pg)%nat /\ exists p a, nth_error pages (pg - n) = Some p /\ nth_error (p_items p) i = Some a /\ strcasecmp s (nm a) = 0 /\ accept p a = true.
Proof.
  induction pages as [|p ps IH]; intros n seen pg i H; cbn [searchName_from] in H; [discriminate|].
  unfold indexedSearch in H. destruct (lowerBound _ _ _ _ _ _) as [hd| | | |]; cbn [bind] in H; try discriminate.
  destruct (matchScan _ _ _ _ _ _ _) as [[| |k]| | | |] eqn:MS; cbn [bind] in H; try discriminate.
  - destruct (IH _ _ _ _ H) as (L & q & a & N & R). split; [lia|]. exists q, a. replace (pg - n)%nat with (S (pg - S n)) by lia. auto.
  - destruct (IH _ _ _ _ H) as (L & q & a & N & R). split; [lia|]. exists q, a. replace (pg - n)%nat with (S (pg - S n)) by lia. auto.
  - injection H as <- <-. split; [lia|]. destruct (scan_found _ _ _ _ _ _ _ _ MS ltac:(discriminate)) as (a & N & C & M). exists p, a. rewrite Nat.sub_diag. auto.
Qed.
Lemma searchName_found {I A} (nm : A -> text) s accept (pages : list (page I A)) pg i : searchName nm s accept pages = Val (Hit pg i) ->
  exists p a, nth_error pages pg = Some p /\ nth_error (p_items p) i = Some a /\ strcasecmp s (nm a) = 0 /\ accept p a = true.
Proof. intros H. destruct (search_found _ _ _ _ _ _ _ _ H) as (_ & p & a & N & R). rewrite Nat.sub_0_r in N. exists p, a. auto. Qed.
Lemma parse_name_in entries undef s r t : parse_name entries undef s = Val (r, t) -> r = undef \/ In r (map snd entries).
Proof.
  unfold parse_name. destruct (searchText nm_text s entries) as [[[k|] u]| | | |]; cbn [bind]; try discriminate; intros H; [|injection H as <- _; now left].
  destruct (item_at entries k) as [e| | | |] eqn:IA; cbn [bind] in H; try discriminate. injection H as <- _. right. apply in_map. eapply item_in, IA.
Qed.

(* ------------------------------------------------------------ a line that is accepted *)
Lemma seterr_ok e f : setErrorIfAt e f = OK -> e = OK /\ f = OK.
Proof. unfold setErrorIfAt. destruct e; cbn; try discriminate; destruct f; cbn; try discriminate; auto. Qed.
Lemma encode_inv a specials tables impl src addr i rest : asm_encode a specials tables impl src (new_insn addr) = Val (L_insn i rest) -> i_err i = OK ->
  checkAddr (a_aw a) addr false = OK /\ exists name scan, impl name scan (new_insn addr) = Val (i, rest).
Proof.
  unfold asm_encode. change (i_seterr OK (new_insn addr)) with (new_insn addr). cbv zeta. destruct (p_line _ _) as [com scan]. destruct com; [discriminate|].
  destruct (match readInstruction _ scan with Some r => r | None => ([], scan) end) as [symbol scan1].
  destruct (linearSearch _ specials); [discriminate|]. destruct (pseudo_search _ _ _) as [[[t k]|]| | | |]; cbn [bind]; try discriminate.
  change (i_err (new_insn addr)) with OK. change (i_addr (new_insn addr)) with addr.
  destruct (isOK (setErrorIfAt OK (checkAddr (a_aw a) addr false))) eqn:CK; cbn [negb].
  - apply isOK_e in CK. apply seterr_ok in CK. destruct CK as (_ & CK). destruct (impl (insn_name symbol) (skipSpaces scan1) (new_insn addr)) as [[j s]| | | |] eqn:IM; cbn [bind]; try discriminate.
    intros H _. injection H as -> ->. split; [exact CK|]. eauto.
  - intros H E. injection H as <- _. cbn [i_seterr i_err] in E. rewrite E in CK. discriminate.
Qed.
Lemma searchName_miss {I A} (nm : A -> text) s accept (pages : list (page I A)) e : searchName nm s accept pages = Val (Miss e) -> e = OK -> False.
Proof.
  unfold searchName. generalize 0%nat, false. induction pages as [|p ps IH]; intros n seen H E; cbn [searchName_from] in H.
  - injection H as <-. destruct seen; discriminate.
  - destruct (indexedSearch _ _ _ _) as [[| |k]| | | |]; cbn [bind] in H; try discriminate; eauto.
Qed.

(* ------------------------------------------------------------ given bytes at a given address *)
Definition fineAt (addr : Z) (nb : list Z) (k : Z) (f : step) : Prop := forall bs m nm out, Forall byte nb -> Forall byte m -> (length bs + length nb <= 64)%nat ->
  exists nm' out', f (at_ addr bs (nb ++ m) nm out) = Val (at_ addr (bs ++ nb) m nm' out') /\ adds k out out'.
Lemma fineAt_le addr nb k k' f : k <= k' -> fineAt addr nb k f -> fineAt addr nb k' f.
Proof. intros L F bs m nm out A B C. destruct (F bs m nm out A B C) as (nm' & out' & E & Q). exists nm', out'. split; [exact E|]. now apply (adds_le k). Qed.
Lemma fineAt_of addr nb k f : fine (length nb) k f -> fineAt addr nb k f.
Proof.
  intros F bs m nm out A B C. destruct (F addr bs (nb ++ m) nm out ltac:(now apply Forall_app) ltac:(rewrite app_length; lia) C) as (nm' & out' & E & Q).
  rewrite firstn_app, firstn_all, Nat.sub_diag, skipn_app, skipn_all, Nat.sub_diag in E. cbn [firstn skipn app] in E. rewrite app_nil_r in E. eauto.
Qed.
Lemma fineAt_seq addr nb1 nb2 k1 k2 f g : fineAt addr nb1 k1 f -> fineAt addr nb2 k2 g -> fineAt addr (nb1 ++ nb2) (k1 + k2) (fun s => bind (f s) g).
Proof.
  intros F G bs m nm out A B C. apply Forall_app in A. destruct A as (A1 & A2). rewrite app_length in C.
  destruct (F bs (nb2 ++ m) nm out A1 ltac:(now apply Forall_app) ltac:(lia)) as (nm1 & out1 & E1 & Q1).
  destruct (G (bs ++ nb1) m nm1 out1 A2 B ltac:(rewrite app_length; lia)) as (nm2 & out2 & E2 & Q2).
  exists nm2, out2. rewrite <- app_assoc, E1. cbn [bind]. rewrite E2, <- app_assoc. split; [reflexivity|eapply adds_trans; eauto].
Qed.
Lemma fineAt_byte addr x nb k g : (byte x -> fineAt addr nb k (g x)) -> fineAt addr (x :: nb) k (fun s => let '(v, s) := t_byte s in g v s).
Proof.
  intros G bs m nm out A B C. inversion A as [|? ? X A']; subst. cbn [app]. rewrite t_byte_at by (try apply Forall_app; auto; cbn [length] in C; lia).
  destruct (G X (bs ++ [x]) m nm out A' B ltac:(rewrite app_length; cbn [length] in *; lia)) as (nm' & out' & E & Q).
  exists nm', out'. rewrite E, <- app_assoc. split; [reflexivity|exact Q].
Qed.
Lemma fineAt_be addr x y nb k g : (byte x -> byte y -> fineAt addr nb k (g (256 * x + y))) -> fineAt addr (x :: y :: nb) k (fun s => let '(v, s) := t_uint16Be s in g v s).
Proof.
  intros G. assert (X : fineAt addr (x :: y :: nb) k (fun s => let '(a, s) := t_byte s in let '(b, s) := t_byte s in g (Z.lor (Z.shiftl a 8) b) s)).
  { apply fineAt_byte. intros BX. apply (fineAt_byte addr y nb k (fun b => g (Z.lor (Z.shiftl x 8) b))). intros BY. rewrite word_val by assumption. now apply G. }
  intros bs m nm out A B C. destruct (X bs m nm out A B C) as (nm' & out' & E & Q). exists nm', out'. split; [|exact Q]. rewrite <- E.
  destruct (t_uint16Be _) as [v s1] eqn:W. apply wordbe_split in W. destruct W as (a & b & s2 & -> & -> & ->). reflexivity.
Qed.
(* the address, and the address after the bytes read so far *)
Lemma fineAt_addr addr nb k (g : Z -> step) : fineAt addr nb k (g addr) -> fineAt addr nb k (fun s => g (i_addr (d_insn (t_in s))) s).
Proof. intros G bs m nm out A B C. cbn [at_ t_in d_insn canon i_addr]. now apply G. Qed.
Lemma fineAt_check addr nb k e f : e = OK -> fineAt addr nb k f -> fineAt addr nb k (fun s => f (t_setErrorIf e s)).
Proof. intros -> F bs m nm out A B C. now apply F. Qed.

Lemma fineAt_decode d pfx F C p o nb m addr size k :
  (p = 0 /\ pfx o = false) \/ (p <> 0 /\ pfx p = true) -> byte p -> byte o ->
  (forall mem s, within addr mem 2 s -> F p o s = C p o (t_seterr OK s)) ->
  checkAddr (da_aw d) addr false = OK -> Forall byte nb -> Forall byte m -> (length nb <= 60)%nat -> fineAt addr nb k (C p o) -> k <= size - 1 ->
  exists r, dis_decode d (decode_impl pfx F) (opcode_bytes p o ++ nb ++ m) addr size = Val r /\ r_insn r = canon addr (opcode_bytes p o ++ nb).
Proof.
  intros PO BP BO START CA BN BM LN FI SZ. unfold dis_decode. rewrite CA. cbn [isOK negb].
  set (out := mkB [] (size - 1) OK (Some (da_uppercase d))).
  assert (S0 : forall mem, mkDst (M_Insn.mkD (new_insn addr) mem OK) [] out = at_ addr [] mem [] out) by (intros mem; unfold at_; now rewrite canon_new).
  rewrite S0.
  assert (FB : Forall byte (nb ++ m)) by now apply Forall_app.
  assert (GO : decode_impl pfx F (at_ addr [] (opcode_bytes p o ++ nb ++ m) [] out) = C p o (at_ addr (opcode_bytes p o) (nb ++ m) [] out)).
  { unfold decode_impl, opcode_bytes. destruct PO as [(-> & PX)|(NP & PX)].
    - cbn [Z.eqb negb app]. rewrite t_byte_at by (auto; cbn; lia). rewrite PX. cbn [app]. rewrite (START (o :: nb ++ m)); [reflexivity|].
      split; [now constructor|]. exists [o]. cbn [at_ t_in d_mem d_insn app length]. auto with arith.
    - replace (p =? 0) with false by lia. cbn [negb app]. rewrite t_byte_at by (auto; cbn; lia). rewrite PX. cbn [app]. rewrite t_byte_at by (auto; cbn; lia).
      cbn [app]. change (d_err (t_in (at_ addr [p; o] (nb ++ m) [] out))) with OK. cbn [isOK negb]. rewrite (START (p :: o :: nb ++ m)); [reflexivity|].
      split; [constructor; [exact BP|now constructor]|]. exists [p; o]. cbn [at_ t_in d_mem d_insn app length]. auto with arith. }
  rewrite GO. assert (LO : (length (opcode_bytes p o) <= 2)%nat) by (unfold opcode_bytes; destruct (negb _); cbn; lia).
  destruct (FI (opcode_bytes p o) m [] out BN BM ltac:(lia)) as (nm' & out' & E & Q).
  rewrite E. cbn [bind].
  eexists. split; [reflexivity|]. cbn [r_insn at_ t_in d_err d_insn t_out].
  destruct Q as (_ & _ & _ & _ & _ & NE). assert (EO : b_err out' = OK) by (apply NE; [reflexivity|cbn; unfold b_mark; cbn; lia]).
  set (i := canon addr (opcode_bytes p o ++ nb)). assert (IE : i_seterr OK i = i) by reflexivity. rewrite IE. change (i_err i) with OK. cbn [isOK]. rewrite EO. exact IE.
Qed.

(* ------------------------------------------------------------ values that fit *)
Lemma fits_unsigned v mx : 0 <= mx -> overflow v mx 0 = false -> 0 <= getUnsigned v <= mx.
Proof.
  intros M. unfold overflow, getUnsigned. pose proof (Z.mod_pos_bound (v_bits v) (2^32) ltac:(lia)) as B.
  destruct (overflowUint32 v); [discriminate|]. destruct (isUnsigned v); [intros H; cbv zeta in H; lia|].
  assert (E : v_signed v mod 2^32 = v_bits v mod 2^32).
  { unfold v_signed, s64. destruct (_ <? _); [reflexivity|]. change (2^64) with (2^32 * 2^32). rewrite <- (Z_mod_plus_full (v_bits v - 2^32 * 2^32) (2^32) (2^32)). f_equal. lia. }
  destruct (Z.leb_spec 0 (v_signed v)); cbv zeta; [rewrite E; lia|]. lia.
Qed.
Lemma fits_byte v mx : 0 <= mx <= 127 -> overflowUint8 v = false -> overflow v mx 0 = true -> mx < getUnsigned v mod 256.
Proof.
  intros M. unfold overflowUint8, overflow, getUnsigned. pose proof (Z.mod_pos_bound (v_bits v) (2^32) ltac:(lia)) as B.
  destruct (overflowUint32 v); [discriminate|]. destruct (isUnsigned v).
  { cbv zeta. intros H1 H2. rewrite Z.mod_small by lia. lia. }
  assert (E : v_signed v mod 2^32 = v_bits v mod 2^32).
  { unfold v_signed, s64. destruct (_ <? _); [reflexivity|]. change (2^64) with (2^32 * 2^32). rewrite <- (Z_mod_plus_full (v_bits v - 2^32 * 2^32) (2^32) (2^32)). f_equal. lia. }
  destruct (Z.leb_spec 0 (v_signed v)); cbv zeta.
  - rewrite E. intros H1 H2. rewrite Z.mod_small by lia. lia.
  - rewrite <- E. intros H1 _. set (s := v_signed v) in *. replace (s mod 2^32) with (s + 2^32) by (rewrite <- (Z_mod_plus_full s 1 (2^32)); symmetry; apply Z.mod_small; lia).
    change (2^32) with (16777216 * 256). rewrite Z_mod_plus_full. rewrite <- (Z_mod_plus_full s 1 256). rewrite Z.mod_small by lia. lia.
Qed.

(* ------------------------------------------------------------ branches *)
Lemma getUnsigned_range v : 0 <= getUnsigned v < 2^32.
Proof. unfold getUnsigned. apply Z.mod_pos_bound. lia. Qed.
Lemma branch_inv base target e : 0 <= base <= 65536 -> 0 <= target < 2^32 ->
  exists delta e', branchDelta 16 base target e = Some (delta, e') /\ (e' = OK -> e = OK /\ target < 65536 /\ delta = target - base).
Proof.
  intros B T. destruct (branch16 base target B T) as (dl & e0 & E & _ & _ & _ & OI & OK1). unfold branchDelta in *.
  destruct (signExtend _ 16) as [d0|]; [|discriminate]. injection E as -> E. eexists dl, _. split; [reflexivity|].
  intros H. assert (EO : e = OK). { destruct (_ || _) in H; repeat (apply seterr_ok in H; destruct H as (H & _)); exact H. }
  subst e. rewrite E in H. split; [reflexivity|]. split; [apply OI, H|now apply OK1].
Qed.
Lemma int8_delta z : -128 <= z < 128 -> int8 (z mod 256) = z.
Proof. intros Z0. unfold int8. rewrite Zplus_mod_idemp_l. rewrite Z.mod_small by lia. lia. Qed.
