(** The CDP1802 family: proof of the round trip. *)
From Coq Require Import String ZArith List Bool Lia ZifyBool.
From Verif Require Import M_Char M_Error M_Value M_Text M_StrBuffer M_Format M_Number M_Insn M_Config M_Operators
  M_Parsers M_Expr M_Directive M_Table T_Tables M_Asm M_Dis M_Cdp1802Defs T_Cdp1802 M_Cdp1802
  S_Value S_Number S_Expr S_ExprTree S_Table P_StrBuffer P_Number P_NumberRead
  P_ExprRead P_ExprTree P_ExprCase P_Table P_Insn P_Config P_Value P_Directive P_AsmText P_CpuShape P_CpuGood P_CpuText.
Import ListNotations.
Open Scope string_scope.
Open Scope list_scope.
Local Open Scope Z_scope.

Definition types : list Z := [CDP1802; CDP1804; CDP1804A].
(* octal output is read back only in C style or Intel notation *)
Definition reads_as (np : number_parser) (d : disasm) : Prop := da_symtab d = None /\ da_reads d np /\ da_aw d = 16.
Lemma cdp1802_reads uh uc oc rel cs ih cur : (oc = true -> cs || ih = true) -> reads_as np_rca (cdp1802_dis uh uc oc rel cs ih cur None).
Proof.
  intros H. split; [reflexivity|]. split; [|reflexivity].
  assert (I : In np_rca family_parsers) by (cbn; auto 10).
  unfold da_reads, da_formatter, cdp1802_dis. cbn [da_cstyle da_intelhex da_plug da_octal].
  destruct cs; [apply all_reads with (d := cdp1802_dis uh uc oc rel true ih cur None), universal_reads; auto|].
  destruct ih; [apply all_reads with (d := cdp1802_dis uh uc oc rel false true cur None), universal_reads; auto|].
  split; [intros _; apply dec_reads, fb_all, I|]. split; [|intros _; apply cdp_hex_reads]. intros ->. specialize (H eq_refl). discriminate.
Qed.
(* whatever is printed is read by some parser *)
Lemma cdp1802_printed uh uc oc rel cs ih cur : exists np, reads_as np (cdp1802_dis uh uc oc rel cs ih cur None).
Proof.
  destruct oc; [destruct (cs || ih) eqn:X|].
  - exists np_rca. now apply cdp1802_reads.
  - exists (np_octal np_rca). split; [reflexivity|]. split; [|reflexivity]. apply orb_false_iff in X. destruct X as (-> & ->).
    apply octal_reads; [cbn; auto 10|reflexivity|reflexivity].
  - exists np_rca. apply cdp1802_reads. discriminate.
Qed.

(* ------------------------------------------------------------ what is printed *)
Ltac rel_out := cbn [h_case h_addr h_bs h_nm] in *.
Section Printed.
Variable np : number_parser.
Inductive kind := K_none | K_reg (n : Z) | K_val (x : Z) | K_byte | K_addr | K_page.
Definition kind_of (opc mode : Z) : kind :=
  if (mode =? M_REG1) || (mode =? M_REGN) then K_reg (Z.land opc 15)
  else if mode =? M_IMM8 then K_byte
  else if mode =? M_IOAD then K_val (Z.land opc 7)
  else if (mode =? M_ADDR) || (mode =? M_LONG) then K_addr
  else if (mode =? M_PAGE) || (mode =? M_SHRT) then K_page
  else K_none.
Definition kwidth (K : kind) : nat := match K with K_none | K_reg _ | K_val _ => 0 | K_byte | K_page => 1 | K_addr => 2 end.
Definition reg_text (n : Z) : text := 82 :: (if n <? 10 then [48 + n] else [49; 38 + n]).
Definition piece (ur : bool) (K : kind) (k : option bool) (addr : Z) (t : text) (nb : list Z) (v : Z) : Prop :=
  match K with
  | K_none => t = [] /\ nb = [] /\ v = 0
  | K_reg n => (if ur then t = map (conv k) (reg_text n) else numeral np t n) /\ nb = [] /\ v = n
  | K_val x => numeral np t x /\ nb = [] /\ v = x
  | K_byte => numeral np t v /\ nb = [v] /\ byte v
  | K_addr => exists hi lo, nb = [hi; lo] /\ byte hi /\ byte lo /\ v = 256 * hi + lo /\ numeral np t v
  | K_page => exists x, nb = [x] /\ byte x /\ v = inpage (addr + 2) x /\ numeral np t v
  end.
Definition R_piece (ur : bool) (K : kind) : rel := fun h t nb nm' =>
  nm' = h_nm h /\ exists v, piece ur K (h_case h) (h_addr h) t nb v.
Lemma digit_plain k c : 48 <= c <= 57 -> conv k c = c.
Proof. intros H. apply plain_symbol. unfold is_alpha, is_upper, is_lower. lia. Qed.
Lemma reg_out n b : 0 <= n < 16 -> b_err (outRegName n b) = OK -> b_err b = OK /\ outRegName n b = appb b (map (conv (b_case b)) (reg_text n)).
Proof.
  intros N. unfold outRegName, out_sdec. replace (int8 n) with n by (unfold int8; rewrite Z.mod_small; lia).
  replace (n <? 0) with false by lia. unfold out_dec. cbv zeta. set (b1 := letter 82 b).
  assert (B1 : b_err b1 = OK -> b_err b = OK /\ b1 = appb b [conv (b_case b) 82]).
  { intros E. split; [eapply letter_err, E|]. now apply letter_ok. }
  assert (RV : forall b2 u, b2 = appb b1 u -> reverse (b_mark b1) b2 = appb b1 (rev u)).
  { intros b2 u ->. unfold reverse, b_mark, appb. cbn [b_txt b_max b_err b_case]. rewrite app_length.
    destruct (Z.ltb_spec (Z.of_nat (length (b_txt b1) + length u)) (Z.of_nat (length (b_txt b1)))); [lia|].
    rewrite Nat2Z.id, firstn_app, Nat.sub_diag, firstn_all, firstn_O, app_nil_r, skipn_app, Nat.sub_diag, skipn_all, skipn_O. reflexivity. }
  assert (RE : forall st b2, b_err (reverse st b2) = OK -> b_err b2 = OK).
  { intros st b2. unfold reverse. destruct (b_mark b2 <? st); [discriminate|]. auto. }
  unfold reg_text. destruct (Z.ltb_spec n 10) as [L|L].
  - assert (E : dec_loop (S (Z.to_nat (Z.log2 n))) 0 n b1 = (0, letter (n + 48) b1)).
    { cbn [dec_loop]. rewrite Z.mod_small, Z.div_small by lia. reflexivity. }
    rewrite E. cbn [zeros Z.to_nat]. intros H. apply RE in H. pose proof (letter_err _ _ H) as E1. destruct (B1 E1) as (E0 & X1). split; [exact E0|].
    rewrite (RV _ _ (letter_ok _ _ H)). unfold b1 at 2. rewrite letter_case. rewrite X1, appb_app. cbn [rev app map]. rewrite !(digit_plain _ (n + 48)) by lia. rewrite (digit_plain _ (48 + n)) by lia.
    now rewrite Z.add_comm.
  - assert (E : dec_loop (S (Z.to_nat (Z.log2 n))) 0 n b1 = (0, letter 49 (letter (n - 10 + 48) b1))).
    { assert (LG : Z.log2 n = 3) by (apply Z.log2_unique; lia). rewrite LG. change (Z.to_nat 3) with 3%nat. cbn [dec_loop].
      assert (DV : n / 10 = 1) by (symmetry; apply (Z.div_unique _ _ _ (n - 10)); lia).
      assert (MD : n mod 10 = n - 10) by (symmetry; apply (Z.mod_unique _ _ 1); lia). rewrite DV, MD. reflexivity. }
    rewrite E. cbn [zeros Z.to_nat]. intros H. apply RE in H. pose proof (letter_err _ _ H) as E2. pose proof (letter_err _ _ E2) as E1. destruct (B1 E1) as (E0 & X1). split; [exact E0|].
    assert (LL : letter 49 (letter (n - 10 + 48) b1) = appb b1 [n - 10 + 48; 49]).
    { rewrite (letter_ok _ _ H), (letter_ok _ _ E2), appb_app. rewrite !digit_plain by lia. reflexivity. }
    rewrite (RV _ _ LL), X1, appb_app. cbn [rev app map]. rewrite (digit_plain _ 49), (digit_plain _ (38 + n)) by lia. replace (n - 10 + 48) with (38 + n) by lia. reflexivity.
Qed.
Lemma land_range o n : 0 <= n -> 0 <= Z.land o (Z.ones n) < 2^n.
Proof. intros N. rewrite Z.land_ones by lia. apply Z.mod_pos_bound. apply Z.pow_pos_nonneg; lia. Qed.
Lemma inpage_eq base x : byte x -> 0 <= base < 65536 -> inpage base x = base - base mod 256 + x /\ 0 <= inpage base x < 65536.
Proof.
  intros X B. unfold byte in X. unfold inpage, u16. change (2^16) with 65536. rewrite (Z.mod_small base) by lia.
  assert (E : Z.land base (Z.lnot 255) = base - base mod 256).
  { change 255 with (Z.ones 8). rewrite <- Z.ldiff_land, Z.ldiff_ones_r, Z.shiftl_mul_pow2, Z.shiftr_div_pow2 by lia.
    change (2^8) with 256. pose proof (Z.div_mod base 256). lia. }
  assert (F : Z.lor (Z.land base (Z.lnot 255)) x = base - base mod 256 + x).
  { rewrite <- E. rewrite <- Z.lxor_lor, <- Z.add_nocarry_lxor; auto.
    - rewrite <- Z.land_assoc. replace (Z.land (Z.lnot 255) x) with 0; [apply Z.land_0_r|].
      symmetry. rewrite Z.land_comm, <- Z.ldiff_land. change 255 with (Z.ones 8). apply Z.ldiff_ones_r_low; [lia|].
      destruct (Z.eq_dec x 0) as [->|]; [cbn; lia|]. apply Z.log2_lt_pow2; lia.
    - rewrite <- Z.land_assoc. replace (Z.land (Z.lnot 255) x) with 0; [apply Z.land_0_r|].
      symmetry. rewrite Z.land_comm, <- Z.ldiff_land. change 255 with (Z.ones 8). apply Z.ldiff_ones_r_low; [lia|].
      destruct (Z.eq_dec x 0) as [->|]; [cbn; lia|]. apply Z.log2_lt_pow2; lia. }
  rewrite F. assert (R : 0 <= base - base mod 256 + x < 65536).
  { pose proof (Z.div_mod base 256). pose proof (Z.mod_pos_bound base 256). assert (base / 256 < 256) by (apply Z.div_lt_upper_bound; lia).
    assert (0 <= base / 256) by (apply Z.div_pos; lia). lia. }
  rewrite Z.mod_small by lia. auto.
Qed.
Lemma inpage_range base x : 0 <= inpage base x < 65536.
Proof. unfold inpage, u16. apply Z.mod_pos_bound. lia. Qed.
Lemma good_operand d ur opc mode : reads_as np d -> good (kwidth (kind_of opc mode)) (R_piece ur (kind_of opc mode)) (decodeOperand d ur opc mode).
Proof.
  intros (SY & RD & AW). unfold decodeOperand, kind_of.
  pose proof (land_range opc 4 ltac:(lia)) as R4. change (Z.ones 4) with 15 in R4. pose proof (land_range opc 3 ltac:(lia)) as R3. change (Z.ones 3) with 7 in R3.
  assert (GN : good 0 (R_piece ur K_none) (fun s => Val s)).
  { eapply good_weaken; [apply le_n| |apply good_none]. intros h t nb nm' (-> & -> & ->). split; [reflexivity|]. exists 0. cbn. auto. }
  destruct (_ || _).
  { destruct ur.
    - apply (good_ext _ _ (t_print (fun b => Val (outRegName (Z.land opc 15) b)))); [reflexivity|].
      eapply good_weaken; [apply le_n| |apply (good_print _ (fun k t => t = map (conv k) (reg_text (Z.land opc 15))))].
      + intros h t nb nm' (-> & -> & ->). split; [reflexivity|]. exists (Z.land opc 15). cbn [piece]. auto.
      + eauto.
      + intros out o H E. injection H as <-. destruct (reg_out (Z.land opc 15) out ltac:(lia) E) as (E0 & X). split; [exact E0|]. eauto.
    - eapply good_weaken; [apply le_n| |apply (good_dec d np (Z.land opc 15) 4); auto; lia].
      intros h t nb nm' (-> & -> & N). split; [reflexivity|]. exists (Z.land opc 15). cbn [piece]. auto. }
  destruct (mode =? M_IMM8).
  { eapply good_weaken; [apply le_n| |apply (good_byte 0 (fun v => R_num np v))].
    - intros h t nb nm' (v & nb' & -> & B & -> & -> & N). split; [reflexivity|]. exists v. cbn [piece]. auto.
    - intros v V. apply good_hex; auto; unfold byte in *; lia.
    - intros v. apply keeps_print.
    - intros v. apply frame_print. }
  destruct (mode =? M_IOAD).
  { eapply good_weaken; [apply le_n| |apply (good_hex d np (Z.land opc 7) 3 true); auto; lia].
    intros h t nb nm' (-> & -> & N). split; [reflexivity|]. exists (Z.land opc 7). cbn [piece]. auto. }
  destruct (_ || _).
  { eapply good_weaken; [apply le_n| |apply (good_be 0 (fun v => R_num np v))].
    - intros h t nb nm' (hi & lo & nb' & -> & BH & BL & -> & -> & N). rel_out. split; [reflexivity|]. exists (256 * hi + lo), hi, lo. auto 10.
    - intros v V. apply (good_abs d np v 0 16); auto; rewrite ?AW; cbn [Z.eqb]; lia.
    - intros v. apply keeping_print. }
  destruct (_ || _); [|exact GN].
  set (g := fun v (i : insn) => t_print (outAbsAddr d (inpage (i_addr i + 2) v) 0)).
  apply (good_ext _ _ (fun s => let '(v, s) := t_byte s in (fun s => g v (d_insn (t_in s)) s) s)).
  { intros s. destruct (t_byte s). reflexivity. }
  assert (G : forall v i, good 0 (R_num np (inpage (i_addr i + 2) v)) (g v i)).
  { intros v i. apply (good_abs d np _ 0 16); auto; rewrite ?AW; cbn [Z.eqb]; try lia. apply inpage_range. }
  eapply good_weaken; [apply le_n| |apply (good_byte' 0 (fun v => R_insn (fun i => R_num np (inpage (i_addr i + 2) v))))].
  - intros h t nb nm' (v & nb' & -> & B & -> & -> & N). rel_out. split; [reflexivity|]. cbn [canon i_addr] in N. exists (inpage (h_addr h + 2) v), v. auto.
  - intros v. apply (good_insn 0 (fun i => R_num np (inpage (i_addr i + 2) v)) (g v)). apply G.
Qed.

(* ------------------------------------------------------------ a whole instruction *)
Definition pages : list Z := [0; 0x68].
Definition pfx (ct c : Z) : bool := match cdp1802_isPrefix ct c with Val b => b | _ => false end.
Definition look (ct p o : Z) : option entry := match cdp1802_searchOpCode ct p o with Val r => r | _ => None end.
Definition look_ok (ct p o : Z) : bool :=
  match cdp1802_searchOpCode ct p o with
  | Val None => true
  | Val (Some e) => (negb (e_m1 e =? M_NONE) || (e_m2 e =? M_NONE)) && (kwidth (kind_of o (e_m1 e)) + kwidth (kind_of o (e_m2 e)) <=? 2)%nat
  | _ => false
  end.
Lemma look_check : forallb (fun ct => forallb (fun p => forallb (look_ok ct p) all_bytes) pages) types = true.
Proof. vm_compute. reflexivity. Qed.
Lemma look_at ct p o : In ct types -> In p pages -> byte o -> look_ok ct p o = true.
Proof.
  intros C P O. pose proof look_check as H. rewrite forallb_forall in H. specialize (H ct C). rewrite forallb_forall in H. specialize (H p P).
  rewrite forallb_forall in H. apply H, all_in, O.
Qed.
Definition pfx_ok (ct c : Z) : bool := match cdp1802_isPrefix ct c with Val b => implb b (c =? 0x68) | _ => false end.
Lemma pfx_check : forallb (fun ct => forallb (pfx_ok ct) all_bytes) types = true.
Proof. vm_compute. reflexivity. Qed.
Lemma pfx_val ct c : In ct types -> byte c -> cdp1802_isPrefix ct c = Val (pfx ct c).
Proof.
  intros C B. pose proof pfx_check as H. rewrite forallb_forall in H. specialize (H ct C). rewrite forallb_forall in H. specialize (H c (all_in _ B)).
  unfold pfx_ok, pfx in *. now destruct (cdp1802_isPrefix ct c).
Qed.
Lemma pages_in ct p : In ct types -> byte p -> p = 0 \/ pfx ct p = true -> In p pages.
Proof.
  intros C B [->|P]; [cbn; auto|]. pose proof pfx_check as H. rewrite forallb_forall in H. specialize (H ct C). rewrite forallb_forall in H. specialize (H p (all_in _ B)).
  unfold pfx_ok, pfx in *. destruct (cdp1802_isPrefix ct p) as [b| | | |]; try discriminate. subst b. cbn [implb] in H. apply Z.eqb_eq in H. subst p. cbn. auto.
Qed.
Definition more_op (d : disasm) (ur : bool) (o mode : Z) : step :=
  if mode =? M_NONE then fun s => Val s else fun s => bind (Val (t_put comma s)) (decodeOperand d ur o mode).
Definition chain (d : disasm) (ct : Z) (ur : bool) (p o : Z) : step :=
  match look ct p o with
  | None => fun s => Val (t_setErrorIf UNKNOWN_INSTRUCTION s)
  | Some e => fun s => bind (Val (t_readName (entry_name e) s)) (fun s => bind (decodeOperand d ur o (e_m1 e) s) (more_op d ur o (e_m2 e)))
  end.
Lemma chain_start d ct ur p o s : In ct types -> In p pages -> byte o -> decode_opcode d ct ur p o s = chain d ct ur p o (t_seterr OK s).
Proof.
  intros C P O. pose proof (look_at ct p o C P O) as LO. unfold decode_opcode, chain, look, look_ok in *. cbv zeta.
  destruct (cdp1802_searchOpCode ct p o) as [[e|]| | | |]; try discriminate; cbn [bind]; [|reflexivity].
  apply andb_true_iff in LO. destruct LO as (LO & _). unfold more_op. destruct (Z.eqb_spec (e_m1 e) M_NONE) as [->|N]; cbn [negb orb] in LO.
  - rewrite LO. reflexivity.
  - destruct (decodeOperand _ _ _ _ _) as [s1| | | |]; try reflexivity. cbn [bind]. now destruct (e_m2 e =? M_NONE).
Qed.
Definition R_more (ur : bool) (o mode : Z) : rel :=
  if mode =? M_NONE then R_none else R_seq (R_text (fun _ t => t = [44; 32])) (R_piece ur (kind_of o mode)).
Definition R_chain (ct : Z) (ur : bool) (p o : Z) : rel := fun h t nb nm' => exists e, look ct p o = Some e /\
  R_seq (R_name (entry_name e)) (R_seq (R_piece ur (kind_of o (e_m1 e))) (R_more ur o (e_m2 e))) h t nb nm'.
Definition n_chain (ct p o : Z) : nat :=
  match look ct p o with Some e => kwidth (kind_of o (e_m1 e)) + kwidth (kind_of o (e_m2 e)) | None => 0 end.
Lemma good_more d ur o mode : reads_as np d -> good (kwidth (kind_of o mode)) (R_more ur o mode) (more_op d ur o mode).
Proof.
  intros RD. unfold R_more, more_op. destruct (Z.eqb_spec mode M_NONE) as [->|_].
  - apply good_none.
  - apply (good_seq 0 _ _ _ (fun s => Val (t_put comma s))); [apply good_comma|now apply good_operand].
Qed.
Lemma good_chain d ct ur p o : reads_as np d -> good (n_chain ct p o) (R_chain ct ur p o) (chain d ct ur p o).
Proof.
  intros RD. unfold n_chain, chain, R_chain. destruct (look ct p o) as [e|].
  - pose proof (good_seq 0 _ _ _ _ _ (good_name (entry_name e)) (good_seq _ _ _ _ _ _ (good_operand d ur o (e_m1 e) RD) (good_more d ur o (e_m2 e) RD))) as G.
    eapply good_weaken; [apply le_n| |exact G]. intros h t nb nm' Q. exists e. auto.
  - eapply good_weaken; [apply le_n| |apply good_check]. intros h t nb nm' (Q & _). discriminate.
Qed.
Lemma chain_len ct p o : In ct types -> In p pages -> byte o -> (n_chain ct p o <= 2)%nat.
Proof.
  intros C P O. pose proof (look_at ct p o C P O) as LO. unfold n_chain, look_ok, look in *. destruct (cdp1802_searchOpCode ct p o) as [[e|]| | | |]; try discriminate; lia.
Qed.
End Printed.

(* ------------------------------------------------------------ reading it back *)
Definition num := numeral np_rca.
Definition famRca : family := mkFam pl_cdp1802 prefix_c infix_c (s2l "#XxBbDd").
Definition numhead (u : text) : Prop := is_digit (peek u) = true \/ peek u = 35 \/ quoted [88; 120; 66; 98; 68; 100] u.
Lemma num_head u n : num u n -> numhead u.
Proof.
  intros N. specialize (N [] Logic.I). rewrite app_nil_r in N. unfold np_rca in N.
  destruct (_ && _) eqn:E; [right; left; lia|]. destruct (ibm_head _ _ _ _ _ _ N) as [H|H].
  - repeat (apply Forall_cons; [cbn; auto|]). apply Forall_nil.
  - now left.
  - right; right. exact H.
Qed.
Lemma head_rca u n : num u n -> head_ok famRca u.
Proof.
  intros N. apply num_head in N. unfold head_ok. destruct N as [N|[N|(c & v & -> & I)]]; [auto| |].
  - right. rewrite N. cbn. auto.
  - right. cbn [peek fam_leads famRca s2l c2z]. cbn in I. cbn. tauto.
Qed.
Lemma parse_num a loc b0 t v b rest : a_pl a = pl_cdp1802 -> a_radix a = 10 -> 0 <= loc < 2^32 -> 0 <= v < 2^32 ->
  num t v -> blanks b0 -> blanks b -> tail rest ->
  exists b' w, blanks b' /\ parseInteger a loc (b0 ++ t ++ b ++ rest) OK 0 = Val (w, OK, b' ++ rest) /\ int_value w /\ int_of w = v.
Proof.
  intros PL RX LO V P B0 B T.
  destruct (parse_place famRca a loc 0 42 b0 t v b rest) as (b' & w & X1 & X2 & X3 & X4 & _); auto.
  - cbn. auto 20.
  - cbn. auto.
  - cbn. auto.
  - apply head_rca.
  - cbn. auto 30.
  - cbn. auto 30.
  - intros e I L r. cbn in I. repeat (destruct I as [<-|I]; [cbn in *; try lia; split; discriminate|]). contradiction.
  - now left.
  - destruct T as [->|(c & u & -> & C)]; [auto|]. right. exists c, u. tauto.
  - exists b', w. auto.
Qed.
(* what starts an operand *)
Definition starts (t : text) : Prop := t <> [] /\ is_space (peek t) = false /\ peek t <> 0 /\ peek t <> 59.
Lemma starts_skip b t z : blanks b -> starts t -> skipSpaces (b ++ t ++ z) = t ++ z.
Proof. intros B (N & S & _). rewrite skip_blanks by exact B. destruct t as [|c t]; [congruence|]. cbn [app]. now apply skip_none. Qed.
Lemma starts_more t z : starts t -> eol_semicolon (t ++ z) = (false, t ++ z).
Proof.
  intros ST. unfold eol_semicolon. pose proof (starts_skip [] t z (Forall_nil _) ST) as E. cbn [app] in E. rewrite E.
  destruct ST as (N & _ & A & B). destruct t as [|c t]; [congruence|]. cbn [peek app] in *. apply Z.eqb_neq in A, B. now rewrite A, B.
Qed.
Lemma digit_starts c t : is_digit c = true -> starts (c :: t).
Proof. unfold starts, is_digit, is_space. cbn [peek]. intros H. split; [discriminate|]. lia. Qed.
Lemma num_noreg t v z : num t v -> starts t /\ parseRegName (t ++ z) = None.
Proof.
  intros N. apply num_head in N. destruct N as [N|[N|(c & u & -> & I)]].
  - destruct t as [|c t]; [discriminate|]. cbn [peek] in N. split; [now apply digit_starts|]. unfold parseRegName. cbn [app iexpect].
    replace (to_upper c =? to_upper 82) with false; [reflexivity|]. unfold is_digit in N. unfold to_upper, is_lower. replace ((97 <=? c) && (c <=? 122)) with false by lia. cbn [Z.leb Z.compare Pos.compare Pos.compare_cont andb]. lia.
  - destruct t as [|c t]; [discriminate|]. cbn [peek] in N. subst c. split; [repeat split; discriminate|]. reflexivity.
  - cbn in I. repeat (destruct I as [<-|I]; [split; [repeat split; discriminate|reflexivity]|]). contradiction.
Qed.
(* the registers *)
Lemma tail_noid b rest : blanks b -> tail rest -> isIdLetter (peek (b ++ rest)) = false /\ is_digit (peek (b ++ rest)) = false.
Proof.
  intros B T. destruct b as [|c b]; cbn [app].
  - destruct T as [->|(c & u & -> & [->| ->])]; split; reflexivity.
  - inversion B as [|? ? C ?]; subst. cbn [peek]. apply space_cases in C. destruct C as [->|[->|[->|[->|[->| ->]]]]]; split; reflexivity.
Qed.
Lemma loop_stop z v l : is_digit (peek z) = false -> regNumber_loop z v l = (v, l, z).
Proof. intros D. destruct z as [|c z]; [reflexivity|]. cbn [peek] in D. cbn [regNumber_loop]. now rewrite D. Qed.
Lemma reg_read k n b rest : 0 <= n < 16 -> blanks b -> tail rest ->
  starts (map (conv (Some k)) (reg_text n)) /\ parseRegName (map (conv (Some k)) (reg_text n) ++ b ++ rest) = Some (n, b ++ rest).
Proof.
  intros N B T. destruct (tail_noid b rest B T) as (NI & ND). set (z := b ++ rest) in *.
  assert (I : In n [0;1;2;3;4;5;6;7;8;9;10;11;12;13;14;15]) by (cbn; lia). cbn in I.
  repeat (destruct I as [<-|I]; [destruct k; (split; [repeat split; discriminate|]);
    cbn; unfold parseRegNumber; rewrite ?loop_stop by exact ND; cbn; rewrite ?loop_stop by exact ND; rewrite NI; reflexivity|]). contradiction.
Qed.
Definition modes_of (ur : bool) (K : kind) : list Z :=
  match K with K_none => [M_NONE] | K_reg _ => if ur then [M_REGN] else [M_ADDR] | _ => [M_ADDR] end.
(* the operand [op] which is read *)
Definition reads (ur : bool) (K : kind) (v : Z) (op : operand) : Prop :=
  In (o_mode op) (modes_of ur K) /\ o_err op = OK /\ (K = K_none \/ int_value (o_val op) /\ int_of (o_val op) = v).
Definition kind_ok (K : kind) : Prop := match K with K_reg n => 0 <= n < 16 | K_val v => 0 <= v < 8 | _ => True end.
Lemma piece_range ur K k addr t nb v : kind_ok K -> piece np_rca ur K k addr t nb v -> 0 <= v < 65536.
Proof.
  destruct K; cbn [piece kind_ok]; unfold byte; intros KO H.
  - lia.
  - lia.
  - lia.
  - lia.
  - destruct H as (hi & lo & _ & H1 & H2 & -> & _). lia.
  - destruct H as (x & _ & _ & -> & _). apply inpage_range.
Qed.
Lemma parse_piece ur uA K k addr t nb v a b0 b rest :
  a_pl a = pl_cdp1802 -> a_radix a = 10 -> (ur = true -> uA = true) -> K <> K_none -> kind_ok K -> piece np_rca ur K (Some k) addr t nb v ->
  0 <= addr < 2^16 -> blanks b0 -> blanks b -> tail rest ->
  starts t /\ exists b' op, blanks b' /\ parseOperand a uA addr (b0 ++ t ++ b ++ rest) = Val (OK, op, b' ++ rest) /\ reads ur K v op.
Proof.
  intros PL RX UA NK KO P AR B0 B T. pose proof (piece_range _ _ _ _ _ _ _ KO P) as VR.
  assert (AR' : 0 <= addr < 2^32) by lia. assert (VR' : 0 <= v < 2^32) by lia.
  assert (EOL : p_eol (a_pl a) = eol_semicolon) by (rewrite PL; reflexivity).
  assert (PLACE : num t v -> In M_ADDR (modes_of ur K) ->
     starts t /\ exists b' op, blanks b' /\ parseOperand a uA addr (b0 ++ t ++ b ++ rest) = Val (OK, op, b' ++ rest) /\ reads ur K v op).
  { intros N MO. destruct (num_noreg t v (b ++ rest) N) as (ST & NR). split; [exact ST|].
    destruct (parse_num a addr [] t v b rest PL RX AR' VR' N (Forall_nil _) B T) as (b' & w & B' & PI & IV & IO).
    exists b', (mkOp M_ADDR w OK). split; [exact B'|]. split; [|unfold reads; cbn [o_mode o_err o_val]; auto].
    unfold parseOperand. cbv zeta. rewrite (starts_skip b0 _ _ B0 ST), EOL, (starts_more _ _ ST). cbv iota. rewrite NR. replace (if uA then None else None) with (@None (Z * text)) by now destruct uA.
    cbn [app] in PI. rewrite PI. reflexivity. }
  destruct K; cbn [piece kind_ok] in P, KO; [congruence| | | | |].
  - destruct P as (N & -> & ->). destruct ur.
    + subst t. destruct (reg_read k n b rest KO B T) as (ST & RR). split; [exact ST|].
      exists b, (mkOp M_REGN (setUnsigned n) OK). split; [exact B|]. split.
      * unfold parseOperand. cbv zeta. rewrite (starts_skip b0 _ _ B0 ST), EOL, (starts_more _ _ ST). cbv iota. rewrite (UA eq_refl), RR. reflexivity.
      * unfold reads. cbn [o_mode o_err o_val modes_of In]. split; [auto|]. split; [reflexivity|]. right. apply set_unsigned. lia.
    + apply PLACE; [exact N|]. cbn. auto.
  - destruct P as (N & _ & ->). apply PLACE; [exact N|]. cbn. auto.
  - destruct P as (N & _). apply PLACE; [exact N|]. cbn. auto.
  - destruct P as (hi & lo & _ & _ & _ & _ & N). apply PLACE; [exact N|]. cbn. auto.
  - destruct P as (x & _ & _ & _ & N). apply PLACE; [exact N|]. cbn. auto.
Qed.

(* ------------------------------------------------------------ bytes *)
Lemma canon_be hi lo addr bs : byte hi -> byte lo -> (length bs < 63)%nat ->
  snd (emitUint16Be (256 * hi + lo) (canon addr bs)) = canon addr (bs ++ [hi; lo]).
Proof.
  intros X Y L. unfold emitUint16Be. rewrite emit_be by assumption.
  assert (E : forall x bs, byte x -> (length bs < 64)%nat -> emitByte_at x (Z.of_nat (length bs)) (canon addr bs) = (OK, canon addr (bs ++ [x]))).
  { intros x bs' BX LB. now rewrite <- (canon_emit addr bs' x BX LB). }
  change (i_len (canon addr bs)) with (Z.of_nat (length bs)). rewrite (E hi) by (auto; lia). cbn [snd].
  replace (Z.of_nat (length bs) + 1) with (Z.of_nat (length (bs ++ [hi]))) by (rewrite app_length; cbn; lia).
  rewrite (E lo) by (auto; rewrite ?app_length; cbn; lia). cbn [snd]. now rewrite <- app_assoc.
Qed.
Lemma emitB x v addr bs e p o : byte x -> u8 v = x -> (length bs < 60)%nat -> ai_emitByte v (mkAI (canon addr bs) e p o) = mkAI (canon addr (bs ++ [x])) e p o.
Proof. intros X U L. unfold ai_emitByte, ai_set. cbn [ai_insn ai_err ai_prefix ai_opc]. rewrite U, canon_emit by (auto; lia). reflexivity. Qed.
Lemma emitW hi lo v addr bs e p o : byte hi -> byte lo -> u16 v = 256 * hi + lo -> (length bs < 60)%nat ->
  ai_emitUint16 v (mkAI (canon addr bs) e p o) = mkAI (canon addr (bs ++ [hi; lo])) e p o.
Proof. intros X Y U L. unfold ai_emitUint16, ai_set. cbn [ai_insn ai_err ai_prefix ai_opc]. rewrite U, canon_be by (auto; lia). reflexivity. Qed.
Lemma u8_byte x : byte x -> u8 x = x.
Proof. intros B. unfold u8. now apply Z.mod_small. Qed.
Lemma emitI addr e p o : byte p -> byte o -> ai_emitInsn (mkAI (canon addr []) e p o) = mkAI (canon addr (opcode_bytes p o)) e p o.
Proof.
  intros P O. unfold ai_emitInsn, opcode_bytes. cbn [ai_prefix]. destruct (negb (p =? 0)).
  - rewrite (emitB p) by (auto using u8_byte; cbn; lia). cbn [ai_opc]. rewrite (emitB o) by (auto using u8_byte; cbn; lia). reflexivity.
  - cbn [ai_opc]. rewrite (emitB o) by (auto using u8_byte; cbn; lia). reflexivity.
Qed.
Lemma noerr i e p o : ai_setErrorIf OK (mkAI i e p o) = mkAI i e p o.
Proof. unfold ai_setErrorIf, setErrorIfAt. cbn. now rewrite andb_false_r. Qed.
Definition fits (K : kind) (m : Z) : bool :=
  match K with
  | K_none => m =? M_NONE
  | K_reg n => (m =? M_REGN) || (m =? M_REG1) && negb (n =? 0)
  | K_val x => (m =? M_IOAD) && negb (x =? 0)
  | K_byte => m =? M_IMM8
  | K_addr => (m =? M_ADDR) || (m =? M_LONG)
  | K_page => (m =? M_PAGE) || (m =? M_SHRT)
  end.
Definition embed (K : kind) (o : Z) : Z :=
  match K with K_reg n | K_val n => u8 (Z.lor o n) | _ => o end.
Lemma non_zero w v : int_value w -> int_of w = v -> (v =? 0) = false -> isZero w = false.
Proof. intros IV IO NZ. apply Z.eqb_neq in NZ. rewrite <- IO in NZ. pose proof (zero_flag w IV NZ) as H. apply orb_false_iff in H. tauto. Qed.
Lemma opcode_len p o : (length (opcode_bytes p o) <= 2)%nat.
Proof. unfold opcode_bytes. destruct (negb _); cbn; lia. Qed.
Lemma emit_piece sm ur K k addr t nb v m op p o :
  piece np_rca ur K k addr t nb v -> kind_ok K -> fits K m = true -> reads ur K v op -> 0 <= addr < 65534 -> byte p -> byte o ->
  (sm = true -> m = M_SHRT -> u8 (Z.lor 0x30 (Z.land o 0xF)) = o) ->
  (sm = true -> m = M_LONG -> u8 (Z.lor 0xC0 (Z.land o 0xF)) = o /\ v / 256 <> (addr + 2) / 256) ->
  emitOperand sm m op (mkAI (canon addr []) OK p o) = mkAI (canon addr (opcode_bytes p (embed K o) ++ nb)) OK p (embed K o).
Proof.
  intros P KO F (IM & OE & RDS) AR BP BO SS SL. pose proof (piece_range _ _ _ _ _ _ _ KO P) as VR. unfold emitOperand. cbv zeta. rewrite OE, noerr. change (isOK OK) with true. cbn [negb].
  assert (OL : forall o, (length (opcode_bytes p o) < 60)%nat) by (intros x; pose proof (opcode_len p x); lia).
  assert (BU : forall z, byte (u8 z)) by (intros z; unfold u8, byte; apply Z.mod_pos_bound; lia).
  destruct K; cbn [piece kind_ok fits embed] in *.
  - destruct P as (_ & -> & _). apply Z.eqb_eq in F. subst m. rewrite app_nil_r. change (ai_emitInsn (mkAI (canon addr []) OK p o) = mkAI (canon addr (opcode_bytes p o)) OK p o). now apply emitI.
  - destruct P as (_ & -> & ->). rewrite app_nil_r. destruct RDS as [?|(IV & IO)]; [discriminate|].
    assert (ER : emit_register op (o_val op) (mkAI (canon addr []) OK p o) = mkAI (canon addr (opcode_bytes p (u8 (Z.lor o n)))) OK p (u8 (Z.lor o n))).
    { unfold emit_register. cbv zeta. rewrite OE. change (isOK OK) with true. cbn [negb]. rewrite (over _ n) by (auto; lia). destruct (Z.ltb_spec 15 n); [lia|].
      unfold ai_embed. cbn [ai_insn ai_err ai_prefix ai_opc]. rewrite (get_unsigned _ n) by (auto; lia). now apply emitI. }
    apply orb_true_iff in F. destruct F as [F|F].
    + apply Z.eqb_eq in F. subst m. cbn [Z.eqb M_REGN M_REG1 Pos.eqb]. exact ER.
    + apply andb_true_iff in F. destruct F as (F & NZ). apply Z.eqb_eq in F. subst m. change (M_REG1 =? M_REG1) with true. cbv iota. apply negb_true_iff in NZ. rewrite (non_zero _ n) by auto. exact ER.
  - destruct P as (_ & -> & ->). rewrite app_nil_r. destruct RDS as [?|(IV & IO)]; [discriminate|].
    apply andb_true_iff in F. destruct F as (F & NZ). apply Z.eqb_eq in F. subst m. apply negb_true_iff in NZ.
    cbn [Z.eqb M_REGN M_REG1 M_IMM8 M_PAGE M_ADDR M_SHRT M_LONG M_IOAD Pos.eqb orb]. rewrite (non_zero _ x), (over _ x) by (auto; lia).
    destruct (Z.ltb_spec 7 x); [lia|]. cbn [orb]. unfold ai_embed. cbn [ai_insn ai_err ai_prefix ai_opc]. rewrite (get_unsigned _ x) by (auto; lia). now apply emitI.
  - destruct P as (_ & -> & B). destruct RDS as [?|(IV & IO)]; [discriminate|]. apply Z.eqb_eq in F. subst m.
    cbn [Z.eqb M_REGN M_REG1 M_IMM8 M_PAGE M_ADDR M_SHRT M_LONG M_IOAD Pos.eqb orb]. unfold overflowUint8. unfold byte in B. rewrite (over _ v) by (auto; lia).
    destruct (Z.ltb_spec 255 v); [lia|]. rewrite emitI by auto. rewrite (get_unsigned _ v) by (auto; lia). now rewrite (emitB v) by (auto using u8_byte).
  - destruct P as (hi & lo & -> & BH & BL & EV & _). destruct RDS as [?|(IV & IO)]; [discriminate|].
    assert (EP : inter_page op (mkAI (canon addr []) OK p o) = mkAI (canon addr (opcode_bytes p o ++ [hi; lo])) OK p o).
    { unfold inter_page. cbv zeta. rewrite (get_unsigned _ v) by (auto; lia).
      assert (CK : checkAddr 16 v false = OK) by (apply C31_addr; [lia|lia|]; split; [change (2^16) with 65536; lia|discriminate]).
      rewrite CK, noerr, emitI by auto. apply emitW; auto. rewrite <- EV. unfold u16. apply Z.mod_small. exact VR. }
    apply orb_true_iff in F. destruct F as [F|F]; apply Z.eqb_eq in F; subst m; [exact EP|].
    destruct sm; [|exact EP]. destruct (SL eq_refl eq_refl) as (OO & NP).
    cbn [Z.eqb M_REGN M_REG1 M_IMM8 M_PAGE M_ADDR M_SHRT M_LONG M_IOAD Pos.eqb orb andb negb].
    unfold encodePage; cbv zeta; cbn [ai_insn canon i_addr]; rewrite OE; change (isOK OK) with true; cbn [negb]. rewrite (get_unsigned _ v) by (auto; lia).
    cbn [Z.eqb M_REGN M_REG1 M_IMM8 M_PAGE M_ADDR M_SHRT M_LONG M_IOAD Pos.eqb orb andb negb].
    replace (u32 (addr + 2)) with (addr + 2) by (unfold u32; symmetry; apply Z.mod_small; lia).
    assert (CK : isOK (checkAddr_in 16 v (addr + 2) 8 false) = false).
    { destruct (isOK _) eqn:X; [|reflexivity]. apply isOK_e in X. apply C31_segment in X; [|lia..]. change (2^8) with 256 in X. tauto. }
    rewrite CK. cbn [negb]. unfold interBranch, ai_setopc. cbn [ai_insn ai_err ai_prefix ai_opc]. rewrite OO. exact EP.
  - destruct P as (x & -> & X & EV & _). destruct RDS as [?|(IV & IO)]; [discriminate|].
    assert (BS : u32 (addr + 2) = addr + 2) by (unfold u32; apply Z.mod_small; lia).
    destruct (inpage_eq (addr + 2) x X ltac:(lia)) as (IE & _). rewrite IE in EV. pose proof (Z.mod_pos_bound (addr + 2) 256 ltac:(lia)) as MB. pose proof (Z.div_mod (addr + 2) 256 ltac:(lia)) as DM. unfold byte in X.
    assert (CK : checkAddr_in 16 v (addr + 2) 8 false = OK).
    { apply C31_segment; [lia|lia|lia|lia|]. split; [change (2^16) with 65536; lia|]. split; [discriminate|]. change (2^8) with 256.
      symmetry. apply (Z.div_unique v 256 ((addr + 2) / 256) x); lia. }
    assert (EP : intra_page v (ai_setErrorIf OK (mkAI (canon addr []) OK p o)) = mkAI (canon addr (opcode_bytes p o ++ [x])) OK p o).
    { unfold intra_page. rewrite noerr, emitI by auto. apply emitB; auto. unfold u8. change (2^8) with 256. symmetry. apply (Z.mod_unique v 256 ((addr + 2) / 256) x); lia. }
    apply orb_true_iff in F. destruct F as [F|F]; apply Z.eqb_eq in F; subst m;
      cbn [Z.eqb M_REGN M_REG1 M_IMM8 M_PAGE M_ADDR M_SHRT M_LONG M_IOAD Pos.eqb orb andb negb];
      unfold encodePage; cbv zeta; cbn [ai_insn canon i_addr]; rewrite OE; change (isOK OK) with true; cbn [negb]; rewrite BS, (get_unsigned _ v) by (auto; lia); rewrite CK;
      cbn [Z.eqb M_REGN M_REG1 M_IMM8 M_PAGE M_ADDR M_SHRT M_LONG M_IOAD Pos.eqb orb andb negb]; [exact EP|].
    destruct sm; [|exact EP]. change (isOK OK) with true. cbn [negb]. unfold intraBranch, ai_setopc. cbn [ai_insn ai_err ai_prefix ai_opc].
    rewrite (SS eq_refl eq_refl). rewrite noerr in EP. exact EP.
Qed.

(* ------------------------------------------------------------ every opcode *)
Definition is_none (K : kind) : bool := match K with K_none => true | _ => false end.
Definition kind_okb (K : kind) : bool := match K with K_reg n => (0 <=? n) && (n <? 16) | K_val v => (0 <=? v) && (v <? 8) | _ => true end.
Lemma kind_okb_ok K : kind_okb K = true -> kind_ok K.
Proof. destruct K; cbn [kind_okb kind_ok]; auto; lia. Qed.
Definition second (K : kind) : bool := match K with K_none | K_addr => true | _ => false end.
Definition check_one (ct : Z) (ur : bool) (k : option bool) (p opc : Z) (nm : text) (K1 K2 : kind) : bool :=
  let nm := map (conv k) nm in
  plain_name sp_rca [] cdp1802_directives nm && is_alpha (peek nm) &&
  (negb (is_none K1) || is_none K2) && second K2 && kind_okb K1 && kind_okb K2 &&
  forallb (fun om1 => forallb (fun om2 =>
    match cdp1802_searchName ct nm om1 om2 with
    | Val (OK, Some (p', e')) => (p' =? p) && fits K1 (e_m1 e') && Bool.eqb (e_m2 e' =? M_ADDR) (negb (is_none K2)) && (0 <=? e_opc e') && (e_opc e' <? 256) && (embed K1 (e_opc e') =? opc) &&
      (negb (e_m1 e' =? M_SHRT) || (u8 (Z.lor 0x30 (Z.land (e_opc e') 0xF)) =? e_opc e')) &&
      (negb (e_m1 e' =? M_LONG) || (u8 (Z.lor 0xC0 (Z.land (e_opc e') 0xF)) =? e_opc e') && (0xC0 <=? opc) && (opc <? 0xD0) && is_none K2 && (p =? 0))
    | _ => false
    end) (modes_of ur K2)) (modes_of ur K1).
Definition check (ct : Z) (ur : bool) (k : option bool) (p opc : Z) : bool :=
  match look ct p opc with
  | None => true
  | Some e =>
    let K2 := kind_of opc (e_m2 e) in
    Bool.eqb (is_none K2) (e_m2 e =? M_NONE) && check_one ct ur k p opc (entry_name e) (kind_of opc (e_m1 e)) K2
  end.
Lemma check_ok : forallb (fun ct => forallb (fun ur => forallb (fun k => forallb (fun p => forallb (check ct ur (Some k) p) all_bytes) pages) [false; true]) [false; true]) types = true.
Proof. vm_compute. reflexivity. Qed.
Lemma check_at ct ur k p opc : In ct types -> In p pages -> byte opc -> check ct ur (Some k) p opc = true.
Proof.
  intros C P O. pose proof check_ok as H. rewrite forallb_forall in H. specialize (H ct C). rewrite forallb_forall in H. specialize (H ur ltac:(destruct ur; cbn; auto)).
  rewrite forallb_forall in H. specialize (H k ltac:(destruct k; cbn; auto)). rewrite forallb_forall in H. specialize (H p P).
  rewrite forallb_forall in H. apply H, all_in, O.
Qed.
Lemma is_none_ok K : is_none K = true <-> K = K_none.
Proof. destruct K; cbn; split; congruence. Qed.
(* the operands of an instruction *)
Definition sep (K : kind) : text := if is_none K then [] else [44; 32].
Definition two (ur : bool) (k : option bool) (addr : Z) (K1 K2 : kind) (t : text) (nb : list Z) : Prop :=
  exists t1 t2 n1 n2 v1 v2, piece np_rca ur K1 k addr t1 n1 v1 /\ piece np_rca ur K2 k addr t2 n2 v2 /\ t = t1 ++ sep K2 ++ t2 /\ nb = n1 ++ n2.
Lemma more_piece ur o mode h t nb nm' : is_none (kind_of o mode) = (mode =? M_NONE) -> R_more np_rca ur o mode h t nb nm' ->
  nm' = h_nm h /\ exists u v, piece np_rca ur (kind_of o mode) (h_case h) (h_addr h) u nb v /\ t = sep (kind_of o mode) ++ u.
Proof.
  intros N. unfold R_more, sep. rewrite N. destruct (mode =? M_NONE).
  - intros (-> & -> & ->). split; [reflexivity|]. exists [], 0. apply is_none_ok in N. rewrite N. cbn. auto.
  - intros (t1 & t2 & n1 & n2 & nm1 & -> & -> & (-> & -> & ->) & -> & v & P). rel_out. split; [reflexivity|]. exists t2, v. auto.
Qed.
Lemma chain_two ct ur p o k h t nb nm' : In ct types -> In p pages -> byte o -> h_case h = Some k -> R_chain np_rca ct ur p o h t nb nm' ->
  exists nm K1 K2, check_one ct ur (Some k) p o nm K1 K2 = true /\ nm' = firstn 11 (map (conv (Some k)) nm) /\ two ur (Some k) (h_addr h) K1 K2 t nb.
Proof.
  intros C PP O HC (e & L & Q). pose proof (check_at ct ur k p o C PP O) as CK. unfold check in CK. rewrite L in CK. cbv zeta in CK.
  rewrite andb_true_iff in CK. destruct CK as (N2 & CK). apply eqb_prop in N2.
  destruct Q as (t0 & tr & n0 & nr & nm1 & -> & -> & (-> & -> & ->) & t1 & t2 & n1 & n2 & nm2 & -> & -> & Q1 & Q2).
  rel_out. rewrite ?app_nil_r in *. rewrite HC in *.
  destruct (more_piece _ _ _ _ _ _ _ N2 Q2) as (-> & u2 & v2 & P2 & ->). rel_out. destruct Q1 as (-> & v1 & P1). rel_out. rewrite ?HC in *.
  exists (entry_name e), (kind_of o (e_m1 e)), (kind_of o (e_m2 e)). split; [exact CK|]. split; [reflexivity|].
  exists t1, u2, n1, n2, v1, v2. cbn [app]. auto.
Qed.
Lemma parse_two ur uA k addr K1 K2 t nb a b rest :
  a_pl a = pl_cdp1802 -> a_radix a = 10 -> (ur = true -> uA = true) -> kind_ok K1 -> kind_ok K2 -> (K1 = K_none -> K2 = K_none) ->
  two ur (Some k) addr K1 K2 t nb -> 0 <= addr < 2^16 -> blanks b -> last_rest rest ->
  exists t1 t2 n1 n2 v1 v2 o1 o2,
    piece np_rca ur K1 (Some k) addr t1 n1 v1 /\ piece np_rca ur K2 (Some k) addr t2 n2 v2 /\
    nb = n1 ++ n2 /\ parseOperands a uA addr (skipSpaces (t ++ b ++ rest)) = Val (Two o1 o2 rest) /\
    reads ur K1 v1 o1 /\ reads ur K2 v2 o2.
Proof.
  intros PL RX UA R1 R2 N12 (t1 & t2 & n1 & n2 & v1 & v2 & P1 & P2 & -> & ->) AR B LR.
  exists t1, t2, n1, n2, v1, v2. pose proof (last_tail _ LR) as TR.
  assert (SR : skipSpaces rest = rest) by (pose proof (last_skip [] rest (Forall_nil _) LR) as X; exact X).
  unfold sep. destruct (is_none K2) eqn:NK2.
  - apply is_none_ok in NK2. subst K2. cbn [piece] in P2. destruct P2 as (-> & -> & ->). rewrite <- app_assoc. cbn [app].
    destruct (is_none K1) eqn:NK1.
    + apply is_none_ok in NK1. subst K1. exists no_operand, no_operand. split; [exact P1|]. split; [cbn; auto|]. split; [reflexivity|].
      cbn [piece] in P1. destruct P1 as (-> & -> & ->). split; [|split; unfold reads; cbn; auto].
      cbn [app]. rewrite last_skip by assumption. unfold parseOperands, parseOperand. cbv zeta. rewrite SR, PL. change (p_eol pl_cdp1802) with eol_semicolon.
      assert (EO : eol_semicolon rest = (true, rest)) by (unfold eol_semicolon; rewrite SR; destruct LR as [->|(u & ->)]; reflexivity).
      rewrite EO. cbn [bind no_operand o_err]. change (isOK OK) with true. cbn [negb andb]. rewrite SR, last_nocomma by exact LR. reflexivity.
    + assert (K1 <> K_none) as NK1' by (intros ->; discriminate).
      destruct (parse_piece ur uA K1 k addr t1 n1 v1 a [] b rest PL RX UA NK1' R1 P1 AR (Forall_nil _) B TR) as (ST & b1 & o1 & B1 & PO1 & RD1).
      cbn [app] in PO1. exists o1, no_operand. split; [exact P1|]. split; [cbn; auto|]. split; [reflexivity|].
      split; [|split; [exact RD1|unfold reads; cbn; auto]].
      pose proof (starts_skip [] t1 (b ++ rest) (Forall_nil _) ST) as SK. cbn [app] in SK. rewrite SK.
      unfold parseOperands. rewrite PO1. cbn [bind]. change (isOK OK) with true. cbn [negb andb]. cbv zeta.
      rewrite last_skip by assumption. rewrite last_nocomma by assumption. reflexivity.
  - assert (K2 <> K_none) as NK2' by (intros ->; discriminate). assert (K1 <> K_none) as NK1 by auto.
    destruct (parse_piece ur uA K1 k addr t1 n1 v1 a [] [] (44 :: 32 :: t2 ++ b ++ rest) PL RX UA NK1 R1 P1 AR (Forall_nil _) (Forall_nil _)) as (ST & b1 & o1 & B1 & PO1 & RD1).
    { right. eauto. }
    destruct (parse_piece ur uA K2 k addr t2 n2 v2 a [32] b rest PL RX UA NK2' R2 P2 AR ltac:(repeat constructor) B TR) as (_ & b2 & o2 & B2 & PO2 & RD2).
    cbn [app] in PO1, PO2. exists o1, o2. split; [exact P1|]. split; [exact P2|]. split; [reflexivity|]. split; [|auto].
    replace ((t1 ++ [44; 32] ++ t2) ++ b ++ rest) with (t1 ++ 44 :: 32 :: t2 ++ b ++ rest) by now rewrite <- !app_assoc.
    pose proof (starts_skip [] t1 (44 :: 32 :: t2 ++ b ++ rest) (Forall_nil _) ST) as SK. cbn [app] in SK. rewrite SK.
    unfold parseOperands. rewrite PO1. cbn [bind]. change (isOK OK) with true. cbn [negb andb]. cbv zeta.
    rewrite skip_blanks by exact B1. rewrite (skip_none 44) by reflexivity. cbn [expect_char]. change (44 =? 44) with true. cbv iota.
    rewrite PO2. cbn [bind]. change (isOK OK) with true. cbn [negb andb]. rewrite last_skip by assumption. reflexivity.
Qed.
Lemma plain_rca nm z : is_alpha (peek nm) = true -> line_rca (nm ++ z) = (false, nm ++ z).
Proof.
  intros A. destruct nm as [|c nm]; [discriminate|]. cbn [app peek] in *. unfold line_rca.
  change (s2l "..") with [46; 46]. cbn [iexpectText].
  assert (H : 65 <= c <= 90 \/ 97 <= c <= 122) by (unfold is_alpha, is_upper, is_lower in A; lia).
  assert (X : (to_lower 46 =? to_lower c) = false) by (unfold to_lower, is_upper; change ((65 <=? 46) && (46 <=? 90)) with false; destruct (Z.leb_spec 65 c); destruct (Z.leb_spec c 90); cbn [andb]; lia).
  rewrite X. unfold eol_semicolon. rewrite skip_none by (unfold is_space; lia). cbn [peek].
  replace ((c =? 0) || (c =? 59)) with false by lia. reflexivity.
Qed.
Lemma encode_ok sm ct ur uA k p opc nm K1 K2 t nb a indent gap b rest addr :
  check_one ct ur (Some k) p opc nm K1 K2 = true -> (ur = true -> uA = true) ->
  two ur (Some k) addr K1 K2 t nb -> byte p -> byte opc ->
  a_pl a = pl_cdp1802 -> a_radix a = 10 -> a_aw a = 16 ->
  blanks indent -> blanks gap -> gap <> [] \/ t = [] -> blanks b -> last_rest rest -> 0 <= addr < 65534 ->
  (sm = true -> forall c hi lo, opcode_bytes p opc ++ nb = [c; hi; lo] -> 0xC0 <= c < 0xD0 -> hi <> (addr + 2) / 256) ->
  cdp1802_encode a ct uA sm (indent ++ firstn 11 (map (conv (Some k)) nm) ++ gap ++ t ++ b ++ rest) addr =
  Val (L_insn (canon addr (opcode_bytes p opc ++ nb)) rest).
Proof.
  intros CK UA TH BP BO PL RX AW BI BG NG BB LR AR SM. unfold check_one in CK. cbv zeta in CK.
  rewrite !andb_true_iff in CK. destruct CK as ((((((PN & AL) & N12) & S2) & KO1) & KO2) & CK).
  apply kind_okb_ok in KO1, KO2. set (nm' := map (conv (Some k)) nm) in *.
  assert (LN : firstn 11 nm' = nm').
  { apply firstn_all2. unfold plain_name in PN. rewrite !andb_true_iff in PN. destruct PN as (((_ & L) & _) & _). now apply Nat.leb_le in L. }
  rewrite LN. unfold cdp1802_encode. rewrite line_insn; [| | |exact BI|exact BG| |].
  2:{ rewrite PL. exact PN. }
  2:{ intros z. rewrite PL. now apply plain_rca. }
  2:{ rewrite PL. apply name_ends; auto. intros c I. cbn in I. repeat (destruct I as [<-|I]; [reflexivity|]). contradiction. }
  2:{ rewrite AW. apply C31_addr; [lia|lia|]. split; [change (2^16) with 65536; lia|discriminate]. }
  destruct (parse_two ur uA k addr K1 K2 t nb a b rest) as (t1 & t2 & n1 & n2 & v1 & v2 & o1 & o2 & P1 & P2 & -> & PO & R1 & R2); auto.
  { intros ->. cbn [is_none negb orb] in N12. now apply is_none_ok. }
  { lia. }
  unfold cdp1802_encodeImpl. rewrite PO. cbn [bind].
  rewrite forallb_forall in CK. specialize (CK _ (proj1 R1)). rewrite forallb_forall in CK. specialize (CK _ (proj1 R2)).
  destruct (cdp1802_searchName ct nm' (o_mode o1) (o_mode o2)) as [[er [[p' e']|]]| | | |]; try discriminate.
  2:{ destruct er; discriminate. }
  destruct er; try discriminate. rewrite !andb_true_iff in CK. destruct CK as (((((((PP & F1) & M2) & E0) & E1) & C2) & LS) & LL). apply Z.eqb_eq in C2, PP. subst p'. apply eqb_prop in M2.
  cbn [bind i_err new_insn]. change (setErrorIfAt OK OK) with OK. change (isOK OK) with true. cbn [negb]. cbv zeta.
  change (new_insn addr) with (canon addr []).
  rewrite (emit_piece sm ur K1 (Some k) addr t1 n1 v1 (e_m1 e') o1 p (e_opc e') P1 KO1 F1 R1 AR BP ltac:(unfold byte; lia)).
  2:{ intros _ E. rewrite E in LS. change (M_SHRT =? M_SHRT) with true in LS. cbn [negb orb] in LS. now apply Z.eqb_eq. }
  2:{ intros ES E. rewrite E in LL, F1. change (M_LONG =? M_LONG) with true in LL. cbn [negb orb] in LL. rewrite !andb_true_iff in LL. destruct LL as ((((L1 & L2) & L3) & NK2) & L4).
      apply Z.eqb_eq in L1, L4. split; [exact L1|]. apply is_none_ok in NK2. subst K2 p. cbn [piece] in P2. destruct P2 as (_ & -> & _).
      destruct K1; cbn [fits] in F1; try discriminate F1. cbn [piece] in P1. destruct P1 as (hi & lo & -> & BH & BL & -> & _). unfold byte in BL.
      replace ((256 * hi + lo) / 256) with hi by (apply (Z.div_unique _ _ _ lo); lia). apply (SM ES opc hi lo); [reflexivity|lia]. }
  rewrite C2, M2.
  destruct K2; try discriminate; cbn [is_none negb piece] in *.
  - destruct P2 as (_ & -> & _). rewrite app_nil_r. reflexivity.
  - destruct P2 as (hi & lo & -> & BH & BL & EV & _). destruct R2 as (_ & OE & [?|(IV & IO)]); [discriminate|]. rewrite OE, noerr.
    unfold byte in BH, BL. rewrite (get_unsigned _ v2) by (auto; lia). rewrite (emitW hi lo).
    + cbn [ai_err ai_insn]. rewrite <- app_assoc. reflexivity.
    + exact BH.
    + exact BL.
    + unfold u16. change (2^16) with 65536. rewrite Z.mod_small; lia.
    + rewrite app_length. pose proof (opcode_len p opc). assert (length n1 <= 2)%nat; [|lia].
      destruct K1; cbn [piece] in P1; [destruct P1 as (_ & -> & _)|destruct P1 as (_ & -> & _)|destruct P1 as (_ & -> & _)|destruct P1 as (_ & -> & _)|destruct P1 as (? & ? & -> & _)|destruct P1 as (? & -> & _)]; cbn; lia.
Qed.

(* ------------------------------------------------------------ the disassembler *)
Section Whole.
Variables (np : number_parser) (d : disasm) (ct : Z) (ur : bool).
Hypothesis RD : reads_as np d.
Hypothesis CT : In ct types.
Let START : forall p o addr mem s, (p = 0 \/ pfx ct p = true) -> byte p -> byte o -> within addr mem 2 s -> decode_opcode d ct ur p o s = chain d ct ur p o (t_seterr OK s).
Proof. intros p o addr mem s Q BP BO W. apply chain_start; auto. now apply (pages_in ct). Qed.
Let GOOD : forall p o, (p = 0 \/ pfx ct p = true) -> byte p -> byte o -> good (n_chain ct p o) (R_chain np ct ur p o) (chain d ct ur p o).
Proof. intros p o Q BP BO. now apply good_chain. Qed.
Let LEN : forall p o, (p = 0 \/ pfx ct p = true) -> byte p -> byte o -> (length (opcode_bytes p o) + n_chain ct p o <= 4)%nat.
Proof. intros p o Q BP BO. pose proof (chain_len ct p o CT (pages_in ct p CT BP Q) BO). pose proof (opcode_len p o). lia. Qed.
Let P0 : pfx ct 0 = false.
Proof. cbn in CT. destruct CT as [<-|[<-|[<-|[]]]]; reflexivity. Qed.
Lemma decode_eq mem addr size : Forall byte mem -> cdp1802_decode d ct ur mem addr size = dis_decode d (decode_impl (pfx ct) (decode_opcode d ct ur)) mem addr size.
Proof.
  intros FM. unfold cdp1802_decode, dis_decode. destruct (negb _); [reflexivity|]. unfold cdp1802_decodeImpl, decode_impl.
  set (s := mkDst _ _ _). assert (B0 : bytes_in s) by exact FM. destruct (t_byte s) as [opc s1] eqn:R1. destruct (bytes_kept _ _ _ R1 B0) as (B1 & O1 & _).
  rewrite pfx_val by auto. reflexivity.
Qed.
Lemma cdp1802_total mem addr size : Forall byte mem -> exists r, cdp1802_decode d ct ur mem addr size = Val r.
Proof. intros FM. rewrite decode_eq by exact FM. exact (decode_total d (pfx ct) _ _ _ (n_chain ct) 4 START GOOD LEN ltac:(lia) mem addr size FM). Qed.
Lemma cdp1802_within mem addr size r : Forall byte mem -> cdp1802_decode d ct ur mem addr size = Val r ->
  exists m, mem = i_code (r_insn r) ++ m /\ (length (i_code (r_insn r)) <= 4)%nat.
Proof. intros FM. rewrite decode_eq by exact FM. exact (decode_within d (pfx ct) _ _ _ (n_chain ct) 4 P0 START GOOD LEN ltac:(lia) mem addr size r FM). Qed.
Lemma cdp1802_takes : takes d (cdp1802_decodeImpl d ct ur) 4.
Proof.
  intros mem addr size FM NE. destruct (decode_takes d (pfx ct) _ _ _ (n_chain ct) 4 P0 START GOOD LEN ltac:(lia) mem addr size FM NE) as (s & bs & H & Q).
  exists s, bs. split; [|exact Q]. rewrite <- H. unfold cdp1802_decodeImpl, decode_impl.
  set (s0 := mkDst _ _ _). assert (B0 : bytes_in s0) by exact FM. destruct (t_byte s0) as [opc s1] eqn:R1. destruct (bytes_kept _ _ _ R1 B0) as (_ & O1 & _).
  rewrite pfx_val by auto. reflexivity.
Qed.
Lemma cdp1802_accepts mem addr size r : Forall byte mem -> mem <> [] -> cdp1802_decode d ct ur mem addr size = Val r -> i_err (r_insn r) = OK ->
  checkAddr 16 addr false = OK /\
  exists p o nb m, In p pages /\ byte p /\ byte o /\ mem = opcode_bytes p o ++ nb ++ m /\ (length (opcode_bytes p o ++ nb) <= 4)%nat /\
    r_insn r = canon addr (opcode_bytes p o ++ nb) /\
    R_chain np ct ur p o (mkH (Some (da_uppercase d)) addr (opcode_bytes p o) []) (r_operands r) nb (r_name r) /\
    forall m', Forall byte m' -> cdp1802_decode d ct ur (opcode_bytes p o ++ nb ++ m') addr size = Val r.
Proof.
  intros FM NE H E. rewrite decode_eq in H by exact FM.
  destruct (decode_accepts d (pfx ct) _ _ _ (n_chain ct) 4 P0 START GOOD LEN ltac:(lia) mem addr size r FM NE H E)
    as (CA & p & o & nb & m & PP & BP & BO & EM & L & RI & Q & FR).
  destruct RD as (_ & _ & AW). rewrite AW in CA. split; [exact CA|]. exists p, o, nb, m. split; [now apply (pages_in ct)|].
  do 6 (split; [assumption|]). intros m' FM'. rewrite decode_eq; [now apply FR|].
  rewrite EM in FM. apply Forall_app in FM. destruct FM as (F1 & F2). apply Forall_app in F2. destruct F2 as (F2 & _). apply Forall_app. split; [exact F1|]. apply Forall_app. auto.
Qed.
End Whole.
Lemma cdp1802_round d ct ur : reads_as np_rca d -> In ct types -> forall mem addr size r a sm uA indent gap b rest,
  Forall byte mem -> mem <> [] -> cdp1802_decode d ct ur mem addr size = Val r -> i_err (r_insn r) = OK ->
  a_pl a = pl_cdp1802 -> a_radix a = 10 -> a_aw a = 16 -> (ur = true -> uA = true) -> 0 <= addr < 65534 ->
  blanks indent -> blanks gap -> gap <> [] \/ r_operands r = [] -> blanks b -> last_rest rest ->
  (sm = true -> forall c hi lo, i_code (r_insn r) = [c; hi; lo] -> 0xC0 <= c < 0xD0 -> hi <> (addr + 2) / 256) ->
  cdp1802_encode a ct uA sm (indent ++ r_name r ++ gap ++ r_operands r ++ b ++ rest) addr = Val (L_insn (r_insn r) rest).
Proof.
  intros RD CT mem addr size r a sm uA indent gap b rest FM NE H E PL RX AW UA AR BI BG NG BB LR SM. destruct (cdp1802_accepts np_rca d ct ur RD CT mem addr size r FM NE H E) as (CA & p & o & nb & m & PP & BP & BO & _ & _ & RI & Q & _).
  destruct (chain_two ct ur p o (da_uppercase d) (mkH (Some (da_uppercase d)) addr (opcode_bytes p o) []) (r_operands r) nb (r_name r) CT PP BO eq_refl Q) as (nm & K1 & K2 & CK & NM & TH).
  rewrite RI, canon_code in SM. rewrite RI, NM. now apply (encode_ok sm ct ur uA (da_uppercase d) p o nm K1 K2).
Qed.
