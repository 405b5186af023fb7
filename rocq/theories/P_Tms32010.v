(** The TMS32010 family: proof of the round trip. *)
From Coq Require Import String ZArith List Bool Lia ZifyBool.
From Verif Require Import M_Char M_Error M_Value M_Text M_StrBuffer M_Format M_Number M_Insn M_Config M_Operators
  M_Parsers M_Expr M_Directive M_Table T_Tables M_Asm M_Dis M_Tms32010Defs T_Tms32010 M_Tms32010
  S_Value S_Number S_Expr S_ExprTree S_Table P_StrBuffer P_Number P_NumberRead
  P_ExprRead P_ExprTree P_ExprCase P_Table P_Insn P_Config P_Value P_Directive P_AsmText P_CpuShape P_CpuGood P_CpuText P_CpuSigned P_CpuWord.
Import ListNotations.
Open Scope string_scope.
Open Scope list_scope.
Local Open Scope Z_scope.

Definition types : list Z := [TMS32010; TMS32015].
(* octal output is read back only in C style or Intel notation *)
Definition reads_as (np : number_parser) (d : disasm) : Prop := da_symtab d = None /\ da_reads d np /\ da_aw d = 12.
Lemma tms32010_reads uh uc oc rel cs ih cur : (oc = true -> cs || ih = true) -> reads_as np_intel (tms32010_dis uh uc oc rel cs ih cur None).
Proof.
  intros H. split; [reflexivity|]. split; [|reflexivity].
  assert (I : In np_intel family_parsers) by (cbn; auto 10).
  unfold da_reads, da_formatter, tms32010_dis. cbn [da_cstyle da_intelhex da_plug da_octal].
  destruct cs; [apply all_reads with (d := tms32010_dis uh uc oc rel true ih cur None), universal_reads; auto|].
  destruct ih; [apply all_reads with (d := tms32010_dis uh uc oc rel false true cur None), universal_reads; auto|].
  split; [intros _; apply dec_reads, fb_all, I|]. split; [|intros _; apply i_hex_reads; [auto|apply fb_all, I]]. intros ->. specialize (H eq_refl). discriminate.
Qed.
(* whatever is printed is read by some parser *)
Lemma tms32010_printed uh uc oc rel cs ih cur : exists np, reads_as np (tms32010_dis uh uc oc rel cs ih cur None).
Proof.
  destruct oc; [destruct (cs || ih) eqn:X|].
  - exists np_intel. now apply tms32010_reads.
  - exists (np_octal np_intel). split; [reflexivity|]. split; [|reflexivity]. apply orb_false_iff in X. destruct X as (-> & ->).
    apply octal_reads; [cbn; auto 10|reflexivity|reflexivity].
  - exists np_intel. apply tms32010_reads. discriminate.
Qed.

(* ------------------------------------------------------------ what is printed *)
Ltac rel_out := cbn [h_case h_addr h_bs h_nm] in *.
Inductive kind := K_none | K_bad | K_ind (n : Z) | K_ar (n : Z) | K_pa (n : Z) | K_val (x : Z) | K_bit (x : Z) | K_sgn (z : Z) | K_pma.
Definition sx (o : Z) : Z := match signExtend o 13 with Some z => z | None => 0 end.
Definition direct_kind (ct opc : Z) : kind :=
  let dma := Z.land opc 0x7F in
  if Z.shiftr opc 8 =? 0x7C then
    if dataMemoryLimit ct <? Z.lor dma 0x80 then K_bad else K_val (Z.lor dma 0x80)
  else K_val dma.
Definition next_kind (opc : Z) : kind := if bit 7 opc && negb (bit 3 opc) then K_ar (if bit 0 opc then 1 else 0) else K_none.
Definition shift_kind (count opc : Z) : kind := if negb (count =? 0) || (bit 7 opc && negb (bit 3 opc)) then K_val count else K_none.
Definition kind_of (ct opc mode : Z) : kind :=
  if mode =? M_MAM then
    if bit 7 opc then K_ind (if bit 5 opc then 1 else if bit 4 opc then 2 else 0) else direct_kind ct opc
  else if mode =? M_NARP then next_kind opc
  else if mode =? M_LS4 then shift_kind (Z.land (Z.shiftr opc 8) 0xF) opc
  else if (mode =? M_LS3) || (mode =? M_LS0) then shift_kind (Z.land (Z.shiftr opc 8) 7) opc
  else if mode =? M_AR then K_ar (if bit 8 opc then 1 else 0)
  else if mode =? M_PA then K_pa (Z.land (Z.shiftr opc 8) 7)
  else if mode =? M_ARK then K_ar (if bit 0 opc then 1 else 0)
  else if mode =? M_DPK then K_bit (if bit 0 opc then 1 else 0)
  else if mode =? M_IM8 then K_val (opc mod 2^8)
  else if mode =? M_IM13 then K_sgn (sx opc)
  else if mode =? M_PMA then K_pma
  else K_none.
Definition kwidth (K : kind) : nat := match K with K_pma => 2 | _ => 0 end.
Definition ind_text (n : Z) : text := 42 :: (if n =? 1 then [43] else if n =? 2 then [45] else []).
Section Printed.
Variable np : number_parser.
Definition piece (K : kind) (k : option bool) (t : text) (nb : list Z) (v : Z) : Prop :=
  match K with
  | K_none => t = [] /\ nb = [] /\ v = 0
  | K_bad => False
  | K_ind n => t = ind_text n /\ nb = [] /\ v = 0
  | K_ar n => t = map (conv k) [65; 82; 48 + n] /\ nb = [] /\ v = n
  | K_pa n => t = map (conv k) [80; 65; 48 + n] /\ nb = [] /\ v = n
  | K_val x => numeral np t x /\ nb = [] /\ v = x
  | K_bit x => t = [48 + x] /\ nb = [] /\ v = x
  | K_sgn z => minus_text np t z /\ nb = [] /\ v = z
  | K_pma => exists lo hi, nb = [lo; hi] /\ byte hi /\ byte lo /\ v = lo + 256 * hi /\ v < 4096 /\ numeral np t v
  end.
Definition R_piece (K : kind) : rel := fun h t nb nm' => nm' = h_nm h /\ exists v, piece K (h_case h) t nb v.
Lemma digit_plain k c : 48 <= c <= 57 -> conv k c = c.
Proof. intros H. apply plain_symbol. unfold is_alpha, is_upper, is_lower. lia. Qed.
Lemma dec_digit n b : 0 <= n < 8 -> b_err (out_sdec n 0 b) = OK -> b_err b = OK /\ out_sdec n 0 b = appb b [48 + n].
Proof.
  intros N. unfold out_sdec. replace (int8 n) with n by (unfold int8; rewrite Z.mod_small; lia).
  replace (n <? 0) with false by lia. unfold out_dec. cbv zeta.
  assert (E : dec_loop (S (Z.to_nat (Z.log2 n))) 0 n b = (0, letter (n + 48) b)).
  { cbn [dec_loop]. rewrite Z.mod_small, Z.div_small by lia. reflexivity. }
  rewrite E. cbn [zeros Z.to_nat]. unfold reverse at 1. intros H.
  assert (H1 : b_err (letter (n + 48) b) = OK) by (destruct (b_mark (letter (n + 48) b) <? b_mark b); [discriminate|exact H]).
  split; [eapply letter_err, H1|]. rewrite (letter_ok _ _ H1). rewrite digit_plain by lia.
  unfold reverse, b_mark, appb. cbn [b_txt b_max b_err b_case]. rewrite app_length.
  destruct (Z.ltb_spec (Z.of_nat (length (b_txt b) + length [n + 48])) (Z.of_nat (length (b_txt b)))); [lia|].
  rewrite Nat2Z.id, firstn_app, Nat.sub_diag, firstn_all, firstn_O, app_nil_r, skipn_app, Nat.sub_diag, skipn_all, skipn_O. now rewrite Z.add_comm.
Qed.
Lemma reg_out w n b : 0 <= n < 8 -> b_err (out_sdec n 0 (out_text w b)) = OK -> b_err b = OK /\ out_sdec n 0 (out_text w b) = appb b (map (conv (b_case b)) (w ++ [48 + n])).
Proof.
  intros N E. destruct (dec_digit n _ N E) as (E1 & X). split; [eapply out_text_err, E1|]. rewrite X, out_text_ok by exact E1.
  rewrite appb_app. f_equal. rewrite map_app. cbn [map]. now rewrite digit_plain by lia.
Qed.
Lemma good_reg w n : 0 <= n < 8 -> good 0 (R_text (fun k t => t = map (conv k) (w ++ [48 + n]))) (fun s => Val (t_put (fun b => out_sdec n 0 (out_text w b)) s)).
Proof.
  intros N. apply (good_ext _ _ (t_print (fun b => Val (out_sdec n 0 (out_text w b))))); [reflexivity|].
  apply good_print; [eauto|]. intros out o H E. injection H as <-. destruct (reg_out w n out N E) as (E0 & X). split; [exact E0|]. eauto.
Qed.
Lemma good_ar n : 0 <= n < 8 -> good 0 (R_piece (K_ar n)) (fun s => Val (t_put (outRegName (R_AR n)) s)).
Proof.
  intros N. eapply good_weaken; [apply le_n| |exact (good_reg (s2l "AR") n N)].
  intros h t nb nm' (-> & -> & ->). split; [reflexivity|]. exists n. cbn [piece]. auto.
Qed.
Lemma good_pa n : 0 <= n < 8 -> good 0 (R_piece (K_pa n)) (fun s => Val (t_put (outRegName (R_PA n)) s)).
Proof.
  intros N. eapply good_weaken; [apply le_n| |exact (good_reg (s2l "PA") n N)].
  intros h t nb nm' (-> & -> & ->). split; [reflexivity|]. exists n. cbn [piece]. auto.
Qed.
Lemma land_range o n : 0 <= n -> 0 <= Z.land o (Z.ones n) < 2^n.
Proof. intros N. rewrite Z.land_ones by lia. apply Z.mod_pos_bound. apply Z.pow_pos_nonneg; lia. Qed.
(* an operand, with the comma of its own in front of it *)
Definition R_own (K : kind) : rel := match K with K_none => R_none | _ => R_seq (R_text (fun _ t => t = [44; 32])) (R_piece K) end.
Lemma none_piece : good 0 (R_piece K_none) (fun s => Val s).
Proof. eapply good_weaken; [apply le_n| |apply good_none]. intros h t nb nm' (-> & -> & ->). split; [reflexivity|]. exists 0. cbn. auto. Qed.
Lemma good_val d v bits : reads_as np d -> 0 <= v < 2^bits -> 1 <= bits <= 32 -> good 0 (R_piece (K_val v)) (t_print (dis_outDec d v bits)).
Proof.
  intros (SY & RD & AW) V B. eapply good_weaken; [apply le_n| |apply (good_dec d np v bits); auto].
  intros h t nb nm' (-> & -> & N). split; [reflexivity|]. exists v. cbn [piece]. auto.
Qed.
Lemma good_next opc : good 0 (R_own (next_kind opc)) (fun s => Val (t_put (outNextArp opc) s)).
Proof.
  unfold next_kind, outNextArp. destruct (_ && _).
  - cbn [R_own]. eapply good_ext; [|apply (good_seq 0 0 _ _ _ _ good_comma (good_ar (if bit 0 opc then 1 else 0) ltac:(destruct (bit 0 opc); lia)))]. reflexivity.
  - cbn [R_own]. apply (good_ext _ _ (fun s => Val s)); [|apply good_none]. intros s. unfold t_put, t_set_out. now destruct s.
Qed.
Lemma good_shift d count opc : reads_as np d -> 0 <= count < 16 -> good 0 (R_own (shift_kind count opc)) (outShiftCount d count opc).
Proof.
  intros RD C. unfold shift_kind, outShiftCount. destruct (_ || _).
  - cbn [R_own]. eapply good_ext; [|apply (good_seq 0 0 _ _ _ _ good_comma (good_val d count 4 RD ltac:(lia) ltac:(lia)))]. reflexivity.
  - apply good_none.
Qed.
Lemma good_silent d ct opc mode : reads_as np d -> silent mode = true -> good (kwidth (kind_of ct opc mode)) (R_own (kind_of ct opc mode)) (decodeOperand d ct opc mode).
Proof.
  intros RD S. pose proof (land_range (Z.shiftr opc 8) 4 ltac:(lia)) as R4. change (Z.ones 4) with 15 in R4.
  pose proof (land_range (Z.shiftr opc 8) 3 ltac:(lia)) as R3. change (Z.ones 3) with 7 in R3.
  assert (W : forall c, kwidth (shift_kind c opc) = 0%nat) by (intros c; unfold shift_kind; destruct (_ || _); reflexivity).
  assert (W' : kwidth (next_kind opc) = 0%nat) by (unfold next_kind; destruct (_ && _); reflexivity).
  assert (I : mode = M_LS4 \/ mode = M_LS3 \/ mode = M_LS0 \/ mode = M_NARP) by (unfold silent in S; lia). unfold kind_of, decodeOperand.
  destruct I as [->|[->|[->| ->]]]; cbn [Z.eqb M_MAM M_NARP M_LS4 M_LS3 M_LS0 Pos.eqb orb]; rewrite ?W, ?W'; [apply good_shift; [exact RD|lia]|apply good_shift; [exact RD|lia]|apply good_shift; [exact RD|lia]|apply good_next].
Qed.
Lemma good_operand d ct opc mode : reads_as np d -> 0 <= opc < 65536 -> silent mode = false -> -4096 <= sx opc < 4096 ->
  good (kwidth (kind_of ct opc mode)) (R_piece (kind_of ct opc mode)) (decodeOperand d ct opc mode).
Proof.
  intros RD OR NS SX. pose proof RD as (SY & DR & AW). unfold decodeOperand, kind_of. unfold silent in NS.
  pose proof (land_range (Z.shiftr opc 8) 3 ltac:(lia)) as R3. change (Z.ones 3) with 7 in R3.
  pose proof (land_range opc 7 ltac:(lia)) as R7. change (Z.ones 7) with 127 in R7.
  destruct (mode =? M_MAM).
  { destruct (bit 7 opc).
    - set (n := if bit 5 opc then 1 else if bit 4 opc then 2 else 0).
      eapply good_weaken; [apply le_n| |apply (good_put (outIndirect opc) (ind_text n))].
      + intros h t nb nm' (-> & -> & ->). split; [reflexivity|]. exists 0. cbn [piece]. split; [|auto]. unfold ind_text. destruct (n =? 1); [|destruct (n =? 2)]; cbn [map]; rewrite ?(plain_symbol 42), ?(plain_symbol 43), ?(plain_symbol 45) by reflexivity; reflexivity.
      + intros b. unfold outIndirect, ind_text, n. destruct (bit 5 opc); [reflexivity|]. destruct (bit 4 opc); reflexivity.
    - unfold direct_kind, outDirect. cbv zeta.
      assert (GA : forall x, 0 <= x < 256 -> good 0 (R_piece (K_val x)) (t_print (outAbsAddr d x 8))).
      { intros x X. eapply good_weaken; [apply le_n| |apply (good_abs d np x 8 8); auto; lia].
        intros h t nb nm' (-> & -> & N). split; [reflexivity|]. exists x. cbn [piece]. auto. }
      destruct (_ =? 124); [|apply GA; lia].
      assert (D : 0 <= Z.lor (Z.land opc 127) 128 < 256).
      { split; [apply Z.lor_nonneg; lia|]. apply (Z.log2_lt_cancel _ 256). rewrite Z.log2_lor by lia. change (Z.log2 128) with 7. change (Z.log2 256) with 8.
        assert (Z.log2 (Z.land opc 127) < 7); [|lia]. destruct (Z.eq_dec (Z.land opc 127) 0) as [->|]; [cbn; lia|]. apply Z.log2_lt_pow2; lia. }
      destruct (dataMemoryLimit ct <? _).
      + eapply good_ext; [|eapply good_weaken; [apply le_n| |apply (good_seq 0 0 _ _ _ _ (good_check OVERFLOW_RANGE) (GA _ D))]].
        * reflexivity.
        * intros h t nb nm' (t1 & t2 & n1 & n2 & nm1 & _ & _ & (Q & _) & _). discriminate.
      + apply GA, D. }
  destruct (mode =? M_NARP) eqn:E1; [lia|]. destruct (mode =? M_LS4) eqn:E2; [lia|]. destruct ((mode =? M_LS3) || (mode =? M_LS0)) eqn:E3; [lia|].
  destruct (mode =? M_AR); [apply good_ar; destruct (bit 8 opc); lia|]. destruct (mode =? M_PA); [apply good_pa; lia|].
  destruct (mode =? M_ARK); [apply good_ar; destruct (bit 0 opc); lia|].
  destruct (mode =? M_DPK).
  { eapply good_weaken; [apply le_n| |apply (good_put _ [if bit 0 opc then 49 else 48])]; [|reflexivity].
    intros h t nb nm' (-> & -> & ->). split; [reflexivity|]. exists (if bit 0 opc then 1 else 0). cbn [piece map]. rewrite digit_plain by (destruct (bit 0 opc); lia). destruct (bit 0 opc); auto. }
  destruct (mode =? M_IM8); [apply good_val; [exact RD|change (2^8) with 256; apply Z.mod_pos_bound; lia|lia]|].
  destruct (mode =? M_IM13).
  { assert (SE : signExtend opc 13 = Some (sx opc)) by (unfold sx; reflexivity). rewrite SE.
    eapply good_weaken; [apply le_n| |apply (good_minus d np (sx opc) 13 SY DR ltac:(lia)); change (2^(13-1)) with 4096; lia].
    intros h t nb nm' (-> & -> & N). split; [reflexivity|]. exists (sx opc). cbn [piece]. auto. }
  destruct (mode =? M_PMA); [|exact none_piece].
  unfold outProgramAddress.
  set (g := fun v s => bind (Val (t_setErrorIf (checkAddr 12 v false) s)) (fun s => if isOK (d_err (t_in s)) then t_print (outAbsAddr d v 0) s else t_print (outAbsAddr d v 16) s)).
  apply (good_ext _ _ (fun s => let '(v, s) := t_uint16Le s in g v s)).
  { intros s. destruct (t_uint16Le s) as [v s1]. unfold g. cbn [bind]. destruct (isOK _); reflexivity. }
  assert (GG : forall v, 0 <= v < 65536 -> good 0 (R_seq (R_check (checkAddr 12 v false)) (R_text (fun _ t => v < 4096 -> numeral np t v))) (g v)).
  { intros v V. apply (good_seq 0 0); [apply good_check|]. eapply good_iferr.
    - apply good_print; [intros; now apply outAbs_val|]. intros out o H E.
      pose proof (outAbs_numeral d np v 0 out o SY DR ltac:(lia)) as X. change (0 =? 0) with true in X. cbv iota in X. rewrite AW in X.
      destruct (X ltac:(lia) H E) as (E0 & u & A & N). split; [exact E0|]. exists u. split; [exact A|]. intros L. now rewrite Z.mod_small in N by (change (2^12) with 4096; lia).
    - apply (good_abs d np v 16 16); auto; lia. }
  eapply good_weaken; [apply le_n| |apply (good_le 0 _ g GG)].
  - intros h t nb nm' (lo & hi & nb' & -> & BH & BL & t1 & t2 & n1 & n2 & nm1 & -> & -> & (CK & -> & -> & ->) & (-> & -> & N)). rel_out.
    split; [reflexivity|]. exists (lo + 256 * hi). cbn [piece app]. unfold byte in BH, BL.
    apply C31_addr in CK; [|lia|lia]. change (2^12) with 4096 in CK. exists lo, hi. replace (lo + 256 * hi) with (256 * hi + lo) by lia.
    split; [reflexivity|]. split; [exact BH|]. split; [exact BL|]. split; [reflexivity|]. split; [lia|]. apply N. lia.
  - intros v. unfold g. apply (keeping_seq (fun s => Val (t_setErrorIf (checkAddr 12 v false) s))).
    + apply (keeping_of _ _ _ (good_check _)).
    + split.
      * intros s s'. destruct (isOK _); apply keeps_print.
      * intros s s' H E. destruct (isOK (d_err (t_in s))) eqn:X.
        -- destruct (frame_print _ s s' H E) as (nb & EM & FR). exists nb. split; [exact EM|]. intros m. unfold setmem at 1. cbn [t_in d_err]. rewrite X. apply FR.
        -- pose proof (keeps_print _ s s' H E) as Y. rewrite Y in X. discriminate.
Qed.
End Printed.

(* ------------------------------------------------------------ every opcode *)
Definition is_none (K : kind) : bool := match K with K_none => true | _ => false end.
Lemma is_none_ok K : is_none K = true <-> K = K_none.
Proof. destruct K; cbn; split; congruence. Qed.
Definition kind_okb (K : kind) : bool :=
  match K with
  | K_ind n => (0 <=? n) && (n <? 3) | K_ar n => (0 <=? n) && (n <? 2) | K_pa n => (0 <=? n) && (n <? 8) | K_val v => (0 <=? v) && (v <? 256)
  | K_bit n => (0 <=? n) && (n <? 2) | K_sgn z => (-4096 <=? z) && (z <? 4096) | _ => true
  end.
(* the mode and the number it is read as *)
Definition mode_of (K : kind) : Z :=
  match K with
  | K_ind n => if n =? 1 then M_INC else if n =? 2 then M_DEC else M_ARP
  | K_ar n => M_AR
  | K_pa n => M_PA
  | K_val x | K_bit x => constantType x
  | K_sgn z => constantType (if z <? 0 then z + 0x100000000 else z)
  | _ => M_NONE
  end.
Definition value_of (K : kind) : Z :=
  match K with
  | K_ar n | K_pa n | K_val n | K_bit n => n
  | K_sgn z => if z <? 0 then z + 0x100000000 else z
  | _ => 0
  end.
Definition constants : list Z := [M_LS0; M_DPK; M_LS3; M_IM3; M_LS4; M_IM8].
(* the modes of the operands which are read where the table has [mode] *)
Definition modes_for (mode : Z) : list Z :=
  if mode =? M_MAM then constants ++ [M_ARP; M_INC; M_DEC]
  else if mode =? M_NARP then [M_NONE; M_AR]
  else if mode =? M_LS4 then [M_NONE; M_LS0; M_DPK; M_LS3; M_IM3; M_LS4]
  else if mode =? M_LS3 then [M_NONE; M_LS0; M_DPK; M_LS3]
  else if mode =? M_LS0 then [M_NONE; M_LS0]
  else if mode =? M_AR then [M_AR]
  else if mode =? M_PA then [M_PA]
  else if mode =? M_ARK then [M_AR]
  else if mode =? M_DPK then [M_LS0; M_DPK]
  else if mode =? M_IM8 then constants
  else if (mode =? M_IM13) || (mode =? M_PMA) then constants ++ [M_IM13]
  else [M_NONE].
Definition fits (K : kind) (mode : Z) : bool :=
  match K with
  | K_pma => mode =? M_PMA
  | _ => existsb (Z.eqb (mode_of K)) (modes_for mode) && negb (mode =? M_PMA)
  end.
(* what encodeOperand does with the mode, the error, the number and the flags of overflow of an operand *)
Definition encV (ct om : Z) (oe : err) (v : Z) (o13 o12 : bool) (mode : Z) (i : ainsn) : ainsn :=
  let i := ai_setErrorIf oe i in
  if mode =? M_MAM then
    if om =? M_ARP then ai_embed 0x88 i
    else if om =? M_INC then ai_embed 0xA8 i
    else if om =? M_DEC then ai_embed 0x98 i
    else
      let i := if dataMemoryLimit ct <? v then ai_setErrorIf OVERFLOW_RANGE i else i in
      let i := if (ai_opc i =? SST) && (v <? 0x80) then ai_setErrorIf OVERFLOW_RANGE i else i in
      ai_embed (Z.land v 0x7F) i
  else if (mode =? M_LS3) || (mode =? M_LS4) || (mode =? M_PA) then ai_embed (Z.shiftl v 8) i
  else if mode =? M_NARP then
    if om =? M_NONE then i else ai_embed v (ai_setopc (Z.land (ai_opc i) (Z.lnot 8)) i)
  else if mode =? M_AR then ai_embed (Z.shiftl v 8) i
  else if (mode =? M_ARK) || (mode =? M_DPK) || (mode =? M_IM8) then ai_embed v i
  else if mode =? M_IM13 then
    let i := if o13 then ai_setErrorIf OVERFLOW_RANGE i else i in
    ai_embed (Z.land v 0x1FFF) i
  else if mode =? M_PMA then
    let i := if o12 then ai_setErrorIf OVERFLOW_RANGE i else i in
    ai_emitOperand16 (Z.land v 0x0FFF) i
  else i.
Lemma encV_eq ct op mode i :
  encodeOperand ct op mode i = encV ct (o_mode op) (o_err op) (getUnsigned (o_val op)) (overflow (o_val op) 0x0FFF (-0x1000)) (overflow (o_val op) 0x0FFF 0) mode i.
Proof. reflexivity. Qed.
Definition encK (ct : Z) (K : kind) (mode : Z) (i : ainsn) : ainsn := encV ct (mode_of K) OK (value_of K) false false mode i.
Definition enc (ct : Z) (e : entry) (K1 K2 K3 : kind) (i : insn) : ainsn :=
  encK ct K3 (e_m3 e) (encK ct K2 (e_m2 e) (encK ct K1 (e_m1 e) (mkAI i OK (e_opc e)))).
Definition shape (e : entry) : bool :=
  negb (silent (e_m1 e)) && (negb (e_m1 e =? M_NONE) || (e_m2 e =? M_NONE)) && (negb (e_m2 e =? M_NONE) || (e_m3 e =? M_NONE)) &&
  ((e_m3 e =? M_NONE) || silent (e_m3 e)) && (negb (e_m1 e =? M_PMA) || (e_m2 e =? M_NONE)) && negb (e_m2 e =? M_PMA) && negb (e_m3 e =? M_PMA).
Definition is_bad (K : kind) : bool := match K with K_bad => true | _ => false end.
(* what the code of an entry may be: the high byte alone *)
Definition hi_ok (e : entry) (h : Z) : bool :=
  let m1 := e_m1 e in let m2 := e_m2 e in
  let h := if (m1 =? M_IM8) || (m2 =? M_IM8) || (m1 =? M_MAM) || (m2 =? M_MAM) then h else if m1 =? M_IM13 then Z.land h (Z.lnot 0x1F) else h in
  let h := if m1 =? M_AR then Z.land h (Z.lnot 1) else h in
  let h := if m2 =? M_LS4 then Z.land h (Z.lnot 0xF) else h in
  let h := if m2 =? M_PA then Z.land h (Z.lnot 7) else h in
  let h := if m2 =? M_LS3 then Z.land h (Z.lnot 7) else h in
  h =? Z.shiftr (e_opc e) 8.
Lemma match_hi o e : matchOpCode o e = true -> hi_ok e (Z.shiftr o 8) = true.
Proof.
  intros H. unfold matchOpCode in H. unfold hi_ok. cbv zeta in *.
  set (mk := if (e_m1 e =? M_IM8) || (e_m2 e =? M_IM8) then _ else _) in H.
  assert (MK : mk = None \/ exists x, mk = Some x /\ Z.shiftr x 8 =
     (if (e_m1 e =? M_IM8) || (e_m2 e =? M_IM8) || (e_m1 e =? M_MAM) || (e_m2 e =? M_MAM) then Z.shiftr o 8 else if e_m1 e =? M_IM13 then Z.land (Z.shiftr o 8) (Z.lnot 0x1F) else Z.shiftr o 8)).
  { unfold mk. clear H. destruct ((e_m1 e =? M_IM8) || (e_m2 e =? M_IM8)).
    - right. eexists. split; [reflexivity|]. cbn [orb]. rewrite Z.shiftr_land. change (Z.shiftr (Z.lnot 255) 8) with (-1). apply Z.land_m1_r.
    - cbn [orb]. destruct ((e_m1 e =? M_MAM) || (e_m2 e =? M_MAM)).
      + destruct (_ =? 0); [right; eexists; split; [reflexivity|]; rewrite Z.shiftr_land; change (Z.shiftr (Z.lnot 0x7F) 8) with (-1); apply Z.land_m1_r|].
        destruct (negb _); [auto|]. destruct (_ =? 3); [auto|]. destruct (_ && _); [auto|].
        right. eexists. split; [reflexivity|]. rewrite Z.shiftr_land. change (Z.shiftr (Z.lnot 0xB9) 8) with (-1). apply Z.land_m1_r.
      + right. destruct (e_m1 e =? M_IM13); (eexists; split; [reflexivity|]); [|reflexivity]. rewrite Z.shiftr_land. reflexivity. }
  destruct MK as [->|(x & -> & E)]; [discriminate|]. rewrite <- E. clear E. revert H.
  assert (ST : forall (c : bool) x m, Z.shiftr (if c then Z.land x (Z.lnot m) else x) 8 = if c then Z.land (Z.shiftr x 8) (Z.shiftr (Z.lnot m) 8) else Z.shiftr x 8).
  { intros c y m. destruct c; [apply Z.shiftr_land|reflexivity]. }
  set (x1 := if e_m1 e =? M_AR then _ else x). set (x2 := if _ || _ then _ else x1). set (x3 := if e_m2 e =? M_LS4 then _ else x2). set (x4 := if e_m2 e =? M_PA then _ else x3).
  assert (E4 : Z.shiftr x4 8 = (if e_m2 e =? M_PA then Z.land (Z.shiftr x3 8) (Z.lnot 7) else Z.shiftr x3 8)) by apply ST.
  assert (E3 : Z.shiftr x3 8 = (if e_m2 e =? M_LS4 then Z.land (Z.shiftr x2 8) (Z.lnot 15) else Z.shiftr x2 8)) by apply ST.
  assert (E2 : Z.shiftr x2 8 = Z.shiftr x1 8).
  { unfold x2. destruct (_ || _); [|reflexivity]. rewrite Z.shiftr_land. change (Z.shiftr (Z.lnot 1) 8) with (-1). apply Z.land_m1_r. }
  assert (E1 : Z.shiftr x1 8 = (if e_m1 e =? M_AR then Z.land (Z.shiftr x 8) (Z.lnot 1) else Z.shiftr x 8)) by apply ST.
  rewrite <- E1, <- E2, <- E3, <- E4. destruct (e_m2 e =? M_LS3).
  - intros H. match type of H with (if ?c then _ else _) = _ => destruct c; [|discriminate] end. apply Z.eqb_eq in H. rewrite <- H, Z.shiftr_land. apply Z.eqb_refl.
  - intros H. apply Z.eqb_eq in H. rewrite <- H. apply Z.eqb_refl.
Qed.
Definition look (ct o : Z) : option entry := match tms32010_searchOpCode ct o with Val r => r | _ => None end.
Lemma look_val ct o : In ct types -> tms32010_searchOpCode ct o = Val (look ct o) /\ forall e, look ct o = Some e -> In e TABLE_TMS32010 /\ matchOpCode o e = true.
Proof.
  intros C. unfold look, tms32010_searchOpCode. assert (E : cpu_pages ct = Val TMS32010_PAGES) by (cbn in C; destruct C as [<-|[<-|[]]]; reflexivity).
  rewrite E. cbn [bind]. unfold searchOpCode.
  pose proof (searchOpCode_spec _ _ (fun _ => true) (fun _ => matchOpCode o) TMS32010_PAGES 0) as S.
  destruct (searchOpCode_from _ _ TMS32010_PAGES 0) as [pg i|x].
  - destruct S as (q & p & a & -> & NP & _ & NI & M & _). cbn [Nat.add]. unfold item_at. unfold epage in *. rewrite NP. cbn [bind]. rewrite NI. cbn [bind].
    split; [reflexivity|]. intros e H. injection H as <-. split; [|exact M].
    assert (P : p = mkPage tt TABLE_TMS32010 INDEX_TMS32010).
    { destruct q as [|q]; [now injection NP|]. unfold TMS32010_PAGES in NP. cbn [nth_error] in NP. destruct q; discriminate. }
    rewrite P in NI. cbn [p_items] in NI. eapply nth_error_In, NI.
  - cbn [bind]. split; [reflexivity|]. discriminate.
Qed.
Definition word_ok (ct o : Z) (e : entry) : bool :=
    let K1 := kind_of ct o (e_m1 e) in let K2 := kind_of ct o (e_m2 e) in let K3 := kind_of ct o (e_m3 e) in
    Bool.eqb (is_none K1) (e_m1 e =? M_NONE) && ((e_m2 e =? M_NONE) || silent (e_m2 e) || negb (is_none K2)) && (negb (is_none K2) || is_none K3) &&
    (is_bad K1 || is_bad K2 || is_bad K3 ||
     kind_okb K1 && kind_okb K2 && kind_okb K3 && fits K1 (e_m1 e) && fits K2 (e_m2 e) && fits K3 (e_m3 e) &&
     let r := enc ct e K1 K2 K3 (new_insn 0) in isOK (ai_err r) && (ai_opc r =? o)).
Definition entry_ok (ct : Z) (e : entry) : bool :=
  shape e && forallb (fun hi => if hi_ok e hi then forallb (fun lo => if matchOpCode (lo + 256 * hi) e then word_ok ct (lo + 256 * hi) e else true) all_bytes else true) all_bytes.
Lemma look_check : forallb (fun ct => forallb (entry_ok ct) TABLE_TMS32010) types = true.
Proof. vm_compute. reflexivity. Qed.
Lemma look_at ct o e : In ct types -> 0 <= o < 65536 -> look ct o = Some e -> In e TABLE_TMS32010 /\ shape e = true /\ word_ok ct o e = true.
Proof.
  intros C O L. destruct (proj2 (look_val ct o C) e L) as (IE & M). split; [exact IE|].
  pose proof look_check as H. rewrite forallb_forall in H. specialize (H ct C). rewrite forallb_forall in H. specialize (H e IE).
  unfold entry_ok in H. apply andb_true_iff in H. destruct H as (SH & H). split; [exact SH|].
  destruct (word_bytes_byte o O) as (BL & BH & E). rewrite forallb_forall in H. specialize (H (o / 256) (all_in _ BH)).
  apply match_hi in M as HI. rewrite Z.shiftr_div_pow2 in HI by lia. change (2^8) with 256 in HI. rewrite HI in H.
  rewrite forallb_forall in H. specialize (H (o mod 256) (all_in _ BL)). rewrite E, M in H. exact H.
Qed.
Lemma sx_range o : -4096 <= sx o < 4096.
Proof.
  assert (E : sx o = s32 (Z.land (u32 (o + 4096)) (Z.ones 13) - 4096)) by reflexivity. rewrite E.
  pose proof (land_range (u32 (o + 4096)) 13 ltac:(lia)) as R. change (2^13) with 8192 in R. rewrite s32_small by lia. lia.
Qed.

(* ------------------------------------------------------------ a whole instruction *)
Definition second_op (d : disasm) (ct o mode : Z) : step :=
  if mode =? M_NONE then fun s => Val s
  else if silent mode then decodeOperand d ct o mode
  else fun s => bind (Val (t_put comma s)) (decodeOperand d ct o mode).
Definition third_op (d : disasm) (ct o mode : Z) : step := if mode =? M_NONE then fun s => Val s else decodeOperand d ct o mode.
Definition chain (d : disasm) (ct o : Z) : step :=
  match look ct o with
  | None => fun s => Val (t_setErrorIf UNKNOWN_INSTRUCTION s)
  | Some e => fun s => bind (Val (t_readName (entry_name e) s)) (fun s => bind (decodeOperand d ct o (e_m1 e) s)
      (fun s => bind (second_op d ct o (e_m2 e) s) (third_op d ct o (e_m3 e))))
  end.
Lemma chain_start d ct o s : In ct types -> 0 <= o < 65536 -> decode_opcode d ct o s = chain d ct o (t_seterr OK s).
Proof.
  intros C O. unfold decode_opcode, chain. cbv zeta. rewrite (proj1 (look_val ct o C)). cbn [bind]. destruct (look ct o) as [e|] eqn:L; [|reflexivity].
  destruct (look_at ct o e C O L) as (_ & SH & _). cbn [bind]. destruct (decodeOperand d ct o (e_m1 e) _) as [s1| | | |]; try reflexivity. cbn [bind].
  unfold second_op, third_op. destruct (e_m2 e =? M_NONE) eqn:M2.
  - cbn [bind]. unfold shape in SH. replace (e_m3 e =? M_NONE) with true by lia. reflexivity.
  - destruct (silent (e_m2 e)); cbn [bind]; (destruct (decodeOperand d ct o (e_m2 e) _) as [s2| | | |]; try reflexivity; cbn [bind]; now destruct (e_m3 e =? M_NONE)).
Qed.
Definition R_chain (np : number_parser) (ct o : Z) : rel := fun h t nb nm' => exists e, look ct o = Some e /\
  R_seq (R_name (entry_name e)) (R_seq (R_piece np (kind_of ct o (e_m1 e))) (R_seq (R_own np (kind_of ct o (e_m2 e))) (R_own np (kind_of ct o (e_m3 e))))) h t nb nm'.
Definition n_chain (ct o : Z) : nat :=
  match look ct o with Some e => kwidth (kind_of ct o (e_m1 e)) + (kwidth (kind_of ct o (e_m2 e)) + kwidth (kind_of ct o (e_m3 e))) | None => 0 end.
Lemma own_seq np K : K <> K_none -> R_own np K = R_seq (R_text (fun _ t => t = [44; 32])) (R_piece np K).
Proof. destruct K; [congruence|reflexivity..]. Qed.
Lemma none_kind ct o : kind_of ct o M_NONE = K_none.
Proof. reflexivity. Qed.
Lemma good_chain np d ct o : reads_as np d -> In ct types -> 0 <= o < 65536 -> good (n_chain ct o) (R_chain np ct o) (chain d ct o).
Proof.
  intros RD C O. unfold n_chain, chain, R_chain. destruct (look ct o) as [e|] eqn:L.
  - destruct (look_at ct o e C O L) as (_ & SH & WO). unfold shape in SH. unfold word_ok in WO. cbv zeta in WO. pose proof (sx_range o) as SX.
    rewrite !andb_true_iff in WO. destruct WO as (((W1 & W2) & W3) & _).
    assert (G1 : good (kwidth (kind_of ct o (e_m1 e))) (R_piece np (kind_of ct o (e_m1 e))) (decodeOperand d ct o (e_m1 e))).
    { apply good_operand; auto. destruct (silent (e_m1 e)); [discriminate|reflexivity]. }
    assert (G2 : good (kwidth (kind_of ct o (e_m2 e))) (R_own np (kind_of ct o (e_m2 e))) (second_op d ct o (e_m2 e))).
    { unfold second_op. destruct (Z.eqb_spec (e_m2 e) M_NONE) as [->|_].
      - rewrite none_kind. apply good_none.
      - destruct (silent (e_m2 e)) eqn:S2; [now apply good_silent|]. cbn [orb] in W2. rewrite own_seq by (intros X; rewrite X in W2; discriminate).
        apply (good_seq 0 _ _ _ (fun s => Val (t_put comma s))); [apply good_comma|now apply good_operand]. }
    assert (G3 : good (kwidth (kind_of ct o (e_m3 e))) (R_own np (kind_of ct o (e_m3 e))) (third_op d ct o (e_m3 e))).
    { unfold third_op. destruct (Z.eqb_spec (e_m3 e) M_NONE) as [->|N3].
      - rewrite none_kind. apply good_none.
      - apply good_silent; [exact RD|]. destruct (silent (e_m3 e)); [reflexivity|]. lia. }
    pose proof (good_seq 0 _ _ _ _ _ (good_name (entry_name e)) (good_seq _ _ _ _ _ _ G1 (good_seq _ _ _ _ _ _ G2 G3))) as G.
    eapply good_weaken; [apply le_n| |exact G]. intros h t nb nm' Q. exists e. auto.
  - eapply good_weaken; [apply le_n| |apply good_check]. intros h t nb nm' (Q & _). discriminate.
Qed.
Lemma pma_only ct o mode : mode <> M_PMA -> kwidth (kind_of ct o mode) = 0%nat.
Proof.
  intros N. apply Z.eqb_neq in N. unfold kind_of, direct_kind, next_kind, shift_kind. cbv zeta. rewrite N.
  repeat match goal with |- kwidth (if ?c then _ else _) = _ => destruct c end; reflexivity.
Qed.
Lemma chain_len ct o : In ct types -> 0 <= o < 65536 -> (n_chain ct o <= 2)%nat.
Proof.
  intros C O. unfold n_chain. destruct (look ct o) as [e|] eqn:L; [|lia]. destruct (look_at ct o e C O L) as (_ & SH & _). unfold shape in SH.
  rewrite (pma_only ct o (e_m2 e)), (pma_only ct o (e_m3 e)) by lia. destruct (kind_of ct o (e_m1 e)); cbn; lia.
Qed.

(* ------------------------------------------------------------ reading it back *)
Definition num := numeral np_intel.
Definition famTms : family := mkFam pl_tms32010 prefix_c infix_c [].
Lemma num_digit u n : num u n -> is_digit (peek u) = true.
Proof. intros N. specialize (N [] Logic.I). rewrite app_nil_r in N. eapply intel_head; [exact N|discriminate]. Qed.
Lemma head_tms u n : num u n -> head_ok famTms u.
Proof. intros N. left. eapply num_digit, N. Qed.
Lemma parse_num a loc b0 t v b rest : a_pl a = pl_tms32010 -> a_radix a = 10 -> 0 <= loc < 2^32 -> 0 <= v < 2^32 ->
  num t v -> blanks b0 -> blanks b -> tail rest ->
  exists b' w, blanks b' /\ parseInteger a loc (b0 ++ t ++ b ++ rest) OK 0 = Val (w, OK, b' ++ rest) /\ int_value w /\ int_of w = v.
Proof.
  intros PL RX LO V P B0 B T.
  destruct (parse_place famTms a loc 0 36 b0 t v b rest) as (b' & w & X1 & X2 & X3 & X4 & _); auto.
  - cbn. auto 30.
  - cbn. auto.
  - cbn. auto.
  - apply head_tms.
  - cbn. auto 30.
  - cbn. auto 30.
  - intros e I L r. cbn in I. repeat (destruct I as [<-|I]; [cbn in *; try lia; split; discriminate|]). contradiction.
  - now left.
  - destruct T as [->|(c & u & -> & C)]; [auto|]. right. exists c, u. tauto.
  - exists b', w. auto.
Qed.
Lemma parse_neg a loc u n b rest : a_pl a = pl_tms32010 -> a_radix a = 10 -> 0 <= n < 2^31 ->
  num u n -> blanks b -> tail rest ->
  exists b' w, blanks b' /\ parseInteger a loc ((45 :: u) ++ b ++ rest) OK 0 = Val (w, OK, b' ++ rest) /\ int_value w /\ int_of w = - n.
Proof.
  intros PL RX V P B T.
  destruct (parse_signed famTms a loc 0 [] (45 :: u) (- n) b rest 3) as (b' & w & X1 & X2 & X3 & X4); auto.
  - cbn. auto 30.
  - cbn. auto.
  - apply head_tms.
  - lia.
  - cbn. auto 30.
  - cbn. auto 30.
  - intros e I L r. cbn in I. repeat (destruct I as [<-|I]; [cbn in *; try lia; split; discriminate|]). contradiction.
  - exists u, n. auto.
  - apply Forall_nil.
  - destruct T as [->|(c & v & -> & C)]; [auto|]. right. exists c, v. tauto.
  - exists b', w. auto.
Qed.
Definition starts (t : text) : Prop := t <> [] /\ is_space (peek t) = false /\ peek t <> 0 /\ peek t <> 59.
Lemma starts_skip b t z : blanks b -> starts t -> skipSpaces (b ++ t ++ z) = t ++ z.
Proof. intros B (N & S & _). rewrite skip_blanks by exact B. destruct t as [|c t]; [congruence|]. cbn [app]. now apply skip_none. Qed.
Lemma starts_more t z : starts t -> eol_semicolon (t ++ z) = (false, t ++ z).
Proof.
  intros ST. unfold eol_semicolon. pose proof (starts_skip [] t z (Forall_nil _) ST) as E. cbn [app] in E. rewrite E.
  destruct ST as (N & _ & A & B). destruct t as [|c t]; [congruence|]. cbn [peek app] in *. apply Z.eqb_neq in A, B. now rewrite A, B.
Qed.
Lemma tail_noid b rest : blanks b -> tail rest -> isIdLetter (peek (b ++ rest)) = false /\ is_digit (peek (b ++ rest)) = false /\ peek (b ++ rest) <> 43 /\ peek (b ++ rest) <> 45.
Proof.
  intros B T. destruct b as [|c b]; cbn [app].
  - destruct T as [->|(c & u & -> & [->| ->])]; repeat split; discriminate.
  - inversion B as [|? ? C ?]; subst. cbn [peek]. apply space_cases in C. destruct C as [->|[->|[->|[->|[->| ->]]]]]; repeat split; discriminate.
Qed.
Lemma loop_stop z v l : is_digit (peek z) = false -> regNumber_loop z v l = (v, l, z).
Proof. intros D. destruct z as [|c z]; [reflexivity|]. cbn [peek] in D. cbn [regNumber_loop]. now rewrite D. Qed.
Lemma ar_read k n b rest : 0 <= n < 2 -> blanks b -> tail rest ->
  starts (map (conv (Some k)) [65; 82; 48 + n]) /\ expect_char 42 (map (conv (Some k)) [65; 82; 48 + n] ++ b ++ rest) = None /\
  parseRegName (map (conv (Some k)) [65; 82; 48 + n] ++ b ++ rest) = Some (R_AR n, b ++ rest).
Proof.
  intros N B T. destruct (tail_noid b rest B T) as (NI & ND & _). set (z := b ++ rest) in *.
  assert (I : n = 0 \/ n = 1) by lia.
  destruct I as [-> | ->]; destruct k; (split; [repeat split; discriminate|]); (split; [reflexivity|]);
    cbn; unfold parseRegNumber; cbn; rewrite ?loop_stop by exact ND; rewrite NI; reflexivity.
Qed.
Lemma pa_read k n b rest : 0 <= n < 8 -> blanks b -> tail rest ->
  starts (map (conv (Some k)) [80; 65; 48 + n]) /\ expect_char 42 (map (conv (Some k)) [80; 65; 48 + n] ++ b ++ rest) = None /\
  parseRegName (map (conv (Some k)) [80; 65; 48 + n] ++ b ++ rest) = Some (R_PA n, b ++ rest).
Proof.
  intros N B T. destruct (tail_noid b rest B T) as (NI & ND & _). set (z := b ++ rest) in *.
  assert (I : In n [0;1;2;3;4;5;6;7]) by (cbn; lia). cbn in I.
  repeat (destruct I as [<-|I]; [destruct k; (split; [repeat split; discriminate|]); (split; [reflexivity|]);
    cbn; unfold parseRegNumber; cbn; rewrite ?loop_stop by exact ND; rewrite NI; reflexivity|]). contradiction.
Qed.
Lemma bit_num x : 0 <= x < 2 -> num [48 + x] x.
Proof.
  intros X r B. assert (I : x = 0 \/ x = 1) by lia. 
  destruct (dec_reads np_intel ltac:(apply fb_all; cbn; auto 10) x 1 (mkB [] 100 OK None) r ltac:(lia) ltac:(lia) B) as (_ & t & A & R).
  - destruct I as [-> | ->]; reflexivity.
  - destruct I as [-> | ->]; cbn in A; injection A as <-; exact R.
Qed.
(* the operand [op] which is read *)
Definition reads (K : kind) (v : Z) (op : operand) : Prop :=
  o_err op = OK /\ int_value (o_val op) /\ int_of (o_val op) = v /\ o_mode op = (match K with K_pma => constantType v | _ => mode_of K end).
Lemma undef_value : int_value v_undef /\ int_of v_undef = 0.
Proof. split; [cbn; lia|reflexivity]. Qed.
Lemma num_noreg t v z : num t v -> starts t /\ expect_char 42 (t ++ z) = None /\ parseRegName (t ++ z) = None.
Proof.
  intros N. apply num_digit in N. destruct t as [|c t]; [discriminate|]. cbn [peek] in N. unfold is_digit in N. cbn [app].
  split; [unfold starts, is_space; cbn [peek]; split; [discriminate|lia]|]. split; [cbn [expect_char]; replace (c =? 42) with false by lia; reflexivity|].
  unfold parseRegName. change (s2l "AR") with [65; 82]. change (s2l "PA") with [80; 65]. cbn [iexpectText].
  assert (X : to_lower c = c) by (unfold to_lower, is_upper; replace ((65 <=? c) && (c <=? 90)) with false by lia; reflexivity). rewrite X.
  change (to_lower 65) with 97. change (to_lower 80) with 112. replace (97 =? c) with false by lia. replace (112 =? c) with false by lia. reflexivity.
Qed.
Lemma neg_noreg u z : starts (45 :: u) /\ expect_char 42 ((45 :: u) ++ z) = None /\ parseRegName ((45 :: u) ++ z) = None.
Proof. split; [repeat split; discriminate|]. split; reflexivity. Qed.
Lemma kind_range K k t nb v : kind_okb K = true -> piece np_intel K k t nb v -> -4096 <= v < 4096.
Proof.
  destruct K; cbn [piece kind_okb]; intros KO H; try (destruct H as (_ & _ & ->); lia); [contradiction|].
  destruct H as (lo & hi & _ & B1 & B2 & -> & L & _). unfold byte in *. lia.
Qed.
Lemma parse_piece K k t nb v a loc b0 b rest :
  a_pl a = pl_tms32010 -> a_radix a = 10 -> K <> K_none -> kind_okb K = true -> piece np_intel K (Some k) t nb v ->
  0 <= loc < 2^32 -> blanks b0 -> blanks b -> tail rest ->
  starts t /\ exists b' op, blanks b' /\ parseOperand a loc (b0 ++ t ++ b ++ rest) = Val (OK, op, b' ++ rest) /\ reads K v op.
Proof.
  intros PL RX NK KO P LO B0 B T. pose proof (kind_range _ _ _ _ _ KO P) as VR.
  assert (EOL : p_eol (a_pl a) = eol_semicolon) by (rewrite PL; reflexivity).
  assert (PO : forall w t b', starts t -> expect_char 42 (t ++ b ++ rest) = None -> parseRegName (t ++ b ++ rest) = None -> parseInteger a loc (t ++ b ++ rest) OK 0 = Val (w, OK, b' ++ rest) ->
     parseOperand a loc (b0 ++ t ++ b ++ rest) = Val (OK, mkOp (constantType (getUnsigned w)) w OK, b' ++ rest)).
  { intros w u b' ST NX NR PI. unfold parseOperand. cbv zeta. rewrite (starts_skip b0 _ _ B0 ST), EOL, (starts_more _ _ ST). cbv iota. rewrite NX, NR, PI. reflexivity. }
  assert (PLACE : forall n, num t n -> 0 <= n < 2^32 -> starts t /\ exists b' w, blanks b' /\ parseOperand a loc (b0 ++ t ++ b ++ rest) = Val (OK, mkOp (constantType n) w OK, b' ++ rest) /\ int_value w /\ int_of w = n).
  { intros n N NN. destruct (num_noreg t n (b ++ rest) N) as (ST & NX & NR). split; [exact ST|].
    destruct (parse_num a loc [] t n b rest PL RX LO NN N (Forall_nil _) B T) as (b' & w & B' & PI & IV & IO). cbn [app] in PI.
    exists b', w. split; [exact B'|]. split; [|auto]. rewrite (PO w t b' ST NX NR PI). rewrite (get_unsigned w n IV IO NN). reflexivity. }
  destruct K; cbn [piece kind_okb] in P, KO; [congruence|contradiction| | | | | | |].
  - destruct P as (-> & -> & ->).
    assert (ST : starts (ind_text n)) by (unfold ind_text; repeat split; discriminate). split; [exact ST|]. destruct undef_value as (IU & OU).
    exists b, (mkOp (if n =? 1 then M_INC else if n =? 2 then M_DEC else M_ARP) v_undef OK). split; [exact B|]. split; [|unfold reads; cbn [o_err o_val o_mode mode_of]; auto].
    unfold parseOperand. cbv zeta. rewrite (starts_skip b0 _ _ B0 ST), EOL, (starts_more _ _ ST). cbv iota.
    destruct (tail_noid b rest B T) as (_ & _ & N1 & N2). unfold ind_text. cbn [app expect_char]. change (42 =? 42) with true. cbv iota.
    destruct (n =? 1); [reflexivity|]. destruct (n =? 2); [reflexivity|]. cbn [app].
    assert (X : forall c, peek (b ++ rest) <> c -> expect_char c (b ++ rest) = None).
    { intros c X. destruct (b ++ rest) as [|y z]; [reflexivity|]. cbn [peek] in X. cbn [expect_char]. apply Z.eqb_neq in X. now rewrite X. }
    rewrite (X 43), (X 45) by assumption. reflexivity.
  - destruct P as (-> & -> & ->). destruct (ar_read k n b rest ltac:(lia) B T) as (ST & NX & RR). split; [exact ST|].
    exists b, (mkOp M_AR (setUnsigned n) OK). split; [exact B|]. destruct (set_unsigned n ltac:(lia)) as (IV & IO). split; [|unfold reads; cbn [o_err o_val o_mode mode_of]; auto].
    unfold parseOperand. cbv zeta. rewrite (starts_skip b0 _ _ B0 ST), EOL, (starts_more _ _ ST). cbv iota. rewrite NX, RR. reflexivity.
  - destruct P as (-> & -> & ->). destruct (pa_read k n b rest ltac:(lia) B T) as (ST & NX & RR). split; [exact ST|].
    exists b, (mkOp M_PA (setUnsigned n) OK). split; [exact B|]. destruct (set_unsigned n ltac:(lia)) as (IV & IO). split; [|unfold reads; cbn [o_err o_val o_mode mode_of]; auto].
    unfold parseOperand. cbv zeta. rewrite (starts_skip b0 _ _ B0 ST), EOL, (starts_more _ _ ST). cbv iota. rewrite NX, RR. reflexivity.
  - destruct P as (N & -> & ->). destruct (PLACE x N ltac:(lia)) as (ST & b' & w & B' & PP & IV & IO). split; [exact ST|].
    exists b', (mkOp (constantType x) w OK). split; [exact B'|]. split; [exact PP|]. unfold reads. cbn [o_err o_val o_mode mode_of]. auto.
  - destruct P as (-> & -> & ->). destruct (PLACE x (bit_num x ltac:(lia)) ltac:(lia)) as (ST & b' & w & B' & PP & IV & IO). split; [exact ST|].
    exists b', (mkOp (constantType x) w OK). split; [exact B'|]. split; [exact PP|]. unfold reads. cbn [o_err o_val o_mode mode_of]. auto.
  - destruct P as ((u & N & [(Z0 & ->)|(Z0 & ->)]) & -> & ->).
    + replace (Z.abs z) with z in N by lia. destruct (PLACE z N ltac:(lia)) as (ST & b' & w & B' & PP & IV & IO). split; [exact ST|].
      exists b', (mkOp (constantType z) w OK). split; [exact B'|]. split; [exact PP|]. unfold reads. cbn [o_err o_val o_mode mode_of]. replace (z <? 0) with false by lia. auto.
    + destruct (neg_noreg u (b ++ rest)) as (ST & NX & NR). split; [exact ST|].
      destruct (parse_neg a loc u (Z.abs z) b rest PL RX ltac:(lia) N B T) as (b' & w & B' & PI & IV & IO).
      exists b', (mkOp (constantType (getUnsigned w)) w OK). split; [exact B'|]. split; [now apply PO|]. unfold reads. cbn [o_err o_val o_mode mode_of].
      replace (z <? 0) with true by lia. split; [reflexivity|]. split; [exact IV|]. split; [lia|].
      f_equal. rewrite getUnsigned_mod by exact IV. rewrite IO. symmetry. apply (Z.mod_unique _ _ (-1)); lia.
  - destruct P as (lo & hi & -> & BH & BL & EV & L & N). unfold byte in *. destruct (PLACE v N ltac:(lia)) as (ST & b' & w & B' & PP & IV & IO). split; [exact ST|].
    exists b', (mkOp (constantType v) w OK). split; [exact B'|]. split; [exact PP|]. unfold reads. cbn [o_err o_val o_mode]. auto.
Qed.

(* ------------------------------------------------------------ encoding *)
Lemma no_pma ct om v o13 o12 mode i e o j : mode <> M_PMA ->
  encV ct om OK v o13 o12 mode (mkAI i e o) =
  mkAI i (ai_err (encV ct om OK v o13 false mode (mkAI j e o))) (ai_opc (encV ct om OK v o13 false mode (mkAI j e o))).
Proof.
  intros N. apply Z.eqb_neq in N. unfold encV. rewrite N. cbv zeta. unfold ai_setErrorIf, ai_embed, ai_setopc. cbn [ai_insn ai_err ai_opc].
  destruct (dataMemoryLimit ct <? v); cbn [ai_insn ai_err ai_opc];
  repeat match goal with |- context [if ?c then _ else _] => destruct c; cbn [ai_insn ai_err ai_opc] end; reflexivity.
Qed.
Lemma enc_reads ct K k t nb v op mode i e o j : kind_okb K = true -> K <> K_pma -> piece np_intel K (Some k) t nb v -> reads K v op -> mode <> M_PMA ->
  encodeOperand ct op mode (mkAI i e o) = mkAI i (ai_err (encK ct K mode (mkAI j e o))) (ai_opc (encK ct K mode (mkAI j e o))).
Proof.
  intros KO NP P (OE & IV & IO & OM) N. pose proof (kind_range _ _ _ _ _ KO P) as VR. rewrite encV_eq, OE.
  rewrite (over_signed (o_val op) v) by (auto; lia).
  assert (MO : o_mode op = mode_of K) by (destruct K; try exact OM; congruence).
  assert (GU : getUnsigned (o_val op) = value_of K).
  { rewrite getUnsigned_mod, IO by exact IV. destruct K; cbn [piece kind_okb value_of] in *; try congruence; try contradiction;
      (destruct P as (_ & _ & ->)); try (apply Z.mod_small; lia).
    destruct (Z.ltb_spec z 0); symmetry; [apply (Z.mod_unique _ _ (-1)); lia|symmetry; apply Z.mod_small; lia]. }
  rewrite MO, GU. apply no_pma, N.
Qed.

(* ------------------------------------------------------------ the names *)
Definition entry_eqb (e f : entry) : bool := (e_opc e =? e_opc f) && (e_m1 e =? e_m1 f) && (e_m2 e =? e_m2 f) && (e_m3 e =? e_m3 f).
Definition found (ct : Z) (nm : text) (e : entry) (m1 m2 m3 : Z) : bool :=
  match tms32010_searchName ct nm m1 m2 m3 with Val (OK, Some f) => entry_eqb e f | _ => false end.
Definition name_ok (ct : Z) (k : bool) (e : entry) : bool :=
  let nm := map (conv (Some k)) (entry_name e) in
  plain_name sp_tms32010 [] tms32010_directives nm && is_alpha (peek nm) &&
  forallb (fun m1 => forallb (fun m2 => forallb (found ct nm e m1 m2) (modes_for (e_m3 e))) (modes_for (e_m2 e))) (modes_for (e_m1 e)).
Lemma name_check : forallb (fun ct => forallb (fun k => forallb (name_ok ct k) TABLE_TMS32010) [false; true]) types = true.
Proof. vm_compute. reflexivity. Qed.
Lemma name_at ct k e m1 m2 m3 : In ct types -> In e TABLE_TMS32010 -> In m1 (modes_for (e_m1 e)) -> In m2 (modes_for (e_m2 e)) -> In m3 (modes_for (e_m3 e)) ->
  let nm := map (conv (Some k)) (entry_name e) in
  plain_name sp_tms32010 [] tms32010_directives nm = true /\ is_alpha (peek nm) = true /\
  exists f, tms32010_searchName ct nm m1 m2 m3 = Val (OK, Some f) /\ e_opc f = e_opc e /\ e_m1 f = e_m1 e /\ e_m2 f = e_m2 e /\ e_m3 f = e_m3 e.
Proof.
  intros C IE I1 I2 I3 nm. pose proof name_check as H. rewrite forallb_forall in H. specialize (H ct C). rewrite forallb_forall in H. specialize (H k ltac:(destruct k; cbn; auto)).
  rewrite forallb_forall in H. specialize (H e IE). unfold name_ok in H. cbv zeta in H. fold nm in H. rewrite !andb_true_iff in H. destruct H as ((PN & AL) & H).
  split; [exact PN|]. split; [exact AL|]. rewrite forallb_forall in H. specialize (H m1 I1). rewrite forallb_forall in H. specialize (H m2 I2). rewrite forallb_forall in H. specialize (H m3 I3).
  unfold found in H. destruct (tms32010_searchName ct nm m1 m2 m3) as [[er [f|]]| | | |]; try discriminate; [|destruct er; discriminate].
  destruct er; try discriminate. exists f. split; [reflexivity|]. unfold entry_eqb in H. lia.
Qed.
(* the operands of an instruction *)
Definition sep (K : kind) : text := if is_none K then [] else [44; 32].
Definition three (k : option bool) (K1 K2 K3 : kind) (t : text) (nb : list Z) : Prop :=
  exists t1 t2 t3 n1 n2 n3 v1 v2 v3, piece np_intel K1 k t1 n1 v1 /\ piece np_intel K2 k t2 n2 v2 /\ piece np_intel K3 k t3 n3 v3 /\
    t = t1 ++ sep K2 ++ t2 ++ sep K3 ++ t3 /\ nb = n1 ++ n2 ++ n3.
Lemma own_piece K h t nb nm' : R_own np_intel K h t nb nm' -> nm' = h_nm h /\ exists u v, piece np_intel K (h_case h) u nb v /\ t = sep K ++ u.
Proof.
  destruct (is_none K) eqn:N.
  - apply is_none_ok in N. subst K. intros (-> & -> & ->). split; [reflexivity|]. exists [], 0. cbn. auto.
  - rewrite own_seq by (intros ->; discriminate). intros (t1 & t2 & n1 & n2 & nm1 & -> & -> & (-> & -> & ->) & -> & v & P). rel_out.
    split; [reflexivity|]. exists t2, v. unfold sep. rewrite N. auto.
Qed.
Lemma none_reads : reads K_none 0 no_operand.
Proof. destruct undef_value as (IU & OU). unfold reads. cbn [no_operand o_err o_val o_mode mode_of]. auto. Qed.
Lemma parse_more K k t nb v a loc b rest z :
  a_pl a = pl_tms32010 -> a_radix a = 10 -> K <> K_none -> kind_okb K = true -> piece np_intel K (Some k) t nb v ->
  0 <= loc < 2^32 -> blanks b -> tail rest -> (forall b, blanks b -> skipSpaces (b ++ rest) = z) ->
  exists op, parseMore a loc ([44; 32] ++ t ++ b ++ rest) = Val (OK, op, z) /\ reads K v op.
Proof.
  intros PL RX NK KO P LO B T SK. destruct (parse_piece K k t nb v a loc [32] b rest PL RX NK KO P LO ltac:(repeat constructor) B T) as (_ & b' & op & B' & PO & RD).
  exists op. split; [|exact RD]. unfold parseMore. cbn [app expect_char]. change (44 =? 44) with true. cbv iota. cbn [app] in PO. rewrite PO. cbn [bind].
  change (isOK OK) with true. cbn [negb andb]. now rewrite SK.
Qed.
Lemma parse_three k K1 K2 K3 t nb a loc b rest :
  a_pl a = pl_tms32010 -> a_radix a = 10 -> kind_okb K1 = true -> kind_okb K2 = true -> kind_okb K3 = true -> (K1 = K_none -> K2 = K_none) -> (K2 = K_none -> K3 = K_none) ->
  three (Some k) K1 K2 K3 t nb -> 0 <= loc < 2^32 -> blanks b -> last_rest rest ->
  exists t1 t2 t3 n1 n2 n3 v1 v2 v3 o1 o2 o3,
    piece np_intel K1 (Some k) t1 n1 v1 /\ piece np_intel K2 (Some k) t2 n2 v2 /\ piece np_intel K3 (Some k) t3 n3 v3 /\
    nb = n1 ++ n2 ++ n3 /\ parseOperands a loc (skipSpaces (t ++ b ++ rest)) = Val (Three o1 o2 o3 rest) /\
    reads K1 v1 o1 /\ reads K2 v2 o2 /\ reads K3 v3 o3.
Proof.
  intros PL RX R1 R2 R3 N12 N23 (t1 & t2 & t3 & n1 & n2 & n3 & v1 & v2 & v3 & P1 & P2 & P3 & -> & ->) LO B LR.
  exists t1, t2, t3, n1, n2, n3, v1, v2, v3. pose proof (last_tail _ LR) as TR.
  assert (SR : skipSpaces rest = rest) by (pose proof (last_skip [] rest (Forall_nil _) LR) as X; exact X).
  assert (MN : forall r, expect_char 44 r = None -> parseMore a loc r = Val (OK, no_operand, r)) by (intros r X; unfold parseMore; now rewrite X).
  pose proof (MN rest (last_nocomma _ LR)) as MR.
  unfold sep. destruct (is_none K1) eqn:NK1.
  { apply is_none_ok in NK1. subst K1. pose proof (N12 eq_refl) as ->. pose proof (N23 eq_refl) as ->. exists no_operand, no_operand, no_operand.
    split; [exact P1|]. split; [exact P2|]. split; [exact P3|]. split; [reflexivity|]. cbn [piece is_none] in *.
    destruct P1 as (-> & -> & ->). destruct P2 as (-> & -> & ->). destruct P3 as (-> & -> & ->). split; [|split; [exact none_reads|split; exact none_reads]].
    cbn [app]. rewrite last_skip by assumption. unfold parseOperands, parseOperand. cbv zeta. rewrite SR, PL. change (p_eol pl_tms32010) with eol_semicolon.
    assert (EO : eol_semicolon rest = (true, rest)) by (unfold eol_semicolon; rewrite SR; destruct LR as [->|(u & ->)]; reflexivity).
    rewrite EO. cbn [bind no_operand o_err]. change (isOK OK) with true. cbn [negb andb]. rewrite SR, MR. cbn [bind]. change (isOK OK) with true. cbn [negb]. rewrite MR. reflexivity. }
  assert (K1 <> K_none) as NK1' by (intros ->; discriminate).
  destruct (is_none K2) eqn:NK2.
  { apply is_none_ok in NK2. subst K2. pose proof (N23 eq_refl) as ->. cbn [is_none piece] in *. destruct P2 as (-> & -> & ->). destruct P3 as (-> & -> & ->).
    destruct (parse_piece K1 k t1 n1 v1 a loc [] b rest PL RX NK1' R1 P1 LO (Forall_nil _) B TR) as (ST & b1 & o1 & B1 & PO1 & RD1).
    cbn [app] in PO1. exists o1, no_operand, no_operand. split; [exact P1|]. split; [auto|]. split; [auto|]. split; [reflexivity|].
    split; [|split; [exact RD1|split; exact none_reads]]. cbn [app]. rewrite app_nil_r.
    pose proof (starts_skip [] t1 (b ++ rest) (Forall_nil _) ST) as SK. cbn [app] in SK. rewrite SK.
    unfold parseOperands. rewrite PO1. cbn [bind]. change (isOK OK) with true. cbn [negb andb]. rewrite last_skip, MR by assumption. cbn [bind]. change (isOK OK) with true. cbn [negb]. rewrite MR. reflexivity. }
  assert (K2 <> K_none) as NK2' by (intros ->; discriminate).
  assert (TC : forall u, tail (44 :: u)) by (intros u; right; eauto).
  assert (SC : forall u b, blanks b -> skipSpaces (b ++ 44 :: u) = 44 :: u) by (intros u x BX; rewrite skip_blanks by exact BX; now apply skip_none).
  destruct (is_none K3) eqn:NK3.
  { apply is_none_ok in NK3. subst K3. cbn [is_none piece] in *. destruct P3 as (-> & -> & ->).
    destruct (parse_piece K1 k t1 n1 v1 a loc [] [] ([44; 32] ++ t2 ++ b ++ rest) PL RX NK1' R1 P1 LO (Forall_nil _) (Forall_nil _) (TC _)) as (ST & b1 & o1 & B1 & PO1 & RD1).
    destruct (parse_more K2 k t2 n2 v2 a loc b rest rest PL RX NK2' R2 P2 LO B TR ltac:(intros x BX; now apply last_skip)) as (o2 & PO2 & RD2).
    cbn [app] in PO1. exists o1, o2, no_operand. split; [exact P1|]. split; [exact P2|]. split; [auto|]. split; [reflexivity|].
    split; [|split; [exact RD1|split; [exact RD2|exact none_reads]]].
    replace ((t1 ++ [44; 32] ++ t2 ++ [] ++ []) ++ b ++ rest) with (t1 ++ 44 :: 32 :: t2 ++ b ++ rest) by (cbn [app]; rewrite app_nil_r, <- !app_assoc; reflexivity).
    pose proof (starts_skip [] t1 (44 :: 32 :: t2 ++ b ++ rest) (Forall_nil _) ST) as SK. cbn [app] in SK. rewrite SK.
    unfold parseOperands. rewrite PO1. cbn [bind]. change (isOK OK) with true. cbn [negb andb]. rewrite SC by exact B1. cbn [app] in PO2. rewrite PO2. cbn [bind].
    change (isOK OK) with true. cbn [negb]. rewrite MR. reflexivity. }
  assert (K3 <> K_none) as NK3' by (intros ->; discriminate).
  destruct (parse_piece K1 k t1 n1 v1 a loc [] [] ([44; 32] ++ t2 ++ [44; 32] ++ t3 ++ b ++ rest) PL RX NK1' R1 P1 LO (Forall_nil _) (Forall_nil _) (TC _)) as (ST & b1 & o1 & B1 & PO1 & RD1).
  destruct (parse_more K2 k t2 n2 v2 a loc [] (44 :: 32 :: t3 ++ b ++ rest) (44 :: 32 :: t3 ++ b ++ rest) PL RX NK2' R2 P2 LO (Forall_nil _) (TC _) ltac:(intros x BX; now apply SC)) as (o2 & PO2 & RD2).
  destruct (parse_more K3 k t3 n3 v3 a loc b rest rest PL RX NK3' R3 P3 LO B TR ltac:(intros x BX; now apply last_skip)) as (o3 & PO3 & RD3).
  cbn [app] in PO1, PO2, PO3. exists o1, o2, o3. split; [exact P1|]. split; [exact P2|]. split; [exact P3|]. split; [reflexivity|]. split; [|auto].
  replace ((t1 ++ [44; 32] ++ t2 ++ [44; 32] ++ t3) ++ b ++ rest) with (t1 ++ 44 :: 32 :: t2 ++ 44 :: 32 :: t3 ++ b ++ rest) by now rewrite <- !app_assoc.
  pose proof (starts_skip [] t1 (44 :: 32 :: t2 ++ 44 :: 32 :: t3 ++ b ++ rest) (Forall_nil _) ST) as SK. cbn [app] in SK. rewrite SK.
  unfold parseOperands. rewrite PO1. cbn [bind]. change (isOK OK) with true. cbn [negb andb]. rewrite SC by exact B1. rewrite PO2. cbn [bind].
  change (isOK OK) with true. cbn [negb]. rewrite PO3. reflexivity.
Qed.
Lemma plain_tms nm z : is_alpha (peek nm) = true -> line_tms32010 (nm ++ z) = (false, nm ++ z).
Proof.
  intros A. destruct nm as [|c nm]; [discriminate|]. cbn [app peek] in *. unfold line_tms32010. cbn [peek].
  replace (c =? 42) with false; [reflexivity|]. unfold is_alpha, is_upper, is_lower in A. lia.
Qed.
Lemma fits_mode K mode v op : fits K mode = true -> reads K v op -> (K = K_pma -> 0 <= v < 4096) -> In (o_mode op) (modes_for mode).
Proof.
  intros F (_ & _ & _ & OM) V. rewrite OM.
  assert (G : K <> K_pma -> In (mode_of K) (modes_for mode)).
  { intros N. assert (F' : existsb (Z.eqb (mode_of K)) (modes_for mode) = true) by (destruct K; cbn [fits] in F; try congruence; apply andb_true_iff in F; tauto).
    apply existsb_exists in F'. destruct F' as (x & I & E). apply Z.eqb_eq in E. now subst x. }
  destruct K; try (apply G; discriminate). cbn [fits] in F. apply Z.eqb_eq in F. subst mode.
  change (modes_for M_PMA) with (constants ++ [M_IM13]). unfold constantType. cbv zeta.
  repeat match goal with |- context [if ?c then _ else _] => destruct c; [cbn; tauto|] end. cbn; tauto.
Qed.
Lemma encode_ok ct k o e t nb a indent gap b rest addr :
  In ct types -> 0 <= o < 65536 -> look ct o = Some e ->
  three (Some k) (kind_of ct o (e_m1 e)) (kind_of ct o (e_m2 e)) (kind_of ct o (e_m3 e)) t nb ->
  a_pl a = pl_tms32010 -> a_radix a = 10 -> a_aw a = 12 ->
  blanks indent -> blanks gap -> gap <> [] \/ t = [] -> blanks b -> last_rest rest -> 0 <= addr < 4096 ->
  tms32010_encode a ct (indent ++ firstn 11 (map (conv (Some k)) (entry_name e)) ++ gap ++ t ++ b ++ rest) addr =
  Val (L_insn (canon addr (word_bytes o ++ nb)) rest).
Proof.
  intros C O L TH PL RX AW BI BG NG BB LR AR. destruct (look_at ct o e C O L) as (IE & SH & WO). unfold word_ok in WO. cbv zeta in WO. unfold shape in SH.
  set (K1 := kind_of ct o (e_m1 e)) in *. set (K2 := kind_of ct o (e_m2 e)) in *. set (K3 := kind_of ct o (e_m3 e)) in *.
  rewrite !andb_true_iff in WO. destruct WO as (((W1 & W2) & W3) & WO). apply eqb_prop in W1.
  assert (NB : is_bad K1 || is_bad K2 || is_bad K3 = false).
  { destruct TH as (t1 & t2 & t3 & n1 & n2 & n3 & v1 & v2 & v3 & P1 & P2 & P3 & _). destruct K1; try contradiction; destruct K2; try contradiction; destruct K3; try contradiction; reflexivity. }
  rewrite NB in WO. cbn [orb] in WO. rewrite !andb_true_iff in WO. destruct WO as ((((((KO1 & KO2) & KO3) & F1) & F2) & F3) & EE & EO). apply isOK_e in EE. apply Z.eqb_eq in EO.
  assert (N12 : K1 = K_none -> K2 = K_none).
  { intros X. rewrite X in W1. cbn [is_none] in W1. symmetry in W1. rewrite W1 in SH. cbn [negb orb] in SH. assert (M2 : (e_m2 e =? M_NONE) = true) by (destruct (e_m2 e =? M_NONE); [reflexivity|]; rewrite ?andb_false_r in SH; discriminate).
    apply Z.eqb_eq in M2. unfold K2. now rewrite M2. }
  assert (N23 : K2 = K_none -> K3 = K_none) by (intros X; rewrite X in W3; cbn [is_none negb orb] in W3; now apply is_none_ok).
  destruct (parse_three k K1 K2 K3 t nb a addr b rest PL RX KO1 KO2 KO3 N12 N23 TH ltac:(lia) BB LR) as (t1 & t2 & t3 & n1 & n2 & n3 & v1 & v2 & v3 & o1 & o2 & o3 & P1 & P2 & P3 & -> & PO & R1 & R2 & R3).
  assert (PV : forall K n t v, piece np_intel K (Some k) t n v -> K = K_pma -> 0 <= v < 4096).
  { intros K n u v P ->. cbn [piece] in P. destruct P as (lo & hi & _ & X & Y & -> & Z4 & _). unfold byte in *. lia. }
  destruct (name_at ct k e (o_mode o1) (o_mode o2) (o_mode o3) C IE (fits_mode _ _ _ _ F1 R1 (PV _ _ _ _ P1)) (fits_mode _ _ _ _ F2 R2 (PV _ _ _ _ P2)) (fits_mode _ _ _ _ F3 R3 (PV _ _ _ _ P3)))
    as (PN & AL & f & SN & FO & FM1 & FM2 & FM3).
  set (nm' := map (conv (Some k)) (entry_name e)) in *.
  assert (LN : firstn 11 nm' = nm').
  { apply firstn_all2. unfold plain_name in PN. rewrite !andb_true_iff in PN. destruct PN as (((_ & LL) & _) & _). now apply Nat.leb_le in LL. }
  rewrite LN. unfold tms32010_encode. rewrite line_insn; [| | |exact BI|exact BG| |].
  2:{ rewrite PL. exact PN. }
  2:{ intros z. rewrite PL. now apply plain_tms. }
  2:{ rewrite PL. apply name_ends; auto. intros c I. cbn in I. repeat (destruct I as [<-|I]; [reflexivity|]). contradiction. }
  2:{ rewrite AW. apply C31_addr; [lia|lia|]. split; [change (2^12) with 4096; lia|discriminate]. }
  unfold tms32010_encodeImpl. rewrite PO. cbn [bind]. rewrite SN. cbn [bind i_err new_insn]. change (setErrorIfAt OK OK) with OK. change (isOK OK) with true. cbn [negb]. cbv zeta.
  rewrite FO, FM1, FM2, FM3. change (new_insn addr) with (canon addr []).
  assert (M2 : e_m2 e <> M_PMA) by lia. assert (M3 : e_m3 e <> M_PMA) by lia.
  assert (NP : forall K mode, fits K mode = true -> mode <> M_PMA -> K <> K_pma) by (intros K mode F N ->; cbn [fits] in F; lia).
  unfold enc in EE, EO.
  destruct (Z.eq_dec (e_m1 e) M_PMA) as [E1|M1].
  - assert (E2 : e_m2 e = M_NONE) by lia. assert (E3 : e_m3 e = M_NONE) by lia.
    assert (Y1 : K1 = K_pma) by (unfold K1; now rewrite E1). assert (Y2 : K2 = K_none) by (unfold K2; now rewrite E2). assert (Y3 : K3 = K_none) by (unfold K3; now rewrite E3).
    clearbody K1 K2 K3. subst K1 K2 K3. rewrite E1, E2, E3 in *.
    cbn [piece] in P1, P2, P3. destruct P1 as (lo & hi & -> & BH & BL & EV & LT & _). destruct P2 as (_ & -> & _). destruct P3 as (_ & -> & _). cbn [app].
    destruct R1 as (OE & IV & IO & _). destruct R2 as (OE2 & _). destruct R3 as (OE3 & _).
    assert (OP : e_opc e = o) by exact EO. rewrite OP. unfold byte in BH, BL.
    assert (S1 : encodeOperand ct o1 M_PMA (mkAI (canon addr []) OK o) = mkAI (part addr 2 [lo; hi]) OK o).
    { rewrite encV_eq, OE. unfold encV. cbn [Z.eqb M_PMA M_MAM M_LS3 M_LS4 M_PA M_NARP M_AR M_ARK M_DPK M_IM8 M_IM13 Pos.eqb orb]. rewrite (over_signed (o_val o1) v1 0xFFF 0) by (auto; lia).
      unfold ai_setErrorIf, ai_emitOperand16. cbn [ai_insn ai_err ai_opc]. change (setErrorIfAt OK OK) with OK. f_equal.
      rewrite (get_unsigned (o_val o1) v1) by (auto; lia). change 0xFFF with (Z.ones 12). rewrite Z.land_ones by lia. rewrite Z.mod_small by (change (2^12) with 4096; lia).
      unfold u16. rewrite Z.mod_small by lia. rewrite EV. exact (part_le lo hi addr 2 [] BH BL ltac:(cbn; lia)). }
    rewrite S1. rewrite !encV_eq, OE2, OE3. unfold encV. cbn [Z.eqb M_NONE M_PMA M_MAM M_LS3 M_LS4 M_PA M_NARP M_AR M_ARK M_DPK M_IM8 M_IM13 Pos.eqb orb].
    unfold ai_setErrorIf, ai_emitInsn. cbn [ai_insn ai_err ai_opc]. rewrite part_word by (cbn; lia). reflexivity.
  - rewrite (enc_reads ct K1 k t1 n1 v1 o1 (e_m1 e) (canon addr []) OK (e_opc e) (new_insn 0) KO1 (NP _ _ F1 M1) P1 R1 M1).
    set (r1 := encK ct K1 (e_m1 e) (mkAI (new_insn 0) OK (e_opc e))) in *.
    assert (I1 : r1 = mkAI (new_insn 0) (ai_err r1) (ai_opc r1)) by (apply no_pma, M1).
    rewrite (enc_reads ct K2 k t2 n2 v2 o2 (e_m2 e) (canon addr []) (ai_err r1) (ai_opc r1) (new_insn 0) KO2 (NP _ _ F2 M2) P2 R2 M2). rewrite <- I1.
    set (r2 := encK ct K2 (e_m2 e) r1) in *.
    assert (I2 : r2 = mkAI (new_insn 0) (ai_err r2) (ai_opc r2)) by (unfold r2; rewrite I1; apply no_pma, M2).
    rewrite (enc_reads ct K3 k t3 n3 v3 o3 (e_m3 e) (canon addr []) (ai_err r2) (ai_opc r2) (new_insn 0) KO3 (NP _ _ F3 M3) P3 R3 M3). rewrite <- I2.
    rewrite EE, EO. unfold ai_emitInsn. cbn [ai_insn ai_err ai_opc]. change (canon addr []) with (part addr 2 []). rewrite part_word by (cbn; lia).
    assert (NN : forall K n t v, piece np_intel K (Some k) t n v -> K <> K_pma -> n = []).
    { intros K n u v P N. destruct K; cbn [piece] in P; try tauto. }
    rewrite (NN _ _ _ _ P1 (NP _ _ F1 M1)), (NN _ _ _ _ P2 (NP _ _ F2 M2)), (NN _ _ _ _ P3 (NP _ _ F3 M3)). reflexivity.
Qed.

(* ------------------------------------------------------------ the disassembler *)
Section Whole.
Variables (np : number_parser) (d : disasm) (ct : Z).
Hypothesis RD : reads_as np d.
Hypothesis CT : In ct types.
Let START : forall o addr mem s, 0 <= o < 65536 -> within addr mem 2 s -> decode_opcode d ct o s = chain d ct o (t_seterr OK s).
Proof. intros o addr mem s O _. now apply chain_start. Qed.
Let GOOD : forall o, 0 <= o < 65536 -> good (n_chain ct o) (R_chain np ct o) (chain d ct o).
Proof. intros o O. now apply good_chain. Qed.
Let LEN : forall o, 0 <= o < 65536 -> (2 + n_chain ct o <= 4)%nat.
Proof. intros o O. pose proof (chain_len ct o CT O). lia. Qed.
Lemma tms32010_total mem addr size : Forall byte mem -> exists r, tms32010_decode d ct mem addr size = Val r.
Proof. intros FM. exact (word_total d _ _ _ (n_chain ct) 4 START GOOD LEN ltac:(lia) mem addr size FM). Qed.
Lemma tms32010_within mem addr size r : Forall byte mem -> tms32010_decode d ct mem addr size = Val r ->
  exists m, mem = i_code (r_insn r) ++ m /\ (length (i_code (r_insn r)) <= 4)%nat.
Proof. intros FM. exact (word_within d _ _ _ (n_chain ct) 4 START GOOD LEN ltac:(lia) mem addr size r FM). Qed.
Lemma tms32010_accepts mem addr size r : Forall byte mem -> (2 <= length mem)%nat -> tms32010_decode d ct mem addr size = Val r -> i_err (r_insn r) = OK ->
  checkAddr 12 addr false = OK /\
  exists o nb m, 0 <= o < 65536 /\ mem = word_bytes o ++ nb ++ m /\ (length (word_bytes o ++ nb) <= 4)%nat /\
    r_insn r = canon addr (word_bytes o ++ nb) /\
    R_chain np ct o (mkH (Some (da_uppercase d)) addr (word_bytes o) []) (r_operands r) nb (r_name r) /\
    forall m', Forall byte m' -> tms32010_decode d ct (word_bytes o ++ nb ++ m') addr size = Val r.
Proof.
  intros FM NE H E. destruct RD as (_ & _ & AW). pose proof (word_accepts d _ _ _ (n_chain ct) 4 START GOOD LEN ltac:(lia) mem addr size r FM NE H E) as X.
  rewrite AW in X. exact X.
Qed.
End Whole.
Lemma tms32010_round d ct : reads_as np_intel d -> In ct types -> forall mem addr size r a indent gap b rest,
  Forall byte mem -> (2 <= length mem)%nat -> tms32010_decode d ct mem addr size = Val r -> i_err (r_insn r) = OK ->
  a_pl a = pl_tms32010 -> a_radix a = 10 -> a_aw a = 12 -> 0 <= addr < 4096 ->
  blanks indent -> blanks gap -> gap <> [] \/ r_operands r = [] -> blanks b -> last_rest rest ->
  tms32010_encode a ct (indent ++ r_name r ++ gap ++ r_operands r ++ b ++ rest) addr = Val (L_insn (r_insn r) rest).
Proof.
  intros RD CT mem addr size r a indent gap b rest FM NE H E PL RX AW AR BI BG NG BB LR. destruct (tms32010_accepts np_intel d ct RD CT mem addr size r FM NE H E) as (CA & o & nb & m & O & _ & _ & RI & (e & L & Q) & _).
  destruct Q as (t0 & tr & n0 & nr & nm1 & ET & -> & (-> & -> & ->) & t1 & t2 & n1 & n2 & nm2 & -> & -> & (-> & v1 & P1) & t3 & t4 & n3 & n4 & nm3 & -> & -> & Q2 & Q3).
  rel_out. destruct (own_piece _ _ _ _ _ Q2) as (-> & u2 & v2 & P2 & ->). rel_out. destruct (own_piece _ _ _ _ _ Q3) as (NM & u3 & v3 & P3 & ->). rel_out. cbn [app] in *.
  rewrite RI, NM. rewrite ET in *. apply (encode_ok ct (da_uppercase d) o e); auto.
  exists t1, u2, u3, n1, n3, n4, v1, v2, v3. split; [exact P1|]. split; [exact P2|]. split; [exact P3|]. split; [|reflexivity]. now rewrite <- !app_assoc.
Qed.
Lemma piece_len np K k t nb v : piece np K k t nb v -> length nb = kwidth K.
Proof. destruct K; cbn [piece kwidth]; try tauto; try (intros (_ & -> & _); reflexivity). intros (lo & hi & -> & _). reflexivity. Qed.
Lemma own_len np K h t nb nm' : R_own np K h t nb nm' -> length nb = kwidth K.
Proof.
  destruct (is_none K) eqn:N.
  - apply is_none_ok in N. subst K. intros (_ & -> & _). reflexivity.
  - rewrite own_seq by (intros ->; discriminate). intros (t1 & t2 & n1 & n2 & nm1 & -> & -> & (-> & -> & ->) & -> & v & P). cbn [app]. eapply piece_len, P.
Qed.
Lemma chain_words np ct o h t nb nm' : In ct types -> 0 <= o < 65536 -> R_chain np ct o h t nb nm' -> length nb = 0%nat \/ length nb = 2%nat.
Proof.
  intros C O (e & L & t0 & tr & n0 & nr & nm1 & ET & -> & (_ & -> & _) & t1 & t2 & n1 & n2 & nm2 & -> & -> & (_ & v1 & P1) & t3 & t4 & n3 & n4 & nm3 & -> & -> & Q2 & Q3).
  destruct (look_at ct o e C O L) as (_ & SH & _). unfold shape in SH. rewrite !app_length. rewrite (piece_len _ _ _ _ _ _ P1), (own_len _ _ _ _ _ _ Q2), (own_len _ _ _ _ _ _ Q3).
  rewrite (pma_only ct o (e_m2 e)) by lia. rewrite (pma_only ct o (e_m3 e)) by lia. cbn [length]. destruct (kind_of ct o (e_m1 e)); cbn; auto.
Qed.
