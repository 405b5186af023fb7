(** The 8080 family: proof of the round trip. *)
From Coq Require Import String ZArith List Bool Lia ZifyBool.
From Verif Require Import M_Char M_Error M_Value M_Text M_StrBuffer M_Format M_Number M_Insn M_Config M_Operators
  M_Parsers M_Expr M_Directive M_Table T_Tables M_Asm M_Dis M_I8080Defs T_I8080 M_I8080
  S_Value S_Number S_Expr S_ExprTree S_Table S_I8080 P_StrBuffer P_Number P_NumberRead
  P_ExprRead P_ExprTree P_ExprCase P_Table P_Insn P_AsmText P_CpuShape.
Import ListNotations.
Open Scope string_scope.
Open Scope list_scope.
Local Open Scope Z_scope.

(* ------------------------------------------------------------ what is printed *)
Definition reg_text (n : Z) (indirect : bool) : text :=
  match name_of n ZILOG_ENTRIES with
  | Some t => if indirect then 40 :: t ++ [41] else t
  | None => []
  end.
Lemma outReg_text n ind b : outRegName n ind b = out_text (reg_text n ind) b.
Proof.
  unfold outRegName, reg_text. destruct (name_of n ZILOG_ENTRIES) as [t|]; [|reflexivity].
  destruct ind; [|reflexivity]. change (40 :: t ++ [41]) with ([40] ++ t ++ [41]). now rewrite !out_text_app.
Qed.
Definition cc_text (n : Z) : text := match name_of n CC_ENTRIES with Some t => t | None => [] end.
Lemma outCc_text n b : outCcName n b = out_text (cc_text n) b.
Proof. unfold outCcName, cc_text. now destruct (name_of n CC_ENTRIES). Qed.
Definition data_text (zilog : bool) (num : Z) : text :=
  let num := Z.land num 7 in if (num =? 6) && zilog then reg_text REG_HL true else reg_text (decodeDataReg num) false.
Lemma outData_text zilog num b : outDataReg zilog num b = out_text (data_text zilog num) b.
Proof. unfold outDataReg, data_text. cbv zeta. destruct ((Z.land num 7 =? 6) && zilog); apply outReg_text. Qed.
Definition par (zilog : bool) (c : Z) : text := if zilog then [c] else [].
Lemma paren_text zilog c b : paren zilog c b = out_text (par zilog c) b.
Proof. now destruct zilog. Qed.

Definition shape_of (zilog : bool) (opc mode : Z) : shape :=
  if mode =? M_IM8 then Sh_num [] [] N_byte
  else if mode =? M_IOA then Sh_num (par zilog 40) (par zilog 41) N_byte
  else if mode =? M_IM16 then Sh_num [] [] N_le
  else if mode =? M_ABS then Sh_num (par zilog 40) (par zilog 41) N_le
  else if mode =? M_PTR then Sh_text (reg_text (decodePointerReg (Z.shiftr opc 4) zilog) false)
  else if mode =? M_STK then Sh_text (reg_text (decodeStackReg (Z.shiftr opc 4) zilog) false)
  else if mode =? M_IDX then Sh_text (reg_text (decodeIndexReg (Z.shiftr opc 4) zilog) zilog)
  else if mode =? M_SRC then Sh_text (data_text zilog opc)
  else if mode =? M_DST then Sh_text (data_text zilog (Z.shiftr opc 3))
  else if mode =? M_VEC then
    Sh_num [] [] (N_const (if zilog then Z.land (Z.shiftr opc 3) 7 * 8 else Z.land (Z.shiftr opc 3) 7))
  else if mode =? M_CC then Sh_text (cc_text (decodeCcName (Z.shiftr opc 3)))
  else if (R_BASE <=? mode) && (mode <? I_BASE) then Sh_text (reg_text (mode - R_BASE) false)
  else if I_BASE <=? mode then Sh_text (reg_text (mode - I_BASE) true)
  else Sh_text [].

Definition reads_as (d : disasm) : Prop := da_symtab d = None /\ da_reads d np_intel /\ da_aw d = 16.
Lemma i8080_reads uh uc oc rel cs ih cur : reads_as (i8080_dis uh uc oc rel cs ih cur None).
Proof.
  split; [reflexivity|]. split; [|reflexivity]. apply all_reads, universal_reads; [cbn; auto|].
  unfold da_formatter, i8080_dis. cbn. destruct cs, ih; auto.
Qed.

Lemma operand_err d zilog opc mode s s' : decodeOperand d zilog opc mode s = Val s' ->
  d_err (t_in s) <> OK -> d_err (t_in s') = d_err (t_in s).
Proof.
  intros H N. unfold decodeOperand in H.
  repeat lazymatch type of H with
  | (if ?c then _ else _) = _ => destruct c
  end.
  all: try (injection H as <-; reflexivity).
  - destruct (t_byte s) as [v s1] eqn:B. rewrite (print_err _ _ _ H). eapply byte_err; eauto.
  - destruct (t_byte (t_put (paren zilog 40) s)) as [v s1] eqn:B.
    destruct (t_print _ s1) as [s2| | | |] eqn:P; try discriminate. injection H as <-. rewrite put_in, (print_err _ _ _ P).
    now rewrite (byte_err _ _ _ B).
  - destruct (t_uint16Le s) as [v s1] eqn:B. rewrite (print_err _ _ _ H). eapply word_err; eauto.
  - destruct (t_uint16Le (t_put (paren zilog 40) s)) as [v s1] eqn:B.
    destruct (t_print _ s1) as [s2| | | |] eqn:P; try discriminate. injection H as <-. rewrite put_in, (print_err _ _ _ P).
    now rewrite (word_err _ _ _ B).
  - now rewrite (print_err _ _ _ H).
  - now rewrite (print_err _ _ _ H).
Qed.

Lemma put_shape w k addr bs mem nm out s' : k = b_case out -> t_put (out_text w) (at_ addr bs mem nm out) = s' -> s_ok s' ->
  exists t nb m v, mem = nb ++ m /\ s' = at_ addr (bs ++ nb) m nm (appb out t) /\ b_err out = OK /\
    printed np_intel k (Sh_text w) t nb v.
Proof.
  intros -> H E. destruct (put_text _ _ _ _ _ _ _ H E) as (E0 & ->).
  exists (map (conv (b_case out)) w), [], mem, 0. rewrite app_nil_r. cbn [printed app]. auto 10.
Qed.

Lemma Forall_byte_head x m : Forall byte (x :: m) -> byte x /\ Forall byte m.
Proof. inversion 1; auto. Qed.

Lemma land7 x : 0 <= Z.land x 7 <= 7.
Proof. change 7 with (Z.ones 3) at 1 2. rewrite Z.land_ones by lia. pose proof (Z.mod_pos_bound x (2^3) ltac:(lia)). change (2^3) with 8 in *. lia. Qed.

(* one operand *)
Lemma decode_operand d zilog opc mode addr bs mem nm out s' :
  reads_as d -> (length bs <= 60)%nat -> Forall byte mem -> byte opc ->
  decodeOperand d zilog opc mode (at_ addr bs mem nm out) = Val s' -> s_ok s' ->
  exists t nb m v, mem = nb ++ m /\ s' = at_ addr (bs ++ nb) m nm (appb out t) /\ b_err out = OK /\
    printed np_intel (b_case out) (shape_of zilog opc mode) t nb v.
Proof.
  intros (SY & RD & AW) L FM BO H E. unfold decodeOperand in H. unfold shape_of.
  assert (CASE : forall w, b_case (appb out w) = b_case out) by reflexivity.
  destruct (mode =? M_IM8).
  { destruct mem as [|x m]; [|apply Forall_byte_head in FM as (X & FM)].
    - destruct (t_byte_nil addr bs nm out) as (s1 & B & N). rewrite B in H. apply print_err in H. destruct E as (E & _). congruence.
    - rewrite t_byte_at in H by (auto; lia).
      destruct (hex_at d np_intel x 8 true _ _ _ _ _ _ SY RD X ltac:(lia) H E) as (E0 & u & -> & N).
      exists u, [x], m, x. repeat (split; [reflexivity||assumption|]). exists u. cbn [map app]. rewrite app_nil_r. cbn. auto. }
  destruct (mode =? M_IOA).
  { assert (P : exists o, t_put (paren zilog 40) (at_ addr bs mem nm out) = at_ addr bs mem nm o /\ (b_err o = OK ->
                  b_err out = OK /\ o = appb out (map (conv (b_case out)) (par zilog 40)))).
    { exists (paren zilog 40 out). split; [reflexivity|]. rewrite paren_text. intros A. split; [eapply out_text_err, A|now apply out_text_ok]. }
    destruct P as (o & P & Q). rewrite P in H.
    destruct mem as [|x m]; [|apply Forall_byte_head in FM as (X & FM)].
    - destruct (t_byte_nil addr bs nm o) as (s1 & B & N). rewrite B in H.
      destruct (t_print _ s1) as [s2| | | |] eqn:PR; try discriminate. apply print_err in PR.
      injection H as <-. destruct E as (E & _). rewrite put_in in E. congruence.
    - rewrite t_byte_at in H by (auto; lia).
      destruct (t_print _ _) as [s2| | | |] eqn:PR in H; try discriminate. injection H as <-.
      destruct E as (E1 & E2).
      assert (E3 : s_ok s2).
      { split; [exact E1|]. cbn [t_put t_set_out t_out] in E2. rewrite paren_text in E2. eapply out_text_err, E2. }
      destruct (hex_at d np_intel x 8 false _ _ _ _ _ _ SY RD X ltac:(lia) PR E3) as (E0 & u & -> & N).
      destruct (Q E0) as (E00 & ->). cbn [t_put t_set_out t_out at_] in E2. rewrite paren_text in E2.
      exists (map (conv (b_case out)) (par zilog 40) ++ u ++ map (conv (b_case out)) (par zilog 41)), [x], m, x.
      split; [reflexivity|]. split.
      { unfold t_put, t_set_out, at_. cbn [t_in t_name t_out]. f_equal. rewrite paren_text, out_text_ok by exact E2.
        now rewrite !appb_case, !appb_app, <- ?app_assoc. }
      split; [exact E00|]. exists u. split; [reflexivity|]. split; [exact N|]. cbn. auto. }
  destruct (mode =? M_IM16).
  { destruct (Nat.ltb_spec (length mem) 2) as [S|S].
    - pose proof (t_word_short addr bs mem nm out S) as N. destruct (t_uint16Le _) as [v s1]. cbn [snd] in N.
      apply print_err in H. destruct E as (E & _). congruence.
    - destruct mem as [|lo [|hi m]]; [cbn in S; lia|cbn in S; lia|].
      apply Forall_byte_head in FM as (X & FM). apply Forall_byte_head in FM as (Y & FM).
      rewrite t_word_at in H by (auto; lia). unfold byte in X, Y.
      destruct (hex_at d np_intel (lo + 256 * hi) 16 true _ _ _ _ _ _ SY RD ltac:(change (2^16) with 65536; lia) ltac:(lia) H E) as (E0 & u & -> & N).
      exists u, [lo; hi], m, (lo + 256 * hi). repeat (split; [reflexivity||assumption|]). exists u. cbn [map app]. rewrite app_nil_r.
      repeat (split; [reflexivity||assumption|]). exists lo, hi. auto. }
  destruct (mode =? M_ABS).
  { assert (P : exists o, t_put (paren zilog 40) (at_ addr bs mem nm out) = at_ addr bs mem nm o /\ (b_err o = OK ->
                  b_err out = OK /\ o = appb out (map (conv (b_case out)) (par zilog 40)))).
    { exists (paren zilog 40 out). split; [reflexivity|]. rewrite paren_text. intros A. split; [eapply out_text_err, A|now apply out_text_ok]. }
    destruct P as (o & P & Q). rewrite P in H.
    destruct (Nat.ltb_spec (length mem) 2) as [S|S].
    - pose proof (t_word_short addr bs mem nm o S) as N. destruct (t_uint16Le _) as [v s1]. cbn [snd] in N.
      destruct (t_print _ s1) as [s2| | | |] eqn:PR; try discriminate. apply print_err in PR.
      injection H as <-. destruct E as (E & _). rewrite put_in in E. congruence.
    - destruct mem as [|lo [|hi m]]; [cbn in S; lia|cbn in S; lia|].
      apply Forall_byte_head in FM as (X & FM). apply Forall_byte_head in FM as (Y & FM).
      rewrite t_word_at in H by (auto; lia). unfold byte in X, Y.
      destruct (t_print _ _) as [s2| | | |] eqn:PR in H; try discriminate. injection H as <-.
      destruct E as (E1 & E2).
      assert (E3 : s_ok s2).
      { split; [exact E1|]. cbn [t_put t_set_out t_out] in E2. rewrite paren_text in E2. eapply out_text_err, E2. }
      destruct (abs_at d np_intel (lo + 256 * hi) 16 _ _ _ _ _ _ SY RD AW ltac:(change (2^16) with 65536; lia) ltac:(lia) PR E3) as (E0 & u & -> & N).
      destruct (Q E0) as (E00 & ->). cbn [t_put t_set_out t_out at_] in E2. rewrite paren_text in E2.
      exists (map (conv (b_case out)) (par zilog 40) ++ u ++ map (conv (b_case out)) (par zilog 41)), [lo; hi], m, (lo + 256 * hi).
      split; [reflexivity|]. split.
      { unfold t_put, t_set_out, at_. cbn [t_in t_name t_out]. f_equal. rewrite paren_text, out_text_ok by exact E2.
        now rewrite !appb_case, !appb_app, <- ?app_assoc. }
      split; [exact E00|]. exists u. split; [reflexivity|]. split; [exact N|]. exists lo, hi. auto. }
  assert (TX : forall f w, (forall b, f b = out_text w b) -> Val (t_put f (at_ addr bs mem nm out)) = Val s' ->
     exists t nb m v, mem = nb ++ m /\ s' = at_ addr (bs ++ nb) m nm (appb out t) /\ b_err out = OK /\
       printed np_intel (b_case out) (Sh_text w) t nb v).
  { intros f w F G. injection G as G. apply put_shape; auto. rewrite <- G. unfold t_put. now rewrite F. }
  destruct (mode =? M_PTR); [eapply TX; [|exact H]; intros; apply outReg_text|].
  destruct (mode =? M_STK); [eapply TX; [|exact H]; intros; apply outReg_text|].
  destruct (mode =? M_IDX); [eapply TX; [|exact H]; intros; apply outReg_text|].
  destruct (mode =? M_SRC); [eapply TX; [|exact H]; intros; apply outData_text|].
  destruct (mode =? M_DST); [eapply TX; [|exact H]; intros; apply outData_text|].
  destruct (mode =? M_VEC).
  { assert (V : 0 <= Z.land (Z.shiftr opc 3) 7 <= 7).
    { apply land7. }
    destruct zilog.
    - destruct (hex_at d np_intel (Z.land (Z.shiftr opc 3) 7 * 8) 8 true _ _ _ _ _ _ SY RD ltac:(change (2^8) with 256; lia) ltac:(lia) H E) as (E0 & u & -> & N).
      eexists u, [], mem, _. rewrite app_nil_r. repeat (split; [reflexivity||assumption|]). exists u. cbn [map app]. rewrite app_nil_r. cbn. eauto.
    - destruct (hex_at d np_intel (Z.land (Z.shiftr opc 3) 7) 3 true _ _ _ _ _ _ SY RD ltac:(change (2^3) with 8; lia) ltac:(lia) H E) as (E0 & u & -> & N).
      eexists u, [], mem, _. rewrite app_nil_r. repeat (split; [reflexivity||assumption|]). exists u. cbn [map app]. rewrite app_nil_r. cbn. eauto. }
  destruct (mode =? M_CC); [eapply TX; [|exact H]; intros; apply outCc_text|].
  destruct (_ && _); [eapply TX; [|exact H]; intros; apply outReg_text|].
  destruct (I_BASE <=? mode); [eapply TX; [|exact H]; intros; apply outReg_text|].
  injection H as <-. exists [], [], mem, 0. rewrite app_nil_r, appb_nil. destruct E as (_ & E). cbn. auto 10.
Qed.

Lemma le_60 {A} {bs : list A} : (length bs <= 8)%nat -> (length bs <= 60)%nat.
Proof. lia. Qed.
Lemma operand_kept d zilog opc mode s s' : reads_as d -> byte opc -> decodeOperand d zilog opc mode s = Val s' -> bytes_in s ->
  bytes_in s' /\ (b_err (t_out s') = OK -> b_err (t_out s) = OK).
Proof.
  intros (SY & RD & AW) BO H B. unfold decodeOperand in H.
  assert (PT : forall f w, (forall b, f b = out_text w b) -> Val (t_put f s) = Val s' ->
    bytes_in s' /\ (b_err (t_out s') = OK -> b_err (t_out s) = OK)).
  { intros f w F G. injection G as <-. split; [exact B|]. cbn. rewrite F. apply out_text_err. }
  destruct (mode =? M_IM8).
  { destruct (t_byte s) as [v s1] eqn:R. destruct (bytes_kept _ _ _ R B) as (B1 & V & O).
    destruct (hex_kept d np_intel v 8 true _ _ SY RD ltac:(unfold byte in V; lia) ltac:(lia) H) as (I & X).
    split; [unfold bytes_in; now rewrite I|]. now rewrite <- O. }
  destruct (mode =? M_IOA).
  { destruct (t_byte _) as [v s1] eqn:R in H. destruct (bytes_kept _ _ _ R B) as (B1 & V & O).
    destruct (t_print _ _) as [s2| | | |] eqn:PR in H; try discriminate. injection H as <-.
    destruct (hex_kept d np_intel v 8 false _ _ SY RD ltac:(unfold byte in V; lia) ltac:(lia) PR) as (I & X).
    split; [unfold bytes_in; cbn; now rewrite I|]. cbn [t_put t_set_out t_out]. rewrite paren_text. intros E. apply out_text_err, X in E.
    rewrite O in E. cbn in E. rewrite paren_text in E. eapply out_text_err, E. }
  destruct (mode =? M_IM16).
  { destruct (t_uint16Le s) as [v s1] eqn:R. destruct (word_kept _ _ _ R B) as (B1 & V & O).
    destruct (hex_kept d np_intel v 16 true _ _ SY RD ltac:(lia) ltac:(lia) H) as (I & X).
    split; [unfold bytes_in; now rewrite I|]. now rewrite <- O. }
  destruct (mode =? M_ABS).
  { destruct (t_uint16Le _) as [v s1] eqn:R in H. destruct (word_kept _ _ _ R B) as (B1 & V & O).
    destruct (t_print _ _) as [s2| | | |] eqn:PR in H; try discriminate. injection H as <-.
    destruct (abs_kept d np_intel v 0 _ _ SY RD ltac:(lia) ltac:(rewrite AW; cbn; lia) PR) as (I & X).
    split; [unfold bytes_in; cbn; now rewrite I|]. cbn [t_put t_set_out t_out]. rewrite paren_text. intros E. apply out_text_err, X in E.
    rewrite O in E. cbn in E. rewrite paren_text in E. eapply out_text_err, E. }
  destruct (mode =? M_PTR); [eapply PT; [|exact H]; intros; apply outReg_text|].
  destruct (mode =? M_STK); [eapply PT; [|exact H]; intros; apply outReg_text|].
  destruct (mode =? M_IDX); [eapply PT; [|exact H]; intros; apply outReg_text|].
  destruct (mode =? M_SRC); [eapply PT; [|exact H]; intros; apply outData_text|].
  destruct (mode =? M_DST); [eapply PT; [|exact H]; intros; apply outData_text|].
  destruct (mode =? M_VEC).
  { pose proof (land7 (Z.shiftr opc 3)) as V. destruct zilog.
    - destruct (hex_kept d np_intel (Z.land (Z.shiftr opc 3) 7 * 8) 8 true _ _ SY RD ltac:(lia) ltac:(lia) H) as (I & X). split; [unfold bytes_in; now rewrite I|exact X].
    - destruct (hex_kept d np_intel (Z.land (Z.shiftr opc 3) 7) 3 true _ _ SY RD ltac:(lia) ltac:(lia) H) as (I & X). split; [unfold bytes_in; now rewrite I|exact X]. }
  destruct (mode =? M_CC); [eapply PT; [|exact H]; intros; apply outCc_text|].
  destruct (_ && _); [eapply PT; [|exact H]; intros; apply outReg_text|].
  destruct (I_BASE <=? mode); [eapply PT; [|exact H]; intros; apply outReg_text|].
  injection H as <-. auto.
Qed.

(* a whole instruction, after its opcode *)
Definition two_operands (zilog : bool) (opc : Z) (k : option bool) (e : entry) (t : text) (nb : list Z) : Prop :=
  (e_dst e = M_NONE /\ t = [] /\ nb = []) \/
  (e_dst e <> M_NONE /\ e_src e = M_NONE /\ exists v, printed np_intel k (shape_of zilog opc (e_dst e)) t nb v) \/
  (e_dst e <> M_NONE /\ e_src e <> M_NONE /\ exists t1 t2 n1 n2 v1 v2, t = t1 ++ 44 :: 32 :: t2 /\ nb = n1 ++ n2 /\
     printed np_intel k (shape_of zilog opc (e_dst e)) t1 n1 v1 /\ printed np_intel k (shape_of zilog opc (e_src e)) t2 n2 v2).
Lemma decode_insn d ty zilog pfx opc addr bs mem e0 nm out s' :
  reads_as d -> (length bs <= 8)%nat -> Forall byte mem -> byte opc ->
  decode_opcode d ty zilog pfx opc (mkDst (M_Insn.mkD (canon addr bs) mem e0) nm out) = Val s' -> s_ok s' ->
  exists e t nb m, i8080_searchOpCode ty zilog pfx opc = Val (Some e) /\ mem = nb ++ m /\
    s' = at_ addr (bs ++ nb) m (firstn 11 (map (conv (b_case out)) (entry_name e))) (appb out t) /\ b_err out = OK /\
    two_operands zilog opc (b_case out) e t nb.
Proof.
  intros RD L FM BO H E. unfold decode_opcode in H. cbv zeta in H.
  destruct (i8080_searchOpCode ty zilog pfx opc) as [[e|]| | | |]; try discriminate.
  2:{ injection H as <-. destruct E as (E & _). cbn in E. discriminate. }
  cbn [bind] in H. unfold t_readName, t_seterr in H. cbn [t_in t_name t_out d_insn d_mem] in H.
  set (nm' := firstn 11 _) in *. fold (at_ addr bs mem nm' out) in H.
  destruct (Z.eqb_spec (e_dst e) M_NONE) as [D|D].
  { injection H as <-. exists e, [], [], mem. rewrite appb_nil, app_nil_r. destruct E as (_ & E).
    repeat (split; [reflexivity||assumption|]). left. auto. }
  destruct (decodeOperand d zilog opc (e_dst e) (at_ addr bs mem nm' out)) as [s1| | | |] eqn:D1; try discriminate. cbn [bind] in H.
  destruct (Z.eqb_spec (e_src e) M_NONE) as [Q|Q].
  { injection H as ->. destruct (decode_operand _ _ _ _ _ _ _ _ _ _ RD (le_60 L) FM BO D1 E) as (t & nb & m & v & -> & -> & E0 & P).
    exists e, t, nb, m. repeat (split; [reflexivity||assumption|]). right; left. eauto. }
  assert (E1 : d_err (t_in s1) = OK).
  { destruct (isOK (d_err (t_in s1))) eqn:K; [now apply isOK_e|]. destruct E as (E & _).
    rewrite (operand_err _ _ _ _ _ _ H) in E; rewrite put_in in *; [exact E|]. intros K'. rewrite K' in K. discriminate. }
  pose proof (fun X => decode_operand d zilog opc (e_dst e) addr bs mem nm' out s1 RD (le_60 L) FM BO D1 (conj E1 X)) as F. clear E1.
  assert (B0 : bytes_in (at_ addr bs mem nm' out)) by exact FM.
  destruct (operand_kept _ _ _ _ _ _ RD BO D1 B0) as (B1 & _).
  destruct (operand_kept _ _ _ _ _ _ RD BO H B1) as (_ & O2). destruct E as (E2 & E3). specialize (O2 E3).
  cbn [t_put t_set_out t_out] in O2. destruct (comma_text _ O2) as (O1 & C).
  destruct (F O1) as (t & nb & m & v & -> & -> & E0 & P).
  unfold t_put, t_set_out in H. cbn [t_out t_in t_name at_] in H. cbn [t_out at_] in C. rewrite C, appb_app in H.
  fold (at_ addr (bs ++ nb) m nm' (appb out (t ++ [44; 32]))) in H.
  apply Forall_app in FM. destruct FM as (FN & FM).
  assert (LN : (length nb <= 2)%nat).
  { clear -P. destruct (shape_of zilog opc (e_dst e)) as [w|p q n]; cbn [printed] in P.
    - destruct P as (_ & -> & _). cbn. lia.
    - destruct P as (u & _ & _ & N). destruct n; cbn in N; [destruct N as (-> & _)|destruct N as (-> & _)|destruct N as (? & ? & -> & _)]; cbn; lia. }
  assert (LB : (length (bs ++ nb) <= 60)%nat) by (rewrite app_length; lia).
  destruct (decode_operand _ _ _ _ _ _ _ _ _ _ RD LB FM BO H (conj E2 E3)) as (t2 & nb2 & m2 & v2 & -> & -> & E4 & P2).
  exists e, (t ++ 44 :: 32 :: t2), (nb ++ nb2), m2. rewrite appb_app, <- !app_assoc.
  repeat (split; [reflexivity||assumption|]). right; right. split; [exact D|]. split; [exact Q|].
  exists t, t2, nb, nb2, v, v2. auto.
Qed.

(* ------------------------------------------------------------ what is read *)
Definition word (w : text) : bool := Nat.leb 1 (length w) && forallb isNameLetter w.
Definition fixed (r : res (Z * text)) : option Z := match r with Val (n, []) => Some n | Val (n, _) => Some (-1) | _ => None end.
(* the operand a word or a word in parentheses is *)
Definition zop_word (w : text) : option operand :=
  match parseRegName true w, parseCcName w with
  | Val (r, _), Val (cc, _) =>
    if r =? REG_C then Some (mkOp R_C REG_C (setUnsigned (encodeCcName CC_C)) OK)
    else if negb (cc =? CC_UNDEF) then Some (mkOp M_CC REG_UNDEF (setUnsigned (encodeCcName cc)) OK)
    else if negb (r =? REG_UNDEF) then
      let mode := if (r =? REG_B) || (r =? REG_D) || (r =? REG_E) || (r =? REG_H) || (r =? REG_L) then M_SRC else r + R_BASE in
      Some (mkOp mode r v_undef OK)
    else None
  | _, _ => None
  end.
Definition zop_paren (w : text) : option operand :=
  match parseRegName true w with
  | Val (r, _) =>
    if (r =? REG_BC) || (r =? REG_DE) then Some (mkOp M_IDX r v_undef OK)
    else if (r =? REG_HL) || (r =? REG_SP) then Some (mkOp (r + I_BASE) r v_undef OK)
    else None
  | _ => None
  end.
Definition iop_word (w : text) : option operand :=
  match parseRegName false w with
  | Val (r, _) =>
    if negb (r =? REG_UNDEF) then
      let mode := if r =? REG_H then R_H else if r =? REG_SP then M_PTR else if r =? REG_PSW then M_STK
                  else if (r =? REG_B) || (r =? REG_D) then M_IDX else M_SRC in
      Some (mkOp mode r v_undef OK)
    else None
  | _ => None
  end.
Definition op_text (zilog : bool) (w : text) : option operand :=
  if word w then if zilog then zop_word w else iop_word w
  else
    let u := removelast (tl w) in
    if zilog && word u && text_eqb w (40 :: u ++ [41]) then zop_paren u else None.
Definition op_of (zilog : bool) (k : option bool) (sh : shape) (v : Z) : option operand :=
  match sh with
  | Sh_text w => op_text zilog (map (conv k) w)
  | Sh_num pre post _ =>
    if text_eqb pre [] && text_eqb post [] then Some (mkOp M_IM16 REG_UNDEF (mkV V_UNSIGNED v) OK)
    else if text_eqb pre [40] && text_eqb post [41] && zilog then Some (mkOp M_ABS REG_UNDEF (mkV V_UNSIGNED v) OK)
    else None
  end.

Definition total_functions (a : asm) : Prop := forall n g, a_function a n = Some g -> forall s r, f_eval g s r <> FUEL.
(* what may follow an operand *)
Definition tail (rest : text) : Prop := rest = [] \/ exists c u, rest = c :: u /\ (c = 44 \/ c = 59).
Lemma tail_stop b rest : blanks b -> tail rest -> isNameLetter (peek (b ++ rest)) = false.
Proof.
  intros B T. destruct b as [|c b].
  - destruct T as [->|(c & u & -> & [->| ->])]; reflexivity.
  - inversion B as [|? ? C ?]; subst. cbn [app peek]. unfold is_space in C. unfold isNameLetter, is_alnum, is_alpha, is_upper, is_lower, is_digit. lia.
Qed.
Lemma word_head w z : word w = true -> exists c, peek (w ++ z) = c /\ peek w = c /\ isNameLetter c = true.
Proof.
  unfold word. destruct w as [|c w]; [discriminate|]. cbn. intros H. exists c. rewrite !andb_true_iff in H. intuition.
Qed.
Lemma name_plain c : isNameLetter c = true -> is_space c = false /\ c <> 0 /\ c <> 59 /\ c <> 40 /\ c <> 41.
Proof. unfold isNameLetter, is_alnum, is_alpha, is_upper, is_lower, is_digit, is_space. lia. Qed.
Lemma reg_app zilog w z : word w = true -> isNameLetter (peek z) = false ->
  match parseRegName zilog w with
  | Val (r, _) => parseRegName zilog (w ++ z) = Val (r, if r =? REG_UNDEF then w ++ z else z)
  | _ => True
  end.
Proof.
  unfold word. intros W Z. apply andb_true_iff in W. destruct W as (L & W). apply Nat.leb_le in L.
  unfold parseRegName. cbv zeta. set (ents := if zilog then ZILOG_ENTRIES else INTEL_ENTRIES).
  rewrite searchText_app; [|destruct w; [cbn in L; lia|discriminate]|exact W|exact Z].
  destruct (searchText name_text w ents) as [[[i|] t]| | | |] eqn:S; cbn [bind]; try exact Logic.I.
  - destruct (item_at ents i) as [r| | | |] eqn:IT; cbn [bind]; try exact Logic.I.
    assert (N : snd r <> REG_UNDEF).
    { assert (forallb (fun e => negb (snd e =? REG_UNDEF)) ents = true) by (destruct zilog; vm_compute; reflexivity).
      rewrite forallb_forall in H. unfold item_at in IT. destruct (nth_error ents i) as [x|] eqn:NE; [|discriminate].
      injection IT as ->. specialize (H r (nth_error_In _ _ NE)). apply negb_true_iff, Z.eqb_neq in H. exact H. }
    apply Z.eqb_neq in N. now rewrite N.
  - reflexivity.
Qed.
Lemma cc_app w z : word w = true -> isNameLetter (peek z) = false ->
  match parseCcName w with
  | Val (r, _) => parseCcName (w ++ z) = Val (r, if r =? CC_UNDEF then w ++ z else z)
  | _ => True
  end.
Proof.
  unfold word. intros W Z. apply andb_true_iff in W. destruct W as (L & W). apply Nat.leb_le in L.
  unfold parseCcName. 
  rewrite searchText_app; [|destruct w; [cbn in L; lia|discriminate]|exact W|exact Z].
  destruct (searchText name_text w CC_ENTRIES) as [[[i|] t]| | | |] eqn:S; cbn [bind]; try exact Logic.I.
  - destruct (item_at CC_ENTRIES i) as [r| | | |] eqn:IT; cbn [bind]; try exact Logic.I.
    assert (N : snd r <> CC_UNDEF).
    { assert (forallb (fun e => negb (snd e =? CC_UNDEF)) CC_ENTRIES = true) by (vm_compute; reflexivity).
      rewrite forallb_forall in H. unfold item_at in IT. destruct (nth_error CC_ENTRIES i) as [x|] eqn:NE; [|discriminate].
      injection IT as ->. specialize (H r (nth_error_In _ _ NE)). apply negb_true_iff, Z.eqb_neq in H. exact H. }
    apply Z.eqb_neq in N. now rewrite N.
  - reflexivity.
Qed.
Lemma reg_none zilog s : isNameLetter (peek s) = false \/ is_digit (peek s) = true -> parseRegName zilog s = Val (REG_UNDEF, s).
Proof.
  intros [H|H]; unfold parseRegName; cbv zeta.
  - unfold searchText, searchSymbol. change s with ([] ++ s) at 1. rewrite (take_app _ [] s eq_refl H). reflexivity.
  - rewrite searchText_digit; [reflexivity| |exact H]. destruct zilog; vm_compute; reflexivity.
Qed.
Lemma cc_none s : isNameLetter (peek s) = false \/ is_digit (peek s) = true -> parseCcName s = Val (CC_UNDEF, s).
Proof.
  intros [H|H]; unfold parseCcName.
  - unfold searchText, searchSymbol. change s with ([] ++ s) at 1. rewrite (take_app _ [] s eq_refl H). reflexivity.
  - rewrite searchText_digit; [reflexivity| |exact H]. vm_compute. reflexivity.
Qed.
Lemma eol_false s : is_space (peek s) = false -> peek s <> 0 -> peek s <> 59 -> eol_semicolon s = (false, s) /\ skipSpaces s = s.
Proof.
  intros A B C. assert (skipSpaces s = s) as S by (destruct s as [|c s]; [reflexivity|now apply skip_none]).
  split; [|exact S]. unfold eol_semicolon. rewrite S. cbv zeta. apply Z.eqb_neq in B, C. now rewrite B, C.
Qed.
Lemma numeral_digit u v : numeral np_intel u v -> is_digit (peek u) = true.
Proof. intros N. specialize (N [] Logic.I). rewrite app_nil_r in N. eapply intel_head; [exact N|discriminate]. Qed.
Lemma peek_app u z : is_digit (peek u) = true -> peek (u ++ z) = peek u.
Proof. destruct u; [discriminate|reflexivity]. Qed.

Lemma parse_number a loc delim b0 u v b rest :
  a_pl a = pl_i8080 -> a_radix a = 10 -> total_functions a -> numeral np_intel u v -> blanks b0 -> blanks b ->
  In delim [0; 41; 44; 93] -> (rest = [] \/ exists c u, rest = c :: u /\ (c = 44 \/ c = 59 \/ (c = delim /\ c <> 0))) ->
  exists b', blanks b' /\ parseInteger a loc (b0 ++ u ++ b ++ rest) OK delim = Val (mkV V_UNSIGNED v, OK, b' ++ rest).
Proof.
  intros PL RX TF N B0 B D R. apply (parse_numeral fam_8080); auto.
  - cbn. auto 10.
  - left. eapply numeral_digit, N.
Qed.

Lemma parse_op zilog a loc b0 sh k t bs v op b rest :
  a_pl a = pl_i8080 -> a_radix a = 10 -> total_functions a -> blanks b0 -> blanks b -> tail rest ->
  printed np_intel k sh t bs v -> op_of zilog k sh v = Some op ->
  exists b', blanks b' /\ parseOperand zilog a loc (b0 ++ t ++ b ++ rest) = Val (op, b' ++ rest).
Proof.
  intros PL RX TF B0 B T P O.
  pose proof (tail_stop b rest B T) as ST.
  assert (EOL : p_eol (a_pl a) = eol_semicolon) by (rewrite PL; reflexivity).
  assert (T' : forall d, rest = [] \/ exists c u, rest = c :: u /\ (c = 44 \/ c = 59 \/ (c = d /\ c <> 0))).
  { intros d. destruct T as [->|(c & u & -> & C)]; [auto|]. right. exists c, u. tauto. }
  unfold parseOperand. destruct sh as [w|pre post n].
  - cbn [printed] in P. destruct P as (-> & -> & ->). cbn [op_of] in O.
    set (w' := map (conv k) w) in *. clearbody w'. clear w k. unfold op_text in O.
    destruct (word w') eqn:W.
    + destruct (word_head w' (b ++ rest) W) as (c & HC & HC' & NL). destruct (name_plain c NL) as (S1 & S2 & S3 & S4 & _).
      destruct (eol_false (w' ++ b ++ rest)) as (EF & SK); [rewrite HC; assumption|rewrite HC; assumption|rewrite HC; assumption|].
      destruct zilog.
      * unfold parseZilogOperand. rewrite skip_blanks by exact B0. rewrite EOL, SK, EF. cbv iota beta.
        unfold zop_word in O. pose proof (reg_app true w' (b ++ rest) W ST) as R. pose proof (cc_app w' (b ++ rest) W ST) as C.
        destruct (parseRegName true w') as [[r q]| | | |]; try discriminate. destruct (parseCcName w') as [[cc q2]| | | |]; try discriminate.
        rewrite R, C. cbn [bind].
        destruct (r =? REG_C) eqn:RC.
        { injection O as <-. exists b. split; [exact B|]. apply Z.eqb_eq in RC. subst r. reflexivity. }
        destruct (cc =? CC_UNDEF) eqn:CU; cbn [negb] in O |- *.
        { destruct (r =? REG_UNDEF) eqn:RU; [discriminate|]. injection O as <-. exists b. auto. }
        { injection O as <-. exists b. auto. }
      * unfold parseIntelOperand. rewrite skip_blanks by exact B0. rewrite EOL, SK, EF. cbv iota beta.
        unfold iop_word in O. pose proof (reg_app false w' (b ++ rest) W ST) as R.
        destruct (parseRegName false w') as [[r q]| | | |]; try discriminate. rewrite R. cbn [bind].
        destruct (r =? REG_UNDEF) eqn:RU; [discriminate|]. injection O as <-. exists b. auto.
    + set (u := removelast (tl w')) in *. destruct zilog; [|discriminate]. cbn [andb] in O.
      destruct (word u) eqn:WU; [|discriminate]. cbn [andb] in O. destruct (text_eqb w' (40 :: u ++ [41])) eqn:LE; [|discriminate].
      apply text_eqb_eq in LE. rewrite LE. clearbody u. clear W w' LE.
      replace ((40 :: u ++ [41]) ++ b ++ rest) with (40 :: u ++ 41 :: b ++ rest) by (cbn [app]; now rewrite <- app_assoc).
      destruct (eol_false (40 :: u ++ 41 :: b ++ rest)) as (EF & SK); [reflexivity|discriminate|discriminate|].
      unfold parseZilogOperand. rewrite skip_blanks by exact B0. rewrite EOL, SK, EF. cbv iota beta.
      rewrite !(reg_none true (40 :: _)) by (left; reflexivity). rewrite cc_none by (left; reflexivity). cbn [bind].
      change (REG_UNDEF =? REG_C) with false. change (CC_UNDEF =? CC_UNDEF) with true. change (REG_UNDEF =? REG_UNDEF) with true. cbn [negb expect_char].
      change (40 =? 40) with true. cbv iota.
      destruct (word_head u (41 :: b ++ rest) WU) as (c & HC & HC' & NL). destruct (name_plain c NL) as (S1 & S2 & S3 & S4 & _).
      destruct (eol_false (u ++ 41 :: b ++ rest)) as (_ & SK2); [rewrite HC; assumption|rewrite HC; assumption|rewrite HC; assumption|].
      rewrite SK2. pose proof (reg_app true u (41 :: b ++ rest) WU eq_refl) as R. unfold zop_paren in O.
      destruct (parseRegName true u) as [[r q]| | | |]; try discriminate. rewrite R. cbn [bind].
      destruct (r =? REG_UNDEF) eqn:RU.
      { apply Z.eqb_eq in RU. subst r. discriminate. }
      rewrite (skip_none 41) by reflexivity. cbn [expect_char]. change (41 =? 41) with true. cbv iota.
      exists b. split; [exact B|].
      destruct ((r =? REG_BC) || (r =? REG_DE)); [injection O as <-; reflexivity|].
      destruct ((r =? REG_HL) || (r =? REG_SP)); [injection O as <-; reflexivity|discriminate].
  - cbn [printed] in P. destruct P as (u & -> & N & NB). pose proof (numeral_digit u v N) as DG.
    assert (HD : forall z, is_digit (peek (u ++ z)) = true) by (intros; rewrite peek_app; auto).
    assert (PE : forall z, eol_semicolon (u ++ z) = (false, u ++ z) /\ skipSpaces (u ++ z) = u ++ z).
    { intros z. specialize (HD z). unfold is_digit in HD. apply eol_false; unfold is_space; lia. }
    assert (CASE : (pre = [] /\ post = [] /\ Some (mkOp M_IM16 REG_UNDEF (mkV V_UNSIGNED v) OK) = Some op) \/
                   (pre = [40] /\ post = [41] /\ zilog = true /\ Some (mkOp M_ABS REG_UNDEF (mkV V_UNSIGNED v) OK) = Some op)).
    { clear -O. cbn [op_of] in O. destruct (text_eqb pre [] && text_eqb post []) eqn:X1.
      - left. apply andb_true_iff in X1. destruct X1 as (X1 & X2). apply text_eqb_eq in X1, X2. auto.
      - destruct (text_eqb pre [40] && text_eqb post [41] && zilog) eqn:X3; [|discriminate]. right.
        rewrite !andb_true_iff in X3. destruct X3 as ((X3 & X4) & X5). apply text_eqb_eq in X3, X4. auto. }
    destruct CASE as [(-> & -> & O')|(-> & -> & -> & O')]; injection O' as <-.
    + cbn [map app]. rewrite app_nil_r.
      destruct (parse_number a loc 0 [] u v b rest PL RX TF N (Forall_nil _) B ltac:(cbn; auto) (T' 0)) as (b' & BB & PI). cbn [app] in PI.
      exists b'. split; [exact BB|]. destruct (PE (b ++ rest)) as (EF & SK). destruct zilog.
      * unfold parseZilogOperand. rewrite skip_blanks by exact B0. rewrite EOL, SK, EF. cbv iota beta.
        rewrite !reg_none by (right; apply HD). rewrite cc_none by (right; apply HD). cbn [bind].
        change (REG_UNDEF =? REG_C) with false. change (CC_UNDEF =? CC_UNDEF) with true. change (REG_UNDEF =? REG_UNDEF) with true. cbn [negb].
        assert (EX : expect_char 40 (u ++ b ++ rest) = None).
        { specialize (HD (b ++ rest)). destruct (u ++ b ++ rest) as [|c z]; [reflexivity|]. cbn [peek] in HD. cbn [expect_char].
          unfold is_digit in HD. destruct (Z.eqb_spec c 40); [lia|reflexivity]. }
        rewrite EX, PI. reflexivity.
      * unfold parseIntelOperand. rewrite skip_blanks by exact B0. rewrite EOL, SK, EF. cbv iota beta.
        rewrite !reg_none by (right; apply HD). cbn [bind]. change (REG_UNDEF =? REG_UNDEF) with true. cbn [negb]. rewrite PI. reflexivity.
    + change (map (conv k) [40]) with [conv k 40]. change (map (conv k) [41]) with [conv k 41].
      replace (conv k 40) with 40 by (destruct k as [[]|]; reflexivity). replace (conv k 41) with 41 by (destruct k as [[]|]; reflexivity).
      replace (([40] ++ u ++ [41]) ++ b ++ rest) with (40 :: u ++ 41 :: b ++ rest) by (cbn [app]; now rewrite <- app_assoc).
      destruct (eol_false (40 :: u ++ 41 :: b ++ rest)) as (EF & SK); [reflexivity|discriminate|discriminate|].
      unfold parseZilogOperand. rewrite skip_blanks by exact B0. rewrite EOL, SK, EF. cbv iota beta.
      rewrite !(reg_none true (40 :: _)) by (left; reflexivity). rewrite cc_none by (left; reflexivity). cbn [bind].
      change (REG_UNDEF =? REG_C) with false. change (CC_UNDEF =? CC_UNDEF) with true. change (REG_UNDEF =? REG_UNDEF) with true. cbn [negb expect_char].
      change (40 =? 40) with true. cbv iota.
      destruct (PE (41 :: b ++ rest)) as (_ & SK2). rewrite SK2. rewrite reg_none by (right; apply HD). cbn [bind].
      change (REG_UNDEF =? REG_UNDEF) with true. cbv iota.
      destruct (parse_number a loc 41 [] u v [] (41 :: b ++ rest) PL RX TF N (Forall_nil _) (Forall_nil _) ltac:(cbn; auto)) as (b' & BB & PI).
      { right. exists 41, (b ++ rest). split; [reflexivity|]. right; right. split; [reflexivity|discriminate]. }
      cbn [app] in PI. rewrite PI. cbn [bind]. change (hasError OK) with false. cbv iota.
      rewrite skip_blanks by exact BB. rewrite (skip_none 41) by reflexivity. cbn [expect_char]. change (41 =? 41) with true. cbv iota.
      exists b. auto.
Qed.

(* ------------------------------------------------------------ bytes *)
Definition width (mode : Z) : Z :=
  if (mode =? M_IM8) || (mode =? M_IOA) then 1 else if (mode =? M_IM16) || (mode =? M_ABS) then 2 else 0.
Definition shape_width (sh : shape) : Z :=
  match sh with Sh_num _ _ N_byte => 1 | Sh_num _ _ N_le => 2 | _ => 0 end.
Definition shape_val (sh : shape) : Z := match sh with Sh_num _ _ (N_const c) => c | _ => 0 end.
Definition put (w v pfx : Z) (i : insn) : insn :=
  let pos := if negb (pfx =? 0) then 2 else 1 in
  if w =? 1 then snd (emitByte_at v pos i) else if w =? 2 then snd (emitUint16Le_at v pos i) else i.

Lemma enc_operand zilog op op0 mode i i0 e p o v :
  o_err op = OK -> o_err op0 = OK -> o_reg op = o_reg op0 -> o_mode op = o_mode op0 -> (width mode = 0 \/ i_len i = 0) ->
  (width mode = 0 /\ op = op0) \/
  (width mode = 1 /\ o_val op = mkV V_UNSIGNED v /\ o_val op0 = mkV V_UNSIGNED 0 /\ 0 <= v < 256) \/
  (width mode = 2 /\ o_val op = mkV V_UNSIGNED v /\ o_val op0 = mkV V_UNSIGNED 0 /\ 0 <= v < 65536) ->
  encodeOperand zilog op mode (mkAI i e p o) =
  let x := encodeOperand zilog op0 mode (mkAI i0 e p o) in mkAI (put (width mode) v p i) (ai_err x) (ai_prefix x) (ai_opc x).
Proof.
  intros E E0 R MO IL H. unfold encodeOperand. rewrite E, E0. cbv zeta.
  assert (NE : forall i e p o, ai_setErrorIf OK (mkAI i e p o) = mkAI i e p o).
  { intros. unfold ai_setErrorIf, setErrorIfAt. cbn. now rewrite andb_false_r. }
  rewrite !NE.
  destruct H as [(W & ->)|[(W & V & V0 & RG)|(W & V & V0 & RG)]]; rewrite ?W in IL; rewrite W; unfold width in W.
  - destruct (mode =? M_IM8) eqn:M1; [discriminate|]. destruct (mode =? M_IOA) eqn:M2; [discriminate|].
    destruct (mode =? M_IM16) eqn:M3; [discriminate|]. destruct (mode =? M_ABS) eqn:M4; [discriminate|]. cbn [orb].
    change (put 0 v p i) with i.
    repeat match goal with |- context [if mode =? ?m then _ else _] => destruct (mode =? m) end; try reflexivity.
    destruct zilog; [destruct (negb _)|destruct (overflow _ _ _)]; reflexivity.
  - assert (X : overflowUint8 (mkV V_UNSIGNED v) = false /\ overflow (mkV V_UNSIGNED v) 255 0 = false /\ u16 (getUnsigned (mkV V_UNSIGNED v)) = v).
    { unfold overflowUint8. rewrite !unsigned_in by (cbn; lia). repeat split. rewrite unsigned_get by lia. unfold u16. apply Z.mod_small. change (2^16) with 65536. lia. }
    destruct X as (X1 & X2 & X3). rewrite V, V0, X1, X2, X3.
    assert (P1 : put 1 v p i = snd (emitByte_at v (ai_operandPos (mkAI i e p o)) i)).
    { unfold put, ai_operandPos. cbn [ai_insn ai_prefix]. destruct IL as [IL|IL]; [discriminate|]. rewrite IL. reflexivity. }
    rewrite P1.
    destruct (mode =? M_IM8) eqn:M1; destruct (mode =? M_IOA) eqn:M2; cbn [orb] in W; try (destruct ((mode =? M_IM16) || (mode =? M_ABS)) in W; discriminate).
    all: reflexivity.
  - assert (X3 : u16 (getUnsigned (mkV V_UNSIGNED v)) = v)
      by (rewrite unsigned_get by lia; unfold u16; apply Z.mod_small; exact RG).
    rewrite V, V0, X3.
    assert (P1 : put 2 v p i = snd (emitUint16Le_at v (ai_operandPos (mkAI i e p o)) i)).
    { unfold put, ai_operandPos. cbn [ai_insn ai_prefix]. destruct IL as [IL|IL]; [discriminate|]. rewrite IL. reflexivity. }
    rewrite P1.
    destruct (mode =? M_IM8) eqn:M1; [discriminate|]. destruct (mode =? M_IOA) eqn:M2; [discriminate|].
    cbn [orb] in W. destruct ((mode =? M_IM16) || (mode =? M_ABS)) eqn:M3; [reflexivity|discriminate].
Qed.

(* the bytes of an instruction *)
Definition opcode_bytes (pfx opc : Z) : list Z := (if negb (pfx =? 0) then [pfx] else []) ++ [opc].
Definition width_bytes (w v : Z) (nb : list Z) : Prop :=
  (w = 0 /\ nb = []) \/ (w = 1 /\ nb = [v] /\ byte v) \/
  (w = 2 /\ exists lo hi, nb = [lo; hi] /\ byte lo /\ byte hi /\ v = lo + 256 * hi).
Lemma emit_all w v nb pfx opc addr e : width_bytes w v nb -> byte pfx -> byte opc ->
  ai_insn (ai_emitInsn (mkAI (put w v pfx (new_insn addr)) e pfx opc)) = canon addr (opcode_bytes pfx opc ++ nb) /\
  ai_err (ai_emitInsn (mkAI (put w v pfx (new_insn addr)) e pfx opc)) = e.
Proof.
  intros W P O. unfold put, ai_emitInsn, opcode_bytes, ai_set. cbn [ai_insn ai_prefix ai_opc ai_err].
  change (new_insn addr) with (mkI addr 0 (repeat 0 64) OK false).
  destruct W as [(-> & ->)|[(-> & -> & V)|(-> & lo & hi & -> & X & Y & ->)]];
    [change (0 =? 1) with false; change (0 =? 2) with false|change (1 =? 1) with true|change (2 =? 1) with false; change (2 =? 2) with true]; cbv iota;
    (destruct (pfx =? 0); cbn [negb ai_insn ai_err ai_opc ai_prefix]; (split; [|reflexivity]));
    rewrite ?(emit16_pos _ _ _ addr 0) by (auto; lia); rewrite ?(emit_pos _ _ addr 0) by (auto; lia);
    rewrite ?emit_pos by (auto; try lia; rewrite ?set_at_len; reflexivity || lia);
    reflexivity.
Qed.

(* ------------------------------------------------------------ every opcode *)
Definition opt_op (zilog : bool) (k : option bool) (absent : bool) (sh : shape) : option operand :=
  if absent then Some no_operand else op_of zilog k sh (shape_val sh).
Definition check (k : option bool) (ty : Z) (zilog : bool) (pfx opc : Z) : bool :=
  match i8080_searchOpCode ty zilog pfx opc with
  | Val None => true
  | Val (Some e) =>
    let nm := map (conv k) (entry_name e) in
    let nodst := e_dst e =? M_NONE in
    let nosrc := nodst || (e_src e =? M_NONE) in
    let sd := shape_of zilog opc (e_dst e) in
    let ss := shape_of zilog opc (e_src e) in
    plain_name sp_i8080 i8080_specials i8080_directives nm &&
    match opt_op zilog k nodst sd, opt_op zilog k nosrc ss with
    | Some od, Some os =>
      match i8080_searchName ty zilog nm (o_mode od) (o_mode os) with
      | Val (OK, Some (p', e')) =>
        let x := encodeOperand zilog od (e_dst e') (mkAI (new_insn 0) OK p' (e_opc e')) in
        let y := encodeOperand zilog os (e_src e') (mkAI (new_insn 0) (ai_err x) p' (ai_opc x)) in
        (p' =? pfx) && (ai_opc y =? opc) && isOK (ai_err y) &&
        (width (e_dst e') =? if nodst then 0 else shape_width sd) &&
        (width (e_src e') =? if nosrc then 0 else shape_width ss) &&
        (nodst || nosrc || (shape_width sd =? 0) || (shape_width ss =? 0))
      | _ => false
      end
    | _, _ => false
    end
  | _ => false
  end.
Definition all_opcodes : list Z := map Z.of_nat (seq 0 256).
Lemma check_ok :
  forallb (fun k => forallb (fun ty => forallb (fun zilog => forallb (fun pfx => forallb (check (Some k) ty zilog pfx) all_opcodes)
    [0; 0xED]) [false; true]) [I8080; I8085; V30EMU]) [false; true] = true.
Proof. vm_compute. reflexivity. Qed.
Lemma check_at k ty zilog pfx opc : In ty [I8080; I8085; V30EMU] -> In pfx [0; 0xED] -> byte opc ->
  check (Some k) ty zilog pfx opc = true.
Proof.
  intros T P O. pose proof check_ok as H.
  rewrite forallb_forall in H. specialize (H k ltac:(destruct k; cbn; auto)).
  rewrite forallb_forall in H. specialize (H ty T).
  rewrite forallb_forall in H. specialize (H zilog ltac:(destruct zilog; cbn; auto)).
  rewrite forallb_forall in H. specialize (H pfx P).
  rewrite forallb_forall in H. apply H. unfold all_opcodes. apply in_map_iff. exists (Z.to_nat opc).
  unfold byte in O. split; [lia|]. apply in_seq. lia.
Qed.

Lemma op_text_ok zilog w op : op_text zilog w = Some op -> o_err op = OK.
Proof.
  unfold op_text, zop_word, iop_word, zop_paren. intros H.
  repeat match type of H with
  | (if ?c then _ else _) = _ => destruct c
  | (let _ := _ in _) = _ => cbv zeta in H
  | match ?r with Val _ => _ | _ => _ end = _ => destruct r as [[? ?]| | | |]
  end; try discriminate; injection H as <-; reflexivity.
Qed.
Lemma op_of_same np zilog k sh t nb v op0 : printed np k sh t nb v -> op_of zilog k sh (shape_val sh) = Some op0 ->
  width_bytes (shape_width sh) v nb /\
  exists op, op_of zilog k sh v = Some op /\ o_err op = OK /\ o_err op0 = OK /\ o_reg op = o_reg op0 /\ o_mode op = o_mode op0 /\
    ((shape_width sh = 0 /\ op = op0) \/ (shape_width sh <> 0 /\ o_val op = mkV V_UNSIGNED v /\ o_val op0 = mkV V_UNSIGNED 0)).
Proof.
  intros P O. destruct sh as [w|pre post n].
  - cbn [printed] in P. destruct P as (_ & -> & ->). cbn [shape_width shape_val op_of] in *.
    split; [left; auto|]. exists op0. pose proof (op_text_ok _ _ _ O). auto 10.
  - cbn [printed] in P. destruct P as (u & _ & _ & NB). split.
    { destruct n; cbn [number_bytes shape_width] in *; [left; tauto|right; left; tauto|right; right; auto]. }
    cbn [op_of] in *.
    destruct (text_eqb pre [] && text_eqb post []); [|destruct (_ && _ && _); [|discriminate]];
      injection O as <-; (eexists; split; [reflexivity|]; cbn [o_err o_reg o_mode o_val]; repeat (split; [reflexivity|]);
        destruct n; cbn [number_bytes shape_width shape_val] in *; [left; destruct NB as (_ & ->); auto|right; split; [discriminate|auto]|right; split; [discriminate|auto]]).
Qed.

Definition last_rest (rest : text) : Prop := rest = [] \/ exists u, rest = 59 :: u.
Lemma parse_skip zilog a loc s : parseOperand zilog a loc (skipSpaces s) = parseOperand zilog a loc s.
Proof.
  assert (I : skipSpaces (skipSpaces s) = skipSpaces s).
  { induction s as [|c s IH]; [reflexivity|]. cbn [skipSpaces trimStart] in *. unfold skipSpaces in *. cbn [trimStart].
    destruct (is_space c) eqn:C; [exact IH|]. cbn [trimStart]. now rewrite C. }
  unfold parseOperand, parseZilogOperand, parseIntelOperand. cbv zeta. now rewrite I.
Qed.
Lemma last_skip b rest : blanks b -> last_rest rest -> skipSpaces (b ++ rest) = rest.
Proof. intros B R. rewrite skip_blanks by exact B. destruct R as [->|(u & ->)]; [reflexivity|now apply skip_none]. Qed.
Lemma parse_none zilog a loc b rest : a_pl a = pl_i8080 -> blanks b -> last_rest rest ->
  parseOperand zilog a loc (b ++ rest) = Val (no_operand, rest).
Proof.
  intros PL B R. unfold parseOperand, parseZilogOperand, parseIntelOperand. cbv zeta. rewrite last_skip by assumption. rewrite PL. cbn [p_eol pl_i8080 mkP'].
  assert (X : eol_semicolon rest = (true, rest)).
  { unfold eol_semicolon. destruct R as [->|(u & ->)]; [reflexivity|]. rewrite skip_none by reflexivity. reflexivity. }
  change (p_eol pl_i8080) with eol_semicolon. rewrite X. now destruct zilog.
Qed.
Lemma last_nocomma rest : last_rest rest -> expect_char 44 rest = None.
Proof. intros [->|(u & ->)]; reflexivity. Qed.
Lemma last_tail rest : last_rest rest -> tail rest.
Proof. intros [->|(u & ->)]; [left; auto|right]. exists 59, u. auto. Qed.

Lemma width_zero w v nb : width_bytes w v nb -> w = 0 -> nb = [].
Proof. unfold width_bytes. intros [(_ & ->)|[(-> & _)|(-> & _)]] ?; [reflexivity|discriminate|discriminate]. Qed.
Definition same (op op0 : operand) (w v : Z) (nb : list Z) : Prop :=
  width_bytes w v nb /\ o_err op = OK /\ o_err op0 = OK /\ o_reg op = o_reg op0 /\ o_mode op = o_mode op0 /\
  ((w = 0 /\ op = op0) \/ (w <> 0 /\ o_val op = mkV V_UNSIGNED v /\ o_val op0 = mkV V_UNSIGNED 0)).
Lemma enc_prefix zilog op mode i e p o : ai_prefix (encodeOperand zilog op mode (mkAI i e p o)) = p.
Proof.
  unfold encodeOperand. cbv zeta.
  repeat match goal with |- context [if ?c then _ else _] => destruct c end; reflexivity.
Qed.
Lemma enc_step zilog op op0 mode i e p o v nb :
  width_bytes (width mode) v nb ->
  o_err op = OK -> o_err op0 = OK -> o_reg op = o_reg op0 -> o_mode op = o_mode op0 -> (width mode = 0 \/ i_len i = 0) ->
  (width mode = 0 /\ op = op0) \/ (width mode <> 0 /\ o_val op = mkV V_UNSIGNED v /\ o_val op0 = mkV V_UNSIGNED 0) ->
  encodeOperand zilog op mode (mkAI i e p o) =
  let x := encodeOperand zilog op0 mode (mkAI (new_insn 0) e p o) in mkAI (put (width mode) v p i) (ai_err x) (ai_prefix x) (ai_opc x).
Proof.
  intros WB E E0 R M L V. apply enc_operand; auto.
  destruct V as [V|(NZ & V & V0)]; [left; exact V|].
  destruct WB as [(Q & ->)|[(Q & -> & B)|(Q & lo & hi & -> & B1 & B2 & ->)]]; rewrite Q in *; unfold byte in *.
  - congruence.
  - right; left. auto.
  - right; right. repeat split; auto; lia.
Qed.
Lemma put_zero v p i : put 0 v p i = i.
Proof. reflexivity. Qed.

Lemma plain_line specials tables nm z : plain_name sp_i8080 specials tables nm = true -> p_line pl_i8080 (nm ++ z) = (false, nm ++ z).
Proof.
  intros PN. change (p_line pl_i8080) with eol_semicolon.
  unfold plain_name in PN. rewrite !andb_true_iff in PN. destruct PN as (((((W & H) & L) & _) & _) & _).
  apply negb_true_iff in H. apply Nat.leb_le in L. destruct nm as [|c nm']; [cbn in L; lia|]. cbn [peek] in H.
  assert (c <> 0 /\ c <> 59).
  { unfold insn_word in W. cbn [forallb] in W. rewrite !andb_true_iff in W. destruct W as ((W & _) & _).
    split; intros ->; vm_compute in W; discriminate. }
  apply eol_false; cbn [app peek]; tauto.
Qed.
Lemma space_letter c : is_space c = true -> y_insn_letter (p_symbol pl_i8080) c = false.
Proof.
  unfold is_space. intros C. unfold y_insn_letter. change (p_symbol pl_i8080) with sp_i8080.
  cbv [sp_i8080 y_letter y_insn_extra symbolLetter_prefix symbolLetter_default among existsb].
  assert (C' : c = 32 \/ 9 <= c <= 13) by lia. unfold is_alpha, is_upper, is_lower, is_digit. cbn [negb andb].
  match goal with |- context [if ?q then _ else _] => destruct q eqn:X end; [lia|]. cbn [orb]. rewrite andb_false_r. reflexivity.
Qed.

(* what ends an instruction's name *)
Lemma name_ends gap t b rest : blanks gap -> gap <> [] \/ t = [] -> blanks b -> last_rest rest ->
  y_insn_letter (p_symbol pl_i8080) (peek (gap ++ t ++ b ++ rest)) = false.
Proof.
  intros BG NG BB LR. destruct gap as [|c gap]; [|apply space_letter; now inversion BG].
  destruct NG as [NG| ->]; [congruence|]. cbn [app]. destruct b as [|c b]; [|apply space_letter; now inversion BB].
  cbn [app]. destruct LR as [->|(u & ->)]; reflexivity.
Qed.
Lemma encode_ok k ty zilog pfx opc e t nb a indent gap b rest addr :
  check (Some k) ty zilog pfx opc = true -> i8080_searchOpCode ty zilog pfx opc = Val (Some e) ->
  two_operands zilog opc (Some k) e t nb -> byte pfx -> byte opc ->
  a_pl a = pl_i8080 -> a_radix a = 10 -> a_aw a = 16 -> total_functions a ->
  blanks indent -> blanks gap -> gap <> [] \/ t = [] -> blanks b -> last_rest rest -> checkAddr 16 addr false = OK ->
  i8080_encode ty zilog a (indent ++ firstn 11 (map (conv (Some k)) (entry_name e)) ++ gap ++ t ++ b ++ rest) addr =
  Val (L_insn (canon addr (opcode_bytes pfx opc ++ nb)) rest).
Proof.
  intros CK SO TW BP BO PL RX AW TF BI BG NG BB LR CA. unfold check in CK. rewrite SO in CK. cbv zeta in CK.
  apply andb_true_iff in CK. destruct CK as (PN & CK).
  set (nm := map (conv (Some k)) (entry_name e)) in *.
  assert (LN : firstn 11 nm = nm).
  { apply firstn_all2. unfold plain_name in PN. rewrite !andb_true_iff in PN. destruct PN as (((_ & L) & _) & _). now apply Nat.leb_le in L. }
  rewrite LN. unfold i8080_encode. rewrite line_insn; [| | |exact BI|exact BG| |].
  2:{ rewrite PL. exact PN. }
  2:{ intros z. rewrite PL. eapply plain_line, PN. }
  2:{ rewrite PL. now apply name_ends. }
  2:{ rewrite AW. exact CA. }
  unfold i8080_encodeImpl. rewrite parse_skip.
  set (nodst := e_dst e =? M_NONE) in *. set (nosrc := nodst || (e_src e =? M_NONE)) in *.
  destruct (opt_op zilog (Some k) nodst _) as [od|] eqn:OD; [|discriminate].
  destruct (opt_op zilog (Some k) nosrc _) as [os|] eqn:OS; [|discriminate].
  destruct (i8080_searchName ty zilog nm (o_mode od) (o_mode os)) as [[er [[p' e']|]]| | | |] eqn:SN; try discriminate.
  2:{ destruct er; discriminate. }
  destruct er; try discriminate.
  rewrite !andb_true_iff in CK. destruct CK as (((((C1 & C2) & C3) & C4) & C5) & C6).
  apply Z.eqb_eq in C1, C2, C4, C5. apply isOK_e in C3. subst p'.
  assert (FIN : forall dst src vd vs n1 n2 (scan : text),
    same dst od (width (e_dst e')) vd n1 -> same src os (width (e_src e')) vs n2 -> (width (e_dst e') = 0 \/ width (e_src e') = 0) ->
    bind (i8080_searchName ty zilog nm (o_mode dst) (o_mode src)) (fun '(e, found) =>
          let err := setErrorIfAt (i_err (new_insn addr)) e in
          if negb (isOK err) then Val (i_seterr err (new_insn addr), scan)
          else
            match found with
            | None => Val (new_insn addr, scan)
            | Some (prefix, e) =>
              let ai := mkAI (new_insn addr) OK prefix (e_opc e) in
              let ai := encodeOperand zilog dst (e_dst e) ai in
              let ai := encodeOperand zilog src (e_src e) ai in
              let ai := ai_emitInsn ai in
              Val (i_seterr (ai_err ai) (ai_insn ai), scan)
            end) = Val (canon addr (opcode_bytes pfx opc ++ n1 ++ n2), scan)).
  { intros dst src vd vs n1 n2 scan SD SS WZ. destruct SD as (W1 & E1 & E10 & R1 & M1 & V1). destruct SS as (W2 & E2 & E20 & R2 & M2 & V2).
    rewrite M1, M2, SN. cbn [bind i_err new_insn]. change (setErrorIfAt OK OK) with OK. cbn [isOK err_eqb negb]. cbv zeta iota.
    change (isOK OK) with true. cbn [negb].
    rewrite (enc_step zilog dst od (e_dst e') (new_insn addr) OK pfx (e_opc e') vd n1) by auto.
    cbv zeta. set (x := encodeOperand zilog od (e_dst e') (mkAI (new_insn 0) OK pfx (e_opc e'))) in *.
    assert (XP : ai_prefix x = pfx) by apply enc_prefix. rewrite XP.
    assert (Y : encodeOperand zilog src (e_src e') (mkAI (put (width (e_dst e')) vd pfx (new_insn addr)) (ai_err x) pfx (ai_opc x)) =
       mkAI (put (width (e_dst e') + width (e_src e')) (if width (e_dst e') =? 0 then vs else vd) pfx (new_insn addr)) OK pfx opc).
    { destruct (Z.eq_dec (width (e_dst e')) 0) as [Z1|Z1].
      - rewrite Z1, put_zero. rewrite (enc_step zilog src os (e_src e') (new_insn addr) _ pfx _ vs n2) by auto. cbv zeta.
        set (y := encodeOperand zilog os _ _) in *. rewrite C2, C3. assert (YP : ai_prefix y = pfx) by apply enc_prefix. rewrite YP. reflexivity.
      - assert (Z2 : width (e_src e') = 0) by tauto.
        destruct V2 as [(_ & ->)|(NZ & _)]; [|congruence].
        rewrite (enc_step zilog os os (e_src e') _ _ pfx _ vs n2) by auto. cbv zeta.
        set (y := encodeOperand zilog os _ _) in *. rewrite C2, C3. assert (YP : ai_prefix y = pfx) by apply enc_prefix. rewrite YP, Z2, put_zero, Z.add_0_r.
        apply Z.eqb_neq in Z1. now rewrite Z1. }
    rewrite Y.
    assert (WB : width_bytes (width (e_dst e') + width (e_src e')) (if width (e_dst e') =? 0 then vs else vd) (n1 ++ n2)).
    { destruct (Z.eqb_spec (width (e_dst e')) 0) as [Z1|Z1].
      - rewrite (width_zero _ _ _ W1 Z1), Z1. exact W2.
      - assert (Z2 : width (e_src e') = 0) by tauto. rewrite (width_zero _ _ _ W2 Z2), Z2, app_nil_r, Z.add_0_r. exact W1. }
    destruct (emit_all _ _ _ pfx opc addr OK WB BP BO) as (EA & EE). rewrite EA, EE. reflexivity. }
  cbv zeta in FIN.
  assert (WZ : width (e_dst e') = 0 \/ width (e_src e') = 0).
  { rewrite C4, C5. destruct nodst; [auto|]. destruct nosrc; [auto|]. cbn [orb] in C6. apply orb_true_iff in C6. rewrite !Z.eqb_eq in C6. exact C6. }
  assert (NONE : same no_operand no_operand 0 0 []).
  { unfold same, width_bytes. auto 10. }
  destruct TW as [(D & -> & ->)|[(D & Q & v & P)|(D & Q & t1 & t2 & n1 & n2 & v1 & v2 & -> & -> & P1 & P2)]].
  - assert (ND : nodst = true) by (unfold nodst; now apply Z.eqb_eq).
    assert (NS : nosrc = true) by (unfold nosrc; now rewrite ND).
    rewrite ND in OD, C4. rewrite NS in OS, C5. cbn [opt_op] in OD, OS. injection OD as <-. injection OS as <-.
    cbn [app]. rewrite parse_none by assumption. cbn [bind]. change (hasError (o_err no_operand)) with false. cbv iota zeta.
    pose proof (last_skip [] rest (Forall_nil _) LR) as LS. cbn [app] in LS. rewrite !LS. rewrite last_nocomma by assumption. cbn [bind].
    rewrite (FIN no_operand no_operand 0 0 [] [] rest) by (rewrite ?C4, ?C5; auto). reflexivity.
  - assert (ND : nodst = false) by (unfold nodst; now apply Z.eqb_neq).
    assert (NS : nosrc = true) by (unfold nosrc; rewrite ND; now apply Z.eqb_eq).
    rewrite ND in OD, C4. rewrite NS in OS, C5. cbn [opt_op] in OD, OS. injection OS as <-.
    destruct (op_of_same _ _ _ _ _ _ _ _ P OD) as (WB & op & OO & SM).
    destruct (parse_op zilog a addr [] _ _ _ _ _ _ b rest PL RX TF (Forall_nil _) BB (last_tail _ LR) P OO) as (b' & B' & PO).
    cbn [app] in PO. rewrite PO. cbn [bind]. destruct SM as (E1 & SM). rewrite E1. change (hasError OK) with false. cbv iota zeta.
    rewrite last_skip by assumption. rewrite last_nocomma by assumption. cbn [bind].
    rewrite (FIN op no_operand v 0 nb [] rest); [now rewrite app_nil_r| | |exact WZ].
    + rewrite C4. unfold same. auto.
    + rewrite C5. exact NONE.
  - assert (ND : nodst = false) by (unfold nodst; now apply Z.eqb_neq).
    assert (NS : nosrc = false) by (unfold nosrc; rewrite ND; now apply Z.eqb_neq).
    rewrite ND in OD, C4. rewrite NS in OS, C5. cbn [opt_op] in OD, OS.
    destruct (op_of_same _ _ _ _ _ _ _ _ P1 OD) as (WB1 & op1 & OO1 & SM1).
    destruct (op_of_same _ _ _ _ _ _ _ _ P2 OS) as (WB2 & op2 & OO2 & SM2).
    assert (TC : tail (44 :: 32 :: t2 ++ b ++ rest)) by (right; eauto).
    destruct (parse_op zilog a addr [] _ _ _ _ _ _ [] _ PL RX TF (Forall_nil _) (Forall_nil _) TC P1 OO1) as (b1 & B1 & PO1).
    cbn [app] in PO1. rewrite <- app_assoc. cbn [app]. rewrite PO1. cbn [bind]. destruct SM1 as (E1 & SM1). rewrite E1. change (hasError OK) with false. cbv iota zeta.
    rewrite skip_blanks by exact B1. rewrite (skip_none 44) by reflexivity. cbn [expect_char]. change (44 =? 44) with true. cbv iota.
    assert (B32 : blanks [32]) by (constructor; [reflexivity|constructor]).
    destruct (parse_op zilog a addr [32] _ _ _ _ _ _ b rest PL RX TF B32 BB (last_tail _ LR) P2 OO2) as (b' & B' & PO).
    cbn [app] in PO. rewrite PO. cbn [bind]. rewrite last_skip by assumption.
    rewrite (FIN op1 op2 v1 v2 n1 n2 rest); [reflexivity| | |exact WZ].
    + rewrite C4. unfold same. auto.
    + rewrite C5. unfold same. auto.
Qed.

(* ------------------------------------------------------------ lengths *)
Definition check_len (ty : Z) (zilog : bool) (pfx opc : Z) : bool :=
  match i8080_searchOpCode ty zilog pfx opc with
  | Val (Some e) =>
    Z.of_nat (length (opcode_bytes pfx opc)) +
    (if e_dst e =? M_NONE then 0 else shape_width (shape_of zilog opc (e_dst e)) +
      if e_src e =? M_NONE then 0 else shape_width (shape_of zilog opc (e_src e))) <=? 3
  | _ => true
  end.
Lemma check_len_ok :
  forallb (fun ty => forallb (fun zilog => forallb (fun pfx => forallb (check_len ty zilog pfx) all_opcodes)
    [0; 0xED]) [false; true]) [I8080; I8085; V30EMU] = true.
Proof. vm_compute. reflexivity. Qed.
Lemma printed_len np k sh t nb v : printed np k sh t nb v -> Z.of_nat (length nb) = shape_width sh.
Proof.
  destruct sh as [w|pre post n]; cbn [printed].
  - intros (_ & -> & _). reflexivity.
  - intros (u & _ & _ & NB). destruct n; cbn in NB |- *.
    + destruct NB as (-> & _). reflexivity.
    + destruct NB as (-> & _). reflexivity.
    + destruct NB as (lo & hi & -> & _). reflexivity.
Qed.
Lemma length_ok k ty zilog pfx opc e t nb : In ty [I8080; I8085; V30EMU] -> In pfx [0; 0xED] -> byte opc ->
  i8080_searchOpCode ty zilog pfx opc = Val (Some e) -> two_operands zilog opc k e t nb ->
  (length (opcode_bytes pfx opc ++ nb) <= 3)%nat.
Proof.
  intros T P O SO TW. pose proof check_len_ok as H.
  rewrite forallb_forall in H. specialize (H ty T).
  rewrite forallb_forall in H. specialize (H zilog ltac:(destruct zilog; cbn; auto)).
  rewrite forallb_forall in H. specialize (H pfx P).
  rewrite forallb_forall in H. specialize (H opc).
  assert (I : In opc all_opcodes).
  { unfold all_opcodes. apply in_map_iff. exists (Z.to_nat opc). unfold byte in O. split; [lia|]. apply in_seq. lia. }
  specialize (H I). unfold check_len in H. rewrite SO in H. apply Z.leb_le in H. rewrite app_length.
  destruct TW as [(D & -> & ->)|[(D & Q & v & PR)|(D & Q & t1 & t2 & n1 & n2 & v1 & v2 & -> & -> & P1 & P2)]].
  - apply Z.eqb_eq in D. rewrite D in H. cbn [length]. lia.
  - apply Z.eqb_neq in D. apply Z.eqb_eq in Q. rewrite D, Q in H. apply printed_len in PR. lia.
  - apply Z.eqb_neq in D. apply Z.eqb_neq in Q. rewrite D, Q in H. apply printed_len in P1, P2. rewrite app_length. lia.
Qed.

(* ------------------------------------------------------------ the whole *)
Lemma i8080_round d ty zilog mem addr size r a indent gap b rest :
  reads_as d -> In ty [I8080; I8085; V30EMU] -> Forall byte mem -> mem <> [] ->
  i8080_decode d ty zilog mem addr size = Val r -> i_err (r_insn r) = OK ->
  a_pl a = pl_i8080 -> a_radix a = 10 -> a_aw a = 16 -> total_functions a ->
  blanks indent -> blanks gap -> gap <> [] \/ r_operands r = [] -> blanks b -> last_rest rest ->
  exists k bs m, mem = bs ++ m /\ (1 <= length bs <= 3)%nat /\ r_insn r = canon addr bs /\ k = da_uppercase d /\
    i8080_encode ty zilog a (indent ++ r_name r ++ gap ++ r_operands r ++ b ++ rest) addr = Val (L_insn (canon addr bs) rest).
Proof.
  intros RD T FM NE H E PL RX AW TF BI BG NG BB LR. exists (da_uppercase d).
  unfold i8080_decode, dis_decode in H. destruct RD as (SY & RD & DA). rewrite DA in H.
  destruct (isOK (checkAddr 16 addr false)) eqn:CA; cbn [negb] in H.
  2:{ injection H as <-. cbn in E. rewrite E in CA. discriminate. }
  apply isOK_e in CA. rewrite canon_new in H.
  destruct mem as [|c0 mem]; [congruence|]. apply Forall_byte_head in FM as (C0 & FM).
  destruct (i8080_decodeImpl d ty zilog _) as [s'| | | |] eqn:DI; try discriminate. cbn [bind] in H. injection H as <-.
  cbn [r_insn r_name r_operands] in *.
  assert (SO : s_ok s').
  { change (i_err (i_seterr (d_err (t_in s')) (d_insn (t_in s')))) with (d_err (t_in s')) in E.
    destruct (isOK (d_err (t_in s'))) eqn:X.
    - apply isOK_e in X. split; [exact X|exact E].
    - cbn [i_err i_seterr] in E. rewrite E in X. discriminate. }
  unfold i8080_decodeImpl in DI. fold (at_ addr [] (c0 :: mem) [] (mkB [] (size - 1) OK (Some (da_uppercase d)))) in DI.
  rewrite t_byte_at in DI by (auto; cbn; lia). cbn [app] in DI.
  set (out := mkB [] (size - 1) OK (Some (da_uppercase d))) in *.
  assert (FINAL : forall pfx opc bs0 mem0 st, bs0 = opcode_bytes pfx opc -> In pfx [0; 0xED] -> byte opc -> Forall byte mem0 ->
     (length bs0 <= 2)%nat -> st = mkDst (M_Insn.mkD (canon addr bs0) mem0 OK) [] out ->
     decode_opcode d ty zilog pfx opc st = Val s' ->
     exists nb m, mem0 = nb ++ m /\ (length (bs0 ++ nb) <= 3)%nat /\
       (if isOK (i_err (i_seterr (d_err (t_in s')) (d_insn (t_in s'))))
        then i_seterr (b_err (t_out s')) (i_seterr (d_err (t_in s')) (d_insn (t_in s')))
        else i_seterr (d_err (t_in s')) (d_insn (t_in s'))) = canon addr (bs0 ++ nb) /\
       i8080_encode ty zilog a (indent ++ t_name s' ++ gap ++ b_txt (t_out s') ++ b ++ rest) addr = Val (L_insn (canon addr (bs0 ++ nb)) rest)).
  { intros pfx opc bs0 mem0 st -> IP BO FM0 L -> DO.
    assert (BP : byte pfx) by (unfold byte; cbn in IP; intuition lia).
    assert (L8 : (length (opcode_bytes pfx opc) <= 8)%nat) by lia.
    destruct (decode_insn d ty zilog pfx opc addr _ mem0 OK [] out s' (conj SY (conj RD DA)) L8 FM0 BO DO SO) as (e & t & nb & m & SE & -> & -> & E0 & TW).
    exists nb, m. split; [reflexivity|].
    pose proof (encode_ok (da_uppercase d) ty zilog pfx opc e t nb a indent gap b rest addr (check_at _ _ _ _ _ T IP BO) SE TW BP BO PL RX AW TF BI BG NG BB LR CA) as EN.
    split; [eapply length_ok; eauto|]. split.
    - reflexivity.
    - exact EN. }
  destruct (i8080_isPrefix ty c0) eqn:IP.
  - assert (c0 = 0xED) as -> by (unfold i8080_isPrefix in IP; lia).
    destruct mem as [|c1 mem].
    + destruct (t_byte_nil addr [0xED] [] out) as (s1 & B & N). rewrite B in DI.
      destruct (isOK (d_err (t_in s1))) eqn:X; [apply isOK_e in X; congruence|]. cbn [negb] in DI. injection DI as <-.
      destruct SO as (SO & _). rewrite SO in X. discriminate.
    + apply Forall_byte_head in FM as (C1 & FM). rewrite t_byte_at in DI by (auto; cbn; lia). cbn [app] in DI.
      change (isOK (d_err (t_in (at_ addr [0xED; c1] mem [] out)))) with true in DI. cbn [negb] in DI.
      destruct (FINAL 0xED c1 [0xED; c1] mem _ eq_refl ltac:(cbn; auto) C1 FM ltac:(cbn; lia) eq_refl DI) as (nb & m & -> & L & R1 & R2).
      exists (0xED :: c1 :: nb), m. cbn [app length] in *. repeat (split; [reflexivity||assumption||lia|]). exact R2.
  - destruct (FINAL 0 c0 [c0] mem _ eq_refl ltac:(cbn; auto) C0 FM ltac:(cbn; lia) eq_refl DI) as (nb & m & -> & L & R1 & R2).
    exists (c0 :: nb), m. cbn [app length] in *. repeat (split; [reflexivity||assumption||lia|]). exact R2.
Qed.

(* ------------------------------------------------------------ totality and frame *)
Lemma operand_val d zilog opc mode s : da_symtab d = None -> exists s', decodeOperand d zilog opc mode s = Val s'.
Proof.
  intros S. unfold decodeOperand.
  repeat match goal with |- context [if mode =? ?m then _ else _] => destruct (mode =? m) end; try (eexists; reflexivity).
  - destruct (t_byte s). now apply print_val.
  - destruct (t_byte _) as [v s1]. destruct (print_val d v 8 false s1 S) as (s2 & ->). cbn. eauto.
  - destruct (t_uint16Le s). now apply print_val.
  - destruct (t_uint16Le _) as [v s1]. destruct (print_abs_val d v 0 s1 S) as (s2 & ->). cbn. eauto.
  - destruct zilog; now apply print_val.
  - destruct (_ && _); [eauto|]. destruct (_ <=? _); eauto.
Qed.
Lemma search_val ty zilog pfx opc : In ty [I8080; I8085; V30EMU] -> In pfx [0; 0xED] -> byte opc ->
  exists r, i8080_searchOpCode ty zilog pfx opc = Val r.
Proof.
  intros T P O. pose proof (check_at true ty zilog pfx opc T P O) as C. unfold check in C.
  destruct (i8080_searchOpCode ty zilog pfx opc); try discriminate. eauto.
Qed.
Lemma opcode_val d ty zilog pfx opc s : da_symtab d = None -> In ty [I8080; I8085; V30EMU] -> In pfx [0; 0xED] -> byte opc ->
  exists s', decode_opcode d ty zilog pfx opc s = Val s'.
Proof.
  intros S T P O. unfold decode_opcode. cbv zeta. destruct (search_val ty zilog pfx opc T P O) as (r & ->). cbn [bind].
  destruct r as [e|]; [|eauto]. destruct (e_dst e =? M_NONE); [eauto|].
  destruct (operand_val d zilog opc (e_dst e) (t_readName (entry_name e) (t_seterr OK s)) S) as (s1 & ->). cbn [bind].
  destruct (e_src e =? M_NONE); [eauto|]. now apply operand_val.
Qed.
Lemma i8080_total d ty zilog mem addr size : da_symtab d = None -> In ty [I8080; I8085; V30EMU] -> Forall byte mem ->
  exists r, i8080_decode d ty zilog mem addr size = Val r.
Proof.
  intros S T FM. unfold i8080_decode, dis_decode. destruct (negb _); [eauto|].
  unfold i8080_decodeImpl. set (s0 := mkDst _ _ _).
  assert (B0 : bytes_in s0) by exact FM.
  destruct (t_byte s0) as [opc s1] eqn:R1. destruct (bytes_kept _ _ _ R1 B0) as (B1 & O1 & _).
  destruct (i8080_isPrefix ty opc) eqn:IP.
  - assert (opc = 0xED) as -> by (unfold i8080_isPrefix in IP; lia).
    destruct (t_byte s1) as [opc2 s2] eqn:R2. destruct (bytes_kept _ _ _ R2 B1) as (B2 & O2 & _).
    destruct (negb _); [cbn; eauto|]. destruct (opcode_val d ty zilog 0xED opc2 s2 S T ltac:(cbn; auto) O2) as (s3 & ->). cbn. eauto.
  - destruct (opcode_val d ty zilog 0 opc s1 S T ltac:(cbn; auto) O1) as (s3 & ->). cbn. eauto.
Qed.


Lemma operand_keeps d zilog opc mode : keeps_err (decodeOperand d zilog opc mode).
Proof.
  intros s s' H E. destruct (isOK (d_err (t_in s))) eqn:O; [now apply isOK_e|].
  rewrite (operand_err _ _ _ _ _ _ H) in E; [exact E|]. intros N. rewrite N in O. discriminate.
Qed.
Lemma frame_none : frames (fun s => Val s).
Proof. apply frame_pure; [now injection 1 as <-|]. intros s s' m H. now injection H as <-. Qed.
Lemma operand_frame d zilog opc mode : frames (decodeOperand d zilog opc mode).
Proof.
  unfold decodeOperand.
  repeat match goal with |- frames (fun s => if ?c then _ else _) => destruct c end;
    try apply frame_put; try apply frame_print; try apply frame_none.
  - apply frame_byte; intros; [apply keeps_print|apply frame_print].
  - apply (frame_seq (fun s => Val (t_put (paren zilog 40) s))
      (fun s => let '(v, s) := t_byte s in bind (t_print (dis_outHex d v 8 false) s) (fun s => Val (t_put (paren zilog 41) s)))).
    + intros s s' H E. destruct (t_byte s) as [v s1] eqn:B.
      assert (E1 : d_err (t_in s1) = OK) by (eapply (keeps_seq (t_print _) _ (keeps_print _) (keeps_put _)); eauto).
      destruct (isOK (d_err (t_in s))) eqn:O; [now apply isOK_e|].
      rewrite (byte_err _ _ _ B) in E1; [exact E1|]. intros N. rewrite N in O. discriminate.
    + apply frame_put.
    + apply frame_byte; intros.
      * apply keeps_seq; [apply keeps_print|apply keeps_put].
      * apply frame_seq; [apply keeps_put|apply frame_print|apply frame_put].
  - apply frame_word; intros; [apply keeps_print|apply frame_print].
  - apply (frame_seq (fun s => Val (t_put (paren zilog 40) s))
      (fun s => let '(v, s) := t_uint16Le s in bind (t_print (outAbsAddr d v 0) s) (fun s => Val (t_put (paren zilog 41) s)))).
    + intros s s' H E. destruct (t_uint16Le s) as [v s1] eqn:B.
      assert (E1 : d_err (t_in s1) = OK) by (eapply (keeps_seq (t_print _) _ (keeps_print _) (keeps_put _)); eauto).
      destruct (isOK (d_err (t_in s))) eqn:O; [now apply isOK_e|].
      rewrite (word_err _ _ _ B) in E1; [exact E1|]. intros N. rewrite N in O. discriminate.
    + apply frame_put.
    + apply frame_word; intros.
      * apply keeps_seq; [apply keeps_print|apply keeps_put].
      * apply frame_seq; [apply keeps_put|apply frame_print|apply frame_put].
Qed.

Lemma opcode_frame d ty zilog pfx opc : frames (decode_opcode d ty zilog pfx opc).
Proof.
  unfold decode_opcode. cbv zeta.
  enough (G : frames (fun s => bind (i8080_searchOpCode ty zilog pfx opc) (fun r =>
    match r with
    | None => Val (t_setErrorIf UNKNOWN_INSTRUCTION s)
    | Some e =>
      if e_dst e =? M_NONE then Val (t_readName (entry_name e) s)
      else
        bind (decodeOperand d zilog opc (e_dst e) (t_readName (entry_name e) s)) (fun s =>
          if e_src e =? M_NONE then Val s
          else decodeOperand d zilog opc (e_src e) (t_put comma s))
    end))).
  { intros s s' H E. exact (G (t_seterr OK s) s' H E). }
  destruct (i8080_searchOpCode ty zilog pfx opc) as [[e|]| | | |]; cbn [bind]; try (intros ? ? H; discriminate).
  2:{ apply frame_pure; [now injection 1 as <-|]. intros s s' m H. now injection H as <-. }
  assert (RN : frames (fun s => Val (t_readName (entry_name e) s))).
  { apply frame_pure; [now injection 1 as <-|]. intros s s' m H. now injection H as <-. }
  destruct (e_dst e =? M_NONE); [exact RN|].
  assert (SRC : frames (fun s => if e_src e =? M_NONE then Val s else decodeOperand d zilog opc (e_src e) (t_put comma s)) /\
    keeps_err (fun s => if e_src e =? M_NONE then Val s else decodeOperand d zilog opc (e_src e) (t_put comma s))).
  { destruct (e_src e =? M_NONE); [split; [apply frame_none|]; intros s s' H; now injection H as <-|]. split.
    - apply (frame_seq (fun s => Val (t_put comma s)) (decodeOperand d zilog opc (e_src e)));
        [apply operand_keeps|apply frame_put|apply operand_frame].
    - apply (keeps_seq (fun s => Val (t_put comma s)) (decodeOperand d zilog opc (e_src e))); [apply keeps_put|apply operand_keeps]. }
  destruct SRC as (SRC & SK).
  apply (frame_seq (fun s => Val (t_readName (entry_name e) s))
    (fun s => bind (decodeOperand d zilog opc (e_dst e) s) (fun s => if e_src e =? M_NONE then Val s else decodeOperand d zilog opc (e_src e) (t_put comma s)))).
  - apply keeps_seq; [apply operand_keeps|exact SK].
  - exact RN.
  - apply frame_seq; [exact SK|apply operand_frame|exact SRC].
Qed.

Lemma i8080_consumes d ty zilog mem addr size r :
  reads_as d -> In ty [I8080; I8085; V30EMU] -> Forall byte mem -> mem <> [] ->
  i8080_decode d ty zilog mem addr size = Val r -> i_err (r_insn r) = OK ->
  exists bs m, mem = bs ++ m /\ (1 <= length bs <= 3)%nat /\ r_insn r = canon addr bs /\
    forall m', i8080_decode d ty zilog (bs ++ m') addr size = Val r.
Proof.
  intros RD T FM NE H E.
  set (a := i8080_asm (fun _ => None) (fun _ => None) 10).
  assert (TF : total_functions a) by (intros n g X; discriminate X).
  destruct (i8080_round d ty zilog mem addr size r a [] [32] [] [] RD T FM NE H E eq_refl eq_refl eq_refl TF (Forall_nil _)
    ltac:(constructor; [reflexivity|constructor]) ltac:(left; discriminate) (Forall_nil _) ltac:(left; reflexivity)) as (k & bs & m & EM & L & RI & _ & _).
  exists bs, m. repeat (split; [assumption|]). intros m'.
  subst mem. rewrite RI in E. clear NE a TF k.
  unfold i8080_decode, dis_decode in *. destruct RD as (SY & RD & DA). rewrite DA in *.
  destruct (isOK (checkAddr 16 addr false)) eqn:CA; cbn [negb] in *; [|exact H].
  destruct (i8080_decodeImpl d ty zilog _) as [s'| | | |] eqn:DI in H; try discriminate. cbn [bind] in H.
  enough (X : i8080_decodeImpl d ty zilog (mkDst (M_Insn.mkD (new_insn addr) (bs ++ m') OK) [] (mkB [] (size - 1) OK (Some (da_uppercase d)))) = Val (setmem m' s')).
  { rewrite X. cbn [bind]. exact H. }
  destruct bs as [|c0 bs]; [cbn in L; lia|]. cbn [app] in *. rewrite canon_new in *.
  set (out := mkB [] (size - 1) OK (Some (da_uppercase d))) in *.
  apply Forall_byte_head in FM as (C0 & FM).
  assert (SI : i_seterr OK (d_insn (t_in s')) = canon addr (c0 :: bs) /\ s_ok s').
  { injection H as <-. cbn [r_insn] in RI. change (i_err (i_seterr (d_err (t_in s')) (d_insn (t_in s')))) with (d_err (t_in s')) in RI.
    destruct (isOK (d_err (t_in s'))) eqn:X.
    - apply isOK_e in X. pose proof (f_equal i_err RI) as Q. cbn in Q. rewrite Q in RI. split; [exact RI|split; [exact X|exact Q]].
    - pose proof (f_equal i_err RI) as Q. cbn in Q. rewrite Q in X. discriminate. }
  destruct SI as (SI & SO).
  unfold i8080_decodeImpl in *. fold (at_ addr [] (c0 :: bs ++ m) [] out) in DI. fold (at_ addr [] (c0 :: bs ++ m') [] out).
  rewrite t_byte_at in * by (auto; cbn; lia). cbn [app] in *.
  assert (FINAL : forall pfx opc bs0 bs1, c0 :: bs = bs0 ++ bs1 -> In pfx [0; 0xED] -> byte opc -> (length bs0 <= 2)%nat ->
     Forall byte (bs1 ++ m) ->
     decode_opcode d ty zilog pfx opc (at_ addr bs0 (bs1 ++ m) [] out) = Val s' ->
     decode_opcode d ty zilog pfx opc (at_ addr bs0 (bs1 ++ m') [] out) = Val (setmem m' s')).
  { intros pfx opc bs0 bs1 EB IP BO L0 FM1 DO.
    assert (L8 : (length bs0 <= 8)%nat) by lia.
    destruct (decode_insn d ty zilog pfx opc addr bs0 (bs1 ++ m) OK [] out s' (conj SY (conj RD DA)) L8 FM1 BO DO SO) as (e & t & nb & m2 & _ & EM & ES & _ & _).
    destruct (opcode_frame d ty zilog pfx opc _ _ DO (proj1 SO)) as (nb' & EM' & FR).
    assert (NB : bs0 ++ nb = c0 :: bs).
    { apply (f_equal i_code) in SI. rewrite ES in SI. cbn [at_ t_in d_insn] in SI. rewrite canon_code in SI.
      rewrite <- SI. change (i_seterr OK (canon addr (bs0 ++ nb))) with (canon addr (bs0 ++ nb)). now rewrite canon_code. }
    rewrite EB in NB. apply app_inv_head in NB. subst nb. rewrite ES in EM'. cbn [at_ t_in d_mem] in EM'.
    rewrite EM in EM'. apply app_inv_tail in EM'. subst nb'. apply (FR m'). }
  destruct (i8080_isPrefix ty c0) eqn:IP.
  - assert (c0 = 0xED) as -> by (unfold i8080_isPrefix in IP; lia).
    destruct bs as [|c1 bs].
    + exfalso. cbn [app] in DI. destruct m as [|c1 m].
      * destruct (t_byte_nil addr [0xED] [] out) as (s1 & B & N). rewrite B in DI.
        destruct (isOK (d_err (t_in s1))) eqn:X; [apply isOK_e in X; congruence|]. cbn [negb] in DI. injection DI as <-.
        destruct SO as (SO & _). rewrite SO in X. discriminate.
      * apply Forall_byte_head in FM as (C1 & FM). rewrite t_byte_at in DI by (auto; cbn; lia). cbn [app] in DI.
        change (isOK (d_err (t_in (at_ addr [0xED; c1] m [] out)))) with true in DI. cbn [negb] in DI.
        destruct (decode_insn d ty zilog 0xED c1 addr [0xED; c1] m OK [] out s' (conj SY (conj RD DA)) ltac:(cbn; lia) FM C1 DI SO) as (e & t & nb & m2 & _ & EM & ES & _ & _).
        apply (f_equal i_len) in SI. rewrite ES in SI. cbn [at_ t_in d_insn i_seterr i_len canon app length] in SI. lia.
    + cbn [app] in *. apply Forall_byte_head in FM as (C1 & FM). rewrite t_byte_at in * by (auto; cbn; lia). cbn [app] in *.
      change (isOK (d_err (t_in (at_ addr [0xED; c1] (bs ++ m) [] out)))) with true in DI.
      change (isOK (d_err (t_in (at_ addr [0xED; c1] (bs ++ m') [] out)))) with true. cbn [negb] in *.
      apply (FINAL 0xED c1 [0xED; c1] bs); auto; cbn; auto.
  - apply (FINAL 0 c0 [c0] bs); auto; cbn; auto.
Qed.

(* whatever the outcome, the bytes taken are the first of the memory *)
Lemma operand_within d zilog opc mode addr mem n s s' : within addr mem n s -> (n < 60)%nat ->
  decodeOperand d zilog opc mode s = Val s' -> within addr mem (n + Z.to_nat (width mode)) s'.
Proof.
  intros W L. unfold decodeOperand, width.
  destruct (mode =? M_IM8); cbn [orb].
  { destruct (t_byte s) as [v s1] eqn:B. apply (within_byte _ _ _ _ _ _ W) in B; [|lia]. apply within_print. exact B. }
  destruct (mode =? M_IOA); cbn [orb].
  { destruct (t_byte (t_put (paren zilog 40) s)) as [v s1] eqn:B. apply (within_byte addr mem n) in B; [|exact W|lia].
    destruct (t_print _ s1) as [s2| | | |] eqn:P; try discriminate. cbn [bind]. injection 1 as <-. exact (within_print _ _ _ _ _ _ B P). }
  destruct (mode =? M_IM16); cbn [orb].
  { destruct (t_uint16Le s) as [v s1] eqn:B. apply (within_word _ _ _ _ _ _ W) in B; [|lia]. apply within_print. exact B. }
  destruct (mode =? M_ABS).
  { destruct (t_uint16Le (t_put (paren zilog 40) s)) as [v s1] eqn:B. apply (within_word addr mem n) in B; [|exact W|lia].
    destruct (t_print _ s1) as [s2| | | |] eqn:P; try discriminate. cbn [bind]. injection 1 as <-. exact (within_print _ _ _ _ _ _ B P). }
  replace (n + Z.to_nat 0)%nat with n by lia.
  repeat match goal with |- (if ?c then _ else _) = _ -> _ => destruct c end;
    try (injection 1 as <-; exact W); try (apply within_print; exact W).
Qed.
Definition entry_width (e : entry) : Z := (if e_dst e =? M_NONE then 0 else width (e_dst e)) + if e_src e =? M_NONE then 0 else width (e_src e).
Lemma widths_ok : forallb (fun ty => forallb (fun zilog : bool => forallb (fun pfx => forallb (fun opc =>
  match i8080_searchOpCode ty zilog pfx opc with
  | Val (Some e) => (entry_width e <=? (if pfx =? 0 then 2 else 1)) && (0 <=? width (e_dst e)) && (0 <=? width (e_src e))
  | _ => true end)
  (map Z.of_nat (seq 0 256))) [0; 0xED]) [true; false]) [I8080; I8085; V30EMU] = true.
Proof. vm_compute. reflexivity. Qed.
Lemma opcode_within d ty zilog pfx opc addr mem n s s' : In ty [I8080; I8085; V30EMU] -> In pfx [0; 0xED] -> byte opc ->
  within addr mem n s -> (n < 50)%nat -> decode_opcode d ty zilog pfx opc s = Val s' ->
  within addr mem (n + (if (pfx =? 0)%Z then 2 else 1)) s'.
Proof.
  intros T P O W L. pose proof widths_ok as K. rewrite forallb_forall in K. specialize (K _ T).
  rewrite forallb_forall in K. specialize (K zilog ltac:(destruct zilog; cbn; auto)).
  rewrite forallb_forall in K. specialize (K _ P). rewrite forallb_forall in K.
  specialize (K opc). assert (IN : In opc (map Z.of_nat (seq 0 256))).
  { apply in_map_iff. exists (Z.to_nat opc). split; [unfold byte in O; lia|]. apply in_seq. unfold byte in O. lia. }
  specialize (K IN). unfold decode_opcode. cbv zeta.
  destruct (i8080_searchOpCode ty zilog pfx opc) as [[e|]| | | |]; cbn [bind]; try discriminate.
  2:{ injection 1 as <-. apply (within_le addr mem n); [lia|exact W]. }
  unfold entry_width in K. assert (Q : (Z.to_nat (if (pfx =? 0)%Z then 2 else 1) = if (pfx =? 0)%Z then 2 else 1)%nat) by (destruct (pfx =? 0); reflexivity).
  rewrite <- Q. assert (W0 : within addr mem n (t_readName (entry_name e) (t_seterr OK s))) by exact W.
  destruct (e_dst e =? M_NONE).
  { injection 1 as <-. apply (within_le addr mem n); [lia|exact W]. }
  destruct (decodeOperand d zilog opc (e_dst e) _) as [s1| | | |] eqn:D1; try discriminate. cbn [bind].
  apply (operand_within _ _ _ _ _ _ _ _ _ W0) in D1; [|lia].
  destruct (e_src e =? M_NONE).
  { injection 1 as <-. eapply within_le; [|exact D1]. lia. }
  intros D2. apply (operand_within _ _ _ _ addr mem (n + Z.to_nat (width (e_dst e)))) in D2; [|exact D1|destruct (pfx =? 0); lia].
  eapply within_le; [|exact D2]. lia.
Qed.
Lemma i8080_within d ty zilog mem addr size r : In ty [I8080; I8085; V30EMU] -> Forall byte mem ->
  i8080_decode d ty zilog mem addr size = Val r ->
  exists m, mem = i_code (r_insn r) ++ m /\ (length (i_code (r_insn r)) <= 3)%nat.
Proof.
  intros T FM. unfold i8080_decode, dis_decode. destruct (negb _).
  { injection 1 as <-. exists mem. cbn. split; [reflexivity|lia]. }
  assert (FIN : forall s, within addr mem 3 s -> exists m, mem = i_code (d_insn (t_in s)) ++ m /\ (length (i_code (d_insn (t_in s))) <= 3)%nat).
  { intros s (_ & bs & A & B & C). exists (d_mem (t_in s)). rewrite C, canon_code. auto. }
  assert (W0 : within addr mem 0 (mkDst (M_Insn.mkD (new_insn addr) mem OK) [] (mkB [] (size - 1) OK (Some (da_uppercase d))))).
  { split; [exact FM|]. exists []. rewrite canon_new. cbn. auto. }
  match goal with |- bind ?x _ = _ -> _ => destruct x as [s'| | | |] eqn:DI end; try discriminate. cbn [bind].
  intros H. assert (E : i_code (r_insn r) = i_code (d_insn (t_in s'))).
  { injection H as <-. cbn [r_insn]. now destruct (isOK _). }
  rewrite E. apply FIN. clear H E r FIN.
  unfold i8080_decodeImpl in DI. set (s0 := mkDst _ _ _) in *.
  assert (B0 : bytes_in s0) by exact FM.
  destruct (t_byte s0) as [opc s1] eqn:R1. destruct (bytes_kept _ _ _ R1 B0) as (B1 & O1 & _).
  apply (within_byte _ _ _ _ _ _ W0) in R1; [|lia].
  destruct (i8080_isPrefix ty opc) eqn:IP.
  - assert (opc = 0xED) as -> by (unfold i8080_isPrefix in IP; lia).
    destruct (t_byte s1) as [opc2 s2] eqn:R2. destruct (bytes_kept _ _ _ R2 B1) as (B2 & O2 & _).
    apply (within_byte _ _ _ _ _ _ R1) in R2; [|lia].
    destruct (negb _); [injection DI as <-; eapply within_le; [|exact R2]; lia|].
    apply (opcode_within _ _ _ _ _ addr mem 2) in DI; auto; cbn; auto; lia.
  - apply (opcode_within _ _ _ _ _ addr mem 1) in DI; auto; cbn; auto; lia.
Qed.
