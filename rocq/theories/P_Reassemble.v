(** Assembling the text a disassembly has printed (8080 family). *)
From Coq Require Import String ZArith List Bool Lia ZifyBool.
From Verif Require Import M_Char M_Error M_Value M_Text M_StrBuffer M_Format M_Number M_Insn M_Config M_Operators
  M_Parsers M_Expr M_Directive M_Table T_Tables M_Asm M_Dis M_I8080Defs T_I8080 M_I8080 M_BinMemory M_Symbols M_Sources M_AsmLine M_AsmDriver M_AsmI8080
  M_Listing M_DisDriver M_DisI8080 S_Value S_Number S_Expr S_ExprTree S_Table S_ByteMap S_Memory S_Insn S_Sources S_AsmDriver S_DisDriver P_StrBuffer P_Room
  P_Number P_NumberRead P_ExprRead P_ExprTree P_ExprCase P_Table P_Insn P_Value P_BinMemory P_Symbols P_AsmText P_CpuShape P_I8080
  P_Config P_Sources P_AsmBytes P_AsmPass P_DisDriver.
Import ListNotations.
Open Scope string_scope.
Open Scope list_scope.
Local Open Scope Z_scope.

(* ------------------------------------------------------------ the letters of a line *)
Lemma out_text_room t : forall b, b_mark b + Z.of_nat (length t) <= b_max b -> out_text t b = appb b (map (conv (b_case b)) t).
Proof.
  induction t as [|c t IH]; intros b R; [now rewrite appb_nil|]. cbn [out_text fold_left length map] in *.
  assert (L : letter c b = appb b [conv (b_case b) c]).
  { unfold letter, rletter. replace (b_mark b <? b_max b) with true by lia. reflexivity. }
  rewrite L. change (fold_left (fun b c => letter c b) t ?x) with (out_text t x). rewrite IH.
  - rewrite appb_app. reflexivity.
  - rewrite appb_mark. cbn. change (b_max (appb b [conv (b_case b) c])) with (b_max b). lia.
Qed.
Lemma out_rtext_room t : forall b, b_mark b + Z.of_nat (length t) <= b_max b -> out_rtext t b = appb b t.
Proof.
  induction t as [|c t IH]; intros b R; [now rewrite appb_nil|]. cbn [out_rtext fold_left length map] in *.
  assert (L : rletter c b = appb b [c]).
  { unfold rletter. replace (b_mark b <? b_max b) with true by lia. reflexivity. }
  rewrite L. change (fold_left (fun b c => rletter c b) t ?x) with (out_rtext t x). rewrite IH.
  - rewrite appb_app. reflexivity.
  - rewrite appb_mark. cbn. change (b_max (appb b [c])) with (b_max b). lia.
Qed.
Lemma tab_stop_range fuel : forall tab pos, pos + 1 - tab <= Z.of_nat fuel -> pos < tab_stop fuel tab pos <= Z.max tab (pos + 4).
Proof.
  induction fuel as [|fuel IH]; intros tab pos H; cbn [tab_stop]; [lia|]. destruct (Z.ltb_spec tab (pos + 1)); [|lia].
  specialize (IH (tab + 4) pos ltac:(lia)). lia.
Qed.
Lemma map_conv_none (t : text) : map (conv None) t = t.
Proof. induction t as [|c t IH]; [reflexivity|]. cbn [map conv]. now rewrite IH. Qed.
Lemma tab_room tab b : b_case b = None -> Z.max tab (b_mark b + 4) <= b_max b ->
  exists k, (1 <= k)%nat /\ b_mark b + Z.of_nat k <= Z.max tab (b_mark b + 4) /\ formatTab tab b = appb b (repeat 32 k).
Proof.
  intros C R. unfold formatTab. cbv zeta. set (pos := b_mark b) in *.
  pose proof (tab_stop_range (Z.to_nat (pos + 1 - tab)) tab pos ltac:(lia)) as T. set (stop := tab_stop _ tab pos) in *.
  exists (Z.to_nat (stop - pos)). split; [lia|]. split; [lia|]. unfold outSpaces. rewrite out_text_room.
  - rewrite C, map_conv_none. reflexivity.
  - rewrite repeat_length. fold pos. lia.
Qed.
(* the gap before the operands *)
Definition spaced (ops : text) (k : nat) : text := match ops with [] => [] | _ => repeat 32 k ++ ops end.
Lemma insn_line_text o nm ops : nm <> [] -> do_nameMax o <= 20 -> (length nm <= 11)%nat -> (length ops <= 127)%nat ->
  exists k, (1 <= k <= 30)%nat /\ insn_line o nm ops = repeat 32 6 ++ nm ++ spaced ops k.
Proof.
  intros N MX LN LO. unfold insn_line. destruct nm as [|c nm]; [congruence|]. set (name := c :: nm) in *. clearbody name. clear N.
  unfold formatInsn. cbv zeta. assert (F0 : formatTab (b_mark new_out + 6) new_out = appb new_out (repeat 32 6)) by reflexivity.
  rewrite F0. assert (M0 : b_mark (appb new_out (repeat 32 6)) = 6) by reflexivity.
  assert (X0 : forall t, b_max (appb new_out t) = 255) by reflexivity. rewrite out_text_room by (rewrite M0, X0; lia). rewrite appb_case, map_conv_none, appb_app.
  destruct ops as [|c' ops]; [exists 1%nat; split; [lia|]; cbn [spaced]; now rewrite app_nil_r|].
  set (b := appb new_out (repeat 32 6 ++ name)).
  assert (BM : b_mark b = 6 + Z.of_nat (length name)) by (unfold b; rewrite <- appb_app, appb_mark, M0; lia).
  assert (NW : name_width o <= 21) by (unfold name_width; lia).
  destruct (tab_room (b_mark (appb new_out (repeat 32 6)) + name_width o) b eq_refl) as (k & K & KR & FT).
  { rewrite BM, M0. unfold b. rewrite X0. lia. }
  rewrite BM, M0 in KR.
  exists k. split; [lia|]. rewrite FT. rewrite out_rtext_room.
  - unfold b. rewrite !appb_app. cbn [appb b_txt new_out app]. rewrite <- !app_assoc. reflexivity.
  - rewrite appb_mark, BM, repeat_length. unfold b. rewrite appb_app, X0. cbn [length] in *. lia.
Qed.

(* ------------------------------------------------------------ the letters of operands *)
Definition grows (b b' : sbuf) : Prop := exists n, adds n b b'.
Lemma grows_refl b : grows b b.
Proof. exists 0. apply adds_refl. lia. Qed.
Lemma grows_trans a b c : grows a b -> grows b c -> grows a c.
Proof. intros (n & A) (m & B). exists (n + m). eapply adds_trans; eauto. Qed.
Lemma grows_text w b : Forall printable w -> grows b (out_text w b).
Proof. intros F. eexists. now apply adds_text. Qed.
Lemma grows_comma b : grows b (comma b).
Proof. unfold comma. eapply grows_trans; eexists; apply adds_rletter; unfold printable; lia. Qed.
Lemma name_of_in n l t : name_of n l = Some t -> In t (map name_text l).
Proof.
  unfold name_of. destruct (searchByNumber snd n l) as [k|]; [|discriminate]. destruct (nth_error l k) as [r|] eqn:E; [|discriminate].
  intros H. injection H as <-. apply in_map. eapply nth_error_In, E.
Qed.
Definition plain_list (l : list (string * Z)) : bool := forallb (fun r => forallb (fun c => (32 <=? c) && (c <=? 126)) (name_text r)) l.
Lemma name_plain n l t : plain_list l = true -> name_of n l = Some t -> Forall printable t.
Proof.
  intros P H. apply name_of_in in H. apply in_map_iff in H. destruct H as (r & <- & I). unfold plain_list in P. rewrite forallb_forall in P.
  apply printable_text. now apply P.
Qed.
Lemma reg_plain n ind : Forall printable (reg_text n ind).
Proof.
  unfold reg_text. destruct (name_of n ZILOG_ENTRIES) as [t|] eqn:E; [|constructor]. apply name_plain in E; [|reflexivity].
  destruct ind; [|exact E]. assert (P : forall c, 40 <= c <= 41 -> printable c) by (unfold printable; lia).
  constructor; [apply P; lia|]. apply Forall_app. split; [exact E|]. constructor; [apply P; lia|constructor].
Qed.
Lemma cc_plain n : Forall printable (cc_text n).
Proof. unfold cc_text. destruct (name_of n CC_ENTRIES) as [t|] eqn:E; [|constructor]. apply name_plain in E; [exact E|reflexivity]. Qed.
Lemma data_plain zilog n : Forall printable (data_text zilog n).
Proof. unfold data_text. cbv zeta. destruct (_ && _); apply reg_plain. Qed.
Lemma par_plain zilog c : printable c -> Forall printable (par zilog c).
Proof. intros P. unfold par. destruct zilog; constructor; [exact P|constructor]. Qed.

(* a disassembler whose number formats are limited *)
Definition limits (d : disasm) : Prop := da_symtab d = None /\ limited_plugin 66 (da_formatter d) /\ da_aw d = 16.
Lemma i8080_limits uh uc oc rel cs ih cur : limits (i8080_dis uh uc oc rel cs ih cur None).
Proof.
  split; [reflexivity|]. split; [|reflexivity]. unfold da_formatter, i8080_dis. cbn [da_cstyle da_intelhex da_plug].
  destruct cs; [apply cstyle_limited|]. destruct ih; apply intel_limited.
Qed.
Lemma case_adds d f v bits out : limited 66 f -> 0 <= v < 2^32 -> 1 <= bits <= 32 -> adds 67 out (hex_case d (format_signed f v bits) out).
Proof. intros F V B. unfold hex_case. eapply adds_over, (format_adds f 66); auto. lia. Qed.
Lemma hex_adds d v bits relax out out' : limits d -> 0 <= v < 2^32 -> 1 <= bits <= 32 ->
  dis_outHex d v bits relax out = Val out' -> adds 67 out out'.
Proof.
  intros (SY & (L1 & L2 & L3 & L4) & _) V B H. unfold dis_outHex, da_lookup in H. rewrite SY in H. cbn [bind] in H.
  destruct (da_octal d); [|destruct (relax && _)]; injection H as <-; now apply case_adds.
Qed.
Lemma abs_adds d v out out' : limits d -> 0 <= v < 2^32 -> outAbsAddr d v 0 out = Val out' -> adds 67 out out'.
Proof.
  intros (SY & (L1 & L2 & L3 & L4) & AW) V H. unfold outAbsAddr, da_lookup in H. rewrite SY in H. cbn [bind] in H.
  change (0 =? 0) with true in H. cbv iota in H. rewrite AW in H.
  destruct (da_octal d); injection H as <-; apply case_adds; auto; lia.
Qed.
Lemma print_hex_grows d v bits relax s s' : limits d -> 0 <= v < 2^32 -> 1 <= bits <= 32 ->
  t_print (dis_outHex d v bits relax) s = Val s' -> grows (t_out s) (t_out s') /\ t_in s' = t_in s.
Proof.
  intros L V B H. split; [|eapply print_err, H]. unfold t_print in H. destruct (dis_outHex d v bits relax (t_out s)) as [o| | | |] eqn:D; try discriminate.
  cbn [bind] in H. injection H as <-. eexists. eapply hex_adds; eauto.
Qed.
Lemma print_abs_grows d v s s' : limits d -> 0 <= v < 2^32 ->
  t_print (outAbsAddr d v 0) s = Val s' -> grows (t_out s) (t_out s') /\ t_in s' = t_in s.
Proof.
  intros L V H. split; [|eapply print_err, H]. unfold t_print in H. destruct (outAbsAddr d v 0 (t_out s)) as [o| | | |] eqn:D; try discriminate.
  cbn [bind] in H. injection H as <-. eexists. eapply abs_adds; eauto.
Qed.
Lemma operand_grows d zilog opc mode s s' : limits d -> decodeOperand d zilog opc mode s = Val s' -> bytes_in s ->
  grows (t_out s) (t_out s') /\ bytes_in s'.
Proof.
  intros LD H B. unfold decodeOperand in H.
  assert (PT : forall f w, (forall b, f b = out_text w b) -> Forall printable w -> Val (t_put f s) = Val s' -> grows (t_out s) (t_out s') /\ bytes_in s').
  { intros f w F P G. injection G as <-. split; [|exact B]. cbn [t_put t_set_out t_out]. rewrite F. now apply grows_text. }
  assert (PO : forall c b, printable c -> grows b (paren zilog c b)).
  { intros c b P. rewrite paren_text. apply grows_text, par_plain, P. }
  assert (P40 : printable 40) by (unfold printable; lia). assert (P41 : printable 41) by (unfold printable; lia).
  destruct (mode =? M_IM8).
  { destruct (t_byte s) as [v s1] eqn:R. destruct (bytes_kept _ _ _ R B) as (B1 & V & O).
    destruct (print_hex_grows d v 8 true _ _ LD ltac:(unfold byte in V; lia) ltac:(lia) H) as (G & I).
    rewrite <- O. split; [exact G|]. unfold bytes_in. now rewrite I. }
  destruct (mode =? M_IOA).
  { destruct (t_byte _) as [v s1] eqn:R in H. destruct (bytes_kept _ _ _ R B) as (B1 & V & O).
    destruct (t_print _ _) as [s2| | | |] eqn:PR in H; try discriminate. injection H as <-.
    destruct (print_hex_grows d v 8 false _ _ LD ltac:(unfold byte in V; lia) ltac:(lia) PR) as (G & I).
    split; [|unfold bytes_in; cbn; now rewrite I]. cbn [t_put t_set_out t_out]. eapply grows_trans; [apply (PO 40 _ P40)|].
    change (paren zilog 40 (t_out s)) with (t_out (t_put (paren zilog 40) s)). rewrite <- O. eapply grows_trans; [exact G|]. now apply PO. }
  destruct (mode =? M_IM16).
  { destruct (t_uint16Le s) as [v s1] eqn:R. destruct (word_kept _ _ _ R B) as (B1 & V & O).
    destruct (print_hex_grows d v 16 true _ _ LD ltac:(lia) ltac:(lia) H) as (G & I).
    rewrite <- O. split; [exact G|]. unfold bytes_in. now rewrite I. }
  destruct (mode =? M_ABS).
  { destruct (t_uint16Le _) as [v s1] eqn:R in H. destruct (word_kept _ _ _ R B) as (B1 & V & O).
    destruct (t_print _ _) as [s2| | | |] eqn:PR in H; try discriminate. injection H as <-.
    destruct (print_abs_grows d v _ _ LD ltac:(lia) PR) as (G & I).
    split; [|unfold bytes_in; cbn; now rewrite I]. cbn [t_put t_set_out t_out]. eapply grows_trans; [apply (PO 40 _ P40)|].
    change (paren zilog 40 (t_out s)) with (t_out (t_put (paren zilog 40) s)). rewrite <- O. eapply grows_trans; [exact G|]. now apply PO. }
  destruct (mode =? M_PTR); [eapply PT; [| |exact H]; [intros; apply outReg_text|apply reg_plain]|].
  destruct (mode =? M_STK); [eapply PT; [| |exact H]; [intros; apply outReg_text|apply reg_plain]|].
  destruct (mode =? M_IDX); [eapply PT; [| |exact H]; [intros; apply outReg_text|apply reg_plain]|].
  destruct (mode =? M_SRC); [eapply PT; [| |exact H]; [intros; apply outData_text|apply data_plain]|].
  destruct (mode =? M_DST); [eapply PT; [| |exact H]; [intros; apply outData_text|apply data_plain]|].
  destruct (mode =? M_VEC).
  { pose proof (land7 (Z.shiftr opc 3)) as V. destruct zilog.
    - destruct (print_hex_grows d (Z.land (Z.shiftr opc 3) 7 * 8) 8 true _ _ LD ltac:(lia) ltac:(lia) H) as (G & I). split; [exact G|]. unfold bytes_in. now rewrite I.
    - destruct (print_hex_grows d (Z.land (Z.shiftr opc 3) 7) 3 true _ _ LD ltac:(lia) ltac:(lia) H) as (G & I). split; [exact G|]. unfold bytes_in. now rewrite I. }
  destruct (mode =? M_CC); [eapply PT; [| |exact H]; [intros; apply outCc_text|apply cc_plain]|].
  destruct (_ && _); [eapply PT; [| |exact H]; [intros; apply outReg_text|apply reg_plain]|].
  destruct (I_BASE <=? mode); [eapply PT; [| |exact H]; [intros; apply outReg_text|apply reg_plain]|].
  injection H as <-. split; [apply grows_refl|exact B].
Qed.
Lemma opcode_grows d ty zilog pfx opc s s' : limits d -> decode_opcode d ty zilog pfx opc s = Val s' -> bytes_in s -> grows (t_out s) (t_out s').
Proof.
  intros LD H B. unfold decode_opcode in H. cbv zeta in H. destruct (i8080_searchOpCode ty zilog pfx opc) as [[e|]| | | |]; try discriminate; cbn [bind] in H.
  2:{ injection H as <-. apply grows_refl. }
  destruct (e_dst e =? M_NONE); [injection H as <-; apply grows_refl|].
  destruct (decodeOperand d zilog opc (e_dst e) _) as [s1| | | |] eqn:D1; try discriminate. cbn [bind] in H.
  apply operand_grows in D1; [|exact LD|exact B]. destruct D1 as (G1 & B1).
  destruct (e_src e =? M_NONE); [injection H as <-; exact G1|].
  apply operand_grows in H; [|exact LD|exact B1]. destruct H as (G2 & _).
  eapply grows_trans; [exact G1|]. eapply grows_trans; [apply grows_comma|exact G2].
Qed.
Lemma impl_grows d ty zilog s s' : limits d -> i8080_decodeImpl d ty zilog s = Val s' -> bytes_in s -> grows (t_out s) (t_out s').
Proof.
  intros LD H B. unfold i8080_decodeImpl in H. destruct (t_byte s) as [opc s1] eqn:R. destruct (bytes_kept _ _ _ R B) as (B1 & V & O).
  destruct (i8080_isPrefix ty opc).
  - destruct (t_byte s1) as [opc2 s2] eqn:R2. destruct (bytes_kept _ _ _ R2 B1) as (B2 & V2 & O2).
    destruct (negb _); [injection H as <-; rewrite O2, O; apply grows_refl|].
    rewrite <- O, <- O2. eapply opcode_grows; eauto.
  - rewrite <- O. eapply opcode_grows; eauto.
Qed.
(* the operands the driver is given *)
Lemma operands_fit d ty zilog mem addr size r rest : limits d -> Forall byte mem -> 1 <= size ->
  dis_decode_from d (i8080_decodeImpl d ty zilog) mem addr size = Val (r, rest) ->
  Z.of_nat (length (r_operands r)) < size /\ Forall printable (r_operands r).
Proof.
  intros LD FM SZ H. unfold dis_decode_from in H. destruct (negb _); [injection H as <- _; split; [cbn; lia|constructor]|].
  destruct (i8080_decodeImpl d ty zilog _) as [s| | | |] eqn:DI; try discriminate. cbn [bind] in H. injection H as <- _. cbn [r_operands].
  apply impl_grows in DI; [|exact LD|exact FM]. destruct DI as (n & _ & _ & _ & F & (u & T & P) & _). cbn [t_out b_txt b_max app] in *.
  rewrite T. split; [|exact P]. unfold b_mark in F. cbn [b_txt length] in F. rewrite T in F. lia.
Qed.

Section Syntax.
Variable zl : bool.
(* ------------------------------------------------------------ a decoded piece *)
Definition decodes (ty : Z) (k : bool) (mem : list Z) (addr : Z) (r : decoded) (rest : list Z) : Prop :=
  exists pfx opc e nb, In pfx [0; 0xED] /\ byte opc /\ i8080_searchOpCode ty zl pfx opc = Val (Some e) /\
    two_operands zl opc (Some k) e (r_operands r) nb /\ M_Dis.r_name r = firstn 11 (map (conv (Some k)) (entry_name e)) /\
    r_insn r = canon addr (opcode_bytes pfx opc ++ nb) /\ mem = (opcode_bytes pfx opc ++ nb) ++ rest.
Lemma decode_piece d ty mem addr size r rest : reads_as d -> Forall byte mem -> mem <> [] -> 0 <= addr < 2^16 ->
  dis_decode_from d (i8080_decodeImpl d ty zl) mem addr size = Val (r, rest) -> i_err (r_insn r) = OK ->
  decodes ty (da_uppercase d) mem addr r rest.
Proof.
  intros RD FM NE A H E. pose proof RD as (SY & RA & DA). unfold dis_decode_from in H. rewrite DA in H.
  rewrite (checkAddr_false 16 addr) in H by lia. destruct (Z.leb_spec (2 ^ 16) addr) as [X|_]; [lia|]. cbn [andb isOK err_eqb negb] in H.
  rewrite canon_new in H. destruct mem as [|c0 mem]; [congruence|]. apply Forall_byte_head in FM as (C0 & FM).
  destruct (i8080_decodeImpl d ty zl _) as [s'| | | |] eqn:DI; try discriminate. cbn [bind] in H. injection H as <- <-.
  cbn [r_insn M_Dis.r_name r_operands] in *.
  assert (SO : s_ok s').
  { change (i_err (i_seterr (d_err (t_in s')) (d_insn (t_in s')))) with (d_err (t_in s')) in E.
    destruct (isOK (d_err (t_in s'))) eqn:X.
    - apply isOK_e in X. split; [exact X|exact E].
    - cbn [i_err i_seterr] in E. rewrite E in X. discriminate. }
  unfold i8080_decodeImpl in DI. fold (at_ addr [] (c0 :: mem) [] (mkB [] (size - 1) OK (Some (da_uppercase d)))) in DI.
  rewrite t_byte_at in DI by (auto; cbn; lia). cbn [app] in DI.
  set (out := mkB [] (size - 1) OK (Some (da_uppercase d))) in *.
  assert (FINAL : forall pfx opc bs0 mem0 st, bs0 = opcode_bytes pfx opc -> In pfx [0; 0xED] -> byte opc -> Forall byte mem0 ->
     (length bs0 <= 2)%nat -> st = mkDst (M_Insn.mkD (canon addr bs0) mem0 OK) [] out -> c0 :: mem = bs0 ++ mem0 ->
     decode_opcode d ty zl pfx opc st = Val s' ->
     decodes ty (da_uppercase d) (c0 :: mem) addr
       (mkDec (if isOK (i_err (i_seterr (d_err (t_in s')) (d_insn (t_in s'))))
        then i_seterr (b_err (t_out s')) (i_seterr (d_err (t_in s')) (d_insn (t_in s')))
        else i_seterr (d_err (t_in s')) (d_insn (t_in s'))) (t_name s') (b_txt (t_out s'))) (d_mem (t_in s'))).
  { intros pfx opc bs0 mem0 st -> IP BO FM0 L -> EM DO.
    assert (L8 : (length (opcode_bytes pfx opc) <= 8)%nat) by lia.
    destruct (decode_insn d ty zl pfx opc addr _ mem0 OK [] out s' RD L8 FM0 BO DO SO) as (e & t & nb & m & SE & -> & -> & E0 & TW).
    exists pfx, opc, e, nb. cbn [r_operands M_Dis.r_name r_insn]. repeat (split; [first [assumption|reflexivity]|]). rewrite EM, <- app_assoc. reflexivity. }
  destruct (i8080_isPrefix ty c0) eqn:IP.
  - assert (c0 = 0xED) as -> by (unfold i8080_isPrefix in IP; lia).
    destruct mem as [|c1 mem].
    + destruct (t_byte_nil addr [0xED] [] out) as (s1 & B & N). rewrite B in DI.
      destruct (isOK (d_err (t_in s1))) eqn:X; [apply isOK_e in X; congruence|]. cbn [negb] in DI. injection DI as <-.
      destruct SO as (SO & _). rewrite SO in X. discriminate.
    + apply Forall_byte_head in FM as (C1 & FM). rewrite t_byte_at in DI by (auto; cbn; lia). cbn [app] in DI.
      change (isOK (d_err (t_in (at_ addr [0xED; c1] mem [] out)))) with true in DI. cbn [negb] in DI.
      exact (FINAL 0xED c1 [0xED; c1] mem _ eq_refl ltac:(cbn; auto) C1 FM ltac:(cbn; lia) eq_refl eq_refl DI).
  - exact (FINAL 0 c0 [c0] mem _ eq_refl ltac:(cbn; auto) C0 FM ltac:(cbn; lia) eq_refl eq_refl DI).
Qed.

(* ------------------------------------------------------------ a line in the driver *)
Definition sp := p_symbol pl_i8080.
Definition the8080 (ty : Z) : drv i8080 := mkDrv [mk8080 ty zl 16 false] 0 empty_store.
Lemma empty_functions depth loc delim n : functions_of depth empty_store loc delim n = None.
Proof. unfold functions_of. destruct depth; reflexivity. Qed.
Lemma blanks6 : blanks (repeat 32 6).
Proof. repeat constructor. Qed.
Lemma blanks_repeat k : blanks (repeat 32 k).
Proof. apply Forall_forall. intros c I. apply repeat_spec in I. now subst c. Qed.
Lemma word_start nm z : insn_word sp nm = true -> is_space (peek nm) = false -> nm <> [] ->
  eol_semicolon (nm ++ z) = (false, nm ++ z) /\ skipSpaces (nm ++ z) = nm ++ z.
Proof.
  intros W H N. destruct nm as [|c nm]; [congruence|]. cbn [peek] in H. apply eol_false; cbn [app peek]; [exact H| |].
  - intros ->. vm_compute in W. discriminate.
  - intros ->. vm_compute in W. discriminate.
Qed.
(* a line that starts with blanks and a name *)
Lemma dir_line (v : env i8080) k o nm z i d src : e_ops v = ops_8080 -> insn_word sp nm = true -> is_space (peek nm) = false -> nm <> [] ->
  y_insn_letter sp (peek z) = false ->
  dir_encode v k o (repeat 32 6 ++ nm ++ z) i d src =
  bind (bind (processPseudo v pl_i8080 intel_pseudos (i_addr i) nm (mkLst OK (skipSpaces z) [] v_undef d src)) (fun '(e, s) =>
              let '(eol, p) := eol_semicolon (l_scan s) in
              let s := if isOK e && negb eol then ls_err GARBAGE_AT_END s else s in
              Val (e, s)))
      (fun '(e, s) =>
        let s :=
          if Nat.eqb (length (l_label s)) 0 then s
          else if reportDuplicate v && hasSymbol (l_label s) (l_store s) then ls_err (setErrorIfAt (l_err s) DUPLICATE_LABEL) s
          else ls_store (snd (internSymbol (setUnsigned (i_addr i)) (l_label s) false (l_store s))) s in
        if negb (err_eqb e UNKNOWN_DIRECTIVE) then
          Val (mkEnc (l_err s) (l_err s) (l_value s) i (i_addr i) (l_drv s) (l_sources s))
        else
            let st := l_store s in
            bind (encode_8080 o (symbols_of st) (functions_of (e_depth v) st (i_addr i) 0) (i_addr i) (nm ++ z) i) (fun '(i, loc, o) =>
              let e := i_err i in
              let e := if negb (reportUndefined v) && err_eqb e UNDEFINED_SYMBOL then OK else e in
              let d := mkDrv (obj_set k o (dr_objs (l_drv s))) (dr_cur (l_drv s)) (dr_store (l_drv s)) in
              Val (mkEnc e e (l_value s) i loc d (l_sources s)))).
Proof.
  intros EO W H N L. destruct (word_start nm z W H N) as (EL & SK).
  unfold dir_encode. rewrite EO. cbn [ops_8080 op_pl op_pseudos op_encode]. cbv zeta.
  assert (PE : p_line pl_i8080 (repeat 32 6 ++ nm ++ z) = (false, nm ++ z)).
  { change (p_line pl_i8080) with eol_semicolon. unfold eol_semicolon in *. rewrite skip_blanks by exact blanks6. exact EL. }
  rewrite PE. cbn [fst].
  assert (RL : readLabel (p_symbol pl_i8080) (repeat 32 6 ++ nm ++ z) = None) by reflexivity.
  rewrite RL. rewrite skip_blanks by exact blanks6. change (p_eol pl_i8080) with eol_semicolon. rewrite SK, EL. cbv iota.
  assert (RI : readInstruction (p_symbol pl_i8080) (nm ++ z) = Some (nm, z)).
  { unfold readInstruction. rewrite insn_letters_app by assumption. destruct nm; [congruence|reflexivity]. }
  rewrite RI. cbv iota beta. unfold ls_scan at 1. cbn [l_err l_label l_value l_drv l_sources].
  destruct (processPseudo v pl_i8080 intel_pseudos (i_addr i) nm _) as [[e s]| | | |]; cbn [bind]; try reflexivity.
  destruct (eol_semicolon (l_scan s)) as [eol p]. cbn [bind]. cbv zeta. rewrite EL. reflexivity.
Qed.

(* the names of the instructions: no pseudo instruction has one of them, and their letters print *)
Definition fine_name (nm : text) : bool :=
  match pseudo_find nm intel_pseudos with None => true | Some _ => false end && forallb (fun c => (32 <=? c) && (c <=? 126)) nm.
Definition check_name (z k : bool) (ty pfx opc : Z) : bool :=
  match i8080_searchOpCode ty z pfx opc with
  | Val (Some e) => fine_name (map (conv (Some k)) (entry_name e))
  | _ => true
  end.
Lemma names_ok : forallb (fun z => forallb (fun k => forallb (fun ty => forallb (fun pfx => forallb (check_name z k ty pfx) all_opcodes)
    [0; 0xED]) [I8080; I8085; V30EMU]) [false; true]) [false; true] = true.
Proof. vm_compute. reflexivity. Qed.
Lemma name_at k ty pfx opc e : In ty [I8080; I8085; V30EMU] -> In pfx [0; 0xED] -> byte opc ->
  i8080_searchOpCode ty zl pfx opc = Val (Some e) -> fine_name (map (conv (Some k)) (entry_name e)) = true.
Proof.
  intros T P O SO. pose proof names_ok as H.
  rewrite forallb_forall in H. specialize (H zl ltac:(destruct zl; cbn; auto)).
  rewrite forallb_forall in H. specialize (H k ltac:(destruct k; cbn; auto)).
  rewrite forallb_forall in H. specialize (H ty T).
  rewrite forallb_forall in H. specialize (H pfx P).
  rewrite forallb_forall in H. specialize (H opc). unfold check_name in H. rewrite SO in H. apply H.
  unfold all_opcodes. apply in_map_iff. exists (Z.to_nat opc). unfold byte in O. split; [lia|]. apply in_seq. lia.
Qed.
Lemma name_facts k ty pfx opc e : In ty [I8080; I8085; V30EMU] -> In pfx [0; 0xED] -> byte opc ->
  i8080_searchOpCode ty zl pfx opc = Val (Some e) ->
  let nm := map (conv (Some k)) (entry_name e) in
  firstn 11 nm = nm /\ nm <> [] /\ (length nm <= 11)%nat /\ insn_word sp nm = true /\ is_space (peek nm) = false /\
  pseudo_find nm intel_pseudos = None /\ Forall printable nm.
Proof.
  intros T P O SO nm. pose proof (check_at k ty zl pfx opc T P O) as CK. pose proof (name_at k ty pfx opc e T P O SO) as F. fold nm in F.
  unfold check in CK. rewrite SO in CK. cbv zeta in CK. apply andb_true_iff in CK. destruct CK as (PN & _). fold nm in PN.
  unfold plain_name in PN. rewrite !andb_true_iff in PN. destruct PN as (((((W & H) & L1) & L11) & _) & _).
  apply Nat.leb_le in L1. apply Nat.leb_le in L11. apply negb_true_iff in H. unfold fine_name in F. apply andb_true_iff in F. destruct F as (F1 & F2).
  split; [now apply firstn_all2|]. split; [intros E; rewrite E in L1; cbn in L1; lia|]. split; [exact L11|]. split; [exact W|]. split; [exact H|].
  split; [destruct (pseudo_find nm intel_pseudos); [discriminate|reflexivity]|]. apply printable_text. exact F2.
Qed.

Lemma reset_fresh a i : i_ub i = false -> i_reset a 0 i = new_insn a.
Proof. intros U. unfold i_reset. rewrite U. reflexivity. Qed.
Lemma insn_step (v : env i8080) ty k mem addr r rest j p : e_ops v = ops_8080 -> In ty [I8080; I8085; V30EMU] -> (1 <= j)%nat ->
  decodes ty k mem addr r rest -> 0 <= addr < 2^16 ->
  ps_drv p = the8080 ty -> ps_origin p = addr -> i_ub (ps_insn p) = false ->
  forall line, line = repeat 32 6 ++ M_Dis.r_name r ++ spaced (r_operands r) j ->
  exists bs, r_insn r = canon addr bs /\ mem = bs ++ rest /\ (1 <= length bs <= 3)%nat /\ Forall printable (M_Dis.r_name r) /\
    (1 <= length (M_Dis.r_name r) <= 11)%nat /\
    pass_line v line p = Val (OK, mkPass (the8080 ty) (ps_sources p) (write_bytes addr bs (ps_memory p))
      (addr + Z.of_nat (length bs)) (canon addr bs) (mkItem line OK v_undef addr bs 1 :: ps_items p)).
Proof.
  intros EO T J (pfx & opc & e & nb & IP & BO & SO & TW & NM & RI & MM) A PD PO PU line EL.
  exists (opcode_bytes pfx opc ++ nb). split; [exact RI|]. split; [exact MM|].
  destruct (name_facts k ty pfx opc e T IP BO SO) as (F11 & NN & L11 & W & H & PF & PP).
  assert (LB : (1 <= length (opcode_bytes pfx opc ++ nb) <= 3)%nat).
  { split; [|eapply length_ok; eauto]. rewrite app_length. unfold opcode_bytes. destruct (pfx =? 0); cbn; lia. }
  split; [exact LB|]. rewrite NM, F11 in EL |- *. split; [exact PP|].
  split; [split; [destruct (map (conv (Some k)) (entry_name e)); [congruence|cbn; lia]|exact L11]|].
  set (nm := map (conv (Some k)) (entry_name e)) in *.
  assert (BP : byte pfx) by (unfold byte; cbn in IP; intuition lia).
  assert (CA : checkAddr 16 addr false = OK).
  { rewrite checkAddr_false by lia. destruct (Z.leb_spec (2^16) addr); [lia|reflexivity]. }
  assert (YL : y_insn_letter sp (peek (spaced (r_operands r) j)) = false).
  { unfold spaced. destruct (r_operands r); [reflexivity|]. destruct j; [lia|reflexivity]. }
  unfold pass_line. rewrite PD. cbn [the8080 dr_objs dr_cur nth_error]. rewrite PO, reset_fresh by exact PU.
  rewrite EL at 1. rewrite dir_line by assumption. unfold processPseudo. rewrite PF. cbn [bind]. cbn [l_scan].
  destruct (eol_semicolon (skipSpaces (spaced (r_operands r) j))) as [eol pp]. cbn [isOK err_eqb err_code Z.eqb andb bind l_label length Nat.eqb negb].
  change (l_store _) with empty_store. change (i_addr (new_insn addr)) with addr.
  set (fn := functions_of (e_depth v) empty_store addr 0).
  assert (GAP : exists gap, blanks gap /\ (gap <> [] \/ r_operands r = []) /\ spaced (r_operands r) j = gap ++ r_operands r ++ []).
  { unfold spaced. destruct (r_operands r) as [|c t].
    - exists []. split; [constructor|]. split; [now right|reflexivity].
    - exists (repeat 32 j). split; [apply blanks_repeat|]. split; [left; destruct j; [lia|discriminate]|now rewrite app_nil_r]. }
  destruct GAP as (gap & BG & NG & SP).
  pose proof (encode_ok k ty zl pfx opc e (r_operands r) nb (i8080_asm (symbols_of empty_store) fn 10) [] gap [] [] addr
    (check_at k ty zl pfx opc T IP BO) SO TW BP BO eq_refl eq_refl eq_refl) as EN.
  assert (TF : total_functions (i8080_asm (symbols_of empty_store) fn 10)).
  { intros n g G. cbn [a_function i8080_asm] in G. unfold fn in G. rewrite empty_functions in G. discriminate. }
  specialize (EN TF ltac:(constructor) BG NG ltac:(constructor) ltac:(now left) CA). cbn [app] in EN. fold nm in EN. rewrite F11 in EN.
  assert (ENC : encode_8080 (mk8080 ty zl 16 false) (symbols_of empty_store) fn addr (nm ++ spaced (r_operands r) j) (new_insn addr) =
    Val (canon addr (opcode_bytes pfx opc ++ nb), addr, mk8080 ty zl 16 false)).
  { unfold encode_8080, encode_line. unfold i8080_encode in EN. rewrite SP. cbv beta zeta.
    change (i_seterr OK (new_insn addr)) with (new_insn addr). change (i_addr (new_insn addr)) with addr.
    cbn [x_cpu x_zilog].
    rewrite EN. reflexivity. }
  rewrite ENC. cbn [bind].
  change (i_err (canon ?a ?b)) with OK. change (err_eqb OK UNDEFINED_SYMBOL) with false. rewrite andb_false_r. cbn [Pos.eqb negb bind the8080 n_drv dr_objs obj_set nth_error n_insn n_loc n_err n_value n_ret n_sources l_value l_sources l_drv dr_cur dr_store].
  rewrite EO. cbn [op_unit ops_8080]. rewrite canon_code. cbn [canon i_addr i_len].
  replace (Z.of_nat (length (opcode_bytes pfx opc ++ nb)) =? 0) with false by lia.
  rewrite Z.mul_1_r, Z.div_1_r. unfold u32. rewrite !Z.mod_small by lia.
  reflexivity.
Qed.
End Syntax.
