(** The F8: proof of the round trip. *)
From Coq Require Import String ZArith List Bool Lia ZifyBool.
From Verif Require Import M_Char M_Error M_Value M_Text M_StrBuffer M_Format M_Number M_Insn M_Config M_Operators
  M_Parsers M_Expr M_Directive M_Table T_Tables M_Asm M_Dis M_F3850Defs T_F3850 M_F3850
  S_Value S_Number S_Expr S_ExprTree S_Table P_StrBuffer P_Number P_NumberRead
  P_ExprRead P_ExprTree P_ExprCase P_Table P_Insn P_Config P_Value P_Directive P_AsmText P_CpuShape P_CpuGood P_CpuText.
Import ListNotations.
Open Scope string_scope.
Open Scope list_scope.
Local Open Scope Z_scope.

Definition reads_as (d : disasm) : Prop := da_symtab d = None /\ da_reads d np_fairchild /\ da_aw d = 16 /\
  (da_relative d = true -> In (da_cursym d) [42; 36; 46]).
Lemma f3850_reads uh uc oc rel cs ih cur : (rel = true -> In cur [42; 36; 46]) -> reads_as (f3850_dis uh uc oc rel cs ih cur None).
Proof.
  intros H. split; [reflexivity|]. split; [|split; [reflexivity|exact H]].
  apply all_reads. unfold da_formatter, f3850_dis. cbn [da_cstyle da_intelhex da_plug].
  assert (I : In np_fairchild family_parsers) by (cbn; auto 10).
  destruct cs; [apply universal_reads; auto|]. destruct ih; [apply universal_reads; auto|].
  split; [apply dec_reads, fb_all, I|]. split; [apply f_oct_reads|apply f_hex_reads].
Qed.
(* the symbol of the current location *)
Definition cur (d : disasm) : Z := if da_relative d then da_cursym d else 42.
Lemma cur_in d : reads_as d -> In (cur d) [42; 36; 46].
Proof. intros (_ & _ & _ & C). unfold cur. destruct (da_relative d); [now apply C|cbn; auto]. Qed.

(* ------------------------------------------------------------ what is printed *)
Inductive kind := K_bad | K_none | K_name (r : Z) | K_val (v : Z) | K_byte (low : Z) | K_addr | K_rel.
Definition kind_of (opc mode : Z) : kind :=
  let r := Z.land opc 15 in
  if mode =? M_REG then
    if r =? 15 then K_bad else if negb (decodeRegName opc =? REG_UNDEF) then K_name (decodeRegName opc) else K_val r
  else if mode =? M_C1 then K_val 1
  else if mode =? M_C4 then K_val 4
  else if mode =? M_IM3 then K_val (Z.land opc 7)
  else if (mode =? M_IOS) || (mode =? M_IM4) then if (mode =? M_IOS) && ((r =? 2) || (r =? 3)) then K_bad else K_val r
  else if mode =? M_IOA then K_byte 4
  else if mode =? M_IM8 then K_byte 0
  else if mode =? M_ADDR then K_addr
  else if mode =? M_REL then K_rel
  else if mode =? M_NONE then K_none
  else if mode =? M_J then K_name REG_J
  else if mode <? M_REG then K_name mode
  else K_none.
Definition kwidth (K : kind) : nat :=
  match K with K_bad | K_none | K_name _ | K_val _ => 0 | K_byte _ | K_rel => 1 | K_addr => 2 end.
Definition num := numeral np_fairchild.
Definition reg_text (r : Z) : text := match name_of r REG_ENTRIES with Some t => t | None => [] end.
(* the operand of kind [K], with the value [v], in the case [k], of the instruction at [addr] *)
Definition piece (d : disasm) (K : kind) (k : option bool) (addr : Z) (t : text) (nb : list Z) (v : Z) : Prop :=
  match K with
  | K_bad => False
  | K_none => t = [] /\ nb = [] /\ v = 0
  | K_name r => t = map (conv k) (reg_text r) /\ nb = [] /\ v = 0
  | K_val x => num t x /\ nb = [] /\ v = x
  | K_byte low => num t v /\ nb = [v] /\ byte v /\ low <= v
  | K_addr => exists hi lo, nb = [hi; lo] /\ byte hi /\ byte lo /\ v = 256 * hi + lo /\ num t v
  | K_rel => exists x, nb = [x] /\ byte x /\ v = u32 (u32 (addr + 1) + int8 x) /\ checkAddr 16 v false = OK /\
      (0 <= addr < 2^16 -> place_text np_fairchild (cur d) addr t v)
  end.
Definition R_piece (d : disasm) (K : kind) : rel := fun h t nb nm' =>
  nm' = h_nm h /\ exists v, piece d K (h_case h) (h_addr h) t nb v.
Ltac rel_out := cbn [h_case h_addr h_bs h_nm] in *.
Lemma good_reg d r : good 0 (R_piece d (K_name r)) (fun s => Val (t_put (outRegName r) s)).
Proof.
  eapply good_weaken; [apply le_n| |apply (good_put _ (reg_text r))].
  - intros h t nb nm' (-> & -> & ->). split; [reflexivity|]. exists 0. cbn [piece]. auto.
  - intros b. unfold outRegName, reg_text. now destruct (name_of r REG_ENTRIES).
Qed.
Lemma good_val d x f : good 0 (R_num np_fairchild x) f -> good 0 (R_piece d (K_val x)) f.
Proof.
  apply good_weaken; [apply le_n|]. intros h t nb nm' (-> & -> & N). split; [reflexivity|]. exists x. cbn [piece]. auto.
Qed.
Lemma good_failed d n R f : good n R f -> good n (R_piece d K_bad) (fun s => f (t_setErrorIf OPERAND_NOT_ALLOWED s)).
Proof.
  intros G. apply (good_ext _ _ (fun s => bind (Val (t_setErrorIf OPERAND_NOT_ALLOWED s)) f)); [reflexivity|].
  eapply good_weaken; [apply le_n| |apply (good_seq 0 n _ _ (fun s => Val (t_setErrorIf OPERAND_NOT_ALLOWED s)) f (good_check OPERAND_NOT_ALLOWED) G)].
  intros h t nb nm' (t1 & t2 & n1 & n2 & nm1 & _ & _ & (Q & _) & _). discriminate.
Qed.
Lemma good_byte8 d low : reads_as d -> good 1 (R_piece d (K_byte low))
  (fun s => let '(v, s) := t_byte s in t_print (dis_outHex d v 8 true) (if v <? low then t_setErrorIf OPERAND_NOT_ALLOWED s else s)).
Proof.
  intros (SY & RD & AW & _).
  set (g := fun v s => t_print (dis_outHex d v 8 true) (if v <? low then t_setErrorIf OPERAND_NOT_ALLOWED s else s)).
  set (R := fun v => if v <? low then (fun _ _ _ _ => False) : rel else R_num np_fairchild v).
  assert (G : forall v, byte v -> good 0 (R v) (g v)).
  { intros v V. assert (P : good 0 (R_num np_fairchild v) (t_print (dis_outHex d v 8 true))) by (apply good_hex; auto; unfold byte in *; lia).
    unfold R, g. destruct (v <? low); [|exact P].
    eapply good_weaken; [apply le_n| |exact (good_failed d _ _ _ P)]. intros h t nb nm' (_ & x & []). }
  eapply good_weaken; [apply le_n| |apply (good_byte 0 R g G)].
  - intros h t nb nm' (v & nb' & -> & B & Q). unfold R in Q. destruct (Z.ltb_spec v low); [destruct Q|]. destruct Q as (-> & -> & N).
    split; [reflexivity|]. exists v. cbn [piece]. auto.
  - intros v s s' H E. unfold g in H. apply (keeps_print _ _ _ H) in E. destruct (v <? low); [|exact E].
    apply (g_keeps _ _ _ (good_check OPERAND_NOT_ALLOWED) s _ eq_refl E).
  - intros v. unfold g. destruct (v <? low); [|apply frame_print].
    apply (frame_seq (fun s => Val (t_setErrorIf OPERAND_NOT_ALLOWED s)) (t_print (dis_outHex d v 8 true))); [apply keeps_print|apply (g_frame _ _ _ (good_check _))|apply frame_print].
Qed.
Lemma good_addr d : reads_as d -> good 2 (R_piece d K_addr) (fun s => let '(v, s) := t_uint16Be s in t_print (outAbsAddr d v 0) s).
Proof.
  intros (SY & RD & AW & _).
  eapply good_weaken; [apply le_n| |apply (good_be 0 (fun v => R_num np_fairchild v))].
  - intros h t nb nm' (hi & lo & nb' & -> & BH & BL & -> & -> & N). rel_out. split; [reflexivity|]. exists (256 * hi + lo), hi, lo. auto 10.
  - intros v V. apply (good_abs d np_fairchild v 0 16); auto; rewrite ?AW; cbn [Z.eqb]; lia.
  - intros v. apply keeping_print.
Qed.
Lemma good_branch d : reads_as d -> good 1 (R_piece d K_rel) (decodeRelative d).
Proof.
  intros RA. pose proof (cur_in d RA) as CI. destruct RA as (SY & RD & AW & CS).
  set (tg := fun v (i : insn) => u32 (u32 (i_addr i + 1) + int8 v)).
  apply (good_ext _ _ (fun s => let '(v, s) := t_byte s in let i := d_insn (t_in s) in
      t_print (outRelAddr d (tg v i) (i_addr i) 8) (t_setErrorIf (checkAddr (da_aw d) (tg v i) false) s))).
  { intros s. unfold decodeRelative. now destruct (t_byte s). }
  eapply good_weaken; [apply le_n| |apply (good_branch8 d np_fairchild (cur d) tg SY RD)].
  - intros h t nb nm' (-> & x & -> & B & CK & P). split; [reflexivity|]. rewrite AW in *. unfold tg in *. cbn [canon i_addr] in *.
    exists (u32 (u32 (h_addr h + 1) + int8 x)), x. split; [reflexivity|]. split; [exact B|]. split; [reflexivity|]. split; [exact CK|]. intros AR.
    apply P; [exact AR|]. destruct (rel_target (h_addr h + 1) x ltac:(lia) CK) as (-> & _). pose proof (int8_range x). lia.
  - rewrite AW. lia.
  - unfold cur. intros ->. reflexivity.
  - cbn in CI. intuition (subst; reflexivity || (match goal with H : _ = cur d |- _ => rewrite <- H end; reflexivity)).
  - intros v i. unfold tg, u32. apply Z.mod_pos_bound. lia.
Qed.
Lemma good_operand d opc mode : reads_as d -> good (kwidth (kind_of opc mode)) (R_piece d (kind_of opc mode)) (decodeOperand d opc mode).
Proof.
  intros RA. pose proof RA as (SY & RD & AW & _). unfold decodeOperand, kind_of. cbv zeta.
  assert (R4 : 0 <= Z.land opc 15 < 2^4) by (change 15 with (Z.ones 4); rewrite (Z.land_ones opc 4) by lia; apply Z.mod_pos_bound; lia).
  assert (R3 : 0 <= Z.land opc 7 < 2^3) by (change 7 with (Z.ones 3); rewrite (Z.land_ones opc 3) by lia; apply Z.mod_pos_bound; lia).
  assert (GD : forall v bits, 0 <= v < 2 ^ bits -> 1 <= bits <= 32 -> good 0 (R_piece d (K_val v)) (t_print (dis_outDec d v bits))).
  { intros v bits V B. apply good_val. now apply good_dec. }
  assert (GH : forall v bits, 0 <= v < 2 ^ bits -> 1 <= bits <= 32 -> good 0 (R_piece d (K_val v)) (t_print (dis_outHex d v bits true))).
  { intros v bits V B. apply good_val. now apply good_hex. }
  assert (GN : good 0 (R_piece d K_none) (fun s => Val s)).
  { eapply good_weaken; [apply le_n| |apply good_none]. intros h t nb nm' (-> & -> & ->). split; [reflexivity|]. exists 0. cbn. auto. }
  destruct (mode =? M_REG).
  { destruct (Z.land opc 15 =? 15).
    - destruct (negb _).
      + apply (good_failed d 0 _ _ (good_reg d (decodeRegName opc))).
      + apply (good_failed d 0 _ _ (GD (Z.land opc 15) 4 R4 ltac:(lia))).
    - destruct (negb _); [apply good_reg|]. apply GD; lia. }
  destruct (mode =? M_C1); [apply GD; lia|].
  destruct (mode =? M_C4); [apply GD; lia|].
  destruct (mode =? M_IM3); [apply GH; lia|].
  destruct (_ || _).
  { destruct (_ && _); [|apply GH; lia]. apply (good_failed d 0 _ _ (GH (Z.land opc 15) 4 R4 ltac:(lia))). }
  destruct (mode =? M_IOA); [now apply good_byte8|].
  destruct (mode =? M_IM8).
  { apply (good_ext _ _ (fun s => let '(v, s) := t_byte s in t_print (dis_outHex d v 8 true) s)); [reflexivity|].
    eapply good_weaken; [apply le_n| |apply (good_byte 0 (fun v => R_num np_fairchild v))].
    - intros h t nb nm' (v & nb' & -> & B & -> & -> & N). split; [reflexivity|]. exists v. cbn [piece]. unfold byte in *. repeat split; auto; lia.
    - intros v V. apply good_hex; auto; unfold byte in *; lia.
    - intros v. apply keeps_print.
    - intros v. apply frame_print. }
  destruct (mode =? M_ADDR); [now apply good_addr|].
  destruct (mode =? M_REL); [now apply good_branch|].
  destruct (mode =? M_NONE); [exact GN|].
  destruct (mode =? M_J); [apply good_reg|].
  destruct (mode <? M_REG); [apply good_reg|exact GN].
Qed.

(* ------------------------------------------------------------ a whole instruction *)
Definition look (o : Z) : option entry := match find_opcode o with Val r => r | _ => None end.
Definition look_ok (o : Z) : bool :=
  match find_opcode o with
  | Val None => true
  | Val (Some e) => (negb (e_m1 e =? M_NONE) || (e_m2 e =? M_NONE)) && (kwidth (kind_of o (e_m1 e)) + kwidth (kind_of o (e_m2 e)) <=? 2)%nat
  | _ => false
  end.
Lemma look_check : forallb look_ok all_bytes = true.
Proof. vm_compute. reflexivity. Qed.
Lemma look_at o : byte o -> look_ok o = true.
Proof. intros O. pose proof look_check as H. rewrite forallb_forall in H. apply H, all_in, O. Qed.
Definition more_op (d : disasm) (o mode : Z) : step :=
  if mode =? M_NONE then fun s => Val s else fun s => bind (Val (t_put comma s)) (decodeOperand d o mode).
Definition chain (d : disasm) (o : Z) : step :=
  match look o with
  | None => fun s => Val (t_setErrorIf UNKNOWN_INSTRUCTION s)
  | Some e => fun s => bind (Val (t_readName (entry_name e) s)) (fun s => bind (decodeOperand d o (e_m1 e) s) (more_op d o (e_m2 e)))
  end.
Lemma chain_start d o s : byte o -> decode_opcode d o s = chain d o (t_seterr OK s).
Proof.
  intros O. pose proof (look_at o O) as LO. unfold decode_opcode, chain, look, look_ok in *. cbv zeta.
  destruct (find_opcode o) as [[e|]| | | |]; try discriminate; cbn [bind]; [|reflexivity].
  apply andb_true_iff in LO. destruct LO as (LO & _). unfold more_op. destruct (Z.eqb_spec (e_m1 e) M_NONE) as [->|N]; cbn [negb orb] in LO.
  - rewrite LO. reflexivity.
  - destruct (decodeOperand _ _ _ _) as [s1| | | |]; try reflexivity. cbn [bind]. now destruct (e_m2 e =? M_NONE).
Qed.
Definition R_more (d : disasm) (o mode : Z) : rel :=
  if mode =? M_NONE then R_none else R_seq (R_text (fun _ t => t = [44; 32])) (R_piece d (kind_of o mode)).
Definition R_chain (d : disasm) (o : Z) : rel := fun h t nb nm' => exists e, look o = Some e /\
  R_seq (R_name (entry_name e)) (R_seq (R_piece d (kind_of o (e_m1 e))) (R_more d o (e_m2 e))) h t nb nm'.
Definition n_chain (o : Z) : nat :=
  match look o with Some e => kwidth (kind_of o (e_m1 e)) + kwidth (kind_of o (e_m2 e)) | None => 0 end.
Lemma good_more d o mode : reads_as d -> good (kwidth (kind_of o mode)) (R_more d o mode) (more_op d o mode).
Proof.
  intros RD. unfold R_more, more_op. destruct (Z.eqb_spec mode M_NONE) as [->|_].
  - apply good_none.
  - apply (good_seq 0 _ _ _ (fun s => Val (t_put comma s))); [apply good_comma|now apply good_operand].
Qed.
Lemma good_chain d o : reads_as d -> good (n_chain o) (R_chain d o) (chain d o).
Proof.
  intros RD. unfold n_chain, chain, R_chain. destruct (look o) as [e|].
  - pose proof (good_seq 0 _ _ _ _ _ (good_name (entry_name e)) (good_seq _ _ _ _ _ _ (good_operand d o (e_m1 e) RD) (good_more d o (e_m2 e) RD))) as G.
    eapply good_weaken; [apply le_n| |exact G]. intros h t nb nm' Q. exists e. auto.
  - eapply good_weaken; [apply le_n| |apply good_check]. intros h t nb nm' (Q & _). discriminate.
Qed.
Lemma chain_len o : byte o -> (1 + n_chain o <= 3)%nat.
Proof.
  intros O. pose proof (look_at o O) as LO. unfold n_chain, look_ok, look in *. destruct (find_opcode o) as [[e|]| | | |]; lia.
Qed.

(* ------------------------------------------------------------ reading it back *)
Definition famF8 : family := mkFam pl_f3850 prefix_c infix_c (s2l "$HhBbOoDd").
Definition numhead (u : text) : Prop := is_digit (peek u) = true \/ peek u = 36 \/ quoted [72; 104; 66; 98; 79; 111; 68; 100] u.
Lemma num_head u n : num u n -> numhead u.
Proof.
  intros N. specialize (N [] Logic.I). rewrite app_nil_r in N. unfold np_fairchild in N.
  destruct (_ && _) eqn:E; [right; left; lia|]. destruct (ibm_head _ _ _ _ _ _ N) as [H|H].
  - repeat (apply Forall_cons; [right; reflexivity|]). apply Forall_nil.
  - now left.
  - right; right. exact H.
Qed.
Lemma head_f8 u n : num u n -> head_ok famF8 u.
Proof.
  intros N. apply num_head in N. unfold head_ok. destruct N as [N|[N|(c & v & -> & I)]]; [auto| |].
  - right. rewrite N. cbn. auto.
  - right. cbn [peek fam_leads famF8 s2l c2z]. cbn in I. cbn. tauto.
Qed.
Lemma parse_placeF8 d a loc b0 t v b rest : reads_as d -> a_pl a = pl_f3850 -> a_radix a = 10 -> 0 <= loc < 2^32 -> 0 <= v < 2^32 ->
  place_text np_fairchild (cur d) loc t v -> blanks b0 -> blanks b -> tail rest ->
  exists b' w, blanks b' /\ parseInteger a loc (b0 ++ t ++ b ++ rest) OK 0 = Val (w, OK, b' ++ rest) /\ int_value w /\ int_of w = v.
Proof.
  intros RA PL RX LO V P B0 B T.
  destruct (parse_place famF8 a loc 0 (cur d) b0 t v b rest) as (b' & w & X1 & X2 & X3 & X4 & _); auto.
  - cbn. auto 20.
  - cbn. auto.
  - apply (cur_in d RA).
  - apply head_f8.
  - cbn. auto 30.
  - cbn. auto 30.
  - intros e I L r. cbn in I. repeat (destruct I as [<-|I]; [cbn in *; try lia; split; discriminate|]). contradiction.
  - destruct T as [->|(c & u & -> & C)]; [auto|]. right. exists c, u. tauto.
  - exists b', w. auto.
Qed.
Lemma names_f8 : names_ok REG_ENTRIES REG_UNDEF = true.
Proof. vm_compute. reflexivity. Qed.
Lemma reg_parse s : parseRegName s = parse_name REG_ENTRIES REG_UNDEF s.
Proof. reflexivity. Qed.
(* what starts an operand *)
Definition starts (t : text) : Prop := t <> [] /\ is_space (peek t) = false.
Lemma starts_skip b t z : blanks b -> starts t -> skipSpaces (b ++ t ++ z) = t ++ z.
Proof. intros B (N & S). rewrite skip_blanks by exact B. destruct t as [|c t]; [congruence|]. cbn [app]. now apply skip_none. Qed.
Lemma digit_space c : is_digit c = true -> is_space c = false.
Proof. unfold is_digit, is_space. lia. Qed.
Lemma place_noreg d loc t v z : reads_as d -> place_text np_fairchild (cur d) loc t v -> starts t /\ parseRegName (t ++ z) = Val (REG_UNDEF, t ++ z).
Proof.
  intros RA P. pose proof (cur_in d RA) as C. rewrite reg_parse.
  assert (L : forall u, starts (cur d :: u) /\ parse_name REG_ENTRIES REG_UNDEF ((cur d :: u) ++ z) = Val (REG_UNDEF, (cur d :: u) ++ z)).
  { intros u. split; [split; [discriminate|]|apply (name_none _ _ names_f8); left]; cbn [app peek]; cbn in C; intuition (match goal with H : _ = cur d |- _ => rewrite <- H end; reflexivity). }
  destruct P as [N|[(-> & _)|(u & n & [(-> & _)|(-> & _)] & _)]]; [|apply L..].
  apply num_head in N. destruct N as [N|[N|(c & u & -> & I)]].
  - destruct t as [|c t]; [discriminate|]. cbn [peek] in N. split; [split; [discriminate|now apply digit_space]|]. apply (name_none _ _ names_f8). right. exact N.
  - destruct t as [|c t]; [discriminate|]. cbn [peek] in N. subst c. split; [split; [discriminate|reflexivity]|]. apply (name_none _ _ names_f8). left. reflexivity.
  - cbn [app]. split.
    + split; [discriminate|]. cbn in I. cbn [peek]. repeat (destruct I as [<-|I]; [reflexivity|]). contradiction.
    + apply (name_quote _ _ names_f8). cbn in I. repeat (destruct I as [<-|I]; [reflexivity|]). contradiction.
Qed.
(* the registers *)
Definition regs : list Z := map snd REG_ENTRIES.
Definition reg_check (k : bool) (r : Z) : bool :=
  let w := map (conv (Some k)) (reg_text r) in
  word w && negb (is_space (peek w)) && match parseRegName w with Val (r', []) => r' =? r | _ => false end && negb (r =? REG_UNDEF).
Lemma reg_checks : forallb (fun k => forallb (reg_check k) regs) [false; true] = true.
Proof. vm_compute. reflexivity. Qed.
Lemma reg_read k r z : In r regs -> isNameLetter (peek z) = false ->
  starts (map (conv (Some k)) (reg_text r)) /\ parseRegName (map (conv (Some k)) (reg_text r) ++ z) = Val (r, z) /\ r <> REG_UNDEF.
Proof.
  intros R Z. pose proof reg_checks as H. rewrite forallb_forall in H. specialize (H k ltac:(destruct k; cbn; auto)). rewrite forallb_forall in H. specialize (H r R).
  unfold reg_check in H. cbv zeta in H. rewrite !andb_true_iff in H. destruct H as (((W & S) & P) & U). set (w := map _ _) in *.
  apply negb_true_iff in S. apply negb_true_iff, Z.eqb_neq in U. split; [|split; [|exact U]].
  - split; [|exact S]. intros E. rewrite E in W. discriminate.
  - rewrite reg_parse in *. apply name_app; auto. destruct (parse_name REG_ENTRIES REG_UNDEF w) as [[r' [|? ?]]| | | |]; try discriminate.
    apply Z.eqb_eq in P. now subst r'.
Qed.
Definition reg_mode (r : Z) : Z := if r <? REG_alias then r else if r =? REG_J then M_J else M_REG.
Definition cmodes : list Z := [M_C1; M_C4; M_IM3; M_IM8].
Definition modes_of (K : kind) : list Z :=
  match K with
  | K_bad => []
  | K_none => [M_NONE]
  | K_name r => [reg_mode r]
  | _ => cmodes
  end.
(* the operand [op] which is read *)
Definition reads (K : kind) (v : Z) (op : operand) : Prop :=
  In (o_mode op) (modes_of K) /\ o_err op = OK /\
  match K with
  | K_none => op = no_operand
  | K_name r => op = mkOp (reg_mode r) (setUnsigned (r - REG_alias)) OK
  | _ => int_value (o_val op) /\ int_of (o_val op) = v
  end.
Definition kind_ok (K : kind) : Prop := match K with K_name r => In r regs | K_val v => 0 <= v < 16 | K_byte low => 0 <= low | _ => True end.
Lemma piece_range d K k addr t nb v : kind_ok K -> piece d K k addr t nb v -> 0 <= v < 65536.
Proof.
  unfold byte in *. destruct K; cbn [piece kind_ok]; unfold byte; intros KO H.
  - contradiction.
  - lia.
  - lia.
  - lia.
  - lia.
  - destruct H as (hi & lo & _ & H1 & H2 & -> & _). lia.
  - destruct H as (x & _ & _ & -> & CK & _). apply C31_addr in CK; [|lia|unfold u32; apply Z.mod_pos_bound; lia].
    split; [unfold u32; apply Z.mod_pos_bound; lia|]. change 65536 with (2^16). tauto.
Qed.
Lemma cmode_ok w v : int_value w -> int_of w = v -> 0 <= v < 65536 ->
  exists m, In m cmodes /\ (if getSigned w =? 1 then mkOp M_C1 w OK
                    else if getSigned w =? 4 then mkOp M_C4 w OK
                    else if overflow w 7 0 then mkOp M_IM3 w OK
                    else if overflow w 15 0 then mkOp M_IM4 w OK
                    else if negb (overflowUint8 w) then mkOp M_IM8 w OK
                    else if negb (overflowUint16 w) then mkOp M_ADDR w OK
                    else mkOp M_NONE w OVERFLOW_RANGE) = mkOp m w OK.
Proof.
  intros IV IO V. unfold overflowUint8. rewrite !(over w v) by (auto; lia).
  destruct (getSigned w =? 1); [exists M_C1; cbn; auto|]. destruct (getSigned w =? 4); [exists M_C4; cbn; auto|].
  destruct (Z.ltb_spec 7 v); [exists M_IM3; cbn; auto|]. destruct (Z.ltb_spec 15 v); [lia|]. destruct (Z.ltb_spec 255 v); [lia|].
  cbn [negb]. exists M_IM8. split; [cbn; auto 10|reflexivity].
Qed.
Lemma parse_piece d K k addr t nb v a b0 b rest :
  reads_as d -> a_pl a = pl_f3850 -> a_radix a = 10 -> K <> K_none -> kind_ok K -> piece d K (Some k) addr t nb v ->
  0 <= addr < 2^16 -> blanks b0 -> blanks b -> tail rest ->
  starts t /\ exists b' op, blanks b' /\ parseOperand a addr (b0 ++ t ++ b ++ rest) = Val (OK, op, b' ++ rest) /\ reads K v op.
Proof.
  intros RA PL RX NK KO P AR B0 B T. pose proof (piece_range _ _ _ _ _ _ _ KO P) as VR.
  assert (AR' : 0 <= addr < 2^32) by lia. assert (VR' : 0 <= v < 2^32) by lia.
  assert (PLACE : place_text np_fairchild (cur d) addr t v -> modes_of K = cmodes -> (forall op, reads K v op <-> In (o_mode op) cmodes /\ o_err op = OK /\ int_value (o_val op) /\ int_of (o_val op) = v) ->
     starts t /\ exists b' op, blanks b' /\ parseOperand a addr (b0 ++ t ++ b ++ rest) = Val (OK, op, b' ++ rest) /\ reads K v op).
  { intros N MO RDS. destruct (place_noreg d addr t v (b ++ rest) RA N) as (ST & NR). split; [exact ST|].
    destruct (parse_placeF8 d a addr [] t v b rest RA PL RX AR' VR' N (Forall_nil _) B T) as (b' & w & B' & PI & IV & IO).
    destruct (cmode_ok w v IV IO VR) as (m & IM & EM). exists b', (mkOp m w OK). split; [exact B'|]. split; [|apply RDS; auto].
    unfold parseOperand. cbv zeta. rewrite (starts_skip b0 _ _ B0 ST), NR. cbn [bind]. change (REG_UNDEF =? REG_UNDEF) with true. cbn [negb].
    pose proof (starts_skip [] t (b ++ rest) (Forall_nil _) ST) as SK. cbn [app] in SK, PI. rewrite SK, PI. cbn [bind]. change (hasError OK) with false. cbv iota.
    now rewrite EM. }
  destruct K; cbn [piece kind_ok] in P, KO; [contradiction|congruence| | | | |].
  - destruct P as (-> & -> & ->). destruct (reg_read k r (b ++ rest) KO (tail_noname _ _ B T)) as (ST & RR & NU). split; [exact ST|].
    exists b, (mkOp (reg_mode r) (setUnsigned (r - REG_alias)) OK). split; [exact B|]. split.
    + unfold parseOperand. cbv zeta. rewrite (starts_skip b0 _ _ B0 ST), RR. cbn [bind]. apply Z.eqb_neq in NU. rewrite NU. reflexivity.
    + unfold reads. cbn [o_mode o_err modes_of In]. auto.
  - destruct P as (N & _ & ->). apply PLACE; [now left|reflexivity|]. intros op. unfold reads. tauto.
  - destruct P as (N & _). apply PLACE; [now left|reflexivity|]. intros op. unfold reads. tauto.
  - destruct P as (hi & lo & _ & _ & _ & _ & N). apply PLACE; [now left|reflexivity|]. intros op. unfold reads. tauto.
  - destruct P as (x & _ & _ & _ & _ & N). apply PLACE; [now apply N|reflexivity|]. intros op. unfold reads. tauto.
Qed.

(* ------------------------------------------------------------ bytes *)
Lemma emit8 x z addr e o : byte x -> u8 z = x -> ai_emitOperand8 z (mkAI (part addr 1 []) e o) = mkAI (part addr 1 [x]) e o.
Proof.
  intros X U. unfold ai_emitOperand8. rewrite U. cbn [ai_insn]. pose proof (part_byte x addr 1 [] X ltac:(cbn; lia)) as E. cbn [length Nat.add Z.of_nat app] in E.
  change (Pos.of_succ_nat 0) with 1%positive in E. rewrite E. reflexivity.
Qed.
Lemma emit16 hi lo z addr e o : byte hi -> byte lo -> u16 z = 256 * hi + lo ->
  ai_emitOperand16 z (mkAI (part addr 1 []) e o) = mkAI (part addr 1 [hi; lo]) e o.
Proof.
  intros X Y U. unfold ai_emitOperand16. rewrite U. cbn [ai_insn]. pose proof (part_be hi lo addr 1 [] X Y ltac:(cbn; lia)) as E. cbn [length Nat.add Z.of_nat app] in E.
  change (Pos.of_succ_nat 0) with 1%positive in E. rewrite E. reflexivity.
Qed.
Lemma noerr i e o : ai_setErrorIf OK (mkAI i e o) = mkAI i e o.
Proof. unfold ai_setErrorIf, setErrorIfAt. cbn. now rewrite andb_false_r. Qed.
Definition fits (K : kind) (m : Z) : bool :=
  match K with
  | K_bad => false
  | K_none => m =? M_NONE
  | K_name r => if m =? M_REG then (25 <=? r) && (r <=? 30) else (m =? reg_mode r) && (m <? M_REG)
  | K_val x => (m =? M_REG) && (x <? 15) || (m =? M_C1) && ((x =? 1) || (x =? 4)) || (m =? M_IM3) && (x <=? 7) || (m =? M_IM4) ||
      (m =? M_IOS) && negb ((x =? 2) || (x =? 3))
  | K_byte low => (m =? M_IM8) || (m =? M_IOA) && (4 <=? low)
  | K_addr => m =? M_ADDR
  | K_rel => m =? M_REL
  end.
Definition embed (K : kind) (m o : Z) : Z :=
  match K with
  | K_name r => if m =? M_REG then u8 (Z.lor o (Z.land (r - 16) 15)) else o
  | K_val x => if m =? M_REG then u8 (Z.lor o (Z.land x 15)) else if m =? M_C1 then if x =? 1 then o else u8 (o + 2)
      else if m =? M_IM3 then u8 (Z.lor o (Z.land x 7)) else u8 (Z.lor o (Z.land x 15))
  | _ => o
  end.
Lemma emit_piece d K k addr t nb v m op nb0 o :
  piece d K k addr t nb v -> kind_ok K -> fits K m = true -> reads K v op -> 0 <= addr < 2^16 -> nb0 = [] \/ kwidth K = 0%nat ->
  encodeOperand m op (mkAI (part addr 1 nb0) OK o) = Val (mkAI (part addr 1 (nb0 ++ nb)) OK (embed K m o)).
Proof.
  intros P KO F (IM & OE & RDS) AR W0. pose proof (piece_range _ _ _ _ _ _ _ KO P) as VR. unfold encodeOperand. cbv zeta. rewrite OE, noerr.
  destruct K; cbn [piece kind_ok fits embed kwidth] in *.
  - discriminate.
  - destruct P as (_ & -> & _). apply Z.eqb_eq in F. subst m. rewrite app_nil_r. reflexivity.
  - destruct P as (_ & -> & _). rewrite app_nil_r. subst op. cbn [o_val o_mode]. destruct (Z.eqb_spec m M_REG) as [->|NM].
    + cbn in KO. repeat (destruct KO as [<-|KO]; [try discriminate F; reflexivity|]). contradiction.
    + apply andb_true_iff in F. destruct F as (F & L). apply Z.eqb_eq in F. subst m. cbn in KO.
      repeat (destruct KO as [<-|KO]; [try discriminate L; reflexivity|]). contradiction.
  - destruct P as (_ & -> & ->). rewrite app_nil_r. destruct RDS as (IV & IO). rewrite !(over _ v0) by (auto; lia).
    rewrite (get_unsigned _ v0) by (auto; lia).
    rewrite !orb_true_iff in F. destruct F as [[[[F|F]|F]|F]|F].
    + apply andb_true_iff in F. destruct F as (F & L). apply Z.eqb_eq in F. subst m. change (M_REG =? M_REG) with true. cbv iota.
      destruct (Z.ltb_spec 15 v0); [lia|]. destruct (Z.eqb_spec v0 15); [lia|]. reflexivity.
    + apply andb_true_iff in F. destruct F as (F & L). apply Z.eqb_eq in F. subst m. cbn [Z.eqb M_C1 M_REG Pos.eqb].
      destruct (Z.eqb_spec v0 1); [reflexivity|]. destruct (Z.eqb_spec v0 4); [reflexivity|lia].
    + apply andb_true_iff in F. destruct F as (F & L). apply Z.eqb_eq in F. subst m. cbn [Z.eqb M_C1 M_IM3 M_REG Pos.eqb].
      destruct (Z.ltb_spec 7 v0); [lia|]. reflexivity.
    + apply Z.eqb_eq in F. subst m. cbn [Z.eqb M_C1 M_IM3 M_IM4 M_IOS M_REG Pos.eqb orb andb]. destruct (Z.ltb_spec 15 v0); [lia|]. reflexivity.
    + apply andb_true_iff in F. destruct F as (F & L). apply Z.eqb_eq in F. subst m. apply negb_true_iff in L. cbn [Z.eqb M_C1 M_IM3 M_IM4 M_IOS M_REG Pos.eqb orb andb].
      rewrite L. destruct (Z.ltb_spec 15 v0); [lia|]. reflexivity.
  - destruct W0 as [->|W0]; [|discriminate]. destruct P as (_ & -> & B & LO). destruct RDS as (IV & IO). unfold overflowUint8. rewrite !(over _ v) by (auto; lia).
    rewrite (get_unsigned _ v) by (auto; lia). unfold byte in B. assert (U : u8 v = v) by (unfold u8; now apply Z.mod_small).
    apply orb_true_iff in F. destruct F as [F|F].
    + apply Z.eqb_eq in F. subst m. cbn [Z.eqb M_C1 M_IM3 M_IM4 M_IOS M_IM8 M_IOA M_REG Pos.eqb orb andb]. destruct (Z.ltb_spec 255 v); [lia|]. now rewrite (emit8 v).
    + apply andb_true_iff in F. destruct F as (F & L). apply Z.eqb_eq in F. subst m. cbn [Z.eqb M_C1 M_IM3 M_IM4 M_IOS M_IM8 M_IOA M_REG Pos.eqb orb andb].
      change (isOK OK) with true. destruct (Z.ltb_spec 3 v); [|lia]. cbn [negb andb]. destruct (Z.ltb_spec 255 v); [lia|]. now rewrite (emit8 v).
  - destruct W0 as [->|W0]; [|discriminate]. destruct P as (hi & lo & -> & BH & BL & EV & _). destruct RDS as (IV & IO).
    apply Z.eqb_eq in F. subst m. cbn [Z.eqb M_C1 M_IM3 M_IM4 M_IOS M_IM8 M_IOA M_REG M_ADDR Pos.eqb orb andb]. rewrite (get_unsigned _ v) by (auto; lia).
    rewrite (emit16 hi lo); auto. rewrite <- EV. unfold u16. now apply Z.mod_small.
  - destruct W0 as [->|W0]; [|discriminate]. destruct P as (x & -> & X & EV & CK & _). destruct RDS as (IV & IO).
    apply Z.eqb_eq in F. subst m. cbn [Z.eqb M_C1 M_IM3 M_IM4 M_IOS M_IM8 M_IOA M_REG M_ADDR M_REL Pos.eqb orb andb].
    unfold emitRelative. cbv zeta. cbn [ai_insn ai_err part canon i_addr]. rewrite OE. change (isOK OK) with true. cbn [negb]. rewrite (get_unsigned _ v) by (auto; lia).
    rewrite EV in CK. destruct (rel_target (addr + 1) x ltac:(lia) CK) as (TG & TR). rewrite TG in EV.
    replace (u32 (addr + 1)) with (addr + 1) by (unfold u32; symmetry; apply Z.mod_small; lia). pose proof (int8_range x).
    rewrite branch_near by (try change (2^16) with 65536; try change (2^(16-1)) with 32768; lia).
    replace (v - (addr + 1)) with (int8 x) by lia.
    destruct (C30_delta (int8 x) 8 ltac:(lia)) as (far & -> & FAR). assert (far = false) as -> by (apply FAR; change (2^(8-1)) with 128; lia).
    unfold ai_seterr. cbn [ai_insn ai_opc]. change (canon addr []) with (part addr 1 []). rewrite (emit8 x); [reflexivity|exact X|].
    unfold u8. change (2^8) with 256. now apply int8_back.
Qed.

(* ------------------------------------------------------------ every opcode *)
Definition is_none (K : kind) : bool := match K with K_none => true | _ => false end.
Definition kind_okb (K : kind) : bool := match K with K_name r => existsb (Z.eqb r) regs | K_val v => (0 <=? v) && (v <? 16) | K_byte low => 0 <=? low | _ => true end.
Lemma kind_okb_ok K : kind_okb K = true -> kind_ok K.
Proof.
  destruct K; cbn [kind_okb kind_ok]; auto; try lia. intros H. apply existsb_exists in H. destruct H as (x & I & E). apply Z.eqb_eq in E. now subst.
Qed.
Definition check_one (k : option bool) (opc : Z) (nm : text) (K1 K2 : kind) : bool :=
  let nm := map (conv k) nm in
  plain_name sp_fairchild [] f3850_directives nm && is_alpha (peek nm) &&
  match hasOperand nm with Val h => Bool.eqb h (negb (is_none K1)) | _ => false end &&
  (negb (is_none K1) || is_none K2) && ((kwidth K1 =? 0)%nat || (kwidth K2 =? 0)%nat) && kind_okb K1 && kind_okb K2 &&
  forallb (fun om1 => forallb (fun om2 =>
    match f3850_searchName nm om1 om2 with
    | Val (OK, Some e') => fits K1 (e_m1 e') && fits K2 (e_m2 e') && (embed K2 (e_m2 e') (embed K1 (e_m1 e') (e_opc e')) =? opc)
    | _ => false
    end) (modes_of K2)) (modes_of K1).
Definition check (k : option bool) (opc : Z) : bool :=
  match look opc with
  | None => true
  | Some e =>
    let K2 := kind_of opc (e_m2 e) in
    Bool.eqb (is_none K2) (e_m2 e =? M_NONE) && check_one k opc (entry_name e) (kind_of opc (e_m1 e)) K2
  end.
Lemma check_ok : forallb (fun k => forallb (check (Some k)) all_bytes) [false; true] = true.
Proof. vm_compute. reflexivity. Qed.
Lemma check_at k opc : byte opc -> check (Some k) opc = true.
Proof.
  intros O. pose proof check_ok as H. rewrite forallb_forall in H. specialize (H k ltac:(destruct k; cbn; auto)).
  rewrite forallb_forall in H. apply H, all_in, O.
Qed.
Lemma is_none_ok K : is_none K = true <-> K = K_none.
Proof. destruct K; cbn; split; congruence. Qed.
(* the operands of an instruction *)
Definition sep (K : kind) : text := if is_none K then [] else [44; 32].
Definition two (d : disasm) (k : option bool) (addr : Z) (K1 K2 : kind) (t : text) (nb : list Z) : Prop :=
  exists t1 t2 n1 n2 v1 v2, piece d K1 k addr t1 n1 v1 /\ piece d K2 k addr t2 n2 v2 /\ t = t1 ++ sep K2 ++ t2 /\ nb = n1 ++ n2.
Lemma more_piece d o mode h t nb nm' : is_none (kind_of o mode) = (mode =? M_NONE) -> R_more d o mode h t nb nm' ->
  nm' = h_nm h /\ exists u v, piece d (kind_of o mode) (h_case h) (h_addr h) u nb v /\ t = sep (kind_of o mode) ++ u.
Proof.
  intros N. unfold R_more, sep. rewrite N. destruct (mode =? M_NONE).
  - intros (-> & -> & ->). split; [reflexivity|]. exists [], 0. apply is_none_ok in N. rewrite N. cbn. auto.
  - intros (t1 & t2 & n1 & n2 & nm1 & -> & -> & (-> & -> & ->) & -> & v & P). rel_out. split; [reflexivity|]. exists t2, v. auto.
Qed.
Lemma chain_two d o k h t nb nm' : byte o -> h_case h = Some k -> R_chain d o h t nb nm' ->
  exists nm K1 K2, check_one (Some k) o nm K1 K2 = true /\ nm' = firstn 11 (map (conv (Some k)) nm) /\ two d (Some k) (h_addr h) K1 K2 t nb.
Proof.
  intros O HC (e & L & Q). pose proof (check_at k o O) as CK. unfold check in CK. rewrite L in CK. cbv zeta in CK.
  rewrite andb_true_iff in CK. destruct CK as (N2 & CK). apply eqb_prop in N2.
  destruct Q as (t0 & tr & n0 & nr & nm1 & -> & -> & (-> & -> & ->) & t1 & t2 & n1 & n2 & nm2 & -> & -> & Q1 & Q2).
  rel_out. rewrite ?app_nil_r in *. rewrite HC in *.
  destruct (more_piece _ _ _ _ _ _ _ N2 Q2) as (-> & u2 & v2 & P2 & ->). rel_out. destruct Q1 as (-> & v1 & P1). rel_out. rewrite ?HC in *.
  exists (entry_name e), (kind_of o (e_m1 e)), (kind_of o (e_m2 e)). split; [exact CK|]. split; [reflexivity|].
  exists t1, u2, n1, n2, v1, v2. cbn [app]. auto.
Qed.
Lemma parse_two d k addr K1 K2 t nb a b rest :
  reads_as d -> a_pl a = pl_f3850 -> a_radix a = 10 -> kind_ok K1 -> kind_ok K2 -> K1 <> K_none ->
  two d (Some k) addr K1 K2 t nb -> 0 <= addr < 2^16 -> blanks b -> last_rest rest ->
  exists t1 t2 n1 n2 v1 v2 o1 o2 b',
    piece d K1 (Some k) addr t1 n1 v1 /\ piece d K2 (Some k) addr t2 n2 v2 /\
    nb = n1 ++ n2 /\ blanks b' /\ parseOperands a addr (skipSpaces (t ++ b ++ rest)) = Val (Two o1 o2 (b' ++ rest)) /\
    reads K1 v1 o1 /\ reads K2 v2 o2.
Proof.
  intros RA PL RX R1 R2 NK1 (t1 & t2 & n1 & n2 & v1 & v2 & P1 & P2 & -> & ->) AR B LR.
  exists t1, t2, n1, n2, v1, v2. pose proof (last_tail _ LR) as TR.
  unfold sep. destruct (is_none K2) eqn:NK2.
  - apply is_none_ok in NK2. subst K2. cbn [piece] in P2. destruct P2 as (-> & -> & ->). rewrite <- app_assoc. cbn [app].
    destruct (parse_piece d K1 k addr t1 n1 v1 a [] b rest RA PL RX NK1 R1 P1 AR (Forall_nil _) B TR) as (ST & b1 & o1 & B1 & PO1 & RD1).
    cbn [app] in PO1. exists o1, no_operand, []. split; [exact P1|]. split; [cbn; auto|]. split; [reflexivity|]. split; [apply Forall_nil|].
    split; [|split; [exact RD1|unfold reads; cbn; auto]].
    pose proof (starts_skip [] t1 (b ++ rest) (Forall_nil _) ST) as SK. cbn [app] in SK. rewrite SK.
    unfold parseOperands. rewrite PO1. cbn [bind]. change (isOK OK) with true. cbn [negb andb]. cbv zeta.
    rewrite last_skip by assumption. rewrite last_nocomma by assumption. reflexivity.
  - assert (K2 <> K_none) as NK2' by (intros ->; discriminate).
    destruct (parse_piece d K1 k addr t1 n1 v1 a [] [] (44 :: 32 :: t2 ++ b ++ rest) RA PL RX NK1 R1 P1 AR (Forall_nil _) (Forall_nil _)) as (ST & b1 & o1 & B1 & PO1 & RD1).
    { right. eauto. }
    destruct (parse_piece d K2 k addr t2 n2 v2 a [32] b rest RA PL RX NK2' R2 P2 AR ltac:(repeat constructor) B TR) as (_ & b2 & o2 & B2 & PO2 & RD2).
    cbn [app] in PO1, PO2. exists o1, o2, b2. split; [exact P1|]. split; [exact P2|]. split; [reflexivity|]. split; [exact B2|]. split; [|auto].
    replace ((t1 ++ [44; 32] ++ t2) ++ b ++ rest) with (t1 ++ 44 :: 32 :: t2 ++ b ++ rest) by now rewrite <- !app_assoc.
    pose proof (starts_skip [] t1 (44 :: 32 :: t2 ++ b ++ rest) (Forall_nil _) ST) as SK. cbn [app] in SK. rewrite SK.
    unfold parseOperands. rewrite PO1. cbn [bind]. change (isOK OK) with true. cbn [negb andb]. cbv zeta.
    rewrite skip_blanks by exact B1. rewrite (skip_none 44) by reflexivity. cbn [expect_char]. change (44 =? 44) with true. cbv iota.
    rewrite PO2. cbn [bind]. reflexivity.
Qed.
Lemma encode_ok d k opc nm K1 K2 t nb a indent gap b rest addr :
  reads_as d -> check_one (Some k) opc nm K1 K2 = true ->
  two d (Some k) addr K1 K2 t nb -> byte opc ->
  a_pl a = pl_f3850 -> a_radix a = 10 -> a_aw a = 16 ->
  blanks indent -> blanks gap -> gap <> [] \/ t = [] -> blanks b -> last_rest rest -> 0 <= addr < 2^16 -> checkAddr 16 addr false = OK ->
  f3850_encode a (indent ++ firstn 11 (map (conv (Some k)) nm) ++ gap ++ t ++ b ++ rest) addr =
  Val (L_insn (canon addr (opc :: nb)) rest).
Proof.
  intros RA CK TH BO PL RX AW BI BG NG BB LR AR CA. unfold check_one in CK. cbv zeta in CK.
  rewrite !andb_true_iff in CK. destruct CK as (((((((PN & AL) & HO) & N12) & W12) & KO1) & KO2) & CK).
  apply kind_okb_ok in KO1, KO2. set (nm' := map (conv (Some k)) nm) in *.
  assert (LN : firstn 11 nm' = nm').
  { apply firstn_all2. unfold plain_name in PN. rewrite !andb_true_iff in PN. destruct PN as (((_ & L) & _) & _). now apply Nat.leb_le in L. }
  rewrite LN. unfold f3850_encode. rewrite line_insn; [| | |exact BI|exact BG| |].
  2:{ rewrite PL. exact PN. }
  2:{ intros z. rewrite PL. now apply plain_star. }
  2:{ rewrite PL. apply name_ends; auto. intros c I. cbn in I. repeat (destruct I as [<-|I]; [reflexivity|]). contradiction. }
  2:{ rewrite AW. exact CA. }
  unfold f3850_encodeImpl. destruct (hasOperand nm') as [h| | | |]; try discriminate. apply eqb_prop in HO. subst h. cbn [bind].
  assert (OPS : exists n1 n2 v1 v2 t1 t2 o1 o2 scan,
    piece d K1 (Some k) addr t1 n1 v1 /\ piece d K2 (Some k) addr t2 n2 v2 /\
    nb = n1 ++ n2 /\ skipSpaces scan = rest /\
    (if negb (is_none K1) then parseOperands a addr (skipSpaces (t ++ b ++ rest)) else Val (Two no_operand no_operand (skipSpaces (t ++ b ++ rest)))) = Val (Two o1 o2 scan) /\
    reads K1 v1 o1 /\ reads K2 v2 o2).
  { destruct (is_none K1) eqn:NK1; cbn [negb orb] in *.
    - apply is_none_ok in NK1, N12. subst K1 K2.
      destruct TH as (t1 & t2 & n1 & n2 & v1 & v2 & P1 & P2 & -> & ->).
      exists n1, n2, v1, v2, t1, t2, no_operand, no_operand, rest.
      split; [exact P1|]. split; [exact P2|]. split; [reflexivity|].
      cbn [piece] in P1, P2. destruct P1 as (-> & _). destruct P2 as (-> & _). cbn [sep is_none app].
      pose proof (last_skip [] rest (Forall_nil _) LR) as LS. cbn [app] in LS. split; [exact LS|].
      rewrite last_skip by assumption. split; [reflexivity|]. split; unfold reads; cbn; auto.
    - destruct (parse_two d k addr K1 K2 t nb a b rest) as (t1 & t2 & n1 & n2 & v1 & v2 & o1 & o2 & b' & P1 & P2 & EN & B' & PO & R1 & R2); auto.
      { intros ->. discriminate. }
      exists n1, n2, v1, v2, t1, t2, o1, o2, (b' ++ rest). rewrite last_skip by assumption. auto 10. }
  destruct OPS as (n1 & n2 & v1 & v2 & t1 & t2 & o1 & o2 & scan & P1 & P2 & -> & SK & PO & R1 & R2).
  rewrite PO. cbn [bind]. cbv zeta. rewrite SK.
  rewrite forallb_forall in CK. specialize (CK _ (proj1 R1)). rewrite forallb_forall in CK. specialize (CK _ (proj1 R2)).
  destruct (f3850_searchName nm' (o_mode o1) (o_mode o2)) as [[er [e'|]]| | | |]; try discriminate.
  2:{ destruct er; discriminate. }
  destruct er; try discriminate. rewrite !andb_true_iff in CK. destruct CK as ((F1 & F2) & C2). apply Z.eqb_eq in C2.
  cbn [bind i_err new_insn]. change (setErrorIfAt OK OK) with OK. change (isOK OK) with true. cbn [negb].
  change (new_insn addr) with (part addr 1 []).
  rewrite (emit_piece d K1 (Some k) addr t1 n1 v1 (e_m1 e') o1 [] (e_opc e') P1 KO1 F1 R1 AR (or_introl eq_refl)). cbn [bind app].
  assert (W2 : n1 = [] \/ kwidth K2 = 0%nat).
  { apply orb_true_iff in W12. destruct W12 as [W|W]; apply Nat.eqb_eq in W; [left|now right].
    destruct K1; cbn [kwidth] in W; try discriminate; cbn [piece] in P1; tauto. }
  rewrite (emit_piece d K2 (Some k) addr t2 n2 v2 (e_m2 e') o2 n1 _ P2 KO2 F2 R2 AR W2). cbn [bind]. rewrite C2. set (nb := n1 ++ n2).
  assert (LNB : (length nb <= 60)%nat).
  { unfold nb. rewrite app_length. assert (forall K t n v, piece d K (Some k) addr t n v -> (length n <= 2)%nat) as PLN.
    { intros K t0 n v. destruct K; cbn [piece]; [contradiction|intros (_ & -> & _)|intros (_ & -> & _)|intros (_ & -> & _)|intros (_ & -> & _)|intros (? & ? & -> & _)|intros (? & -> & _)]; cbn; lia. }
    apply PLN in P1, P2. lia. }
  destruct (part_done 0 opc addr nb ltac:(unfold byte; lia) BO LNB) as (D1 & _).
  unfold ai_emitInsn, ai_set. cbn [ai_insn ai_err ai_opc]. rewrite D1. reflexivity.
Qed.

(* ------------------------------------------------------------ the disassembler *)
Section Whole.
Variables (d : disasm).
Hypothesis RD : reads_as d.
Let pfx (c : Z) : bool := false.
Let F (p o : Z) : step := decode_opcode d o.
Let n (p o : Z) : nat := if p =? 0 then n_chain o else 0%nat.
Let P0 : pfx 0 = false := eq_refl.
Let START : forall p o addr mem s, (p = 0 \/ pfx p = true) -> byte p -> byte o -> within addr mem 2 s -> F p o s = (fun _ o => chain d o) p o (t_seterr OK s).
Proof. intros p o addr mem s Q BP BO W. now apply chain_start. Qed.
Let GOOD : forall p o, (p = 0 \/ pfx p = true) -> byte p -> byte o -> good (n p o) ((fun _ o => R_chain d o) p o) ((fun _ o => chain d o) p o).
Proof. intros p o [->|Q] BP BO; [|discriminate]. now apply good_chain. Qed.
Let LEN : forall p o, (p = 0 \/ pfx p = true) -> byte p -> byte o -> (length (opcode_bytes p o) + n p o <= 3)%nat.
Proof. intros p o [->|Q] BP BO; [|discriminate]. now apply chain_len. Qed.
Lemma decode_eq mem addr size : f3850_decode d mem addr size = dis_decode d (decode_impl pfx F) mem addr size.
Proof. reflexivity. Qed.
Lemma f3850_total mem addr size : Forall byte mem -> exists r, f3850_decode d mem addr size = Val r.
Proof. intros FM. rewrite decode_eq. exact (decode_total d pfx F _ _ n 3 START GOOD LEN ltac:(lia) mem addr size FM). Qed.
Lemma f3850_within mem addr size r : Forall byte mem -> f3850_decode d mem addr size = Val r ->
  exists m, mem = i_code (r_insn r) ++ m /\ (length (i_code (r_insn r)) <= 3)%nat.
Proof. intros FM. rewrite decode_eq. exact (decode_within d pfx F _ _ n 3 P0 START GOOD LEN ltac:(lia) mem addr size r FM). Qed.
Lemma f3850_takes : takes d (f3850_decodeImpl d) 3.
Proof. exact (decode_takes d pfx F _ _ n 3 P0 START GOOD LEN ltac:(lia)). Qed.
Lemma f3850_accepts mem addr size r : Forall byte mem -> mem <> [] -> f3850_decode d mem addr size = Val r -> i_err (r_insn r) = OK ->
  checkAddr 16 addr false = OK /\
  exists o nb m, byte o /\ mem = (o :: nb) ++ m /\ (length (o :: nb) <= 3)%nat /\
    r_insn r = canon addr (o :: nb) /\
    R_chain d o (mkH (Some (da_uppercase d)) addr [o] []) (r_operands r) nb (r_name r) /\
    forall m', Forall byte m' -> f3850_decode d ((o :: nb) ++ m') addr size = Val r.
Proof.
  intros FM NE H E. rewrite decode_eq in H.
  destruct (decode_accepts d pfx F _ _ n 3 P0 START GOOD LEN ltac:(lia) mem addr size r FM NE H E)
    as (CA & p & o & nb & m & [->|PP] & BP & BO & EM & L & RI & Q & FR); [|discriminate].
  destruct RD as (_ & _ & AW & _). rewrite AW in CA. split; [exact CA|]. exists o, nb, m. auto 10.
Qed.
Lemma f3850_round mem addr size r a indent gap b rest :
  Forall byte mem -> mem <> [] -> f3850_decode d mem addr size = Val r -> i_err (r_insn r) = OK ->
  a_pl a = pl_f3850 -> a_radix a = 10 -> a_aw a = 16 -> 0 <= addr < 2^32 ->
  blanks indent -> blanks gap -> gap <> [] \/ r_operands r = [] -> blanks b -> last_rest rest ->
  f3850_encode a (indent ++ r_name r ++ gap ++ r_operands r ++ b ++ rest) addr = Val (L_insn (r_insn r) rest).
Proof.
  intros FM NE H E PL RX AW AR BI BG NG BB LR. destruct (f3850_accepts mem addr size r FM NE H E) as (CA & o & nb & m & BO & _ & _ & RI & Q & _).
  destruct (chain_two d o (da_uppercase d) (mkH (Some (da_uppercase d)) addr [o] []) (r_operands r) nb (r_name r) BO eq_refl Q) as (nm & K1 & K2 & CK & NM & TH).
  rewrite RI, NM. apply (encode_ok d (da_uppercase d) o nm K1 K2); auto.
  apply C31_addr in CA; [|lia|exact AR]. lia.
Qed.
End Whole.
