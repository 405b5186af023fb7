(** The 6800 family: proof of the round trip. *)
From Coq Require Import String ZArith List Bool Lia ZifyBool.
From Verif Require Import M_Char M_Error M_Value M_Text M_StrBuffer M_Format M_Number M_Insn M_Config M_Operators
  M_Parsers M_Expr M_Directive M_Table T_Tables M_Asm M_Dis M_Mc6800Defs T_Mc6800 M_Mc6800
  S_Value S_Number S_Expr S_ExprTree S_Table P_StrBuffer P_Number P_NumberRead
  P_ExprRead P_ExprTree P_ExprCase P_Table P_Insn P_Config P_Value P_Directive P_AsmText P_CpuShape P_CpuGood.
Import ListNotations.
Open Scope string_scope.
Open Scope list_scope.
Local Open Scope Z_scope.

Definition reads_as (d : disasm) : Prop := da_symtab d = None /\ da_reads d np_motorola /\ da_aw d = 16 /\
  (da_relative d = true -> da_cursym d = 42).
Lemma mc6800_reads uh uc oc rel cs ih cur : (rel = true -> cur = 42) -> reads_as (mc6800_dis uh uc oc rel cs ih cur None).
Proof.
  intros H. split; [reflexivity|]. split; [|split; [reflexivity|exact H]].
  apply all_reads. unfold da_formatter, mc6800_dis. cbn [da_cstyle da_intelhex da_plug].
  assert (I : In np_motorola family_parsers) by (cbn; auto 10).
  destruct cs; [apply universal_reads; auto|]. destruct ih; [apply universal_reads; auto|].
  split; [apply dec_reads, fb_all, I|]. split; [apply m_oct|apply m_hex].
Qed.

(* ------------------------------------------------------------ what is printed *)
Inductive kind := K_none | K_dir | K_ext | K_idx (r : Z) | K_rel | K_im8 | K_im16 | K_bit.
Definition kind_of (opc mode : Z) : kind :=
  let gn := Z.land opc 0x30 in
  let idx := K_idx (if mode =? M_IDY then REG_Y else REG_X) in
  let generic imm := if gn =? 0x10 then K_dir else if gn =? 0x20 then idx else if gn =? 0x30 then K_ext else imm in
  if mode =? M_DIR then K_dir
  else if mode =? M_GMEM then if Z.land opc 0xF0 =? 0x60 then idx else K_ext
  else if mode =? M_EXT then K_ext
  else if (mode =? M_IDX) || (mode =? M_IDY) then idx
  else if mode =? M_REL then K_rel
  else if mode =? M_GN8 then generic K_im8
  else if mode =? M_IM8 then K_im8
  else if mode =? M_GN16 then generic K_im16
  else if mode =? M_IM16 then K_im16
  else if mode =? M_BMM then K_bit
  else K_none.
Definition kwidth (K : kind) : nat :=
  match K with K_none => 0 | K_dir | K_idx _ | K_rel | K_im8 | K_bit => 1 | K_ext | K_im16 => 2 end.
(* the operand of kind [K], with the value [v], in the case [k], after the bytes [bs] of the instruction at [addr] *)
Definition num := numeral np_motorola.
Definition bit_of (opc x : Z) : Z := bitNumber (u8 (if Z.land opc 0xF =? 1 then Z.lnot x else x)).
Definition piece (d : disasm) (K : kind) (opc : Z) (k : option bool) (addr : Z) (bs : list Z) (t : text) (nb : list Z) (v : Z) : Prop :=
  match K with
  | K_none => t = [] /\ nb = [] /\ v = 0
  | K_dir => num t v /\ nb = [v] /\ byte v
  | K_ext => exists hi lo u, nb = [hi; lo] /\ byte hi /\ byte lo /\ v = 256 * hi + lo /\ num u v /\ t = (if v <? 0x100 then [62] else []) ++ u
  | K_idx r => exists u, num u v /\ nb = [v] /\ byte v /\ t = u ++ [44; conv k r]
  | K_rel => exists x, nb = [x] /\ byte x /\ v = u32 (u32 (addr + Z.of_nat (length bs) + 1) + int8 x) /\ checkAddr 16 v false = OK /\
      (0 <= addr < 2^16 -> (length bs <= 8)%nat -> place_text np_motorola 42 addr t v)
  | K_im8 => exists u, num u v /\ nb = [v] /\ byte v /\ t = 35 :: u
  | K_im16 => exists hi lo u, nb = [hi; lo] /\ byte hi /\ byte lo /\ v = 256 * hi + lo /\ num u v /\ t = 35 :: u
  | K_bit => exists x, nb = [x] /\ byte x /\ v = bit_of opc x /\ 0 <= v /\ num t v
  end.
Definition R_piece (d : disasm) (K : kind) (opc : Z) : rel := fun h t nb nm' =>
  nm' = h_nm h /\ exists v, piece d K opc (h_case h) (h_addr h) (h_bs h) t nb v.

Lemma int8_range x : -128 <= int8 x <= 127.
Proof. unfold int8. pose proof (Z.mod_pos_bound (x + 128) 256). lia. Qed.

Ltac rel_out := cbn [h_case h_addr h_bs h_nm] in *.
Lemma good_dir d opc : reads_as d -> good 1 (R_piece d K_dir opc) (decodeDirectPage d).
Proof.
  intros (SY & RD & AW & _).
  apply (good_ext _ _ (fun s => let '(v, s) := t_byte s in t_print (outAbsAddr d v 8) s)).
  { intros s. unfold decodeDirectPage. destruct (t_byte s) as [v s1]. unfold da_lookup. now rewrite SY. }
  eapply good_weaken; [apply le_n| |apply (good_byte 0 (fun v => R_num np_motorola v))].
  - intros h t nb nm' (v & nb' & -> & B & -> & -> & N). split; [reflexivity|]. exists v. cbn [piece]. auto.
  - intros v V. apply (good_abs d np_motorola v 8 8); auto; unfold byte in *; lia.
  - intros v. apply keeps_print.
  - intros v. apply frame_print.
Qed.
Lemma good_ext16 d opc : reads_as d -> good 2 (R_piece d K_ext opc) (decodeExtended d).
Proof.
  intros (SY & RD & AW & _).
  apply (good_ext _ _ (fun s => let '(v, s) := t_uint16Be s in
    bind ((fun s => if v <? 0x100 then Val (t_put (letter 62) s) else Val s) s) (t_print (outAbsAddr d v 0)))).
  { intros s. unfold decodeExtended. destruct (t_uint16Be s) as [v s1]. unfold da_lookup. rewrite SY. cbn [bind]. now destruct (v <? 0x100). }
  assert (G : forall v, good 0 (R_text (fun k t => t = if v <? 0x100 then [62] else [])) (fun s => if v <? 0x100 then Val (t_put (letter 62) s) else Val s)).
  { intros v. destruct (v <? 0x100).
    - eapply good_weaken; [apply le_n| |apply (good_put _ [62]); intros; apply letter_text].
      intros h t nb nm' (-> & -> & ->). split; [reflexivity|]. split; [reflexivity|]. cbn [map]. now rewrite plain_symbol.
    - eapply good_weaken; [apply le_n| |apply good_none]. intros h t nb nm' (-> & -> & ->). repeat split. }
  eapply good_weaken; [apply le_n| |apply (good_be 0 (fun v => R_seq (R_text (fun k t => t = if v <? 0x100 then [62] else [])) (R_num np_motorola v)))].
  - intros h t nb nm' (hi & lo & nb' & -> & BH & BL & t1 & t2 & n1 & n2 & nm1 & -> & -> & (-> & -> & ->) & -> & -> & N). rel_out.
    split; [reflexivity|]. exists (256 * hi + lo), hi, lo, t2. cbn [app]. auto 10.
  - intros v V. apply (good_seq 0 0); [apply G|]. apply (good_abs d np_motorola v 0 16); auto; rewrite ?AW; cbn [Z.eqb]; lia.
  - intros v. apply keeping_seq; [eapply keeping_of, G|apply keeping_print].
Qed.
Lemma good_idx d r opc : reads_as d -> good 1 (R_piece d (K_idx r) opc)
  (fun s => let '(v, s) := t_byte s in
    bind (t_print (dis_outDec d v 8) s) (fun s => Val (t_put (fun out => outRegName r (letter 44 out)) s))).
Proof.
  intros (SY & RD & AW & _).
  eapply good_weaken; [apply le_n| |apply (good_byte 0 (fun v => R_seq (R_num np_motorola v) (R_text (fun k t => t = map (conv k) [44; r]))))].
  - intros h t nb nm' (v & nb' & -> & B & t1 & t2 & n1 & n2 & nm1 & -> & -> & (-> & -> & N) & -> & -> & ->). rel_out.
    split; [reflexivity|]. exists v, t1. cbn [map]. rewrite (plain_symbol 44) by reflexivity. auto.
  - intros v V. apply (good_seq 0 0); [apply good_dec; auto; unfold byte in *; lia|]. apply good_put. intros b. reflexivity.
  - intros v. apply keeps_seq; [apply keeps_print|apply keeps_put].
  - intros v. apply frame_seq; [apply keeps_put|apply frame_print|apply frame_put].
Qed.
Lemma good_hash : good 0 (R_text (fun _ t => t = [35])) (fun s => Val (t_put (letter 35) s)).
Proof.
  eapply good_weaken; [apply le_n| |apply (good_put _ [35]); intros; apply letter_text].
  intros h t nb nm' (-> & -> & ->). split; [reflexivity|]. split; [reflexivity|]. cbn [map]. now rewrite plain_symbol.
Qed.
Lemma good_im8 d opc : reads_as d -> good 1 (R_piece d K_im8 opc)
  (fun s => let s := t_put (letter 35) s in let '(v, s) := t_byte s in t_print (dis_outHex d v 8 true) s).
Proof.
  intros (SY & RD & AW & _).
  apply (good_ext _ _ (fun s => bind (Val (t_put (letter 35) s)) (fun s => let '(v, s) := t_byte s in t_print (dis_outHex d v 8 true) s))); [reflexivity|].
  eapply good_weaken; [apply le_n| |apply (good_seq 0 1 (R_text (fun _ t => t = [35])) (R_byte (fun v => R_num np_motorola v)))].
  - intros h t nb nm' (t1 & t2 & n1 & n2 & nm1 & -> & -> & (-> & -> & ->) & (v & nb' & -> & B & -> & -> & N)). rel_out.
    split; [reflexivity|]. exists v, t2. cbn [app]. auto.
  - apply good_hash.
  - apply (good_byte 0 (fun v => R_num np_motorola v)); intros v; [intros V; apply good_hex; auto; unfold byte in *; lia|apply keeps_print|apply frame_print].
Qed.
Lemma good_im16 d opc : reads_as d -> good 2 (R_piece d K_im16 opc)
  (fun s => let s := t_put (letter 35) s in let '(v, s) := t_uint16Be s in t_print (dis_outHex d v 16 true) s).
Proof.
  intros (SY & RD & AW & _).
  apply (good_ext _ _ (fun s => bind (Val (t_put (letter 35) s)) (fun s => let '(v, s) := t_uint16Be s in t_print (dis_outHex d v 16 true) s))); [reflexivity|].
  eapply good_weaken; [apply le_n| |apply (good_seq 0 2 (R_text (fun _ t => t = [35])) (R_be (fun v => R_num np_motorola v)))].
  - intros h t nb nm' (t1 & t2 & n1 & n2 & nm1 & -> & -> & (-> & -> & ->) & (hi & lo & nb' & -> & BH & BL & -> & -> & N)). rel_out.
    split; [reflexivity|]. exists (256 * hi + lo), hi, lo, t2. cbn [app]. auto 10.
  - apply good_hash.
  - apply (good_be 0 (fun v => R_num np_motorola v)); intros v; [intros V; apply good_hex; auto; unfold byte in *; lia|apply keeping_print].
Qed.
Lemma good_branch d opc : reads_as d -> good 1 (R_piece d K_rel opc) (decodeRelative d).
Proof.
  intros (SY & RD & AW & CS).
  set (tg := fun v (i : insn) => u32 (u32 (i_addr i + i_len i) + int8 v)).
  set (g := fun v i s => bind (Val (t_setErrorIf (checkAddr (da_aw d) (tg v i) false) s)) (t_print (outRelAddr d (tg v i) (i_addr i) 8))).
  apply (good_ext _ _ (fun s => let '(v, s) := t_byte s in (fun s => g v (d_insn (t_in s)) s) s)).
  { intros s. unfold decodeRelative, g. destruct (t_byte s) as [v s1]. reflexivity. }
  assert (TR : forall v i, 0 <= tg v i < 2^32) by (intros; unfold tg, u32; apply Z.mod_pos_bound; lia).
  set (R := fun v i => R_seq (R_check (checkAddr (da_aw d) (tg v i) false))
     (R_text (fun _ t => 0 <= tg v i < 2 ^ da_aw d -> 0 <= i_addr i < 2 ^ da_aw d -> Z.abs (tg v i - i_addr i) < 2 ^ 8 ->
      place_text np_motorola (da_cursym d) (i_addr i) t (tg v i) /\ (da_relative d = false -> numeral np_motorola t (tg v i))))).
  assert (G : forall v i, good 0 (R v i) (g v i)).
  { intros v i. apply (good_seq 0 0); [apply good_check|]. apply good_rel; auto; try lia. intros Q. now rewrite (CS Q). }
  eapply good_weaken; [apply le_n| |apply (good_byte' 0 (fun v => R_insn (R v)) (fun v s => g v (d_insn (t_in s)) s)); intros v; apply (good_insn 0 (R v) (g v)); intros i; apply G].
  intros h t nb nm' (v & nb' & -> & B & t1 & t2 & n1 & n2 & nm1 & -> & -> & (CK & -> & -> & ->) & -> & -> & P). rel_out.
  split; [reflexivity|]. exists (tg v (canon (h_addr h) (h_bs h ++ [v]))), v. cbn [app]. rewrite AW in *.
  split; [reflexivity|]. split; [exact B|].
  assert (TG : tg v (canon (h_addr h) (h_bs h ++ [v])) = u32 (u32 (h_addr h + Z.of_nat (length (h_bs h)) + 1) + int8 v)).
  { unfold tg, canon. cbn [i_addr i_len]. rewrite app_length. cbn [length]. do 3 f_equal. lia. }
  split; [exact TG|]. split; [exact CK|]. intros AR LB. rewrite TG in *. cbn [canon i_addr] in P.
  set (v' := u32 _) in *. assert (VR : 0 <= v' < 2^32) by (rewrite <- TG; apply TR).
  apply (C31_addr 16 v' false) in CK; [|lia|exact VR]. destruct CK as (CK & _).
  assert (V' : v' = h_addr h + Z.of_nat (length (h_bs h)) + 1 + int8 v).
  { unfold v', u32 in *. pose proof (int8_range v). change (2^16) with 65536 in *.
    rewrite (Z.mod_small (h_addr h + _ + 1)) in * by lia.
    destruct (Z.neg_nonneg_cases (h_addr h + Z.of_nat (length (h_bs h)) + 1 + int8 v)) as [NG|NG].
    - exfalso. replace (h_addr h + Z.of_nat (length (h_bs h)) + 1 + int8 v) with (h_addr h + Z.of_nat (length (h_bs h)) + 1 + int8 v + 2^32 + (-1) * 2^32) in CK by lia.
      rewrite Z.mod_add, Z.mod_small in CK by lia. lia.
    - apply Z.mod_small. lia. }
  pose proof (int8_range v). change (2^16) with 65536 in *. change (2^8) with 256 in *.
  destruct (P ltac:(lia) AR ltac:(lia)) as (P1 & P2). destruct (da_relative d) eqn:RL.
  - rewrite (CS eq_refl) in P1. exact P1.
  - left. auto.
Qed.
Lemma good_operand d ty p opc mode : reads_as d -> mode <> M_BMM ->
  good (kwidth (kind_of opc mode)) (R_piece d (kind_of opc mode) opc) (decodeOperand d ty p opc mode).
Proof.
  intros RD NB. unfold decodeOperand, kind_of. cbv zeta.
  assert (GN : forall K f, good (kwidth K) (R_piece d K opc) f ->
    let gn := Z.land opc 0x30 in
    let K' := if gn =? 0x10 then K_dir else if gn =? 0x20 then K_idx (if mode =? M_IDY then REG_Y else REG_X) else if gn =? 0x30 then K_ext else K in
    good (kwidth K') (R_piece d K' opc) (fun s => if gn =? 0x10 then decodeDirectPage d s else if gn =? 0x20 then
       (let '(v, s) := t_byte s in
    bind (t_print (dis_outDec d v 8) s) (fun s => Val (t_put (fun out => outRegName (if mode =? M_IDY then REG_Y else REG_X) (letter 44 out)) s)))
       else if gn =? 0x30 then decodeExtended d s else f s)).
  { intros K f F gn. cbv zeta. destruct (gn =? 0x10); [now apply good_dir|]. destruct (gn =? 0x20); [now apply good_idx|].
    destruct (gn =? 0x30); [now apply good_ext16|exact F]. }
  destruct (mode =? M_DIR); [now apply good_dir|].
  destruct (mode =? M_GMEM); [destruct (_ =? 0x60); [now apply good_idx|now apply good_ext16]|].
  destruct (mode =? M_EXT); [now apply good_ext16|].
  destruct (_ || _); [now apply good_idx|].
  destruct (mode =? M_REL); [now apply good_branch|].
  destruct (mode =? M_GN8); [apply (GN K_im8), good_im8; exact RD|].
  destruct (mode =? M_IM8); [now apply good_im8|].
  destruct (mode =? M_GN16); [apply (GN K_im16), good_im16; exact RD|].
  destruct (mode =? M_IM16); [now apply good_im16|].
  destruct (Z.eqb_spec mode M_BMM); [contradiction|].
  eapply good_weaken; [apply le_n| |apply good_none]. intros h t nb nm' (-> & -> & ->). split; [reflexivity|]. exists 0. cbn. auto.
Qed.

(* ------------------------------------------------------------ a whole instruction *)
Definition types : list Z := [MC6800; MB8861; MC6801; HD6301; MC68HC11].
Definition pfx (ty c : Z) : bool := match mc6800_isPrefix ty c with Val b => b | _ => false end.
Definition prefixes : list Z := [0; 0x18; 0x1A; 0xCD].
Definition all_bytes : list Z := map Z.of_nat (seq 0 256).
Lemma all_in c : byte c -> In c all_bytes.
Proof. intros O. unfold all_bytes. apply in_map_iff. exists (Z.to_nat c). unfold byte in O. split; [lia|]. apply in_seq. lia. Qed.
Lemma pfx_check : forallb (fun ty => forallb (fun c => match mc6800_isPrefix ty c with
  | Val b => if b then existsb (Z.eqb c) prefixes && negb (c =? 0) else true | _ => false end) all_bytes) types = true.
Proof. vm_compute. reflexivity. Qed.
Lemma pfx_ok ty c : In ty types -> byte c -> mc6800_isPrefix ty c = Val (pfx ty c) /\ (pfx ty c = true -> In c prefixes /\ c <> 0).
Proof.
  intros T C. pose proof pfx_check as H. rewrite forallb_forall in H. specialize (H ty T). rewrite forallb_forall in H. specialize (H c (all_in c C)).
  unfold pfx. destruct (mc6800_isPrefix ty c) as [b| | | |]; try discriminate. split; [reflexivity|]. intros ->.
  apply andb_true_iff in H. destruct H as (H & N). apply existsb_exists in H. destruct H as (y & Y & E). apply Z.eqb_eq in E. subst y. split; [exact Y|lia].
Qed.
Lemma pfx_in ty p : In ty types -> byte p -> p = 0 \/ pfx ty p = true -> In p prefixes.
Proof. intros T B [->|H]; [cbn; auto|]. now apply (pfx_ok ty p T B). Qed.

(* the entry of an opcode and the one after it *)
Definition look (ty p o : Z) : option (entry * option entry) :=
  match find_opcode ty p o with
  | Val (Some (items, i)) => match nth_error items i with Some e => Some (e, nth_error items (S i)) | None => None end
  | _ => None
  end.
Definition alias_ok (o : Z) (e : entry) (al : option entry) : bool :=
  match al with Some a => (e_opc a =? o) && (e_m2 a =? e_m2 e) && (e_m3 a =? e_m3 e) | None => false end.
Definition look_ok (ty p o : Z) : bool :=
  match find_opcode ty p o with
  | Val None => true
  | Val (Some (items, i)) =>
    match nth_error items i with
    | Some e => e_undef e ||
       ((negb (e_m1 e =? M_BMM) || alias_ok o e (nth_error items (S i))) &&
        negb (e_m2 e =? M_BMM) && negb (e_m3 e =? M_BMM) && (negb (e_m2 e =? M_NONE) || (e_m3 e =? M_NONE)) &&
        ((length (opcode_bytes p o) + kwidth (kind_of o (e_m1 e)) + kwidth (kind_of o (e_m2 e)) + kwidth (kind_of o (e_m3 e)) <=? 5)%nat))
    | None => false
    end
  | _ => false
  end.
Lemma look_check : forallb (fun ty => forallb (fun p => forallb (look_ok ty p) all_bytes) prefixes) types = true.
Proof. vm_compute. reflexivity. Qed.
Lemma look_at ty p o : In ty types -> In p prefixes -> byte o -> look_ok ty p o = true.
Proof.
  intros T P O. pose proof look_check as H. rewrite forallb_forall in H. specialize (H ty T). rewrite forallb_forall in H. specialize (H p P).
  rewrite forallb_forall in H. apply H, all_in, O.
Qed.
(* the simplification in M_Mc6800.decode_opcode: the alias of a bit instruction *)
Lemma alias_modes ty p o e al : In ty types -> In p prefixes -> byte o -> look ty p o = Some (e, al) -> e_undef e = false -> e_m1 e = M_BMM ->
  exists a, al = Some a /\ e_opc a = o /\ e_m2 a = e_m2 e /\ e_m3 a = e_m3 e.
Proof.
  intros T P O L U M. pose proof (look_at ty p o T P O) as H. unfold look, look_ok in *.
  destruct (find_opcode ty p o) as [[[items i]|]| | | |]; try discriminate. destruct (nth_error items i) as [e'|]; [|discriminate].
  injection L as -> <-. rewrite U, M, Z.eqb_refl in H. cbn [negb orb] in H. rewrite !andb_true_iff in H. destruct H as ((((H & _) & _) & _) & _).
  unfold alias_ok in H. destruct (nth_error items (S i)) as [a|] eqn:X; [|discriminate]. rewrite !andb_true_iff, !Z.eqb_eq in H. destruct H as ((A & B) & C). exists a. split; [exact X|auto].
Qed.

Definition bmm (d : disasm) (o : Z) (al : text) : step := fun s =>
  let '(v, s) := t_byte s in
  (fun s => if 0 <=? bit_of o v then bind (Val (t_readName al s)) (t_print (dis_outHex d (bit_of o v) 3 true))
   else bind (Val (t_put (letter 35) s)) (t_print (dis_outHex d v 8 true))) s.
Definition R_bmm (d : disasm) (o : Z) (al : text) : rel := fun h t nb nm' =>
  (nm' = h_nm h /\ exists v, piece d K_im8 o (h_case h) (h_addr h) (h_bs h) t nb v) \/
  (nm' = firstn 11 (map (conv (h_case h)) al) /\ exists v, piece d K_bit o (h_case h) (h_addr h) (h_bs h) t nb v).
Lemma bit_range o x : bit_of o x < 8.
Proof.
  unfold bit_of, bitNumber. cbn [bitNumber_loop].
  repeat match goal with |- context [if ?q then _ else _] => destruct q end; lia.
Qed.
Lemma good_bmm d o al : reads_as d -> good 1 (R_bmm d o al) (bmm d o al).
Proof.
  intros (SY & RD & AW & _).
  set (g := fun v s => if 0 <=? bit_of o v then bind (Val (t_readName al s)) (t_print (dis_outHex d (bit_of o v) 3 true))
   else bind (Val (t_put (letter 35) s)) (t_print (dis_outHex d v 8 true))).
  set (R := fun v => if 0 <=? bit_of o v then R_seq (R_name al) (R_num np_motorola (bit_of o v))
     else R_seq (R_text (fun _ t => t = [35])) (R_num np_motorola v)).
  assert (G : forall v, byte v -> good 0 (R v) (g v)).
  { intros v V. unfold R, g. destruct (Z.leb_spec 0 (bit_of o v)) as [L|L].
    - apply (good_seq 0 0); [apply good_name|]. apply good_hex; auto; [|lia]. pose proof (bit_range o v). lia.
    - apply (good_seq 0 0); [apply good_hash|]. apply good_hex; auto; unfold byte in *; lia. }
  assert (KG : forall v, keeping (g v)).
  { intros v. unfold g. destruct (0 <=? bit_of o v).
    - apply (keeping_seq (fun s => Val (t_readName al s))); [eapply keeping_of, good_name|apply keeping_print].
    - apply (keeping_seq (fun s => Val (t_put (letter 35) s))); [apply keeping_put|apply keeping_print]. }
  eapply good_weaken; [apply le_n| |apply (good_byte 0 R g G); intros v; apply KG].
  intros h t nb nm' (v & nb' & -> & B & Q). unfold R in Q. destruct (Z.leb_spec 0 (bit_of o v)) as [L|L].
  - destruct Q as (t1 & t2 & n1 & n2 & nm1 & -> & -> & (-> & -> & ->) & -> & -> & N). rel_out. right. split; [reflexivity|].
    exists (bit_of o v), v. cbn [app]. auto.
  - destruct Q as (t1 & t2 & n1 & n2 & nm1 & -> & -> & (-> & -> & ->) & -> & -> & N). rel_out. left. split; [reflexivity|].
    exists v, t2. cbn [app]. auto.
Qed.
Definition op1 (d : disasm) (ty p o : Z) (e : entry) (al : option entry) : step :=
  if e_m1 e =? M_BMM then bmm d o (match al with Some a => entry_name a | None => [] end) else decodeOperand d ty p o (e_m1 e).
Definition more_op (d : disasm) (ty p o mode : Z) : step :=
  if mode =? M_NONE then fun s => Val s else fun s => bind (Val (t_put comma s)) (decodeOperand d ty p o mode).
Definition chain (d : disasm) (ty p o : Z) : step :=
  match look ty p o with
  | None => fun s => Val (t_setErrorIf UNKNOWN_INSTRUCTION s)
  | Some (e, al) =>
    if e_undef e then fun s => bind (Val (mkDst (t_in s) [] (t_out s))) (fun s => Val (t_setErrorIf UNKNOWN_INSTRUCTION s))
    else fun s => bind (Val (t_readName (entry_name e) s)) (fun s => bind (op1 d ty p o e al s) (fun s => bind (more_op d ty p o (e_m2 e) s) (more_op d ty p o (e_m3 e))))
  end.
Lemma byte_ok s v s' : t_byte s = (v, s') -> v <> 0 -> Forall byte (d_mem (t_in s)) -> forall addr mem n, within addr mem n s -> (n < 64)%nat ->
  d_err (t_in s') = d_err (t_in s).
Proof.
  intros T NZ FM addr mem n (F & bs & A & B & C) L. unfold t_byte, readByte in T. destruct (d_mem (t_in s)) as [|c m] eqn:M.
  - injection T as <- <-. congruence.
  - rewrite C in T. inversion FM; subst. rewrite canon_emit in T by (assumption || lia). injection T as <- <-. reflexivity.
Qed.
Lemma bit_zero o : bit_of o 0 = -1.
Proof. unfold bit_of. destruct (_ =? 1); reflexivity. Qed.
Lemma chain_start d ty p o addr mem s : In ty types -> In p prefixes -> byte o -> within addr mem 2 s ->
  decode_opcode d ty p o s = chain d ty p o (t_seterr OK s).
Proof.
  intros T P O W. pose proof (look_at ty p o T P O) as LO. unfold decode_opcode, searchOpCodeImpl, chain, look, look_ok in *. cbv zeta.
  destruct (find_opcode ty p o) as [[[items i]|]| | | |] eqn:FO; try discriminate; cbn [bind]; [|reflexivity].
  unfold item_at. destruct (nth_error items i) as [e|] eqn:NE; [|discriminate]. cbn [bind].
  destruct (e_undef e) eqn:U; [reflexivity|]. cbn [orb] in LO. rewrite !andb_true_iff in LO. destruct LO as ((((AL & N2) & N3) & M23) & _).
  cbn [bind]. set (s0 := t_readName (entry_name e) (t_seterr OK s)).
  assert (O1 : decodeOperand d ty p o (e_m1 e) s0 = op1 d ty p o e (nth_error items (S i)) s0).
  { unfold op1. destruct (Z.eqb_spec (e_m1 e) M_BMM) as [B|B]; [|reflexivity]. rewrite B in *. cbn [Z.eqb negb orb] in AL.
    change (decodeOperand d ty p o M_BMM s0) with (decodeBitNumber d ty p o s0). unfold decodeBitNumber, bmm, bit_of. cbv zeta.
    destruct (t_byte s0) as [v s1] eqn:BY.
    destruct (Z.leb_spec 0 (bitNumber (u8 (if Z.land o 15 =? 1 then Z.lnot v else v)))) as [L|L]; [|reflexivity].
    assert (NZ : v <> 0) by (intros ->; fold (bit_of o 0) in L; rewrite bit_zero in L; lia).
    assert (W0 : within addr mem 2 s0) by exact W.
    assert (ER : d_err (t_in s1) = OK).
    { rewrite (byte_ok s0 v s1 BY NZ) with (addr := addr) (mem := mem) (n := 2%nat); [reflexivity| |exact W0|lia].
      destruct W0 as (F & bs & A & _). rewrite A in F. now apply Forall_app in F. }
    unfold searchOpCodeAlias, searchOpCodeImpl. cbv zeta. rewrite FO. cbn [bind]. unfold item_at. rewrite NE. cbn [bind]. rewrite U. cbn [bind].
    unfold alias_ok in AL. destruct (nth_error items (S i)) as [a|]; [|discriminate]. cbn [bind].
    rewrite !andb_true_iff in AL. destruct AL as ((AL & _) & _). rewrite AL. cbn [negb bind].
    replace (t_seterr OK s1) with s1; [reflexivity|]. destruct s1 as [[? ? ?] ? ?]. cbn in ER. subst. reflexivity. }
  rewrite O1. destruct (op1 d ty p o e (nth_error items (S i)) s0) as [s1| | | |]; try reflexivity. cbn [bind].
  unfold more_op. destruct (e_m2 e =? M_NONE) eqn:M2; cbn [negb orb] in M23.
  - cbn [bind]. now rewrite M23.
  - cbn [bind]. destruct (decodeOperand d ty p o (e_m2 e) (t_put comma s1)) as [s2| | | |]; try reflexivity. cbn [bind].
    destruct (e_m3 e =? M_NONE); reflexivity.
Qed.
Definition R_op1 (d : disasm) (o : Z) (e : entry) (al : option entry) : rel :=
  if e_m1 e =? M_BMM then R_bmm d o (match al with Some a => entry_name a | None => [] end) else R_piece d (kind_of o (e_m1 e)) o.
Definition R_more (d : disasm) (o mode : Z) : rel :=
  if mode =? M_NONE then R_none else R_seq (R_text (fun _ t => t = [44; 32])) (R_piece d (kind_of o mode) o).
Definition R_chain (d : disasm) (ty p o : Z) : rel := fun h t nb nm' => exists e al, look ty p o = Some (e, al) /\ e_undef e = false /\
  R_seq (R_name (entry_name e)) (R_seq (R_op1 d o e al) (R_seq (R_more d o (e_m2 e)) (R_more d o (e_m3 e)))) h t nb nm'.
Definition n_chain (ty p o : Z) : nat :=
  match look ty p o with
  | Some (e, _) => if e_undef e then 0 else (kwidth (kind_of o (e_m1 e)) + (kwidth (kind_of o (e_m2 e)) + kwidth (kind_of o (e_m3 e))))
  | None => 0
  end.
Lemma good_more d ty p o mode : reads_as d -> mode <> M_BMM -> good (kwidth (kind_of o mode)) (R_more d o mode) (more_op d ty p o mode).
Proof.
  intros RD NB. unfold R_more, more_op. destruct (Z.eqb_spec mode M_NONE) as [->|_].
  - apply good_none.
  - apply (good_seq 0 _ _ _ (fun s => Val (t_put comma s))); [apply good_comma|now apply good_operand].
Qed.
Lemma good_op1 d ty p o e al : reads_as d -> good (kwidth (kind_of o (e_m1 e))) (R_op1 d o e al) (op1 d ty p o e al).
Proof.
  intros RD. unfold R_op1, op1. destruct (Z.eqb_spec (e_m1 e) M_BMM) as [->|N].
  - now apply good_bmm.
  - now apply good_operand.
Qed.
Lemma good_chain d ty p o : reads_as d -> In ty types -> In p prefixes -> byte o -> good (n_chain ty p o) (R_chain d ty p o) (chain d ty p o).
Proof.
  intros RD T P O. pose proof (look_at ty p o T P O) as LO. unfold n_chain, chain, R_chain. unfold look_ok, look in *.
  assert (NO : forall R, good 0 R (fun s => Val (t_setErrorIf UNKNOWN_INSTRUCTION s))).
  { intros R. eapply good_weaken; [apply le_n| |apply good_check]. intros h t nb nm' (Q & _). discriminate. }
  destruct (find_opcode ty p o) as [[[items i]|]| | | |] eqn:FO; try discriminate; [|apply NO].
  destruct (nth_error items i) as [e|] eqn:NE; [|discriminate]. destruct (e_undef e) eqn:U.
  { eapply good_weaken; [apply le_n| |apply (good_seq 0 0 (fun h t nb nm' => t = [] /\ nb = [] /\ nm' = []) (fun _ _ _ _ => False) (fun s => Val (mkDst (t_in s) [] (t_out s)))); [apply good_setname|apply NO]].
    intros h t nb nm' (t1 & t2 & n1 & n2 & nm1 & _ & _ & _ & []). }
  cbn [orb] in LO. rewrite !andb_true_iff in LO. destruct LO as ((((AL & N2) & N3) & M23) & _).
  apply negb_true_iff, Z.eqb_neq in N2, N3.
  pose proof (good_seq 0 _ _ _ _ _ (good_name (entry_name e)) (good_seq _ _ _ _ _ _ (good_op1 d ty p o e (nth_error items (S i)) RD)
    (good_seq _ _ _ _ _ _ (good_more d ty p o (e_m2 e) RD N2) (good_more d ty p o (e_m3 e) RD N3)))) as G.
  eapply good_weaken; [apply le_n| |exact G].
  intros h t nb nm' Q. exists e, (nth_error items (S i)). auto.
Qed.
Lemma chain_len ty p o : In ty types -> In p prefixes -> byte o -> (length (opcode_bytes p o) + n_chain ty p o <= 5)%nat.
Proof.
  intros T P O. pose proof (look_at ty p o T P O) as LO. unfold n_chain, look_ok, look in *.
  assert (length (opcode_bytes p o) <= 2)%nat by (unfold opcode_bytes; destruct (negb _); cbn; lia).
  destruct (find_opcode ty p o) as [[[items i]|]| | | |]; try lia. destruct (nth_error items i) as [e|]; [|lia].
  destruct (e_undef e); [lia|]. cbn [orb] in LO. rewrite !andb_true_iff in LO. destruct LO as (_ & LO). apply Nat.leb_le in LO. lia.
Qed.
Lemma decode_shape d ty : In ty types -> forall s, bytes_in s -> mc6800_decodeImpl d ty s = decode_impl (pfx ty) (decode_opcode d ty) s.
Proof.
  intros T s B. unfold mc6800_decodeImpl, decode_impl. destruct (t_byte s) as [c s1] eqn:R. destruct (bytes_kept _ _ _ R B) as (_ & C & _).
  destruct (pfx_ok ty c T C) as (-> & _). reflexivity.
Qed.

(* ------------------------------------------------------------ reading it back *)
Definition fam68 : family := mkFam pl_motorola prefix_c infix_motorola (s2l "$%@&").
Lemma head68 u n : numeral np_motorola u n -> head_ok fam68 u.
Proof.
  intros N. specialize (N [] Logic.I). rewrite app_nil_r in N. unfold np_motorola, np_prefix in N.
  assert (X : forall c r x, has_prefix1 c r u = Some x -> is_alpha c = false -> peek u = c).
  { intros c r x. unfold has_prefix1. destruct (c =? 0); [discriminate|]. destruct u as [|y u']; cbn [iexpect peek]; [intros Q; discriminate Q|].
    destruct (Z.eqb_spec (to_upper y) (to_upper c)) as [E|]; [|intros Q; discriminate Q]. intros _ A. unfold to_upper, is_alpha, is_upper, is_lower in *.
    repeat match type of E with context [if ?q then _ else _] => destruct q eqn:? end; lia. }
  unfold prefix_of in N. unfold head_ok. cbn [fam_leads fam68 s2l c2z].
  destruct (has_prefix1 36 RADIX_16 u) eqn:H1. { right. apply X in H1; [|reflexivity]. rewrite H1. cbn. auto. }
  destruct (has_prefix1 37 RADIX_2 u) eqn:H2. { right. apply X in H2; [|reflexivity]. rewrite H2. cbn. auto. }
  destruct (has_prefix1 64 RADIX_8 u) eqn:H3. { right. apply X in H3; [|reflexivity]. rewrite H3. cbn. auto. }
  destruct (has_prefix1 38 RADIX_10 u) eqn:H4. { right. apply X in H4; [|reflexivity]. rewrite H4. cbn. auto. }
  left. change (RADIX_NONE =? RADIX_NONE) with true in N. cbv iota in N. eapply intel_head; [exact N|discriminate].
Qed.
Definition tail (rest : text) : Prop := rest = [] \/ exists c u, rest = c :: u /\ (c = 44 \/ c = 59).
Lemma parse_place68 a loc b0 t v b rest : a_pl a = pl_motorola -> a_radix a = 10 -> 0 <= loc < 2^32 -> 0 <= v < 2^32 ->
  place_text np_motorola 42 loc t v -> blanks b0 -> blanks b -> tail rest ->
  exists b' w, blanks b' /\ parseInteger a loc (b0 ++ t ++ b ++ rest) OK 0 = Val (w, OK, b' ++ rest) /\ int_value w /\ int_of w = v.
Proof.
  intros PL RX LO V P B0 B T.
  destruct (parse_place fam68 a loc 0 42 b0 t v b rest) as (b' & w & X1 & X2 & X3 & X4 & _); auto.
  - cbn. auto 10.
  - cbn. auto.
  - cbn. auto.
  - apply head68.
  - cbn. auto 30.
  - cbn. auto 30.
  - intros d I L r. cbn in I. repeat (destruct I as [<-|I]; [cbn in *; try lia; split; discriminate|]). contradiction.
  - destruct T as [->|(c & u & -> & C)]; [auto|]. right. exists c, u. tauto.
  - exists b', w. auto.
Qed.
(* what starts an operand *)
Definition starts (t : text) : Prop := exists c u, t = c :: u /\ is_space c = false /\ ~ In c [0; 44; 59; 88; 120; 89; 121].
Lemma head_starts u n : numeral np_motorola u n -> starts u /\ ~ In (peek u) [35; 60; 62; 42].
Proof.
  intros N. pose proof (head68 u n N) as H. unfold head_ok in H. destruct u as [|c u].
  - exfalso. cbn [peek fam_leads fam68] in H. cbn in H. intuition discriminate.
  - cbn [peek fam_leads fam68 s2l c2z] in *. split.
    + exists c, u. split; [reflexivity|]. destruct H as [H|H].
      * unfold is_digit in H. unfold is_space. cbn. lia.
      * cbn in H. split; [|cbn]; repeat (destruct H as [<-|H]; [first [reflexivity|intuition discriminate]|]); contradiction.
    + destruct H as [H|H].
      * unfold is_digit in H. cbn. lia.
      * cbn in H. cbn. repeat (destruct H as [<-|H]; [intuition discriminate|]); contradiction.
Qed.
Lemma place_starts loc t v : place_text np_motorola 42 loc t v -> starts t /\ ~ In (peek t) [35; 60; 62].
Proof.
  intros [N|[(-> & _)|(u & n & [(-> & _)|(-> & _)] & _)]].
  - destruct (head_starts t v N) as (A & B). split; [exact A|]. cbn in *. tauto.
  - split; [exists 42, []; cbn; intuition discriminate|cbn; intuition discriminate].
  - split; [eexists 42, _; cbn; split; [reflexivity|]; intuition discriminate|cbn; intuition discriminate].
  - split; [eexists 42, _; cbn; split; [reflexivity|]; intuition discriminate|cbn; intuition discriminate].
Qed.
Definition modes_of (K : kind) : list Z :=
  match K with
  | K_none => [M_NONE]
  | K_dir => [M_DIR; M_BIT]
  | K_ext => [M_EXT]
  | K_idx r => [if r =? REG_X then M_IDX else M_IDY]
  | K_rel => [M_EXT; M_DIR; M_BIT]
  | K_im8 | K_im16 => [M_IM16]
  | K_bit => [M_BIT]
  end.
Definition noreg (rest : text) : Prop := forall u, rest = 44 :: u -> exists b t, u = b ++ t /\ blanks b /\ starts t.
Lemma starts_skip b t z : blanks b -> starts t -> skipSpaces (b ++ t ++ z) = t ++ z.
Proof. intros B (c & u & -> & S & _). rewrite skip_blanks by exact B. cbn [app]. now apply skip_none. Qed.
Lemma starts_noreg t : starts t -> parseRegName t = (REG_UNDEF, t).
Proof.
  intros (c & u & -> & _ & N). unfold parseRegName, iexpectWord.
  change (iexpectText (s2l "X") (c :: u)) with (if to_lower 88 =? to_lower c then Some u else None).
  change (iexpectText (s2l "Y") (c :: u)) with (if to_lower 89 =? to_lower c then Some u else None).
  cbn in N. change (to_lower 88) with 120. change (to_lower 89) with 121.
  assert (120 <> to_lower c /\ 121 <> to_lower c) as (L1 & L2).
  { unfold to_lower, is_upper. destruct (_ && _) eqn:Q; lia. }
  apply Z.eqb_neq in L1, L2. now rewrite L1, L2.
Qed.
Lemma reg_read k r b rest : In r [REG_X; REG_Y] -> blanks b -> tail rest -> parseRegName (conv (Some k) r :: b ++ rest) = (r, b ++ rest).
Proof.
  intros R B T.
  assert (PK : is_alnum (peek (b ++ rest)) || (peek (b ++ rest) =? 95) = false).
  { destruct b as [|c b]; cbn [app].
    - destruct T as [->|(c & u & -> & [->| ->])]; reflexivity.
    - inversion B as [|? ? C ?]; subst. cbn [peek]. unfold is_space in C. unfold is_alnum, is_alpha, is_upper, is_lower, is_digit. lia. }
  unfold parseRegName, iexpectWord. destruct R as [<-|[<-|[]]]; destruct k; cbn [conv to_upper to_lower is_upper is_lower REG_X REG_Y s2l c2z iexpectText]; cbn -[is_alnum peek app];
    rewrite PK; reflexivity.
Qed.
Lemma after_number p rest : blanks p -> tail rest -> noreg rest ->
  match expect_char 44 (skipSpaces (p ++ rest)) with
  | Some q => parseRegName (skipSpaces q) = (REG_UNDEF, skipSpaces q)
  | None => True
  end.
Proof.
  intros B T N. rewrite skip_blanks by exact B. destruct T as [->|(c & u & -> & [->| ->])]; [exact Logic.I| |exact Logic.I].
  rewrite skip_none by reflexivity. cbn [expect_char]. change (44 =? 44) with true. cbv iota.
  destruct (N u eq_refl) as (b & t & -> & B' & S). pose proof (starts_skip b t [] B' S) as K. rewrite app_nil_r in K. rewrite K. now apply starts_noreg.
Qed.
Lemma expect_not c t z : starts t -> peek t <> c -> expect_char c (t ++ z) = None.
Proof.
  intros (x & u & -> & _) N. cbn [app expect_char peek] in *. destruct (Z.eqb_spec x c); [congruence|reflexivity].
Qed.
Definition amode (v : Z) : Z := if 255 <? v then M_EXT else if 7 <? v then M_DIR else M_BIT.
Lemma amode_ok w v : int_value w -> int_of w = v -> 0 <= v < 65536 ->
  (if overflowUint8 w then M_EXT else if overflow w 7 0 then M_DIR else M_BIT) = amode v.
Proof.
  intros I E V. unfold amode, overflowUint8.
  assert (O : forall m n, 0 <= m < 2^32 -> n <= 0 -> -2^31 <= n -> overflow w m n = (m <? v)).
  { intros m n M N1 N2. pose proof (overflow_ok w m n I M ltac:(lia)) as O. rewrite E in O. destruct (overflow w m n), (Z.ltb_spec m v); auto.
    - destruct O as [O _]. specialize (O eq_refl). lia.
    - destruct O as [_ O]. apply O. lia. }
  rewrite !O by lia. reflexivity.
Qed.
Lemma piece_range d K opc k addr bs t nb v : piece d K opc k addr bs t nb v -> 0 <= v < 65536.
Proof.
  unfold byte in *. destruct K; cbn [piece]; unfold byte; intros H.
  - lia.
  - lia.
  - destruct H as (hi & lo & u & _ & H1 & H2 & -> & _). lia.
  - destruct H as (u & _ & _ & H & _). lia.
  - destruct H as (x & _ & _ & -> & CK & _). apply C31_addr in CK; [|lia|unfold u32; apply Z.mod_pos_bound; lia].
    split; [unfold u32; apply Z.mod_pos_bound; lia|]. change 65536 with (2^16). tauto.
  - destruct H as (u & _ & _ & H & _). lia.
  - destruct H as (hi & lo & u & _ & H1 & H2 & -> & _). lia.
  - destruct H as (x & _ & _ & -> & H & _). pose proof (bit_range opc x). lia.
Qed.
Lemma num_place u v loc : num u v -> place_text np_motorola 42 loc u v.
Proof. intros N. now left. Qed.
Lemma piece_starts d K opc k addr bs t nb v : K <> K_none -> 0 <= addr < 2^16 -> (length bs <= 8)%nat -> piece d K opc k addr bs t nb v -> starts t.
Proof.
  intros NK AR LB. destruct K; cbn [piece]; intros H; [congruence| | | | | | |].
  - destruct H as (N & _). now apply head_starts in N.
  - destruct H as (hi & lo & u & _ & _ & _ & _ & N & ->). destruct (v <? 256); [|now apply head_starts in N].
    exists 62, u. cbn. intuition discriminate.
  - destruct H as (u & N & _ & _ & ->). apply head_starts in N. destruct N as ((c & z & -> & A) & _). exists c, (z ++ [44; conv k r]). auto.
  - destruct H as (x & _ & _ & _ & _ & P). specialize (P AR LB). now apply place_starts in P.
  - destruct H as (u & N & _ & _ & ->). exists 35, u. cbn. intuition discriminate.
  - destruct H as (hi & lo & u & _ & _ & _ & _ & N & ->). exists 35, u. cbn. intuition discriminate.
  - destruct H as (x & _ & _ & _ & _ & N). now apply head_starts in N.
Qed.
Definition reg_ok (K : kind) : Prop := match K with K_idx r => In r [REG_X; REG_Y] | _ => True end.
Lemma parse_piece d K opc k addr bs t nb v a b0 b rest :
  a_pl a = pl_motorola -> a_radix a = 10 -> K <> K_none -> reg_ok K -> piece d K opc (Some k) addr bs t nb v ->
  0 <= addr < 2^16 -> (length bs <= 8)%nat -> blanks b0 -> blanks b -> tail rest -> noreg rest ->
  exists b' w om, blanks b' /\ parseOperand a addr (b0 ++ t ++ b ++ rest) = Val (mkOp om w OK, b' ++ rest) /\
    In om (modes_of K) /\ int_value w /\ int_of w = v.
Proof.
  intros PL RX NK RO P AR LB B0 B T NR. pose proof (piece_starts _ _ _ _ _ _ _ _ _ NK AR LB P) as ST. pose proof (piece_range _ _ _ _ _ _ _ _ _ P) as VR.
  assert (AR' : 0 <= addr < 2^32) by lia. assert (VR' : 0 <= v < 2^32) by lia.
  assert (HASH : forall u, num u v -> t = 35 :: u -> In M_IM16 (modes_of K) -> exists b' w om, blanks b' /\ parseOperand a addr (b0 ++ t ++ b ++ rest) = Val (mkOp om w OK, b' ++ rest) /\
    In om (modes_of K) /\ int_value w /\ int_of w = v).
  { intros u N -> IN. destruct (parse_place68 a addr [] u v b rest PL RX AR' VR' (num_place u v addr N) (Forall_nil _) B T) as (b' & w & B' & PI & IV & IO).
    exists b', w, M_IM16. split; [exact B'|]. split; [|auto]. unfold parseOperand. cbv zeta. rewrite (starts_skip b0 _ _ B0 ST). cbn [app peek].
    change (35 =? 44) with false. cbn [expect_char]. change (35 =? 35) with true. cbv iota. cbn [app] in PI. rewrite PI. reflexivity. }
  assert (PLACE : forall u, place_text np_motorola 42 addr u v -> t = u -> In (amode v) (modes_of K) -> exists b' w om, blanks b' /\ parseOperand a addr (b0 ++ t ++ b ++ rest) = Val (mkOp om w OK, b' ++ rest) /\
    In om (modes_of K) /\ int_value w /\ int_of w = v).
  { intros u N -> IN. destruct (parse_place68 a addr [] u v b rest PL RX AR' VR' N (Forall_nil _) B T) as (b' & w & B' & PI & IV & IO).
    exists b', w, (amode v). split; [exact B'|]. split; [|auto]. destruct (place_starts _ _ _ N) as (_ & PH). cbn in PH.
    unfold parseOperand. cbv zeta. rewrite (starts_skip b0 _ _ B0 ST).
    replace (peek (u ++ b ++ rest) =? 44) with false.
    2:{ destruct ST as (c & z & -> & _ & NI). cbn [app peek]. cbn in NI. symmetry. apply Z.eqb_neq. lia. }
    rewrite !(expect_not _ u) by (auto; lia). cbv iota. cbn [app] in PI. rewrite PI. cbn [bind]. change (hasError OK) with false. cbv iota.
    pose proof (after_number b' rest B' T NR) as AN. destruct (expect_char 44 (skipSpaces (b' ++ rest))) as [q|]; [rewrite AN|];
      change (REG_UNDEF =? REG_UNDEF) with true; cbn [negb]; change (0 =? 0) with true; cbv iota; rewrite (amode_ok w v) by auto; reflexivity. }
  destruct K; cbn [piece] in P; [congruence| | | | | | |].
  - destruct P as (N & -> & V). apply (PLACE t); [now left|reflexivity|]. unfold amode, byte in *. destruct (Z.ltb_spec 255 v); [lia|]. destruct (7 <? v); cbn; auto.
  - destruct P as (hi & lo & u & -> & BH & BL & EV & N & ET). destruct (Z.ltb_spec v 256) as [L|L]; cbn [app] in ET.
    + subst t. destruct (parse_place68 a addr [] u v b rest PL RX AR' VR' (num_place u v addr N) (Forall_nil _) B T) as (b' & w & B' & PI & IV & IO).
      exists b', w, M_EXT. split; [exact B'|]. split; [|cbn; auto]. unfold parseOperand. cbv zeta. rewrite (starts_skip b0 _ _ B0 ST). cbn [app peek].
      change (62 =? 44) with false. cbn [expect_char]. change (62 =? 35) with false. change (62 =? 60) with false. change (62 =? 62) with true. cbv iota.
      cbn [app] in PI. rewrite PI. cbn [bind]. change (hasError OK) with false. cbv iota.
      pose proof (after_number b' rest B' T NR) as AN. destruct (expect_char 44 (skipSpaces (b' ++ rest))) as [q|]; [rewrite AN|]; reflexivity.
    + apply (PLACE u); [now left|exact ET|]. unfold amode. destruct (Z.ltb_spec 255 v); [cbn; auto|lia].
  - destruct P as (u & N & -> & V & ->). cbn [reg_ok] in RO.
    destruct (parse_place68 a addr [] u v [] (44 :: conv (Some k) r :: b ++ rest) PL RX AR' VR' (num_place u v addr N) (Forall_nil _) (Forall_nil _)) as (b' & w & B' & PI & IV & IO).
    { right. eauto. }
    exists b, w, (if r =? REG_X then M_IDX else M_IDY). split; [exact B|]. split; [|cbn; auto].
    unfold parseOperand. cbv zeta. rewrite (starts_skip b0 _ _ B0 ST). rewrite <- app_assoc. cbn [app] in PI |- *.
    destruct (head_starts u v N) as (SU & PH). cbn in PH.
    replace (peek (u ++ 44 :: conv (Some k) r :: b ++ rest) =? 44) with false.
    2:{ destruct SU as (c & z & -> & _ & NI). cbn [app peek]. cbn in NI. symmetry. apply Z.eqb_neq. lia. }
    rewrite !(expect_not _ u) by (auto; lia). cbv iota. rewrite PI. cbn [bind]. change (hasError OK) with false. cbv iota.
    rewrite skip_blanks by exact B'. rewrite (skip_none 44) by reflexivity. cbn [expect_char]. change (44 =? 44) with true. cbv iota.
    rewrite (skip_none (conv (Some k) r)) by (destruct RO as [<-|[<-|[]]]; destruct k; reflexivity).
    rewrite reg_read by assumption. destruct RO as [<-|[<-|[]]]; reflexivity.
  - destruct P as (x & _ & _ & _ & _ & P). apply (PLACE t); auto. unfold amode. destruct (255 <? v); [cbn; auto|]. destruct (7 <? v); cbn; auto.
  - destruct P as (u & N & _ & _ & ET). apply (HASH u N ET). cbn. auto.
  - destruct P as (hi & lo & u & _ & _ & _ & _ & N & ET). apply (HASH u N ET). cbn. auto.
  - destruct P as (x & _ & _ & EV & V0 & N). apply (PLACE t); [now left|reflexivity|]. pose proof (bit_range opc x). rewrite EV in *.
    unfold amode. destruct (Z.ltb_spec 255 (bit_of opc x)); [lia|]. destruct (Z.ltb_spec 7 (bit_of opc x)); [lia|cbn; auto].
Qed.

(* ------------------------------------------------------------ bytes *)
Definition base (p : Z) : nat := if negb (p =? 0) then 2%nat else 1%nat.
Lemma opcode_length p o : length (opcode_bytes p o) = base p.
Proof. unfold opcode_bytes, base. now destruct (negb _). Qed.
Lemma pos68 addr p nb e o : ai_operandPos (mkAI (part addr (base p) nb) e p o) = Z.of_nat (base p + length nb).
Proof.
  rewrite <- (part_at addr (base p) nb). unfold ai_operandPos, part_pos. cbn [ai_insn ai_prefix]. unfold base. now destruct (negb (p =? 0)).
Qed.
Lemma emit8 x z addr p nb e o : byte x -> u8 z = x -> (length nb <= 8)%nat ->
  ai_emitOperand8 z (mkAI (part addr (base p) nb) e p o) = mkAI (part addr (base p) (nb ++ [x])) e p o.
Proof.
  intros X U L. unfold ai_emitOperand8. rewrite pos68, U. cbn [ai_insn]. rewrite part_byte; [reflexivity|exact X|]. unfold base. destruct (negb _); lia.
Qed.
Lemma emit16 hi lo z addr p nb e o : byte hi -> byte lo -> u16 z = 256 * hi + lo -> (length nb <= 8)%nat ->
  ai_emitOperand16 z (mkAI (part addr (base p) nb) e p o) = mkAI (part addr (base p) (nb ++ [hi; lo])) e p o.
Proof.
  intros X Y U L. unfold ai_emitOperand16. rewrite pos68, U. cbn [ai_insn]. rewrite part_be; [reflexivity|exact X|exact Y|]. unfold base. destruct (negb _); lia.
Qed.
Lemma noerr i e p o : ai_setErrorIf OK (mkAI i e p o) = mkAI i e p o.
Proof. unfold ai_setErrorIf, setErrorIfAt. cbn. now rewrite andb_false_r. Qed.
Definition fits (opc : Z) (K : kind) (m om o : Z) : bool :=
  let gn := (m =? M_GN8) || (m =? M_GN16) in
  match K with
  | K_none => m =? M_NONE
  | K_dir => gn || (m =? M_DIR)
  | K_ext => gn || (m =? M_GMEM) || (m =? M_EXT)
  | K_idx r => gn || ((m =? M_GMEM) && (om =? M_IDX)) || (m =? M_IDX) || (m =? M_IDY)
  | K_rel => m =? M_REL
  | K_im8 => (m =? M_GN8) || (m =? M_IM8) || (m =? M_BMM)
  | K_im16 => (m =? M_GN16) || (m =? M_IM16)
  | K_bit => (m =? M_BIT) && (Z.land o 15 =? Z.land opc 15)
  end.
Definition embed (m om o : Z) : Z :=
  if (m =? M_GN8) || (m =? M_GN16) then
    if (om =? M_DIR) || (om =? M_BIT) then u8 (Z.lor o 0x10)
    else if (om =? M_IDX) || (om =? M_IDY) then u8 (Z.lor o 0x20)
    else if om =? M_EXT then u8 (Z.lor o 0x30) else o
  else if m =? M_GMEM then if om =? M_IDX then o else u8 (Z.lor o 0x70)
  else o.
Lemma bit_check : forallb (fun x => forallb (fun aim : bool =>
    let v := bitNumber (u8 (if aim then Z.lnot x else x)) in
    let imm := u8 (Z.shiftl 1 (Z.land v 7)) in
    (v <? 0) || (u8 (if aim then Z.lnot imm else imm) =? x)) [false; true]) all_bytes = true.
Proof. vm_compute. reflexivity. Qed.
Lemma bit_ok opc x v : byte x -> v = bit_of opc x -> 0 <= v ->
  u8 (if Z.land opc 15 =? 1 then Z.lnot (u8 (Z.shiftl 1 (Z.land v 7))) else u8 (Z.shiftl 1 (Z.land v 7))) = x.
Proof.
  intros X -> V. pose proof bit_check as H. rewrite forallb_forall in H. specialize (H x (all_in x X)). rewrite forallb_forall in H.
  specialize (H (Z.land opc 15 =? 1) ltac:(destruct (_ =? _); cbn; auto)). cbv zeta in H. fold (bit_of opc x) in H.
  apply orb_true_iff in H. destruct H as [H|H]; [lia|]. now apply Z.eqb_eq in H.
Qed.
Lemma emit_piece d K opc k addr p nb0 t nb v m om w o :
  piece d K opc k addr (opcode_bytes p opc ++ nb0) t nb v -> fits opc K m om o = true -> In om (modes_of K) ->
  (K = K_none \/ int_value w /\ int_of w = v) -> 0 <= addr < 2^16 -> (length nb0 <= 6)%nat -> (K = K_rel -> p = 0 \/ nb0 <> []) ->
  emitOperand m (mkOp om w OK) (mkAI (part addr (base p) nb0) OK p o) = Val (mkAI (part addr (base p) (nb0 ++ nb)) OK p (embed m om o)).
Proof.
  intros P F IM W AR LN RL. pose proof (piece_range _ _ _ _ _ _ _ _ _ P) as VR. unfold emitOperand. cbv zeta. cbn [o_err o_val o_mode]. rewrite noerr.
  assert (GU : K <> K_none -> getUnsigned w = v).
  { intros NK. destruct W as [W|(IV & IO)]; [congruence|]. rewrite getUnsigned_mod by exact IV. rewrite IO. apply Z.mod_small. lia. }
  assert (OV : K <> K_none -> forall n, n <= 0 -> -2^31 <= n -> overflow w 255 n = (255 <? v)).
  { intros NK n N1 N2. destruct W as [W|(IV & IO)]; [congruence|]. pose proof (overflow_ok w 255 n IV ltac:(lia) ltac:(lia)) as O. rewrite IO in O.
    destruct (overflow w 255 n), (Z.ltb_spec 255 v); auto; [destruct O as [O _]; specialize (O eq_refl); lia|destruct O as [_ O]; apply O; lia]. }
  unfold emitImmediate, overflowUint8. unfold embed.
  destruct K; cbn [piece modes_of fits In] in P, F, IM; [|specialize (GU ltac:(discriminate)); specialize (OV ltac:(discriminate)); cbn [o_val]; rewrite ?OV by lia; rewrite ?GU..].
  - apply Z.eqb_eq in F. subst m. destruct P as (_ & -> & _). rewrite app_nil_r. reflexivity.
  - destruct P as (_ & -> & V). assert (L : 255 <? v = false) by (unfold byte in V; lia). rewrite L.
    apply orb_true_iff in F. destruct F as [F|F].
    + rewrite F. destruct IM as [<-|[<-|[]]]; cbn [Z.eqb Pos.eqb M_DIR M_BIT orb]; unfold ai_embed; cbn [ai_insn ai_err ai_prefix ai_opc];
        (rewrite (emit8 v) by (auto; try lia; unfold u8; now apply Z.mod_small)); reflexivity.
    + apply Z.eqb_eq in F. subst m. cbn [Z.eqb Pos.eqb M_DIR M_GN8 M_GN16 M_GMEM M_IDX M_IDY orb].
      rewrite (emit8 v) by (auto; try lia; unfold u8; now apply Z.mod_small). reflexivity.
  - destruct P as (hi & lo & u & -> & BH & BL & EV & _). destruct IM as [<-|[]].
    assert (U : u16 v = 256 * hi + lo) by (rewrite <- EV; unfold u16; now apply Z.mod_small).
    apply orb_true_iff in F. destruct F as [F|F]; [apply orb_true_iff in F; destruct F as [F|F]|].
    + rewrite F. cbn [Z.eqb Pos.eqb M_DIR M_BIT M_EXT M_IDX M_IDY orb]. unfold ai_embed; cbn [ai_insn ai_err ai_prefix ai_opc].
      rewrite (emit16 hi lo) by (auto; lia). reflexivity.
    + apply Z.eqb_eq in F. subst m. cbn [Z.eqb Pos.eqb M_DIR M_GN8 M_GN16 M_GMEM M_IDX M_IDY M_EXT orb]. unfold ai_embed; cbn [ai_insn ai_err ai_prefix ai_opc].
      rewrite (emit16 hi lo) by (auto; lia). reflexivity.
    + apply Z.eqb_eq in F. subst m. cbn [Z.eqb Pos.eqb M_DIR M_GN8 M_GN16 M_GMEM M_IDX M_IDY M_EXT orb].
      rewrite (emit16 hi lo) by (auto; lia). reflexivity.
  - destruct P as (u & _ & -> & V & _). assert (L : 255 <? v = false) by (unfold byte in V; lia). rewrite L.
    assert (OM : om = M_IDX \/ om = M_IDY) by (destruct IM as [<-|[]]; destruct (r =? REG_X); auto).
    apply orb_true_iff in F. destruct F as [F|F]; [apply orb_true_iff in F; destruct F as [F|F]; [apply orb_true_iff in F; destruct F as [F|F]|]|].
    + rewrite F. destruct OM as [->| ->]; cbn [Z.eqb Pos.eqb M_DIR M_BIT M_EXT M_IDX M_IDY orb]; unfold ai_embed; cbn [ai_insn ai_err ai_prefix ai_opc];
        (rewrite (emit8 v) by (auto; try lia; unfold u8; now apply Z.mod_small)); reflexivity.
    + apply andb_true_iff in F. destruct F as (F & G). apply Z.eqb_eq in F, G. subst m om. cbn [Z.eqb Pos.eqb M_DIR M_GN8 M_GN16 M_GMEM M_IDX M_IDY orb].
      rewrite (emit8 v) by (auto; try lia; unfold u8; now apply Z.mod_small). reflexivity.
    + apply Z.eqb_eq in F. subst m. cbn [Z.eqb Pos.eqb M_DIR M_GN8 M_GN16 M_GMEM M_IDX M_IDY orb].
      rewrite (emit8 v) by (auto; try lia; unfold u8; now apply Z.mod_small). reflexivity.
    + apply Z.eqb_eq in F. subst m. cbn [Z.eqb Pos.eqb M_DIR M_GN8 M_GN16 M_GMEM M_IDX M_IDY orb].
      rewrite (emit8 v) by (auto; try lia; unfold u8; now apply Z.mod_small). reflexivity.
  - apply Z.eqb_eq in F. subst m. destruct P as (x & -> & X & EV & CK & _). specialize (RL eq_refl).
    cbn [Z.eqb Pos.eqb M_DIR M_GN8 M_GN16 M_GMEM M_IDX M_IDY M_EXT M_REL orb]. unfold emitRelative. cbv zeta. cbn [ai_insn ai_err o_err o_val].
    change (isOK OK) with true. cbn [negb]. rewrite GU. rewrite app_length, opcode_length in EV.
    set (bb := addr + Z.of_nat (base p + length nb0) + 1) in *.
    assert (BB : i_addr (part addr (base p) nb0) + (if i_len (part addr (base p) nb0) =? 0 then 2 else i_len (part addr (base p) nb0) + 1) = bb).
    { rewrite part_len. assert (i_addr (part addr (base p) nb0) = addr) as -> by (destruct nb0; reflexivity). destruct nb0 as [|y nb0].
      - destruct RL as [->|RL]; [|congruence]. unfold bb. cbn. lia.
      - cbn [length Nat.ltb Nat.leb]. destruct (Z.eqb_spec (Z.of_nat (base p + S (length nb0))) 0); [lia|]. unfold bb. cbn [length]. lia. }
    rewrite BB. pose proof (int8_range x) as IR. assert (LB : (base p <= 2)%nat) by (unfold base; destruct (negb _); lia).
    assert (UB : u32 bb = bb) by (unfold u32; apply Z.mod_small; unfold bb; lia). rewrite UB in *.
    assert (EV' : v = bb + int8 x).
    { unfold u32 in EV. destruct (Z.neg_nonneg_cases (bb + int8 x)) as [NG|NG].
      - exfalso. replace (bb + int8 x) with (bb + int8 x + 2^32 + (-1) * 2^32) in EV by lia.
        rewrite Z.mod_add, Z.mod_small in EV by (unfold bb in *; lia). unfold bb in *. lia.
      - rewrite Z.mod_small in EV by (unfold bb in *; lia). exact EV. }
    rewrite branch_near by (try change (2^16) with 65536; try change (2^(16-1)) with 32768; lia).
    destruct (C30_delta (v - bb) 8 ltac:(lia)) as (far & -> & FAR). assert (far = false) as -> by (apply FAR; change (2^(8-1)) with 128; lia).
    unfold ai_seterr. cbn [ai_insn ai_prefix ai_opc]. rewrite (emit8 x); [reflexivity|exact X| |lia].
    rewrite EV'. replace (bb + int8 x - bb) with (int8 x) by lia. unfold u8, int8. change (2^8) with 256. unfold byte in X.
    replace ((x + 128) mod 256 - 128) with (x + (- ((x + 128) / 256)) * 256) by (pose proof (Z.div_mod (x + 128) 256); lia).
    rewrite Z.mod_add by lia. apply Z.mod_small. lia.
  - destruct P as (u & _ & -> & V & _). assert (L : 255 <? v = false) by (unfold byte in V; lia). rewrite L. destruct IM as [<-|[]].
    apply orb_true_iff in F. destruct F as [F|F]; [apply orb_true_iff in F; destruct F as [F|F]|]; apply Z.eqb_eq in F; subst m;
      cbn [Z.eqb Pos.eqb M_DIR M_GN8 M_GN16 M_GMEM M_IDX M_IDY M_EXT M_BIT M_REL M_IM8 M_IM16 M_BMM orb]; rewrite (emit8 v) by (auto; try lia; unfold u8; now apply Z.mod_small); reflexivity.
  - destruct P as (hi & lo & u & -> & BH & BL & EV & _). destruct IM as [<-|[]].
    assert (U : u16 v = 256 * hi + lo) by (rewrite <- EV; unfold u16; now apply Z.mod_small).
    apply orb_true_iff in F. destruct F as [F|F]; apply Z.eqb_eq in F; subst m;
      cbn [Z.eqb Pos.eqb M_DIR M_GN8 M_GN16 M_GMEM M_IDX M_IDY M_EXT M_BIT M_REL M_IM8 M_IM16 M_BMM orb]; rewrite (emit16 hi lo) by (auto; lia); reflexivity.
  - apply andb_true_iff in F. destruct F as (F & G). apply Z.eqb_eq in F, G. subst m. destruct P as (x & -> & X & EV & V0 & _).
    cbn [Z.eqb Pos.eqb M_DIR M_GN8 M_GN16 M_GMEM M_IDX M_IDY M_EXT M_BIT M_REL M_IM8 M_IM16 M_BMM orb]. unfold emitBitNumber. cbn [ai_opc o_val]. rewrite GU, G.
    rewrite (emit8 x); [reflexivity|exact X|now apply bit_ok|lia].
Qed.

(* ------------------------------------------------------------ every opcode *)
Definition is_none (K : kind) : bool := match K with K_none => true | _ => false end.
Definition is_rel (K : kind) : bool := match K with K_rel => true | _ => false end.
Definition firsts (opc : Z) (e : entry) (al : option entry) : list (text * kind) :=
  if e_m1 e =? M_BMM then [(entry_name e, K_im8); (match al with Some a => entry_name a | None => [] end, K_bit)]
  else [(entry_name e, kind_of opc (e_m1 e))].
Definition check_one (k : option bool) (ty p opc : Z) (nm : text) (K1 K2 K3 : kind) : bool :=
  let nm := map (conv k) nm in
  plain_name sp_motorola [] mc6800_directives nm && is_alpha (peek nm) &&
  match hasOperand ty nm with Val h => Bool.eqb h (negb (is_none K1)) | _ => false end &&
  (negb (is_none K1) || is_none K2) && (negb (is_none K2) || is_none K3) && (negb (is_rel K1) || (p =? 0)) && (negb (is_rel K2) || (p =? 0) || negb (is_none K1)) &&
  forallb (fun om1 => forallb (fun om2 => forallb (fun om3 =>
    match mc6800_searchName ty nm om1 om2 om3 with
    | Val (OK, Some (p', e')) =>
      (p' =? p) && fits opc K1 (e_m1 e') om1 (e_opc e') &&
      let o1 := embed (e_m1 e') om1 (e_opc e') in
      fits opc K2 (e_m2 e') om2 o1 &&
      let o2 := embed (e_m2 e') om2 o1 in
      fits opc K3 (e_m3 e') om3 o2 && (embed (e_m3 e') om3 o2 =? opc)
    | _ => false
    end) (modes_of K3)) (modes_of K2)) (modes_of K1).
Definition check (k : option bool) (ty p opc : Z) : bool :=
  match look ty p opc with
  | None => true
  | Some (e, al) =>
    e_undef e ||
    let K2 := kind_of opc (e_m2 e) in
    let K3 := kind_of opc (e_m3 e) in
    Bool.eqb (is_none K2) (e_m2 e =? M_NONE) && Bool.eqb (is_none K3) (e_m3 e =? M_NONE) &&
    forallb (fun '(nm, K1) => check_one k ty p opc nm K1 K2 K3) (firsts opc e al)
  end.
Lemma check_ok : forallb (fun k => forallb (fun ty => forallb (fun p => forallb (check (Some k) ty p) all_bytes) prefixes) types) [false; true] = true.
Proof. vm_compute. reflexivity. Qed.
Lemma check_at k ty p opc : In ty types -> In p prefixes -> byte opc -> check (Some k) ty p opc = true.
Proof.
  intros T P O. pose proof check_ok as H. rewrite forallb_forall in H. specialize (H k ltac:(destruct k; cbn; auto)).
  rewrite forallb_forall in H. specialize (H ty T). rewrite forallb_forall in H. specialize (H p P).
  rewrite forallb_forall in H. apply H, all_in, O.
Qed.
Lemma is_none_ok K : is_none K = true <-> K = K_none.
Proof. destruct K; cbn; split; congruence. Qed.
Lemma reg_kind opc m : reg_ok (kind_of opc m).
Proof.
  unfold kind_of. repeat match goal with |- context [if ?q then _ else _] => destruct q end; cbn; auto.
Qed.
Lemma piece_length d K opc k addr bs t nb v : piece d K opc k addr bs t nb v -> (length nb <= 2)%nat.
Proof.
  destruct K; cbn [piece].
  - intros (_ & -> & _); cbn; lia.
  - intros (_ & -> & _); cbn; lia.
  - intros (? & ? & ? & -> & _); cbn; lia.
  - intros (? & _ & -> & _); cbn; lia.
  - intros (? & -> & _); cbn; lia.
  - intros (? & _ & -> & _); cbn; lia.
  - intros (? & ? & ? & -> & _); cbn; lia.
  - intros (? & -> & _); cbn; lia.
Qed.
(* the operands of an instruction *)
Definition sep (K : kind) : text := if is_none K then [] else [44; 32].
Definition three (d : disasm) (opc : Z) (k : option bool) (addr : Z) (bs : list Z) (K1 K2 K3 : kind) (t : text) (nb : list Z) : Prop :=
  exists t1 t2 t3 n1 n2 n3 v1 v2 v3,
    piece d K1 opc k addr bs t1 n1 v1 /\ piece d K2 opc k addr (bs ++ n1) t2 n2 v2 /\ piece d K3 opc k addr (bs ++ n1 ++ n2) t3 n3 v3 /\
    t = t1 ++ sep K2 ++ t2 ++ sep K3 ++ t3 /\ nb = n1 ++ n2 ++ n3.
Lemma more_piece d o mode h t nb nm' : is_none (kind_of o mode) = (mode =? M_NONE) -> R_more d o mode h t nb nm' ->
  nm' = h_nm h /\ exists u v, piece d (kind_of o mode) o (h_case h) (h_addr h) (h_bs h) u nb v /\ t = sep (kind_of o mode) ++ u.
Proof.
  intros N. unfold R_more, sep. rewrite N. destruct (mode =? M_NONE).
  - intros (-> & -> & ->). split; [reflexivity|]. exists [], 0. apply is_none_ok in N. rewrite N. cbn. auto.
  - intros (t1 & t2 & n1 & n2 & nm1 & -> & -> & (-> & -> & ->) & -> & v & P). rel_out. rewrite app_nil_r in P. split; [reflexivity|]. exists t2, v. auto.
Qed.
Lemma chain_three d ty p o k h t nb nm' : In ty types -> In p prefixes -> byte o -> h_case h = Some k -> R_chain d ty p o h t nb nm' ->
  exists nm K1 K2 K3, check_one (Some k) ty p o nm K1 K2 K3 = true /\ nm' = firstn 11 (map (conv (Some k)) nm) /\
    reg_ok K1 /\ reg_ok K2 /\ reg_ok K3 /\ three d o (Some k) (h_addr h) (h_bs h) K1 K2 K3 t nb.
Proof.
  intros T P O HC (e & al & L & U & Q). pose proof (check_at k ty p o T P O) as CK. unfold check in CK. rewrite L, U in CK. cbn [orb] in CK. cbv zeta in CK.
  rewrite !andb_true_iff in CK. destruct CK as ((N2 & N3) & CK). apply eqb_prop in N2, N3. rewrite forallb_forall in CK.
  destruct Q as (t0 & tr & n0 & nr & nm1 & -> & -> & (-> & -> & ->) & t1 & tr2 & n1 & nr' & nm2 & -> & -> & Q1 & t2 & t3 & n2 & n3 & nm3 & -> & -> & Q2 & Q3).
  rel_out. rewrite ?app_nil_r in *. rewrite HC in *.
  destruct (more_piece _ _ _ _ _ _ _ N2 Q2) as (-> & u2 & v2 & P2 & ->). destruct (more_piece _ _ _ _ _ _ _ N3 Q3) as (-> & u3 & v3 & P3 & ->). rel_out.
  assert (G : forall nm K1, In (nm, K1) (firsts o e al) -> nm2 = firstn 11 (map (conv (Some k)) nm) -> reg_ok K1 ->
     (exists v, piece d K1 o (Some k) (h_addr h) (h_bs h) t1 n1 v) ->
     exists nm0 K1 K2 K3, check_one (Some k) ty p o nm0 K1 K2 K3 = true /\ nm2 = firstn 11 (map (conv (Some k)) nm0) /\
       reg_ok K1 /\ reg_ok K2 /\ reg_ok K3 /\
       three d o (Some k) (h_addr h) (h_bs h) K1 K2 K3 (([] ++ t1) ++ (sep (kind_of o (e_m2 e)) ++ u2) ++ sep (kind_of o (e_m3 e)) ++ u3) (([] ++ n1) ++ n2 ++ n3)).
  { intros nm K1 I EN RO (v1 & P1). exists nm, K1, (kind_of o (e_m2 e)), (kind_of o (e_m3 e)). split; [exact (CK _ I)|]. split; [exact EN|].
    split; [exact RO|]. split; [apply reg_kind|]. split; [apply reg_kind|]. exists t1, u2, u3, n1, n2, n3, v1, v2, v3.
    split; [exact P1|]. split; [exact P2|]. split; [now rewrite app_assoc|]. cbn [app]. rewrite <- !app_assoc. auto. }
  unfold R_op1, firsts in *. destruct (e_m1 e =? M_BMM).
  - destruct Q1 as [(-> & P1)|(-> & P1)]; rel_out; rewrite ?HC in *.
    + eapply G; [left; reflexivity|reflexivity|exact Logic.I|exact P1].
    + eapply G; [right; left; reflexivity|reflexivity|exact Logic.I|exact P1].
  - destruct Q1 as (-> & P1). rel_out. rewrite ?HC in *. eapply G; [left; reflexivity|reflexivity|apply reg_kind|exact P1].
Qed.

Definition last_rest (rest : text) : Prop := rest = [] \/ exists u, rest = 59 :: u.
Lemma last_skip b rest : blanks b -> last_rest rest -> skipSpaces (b ++ rest) = rest.
Proof. intros B R. rewrite skip_blanks by exact B. destruct R as [->|(u & ->)]; [reflexivity|now apply skip_none]. Qed.
Lemma last_nocomma rest : last_rest rest -> expect_char 44 rest = None.
Proof. intros [->|(u & ->)]; reflexivity. Qed.
Lemma last_tail rest : last_rest rest -> tail rest /\ noreg rest.
Proof. intros [->|(u & ->)]; (split; [|intros z Z; discriminate]); [left; auto|right]. exists 59, u. auto. Qed.
(* what follows an operand *)
Lemma after_piece d K opc k addr bs t nb v b rest : piece d K opc k addr bs t nb v -> 0 <= addr < 2^16 -> (length bs <= 8)%nat ->
  blanks b -> tail rest -> noreg rest -> exists b1 r1, blanks b1 /\ tail r1 /\ noreg r1 /\ sep K ++ t ++ b ++ rest = b1 ++ r1 /\ (is_none K = true -> r1 = rest).
Proof.
  intros P AR LB B T N. unfold sep. destruct (is_none K) eqn:NK.
  - apply is_none_ok in NK. subst K. cbn [piece] in P. destruct P as (-> & _). exists b, rest. auto.
  - exists [], (44 :: 32 :: t ++ b ++ rest). split; [apply Forall_nil|]. split; [right; eauto|]. split.
    + intros u Q. injection Q as <-. exists [32], (t ++ b ++ rest). split; [reflexivity|]. split; [repeat constructor|].
      assert (K <> K_none) as NK' by (intros ->; discriminate). destruct (piece_starts _ _ _ _ _ _ _ _ _ NK' AR LB P) as (c & z & -> & S). exists c, (z ++ b ++ rest). auto.
    + split; [reflexivity|discriminate].
Qed.
Definition more (a : asm) (loc : Z) (scan : text) : res (operand * text) :=
  let scan := skipSpaces scan in
  match expect_char 44 scan with
  | Some scan => parseOperand a loc scan
  | None => Val (no_operand, scan)
  end.
Definition read_as (K : kind) (v : Z) (op : operand) : Prop :=
  exists om w, op = mkOp om w OK /\ In om (modes_of K) /\ (K = K_none \/ int_value w /\ int_of w = v).
Lemma more_ok d K opc k addr bs t nb v a b0 b rest :
  a_pl a = pl_motorola -> a_radix a = 10 -> reg_ok K -> piece d K opc (Some k) addr bs t nb v ->
  0 <= addr < 2^16 -> (length bs <= 8)%nat -> blanks b0 -> blanks b -> tail rest -> noreg rest -> (is_none K = true -> last_rest rest) ->
  exists b' op, blanks b' /\ more a addr (b0 ++ sep K ++ t ++ b ++ rest) = Val (op, b' ++ rest) /\ read_as K v op.
Proof.
  intros PL RX RO P AR LB B0 B T N LR. unfold more, sep. cbv zeta. destruct (is_none K) eqn:NK.
  - apply is_none_ok in NK. subst K. cbn [piece] in P. destruct P as (-> & _). specialize (LR eq_refl). cbn [app].
    rewrite skip_blanks by exact B0. rewrite last_skip by assumption. rewrite last_nocomma by assumption.
    exists [], no_operand. split; [apply Forall_nil|]. split; [reflexivity|]. exists M_NONE, v_undef. cbn. auto.
  - rewrite skip_blanks by exact B0. cbn [app]. rewrite (skip_none 44) by reflexivity. cbn [expect_char]. change (44 =? 44) with true. cbv iota.
    assert (K <> K_none) as NK' by (intros ->; discriminate).
    destruct (parse_piece d K opc k addr bs t nb v a [32] b rest PL RX NK' RO P AR LB ltac:(repeat constructor) B T N) as (b' & w & om & B' & PO & IM & IV).
    cbn [app] in PO. exists b', (mkOp om w OK). split; [exact B'|]. split; [exact PO|]. exists om, w. auto.
Qed.
Lemma parse_three d opc k addr bs K1 K2 K3 t nb a b rest :
  a_pl a = pl_motorola -> a_radix a = 10 -> reg_ok K1 -> reg_ok K2 -> reg_ok K3 -> K1 <> K_none -> (is_none K2 = true -> is_none K3 = true) ->
  three d opc (Some k) addr bs K1 K2 K3 t nb -> 0 <= addr < 2^16 -> (length bs <= 2)%nat -> blanks b -> last_rest rest ->
  exists t1 t2 t3 n1 n2 n3 v1 v2 v3 o1 o2 o3 b', 
    piece d K1 opc (Some k) addr bs t1 n1 v1 /\ piece d K2 opc (Some k) addr (bs ++ n1) t2 n2 v2 /\ piece d K3 opc (Some k) addr (bs ++ n1 ++ n2) t3 n3 v3 /\
    nb = n1 ++ n2 ++ n3 /\ blanks b' /\ parseOperands a addr (skipSpaces (t ++ b ++ rest)) = Val (Three o1 o2 o3 (b' ++ rest)) /\
    read_as K1 v1 o1 /\ read_as K2 v2 o2 /\ read_as K3 v3 o3.
Proof.
  intros PL RX R1 R2 R3 NK1 N23 (t1 & t2 & t3 & n1 & n2 & n3 & v1 & v2 & v3 & P1 & P2 & P3 & -> & ->) AR LB B LR.
  exists t1, t2, t3, n1, n2, n3, v1, v2, v3.
  pose proof (piece_length _ _ _ _ _ _ _ _ _ P1) as L1. pose proof (piece_length _ _ _ _ _ _ _ _ _ P2) as L2.
  assert (LB2 : (length (bs ++ n1) <= 8)%nat) by (rewrite app_length; lia). assert (LB3 : (length (bs ++ n1 ++ n2) <= 8)%nat) by (rewrite !app_length; lia).
  destruct (last_tail _ LR) as (TR & NR).
  destruct (after_piece _ _ _ _ _ _ _ _ _ b rest P3 AR LB3 B TR NR) as (b3 & r3 & B3 & T3 & NR3 & E3 & Z3).
  destruct (after_piece _ _ _ _ _ _ _ _ _ b3 r3 P2 AR LB2 B3 T3 NR3) as (b2 & r2 & B2 & T2 & NR2 & E2 & Z2).
  assert (SK : skipSpaces ((t1 ++ sep K2 ++ t2 ++ sep K3 ++ t3) ++ b ++ rest) = t1 ++ b2 ++ r2).
  { rewrite <- !app_assoc. rewrite E3, E2. apply (starts_skip []); [apply Forall_nil|]. exact (piece_starts _ _ _ _ _ _ _ _ _ NK1 AR (Nat.le_trans _ _ 8 LB ltac:(lia)) P1). }
  destruct (parse_piece d K1 opc k addr bs t1 n1 v1 a [] b2 r2 PL RX NK1 R1 P1 AR (Nat.le_trans _ _ 8 LB ltac:(lia)) (Forall_nil _) B2 T2 NR2) as (b1' & w1 & om1 & B1' & PO1 & IM1 & IV1).
  cbn [app] in PO1. 
  destruct (more_ok d K2 opc k addr _ t2 n2 v2 a b1' b3 r3 PL RX R2 P2 AR LB2 B1' B3 T3 NR3) as (b2' & o2 & B2' & PO2 & RA2).
  { intros Q. rewrite (Z3 (N23 Q)). exact LR. }
  destruct (more_ok d K3 opc k addr _ t3 n3 v3 a b2' b rest PL RX R3 P3 AR LB3 B2' B TR NR (fun _ => LR)) as (b3' & o3 & B3' & PO3 & RA3).
  exists (mkOp om1 w1 OK), o2, o3, b3'. split; [exact P1|]. split; [exact P2|]. split; [exact P3|]. split; [reflexivity|]. split; [exact B3'|].
  split; [|split; [exists om1, w1; auto|auto]].
  rewrite SK. unfold parseOperands. rewrite PO1. cbn [bind o_err]. change (hasError OK) with false. cbv iota.
  fold (more a addr (b1' ++ r2)). destruct RA2 as (om2 & w2 & -> & _). destruct RA3 as (om3 & w3 & -> & _).
  assert (X2 : more a addr (b1' ++ r2) = Val (mkOp om2 w2 OK, b2' ++ r3)).
  { destruct (is_none K2) eqn:NK2.
    - rewrite (Z2 eq_refl) in *. rewrite E2 in PO2. unfold more in *. rewrite !skip_blanks in * by assumption. exact PO2.
    - rewrite <- PO2. rewrite E2. unfold more. rewrite !skip_blanks by assumption.
      unfold sep in E2. rewrite NK2 in E2. cbn [app] in E2. destruct b2 as [|c b2]; [reflexivity|]. exfalso. injection E2 as E _. inversion B2; subst. discriminate. }
  rewrite X2. cbn [bind o_err]. change (hasError OK) with false. cbv iota. fold (more a addr (b2' ++ r3)).
  assert (X3 : more a addr (b2' ++ r3) = Val (mkOp om3 w3 OK, b3' ++ rest)).
  { destruct (is_none K3) eqn:NK3.
    - rewrite (Z3 eq_refl) in *. rewrite E3 in PO3. unfold more in *. rewrite !skip_blanks in * by assumption. exact PO3.
    - rewrite <- PO3. rewrite E3. unfold more. rewrite !skip_blanks by assumption.
      unfold sep in E3. rewrite NK3 in E3. cbn [app] in E3. destruct b3 as [|c b3]; [reflexivity|]. exfalso. injection E3 as E _. inversion B3; subst. discriminate. }
  rewrite X3. reflexivity.
Qed.
Lemma plain_line specials tables nm z : plain_name sp_motorola specials tables nm = true -> is_alpha (peek nm) = true -> p_line pl_motorola (nm ++ z) = (false, nm ++ z).
Proof.
  intros PN A. change (p_line pl_motorola) with line_star. unfold line_star.
  destruct nm as [|c nm]; [discriminate|]. cbn [app peek] in *. replace ((c =? 42) || (c =? 59)) with false; [reflexivity|].
  unfold is_alpha, is_upper, is_lower in A. lia.
Qed.
Lemma space_letter c : is_space c = true -> y_insn_letter (p_symbol pl_motorola) c = false.
Proof.
  unfold is_space. intros C. assert (C' : c = 32 \/ c = 9 \/ c = 10 \/ c = 11 \/ c = 12 \/ c = 13) by lia.
  destruct C' as [->|[->|[->|[->|[->| ->]]]]]; reflexivity.
Qed.
Lemma name_ends gap t b rest : blanks gap -> gap <> [] \/ t = [] -> blanks b -> last_rest rest ->
  y_insn_letter (p_symbol pl_motorola) (peek (gap ++ t ++ b ++ rest)) = false.
Proof.
  intros BG NG BB LR. destruct gap as [|c gap]; [|apply space_letter; now inversion BG].
  destruct NG as [NG| ->]; [congruence|]. cbn [app]. destruct b as [|c b]; [|apply space_letter; now inversion BB].
  cbn [app]. destruct LR as [->|(u & ->)]; reflexivity.
Qed.
Lemma encode_ok d k ty p opc nm K1 K2 K3 t nb a indent gap b rest addr :
  check_one (Some k) ty p opc nm K1 K2 K3 = true -> reg_ok K1 -> reg_ok K2 -> reg_ok K3 ->
  three d opc (Some k) addr (opcode_bytes p opc) K1 K2 K3 t nb -> byte p -> byte opc ->
  a_pl a = pl_motorola -> a_radix a = 10 -> a_aw a = 16 ->
  blanks indent -> blanks gap -> gap <> [] \/ t = [] -> blanks b -> last_rest rest -> 0 <= addr < 2^16 -> checkAddr 16 addr false = OK ->
  mc6800_encode ty a (indent ++ firstn 11 (map (conv (Some k)) nm) ++ gap ++ t ++ b ++ rest) addr =
  Val (L_insn (canon addr (opcode_bytes p opc ++ nb)) rest).
Proof.
  intros CK R1 R2 R3 TH BP BO PL RX AW BI BG NG BB LR AR CA. unfold check_one in CK. cbv zeta in CK.
  rewrite !andb_true_iff in CK. destruct CK as (((((((PN & AL) & HO) & N12) & N23) & RL1) & RL2) & CK).
  set (nm' := map (conv (Some k)) nm) in *.
  assert (LN : firstn 11 nm' = nm').
  { apply firstn_all2. unfold plain_name in PN. rewrite !andb_true_iff in PN. destruct PN as (((_ & L) & _) & _). now apply Nat.leb_le in L. }
  rewrite LN. unfold mc6800_encode. rewrite line_insn; [| | |exact BI|exact BG| |].
  2:{ rewrite PL. exact PN. }
  2:{ intros z. rewrite PL. eapply plain_line; eassumption. }
  2:{ rewrite PL. now apply name_ends. }
  2:{ rewrite AW. exact CA. }
  unfold mc6800_encodeImpl. destruct (hasOperand ty nm') as [h| | | |]; try discriminate. apply eqb_prop in HO. subst h. cbn [bind].
  assert (OPS : exists n1 n2 n3 v1 v2 v3 t1 t2 t3 o1 o2 o3 scan,
    piece d K1 opc (Some k) addr (opcode_bytes p opc) t1 n1 v1 /\ piece d K2 opc (Some k) addr (opcode_bytes p opc ++ n1) t2 n2 v2 /\ piece d K3 opc (Some k) addr (opcode_bytes p opc ++ n1 ++ n2) t3 n3 v3 /\
    nb = n1 ++ n2 ++ n3 /\ skipSpaces scan = rest /\
    (if negb (is_none K1) then parseOperands a addr (skipSpaces (t ++ b ++ rest)) else Val (Three no_operand no_operand no_operand (skipSpaces (t ++ b ++ rest)))) = Val (Three o1 o2 o3 scan) /\
    read_as K1 v1 o1 /\ read_as K2 v2 o2 /\ read_as K3 v3 o3).
  { destruct (is_none K1) eqn:NK1; cbn [negb orb] in *.
    - rewrite N12 in N23. cbn [negb orb] in N23. apply is_none_ok in NK1, N12, N23. subst K1 K2 K3.
      destruct TH as (t1 & t2 & t3 & n1 & n2 & n3 & v1 & v2 & v3 & P1 & P2 & P3 & -> & ->).
      exists n1, n2, n3, v1, v2, v3, t1, t2, t3, no_operand, no_operand, no_operand, rest.
      split; [exact P1|]. split; [exact P2|]. split; [exact P3|]. split; [reflexivity|].
      cbn [piece] in P1, P2, P3. destruct P1 as (-> & _). destruct P2 as (-> & _). destruct P3 as (-> & _). cbn [sep is_none app].
      pose proof (last_skip [] rest (Forall_nil _) LR) as LS. cbn [app] in LS. split; [exact LS|].
      rewrite last_skip by assumption. split; [reflexivity|]. assert (NO : forall v, read_as K_none v no_operand) by (intros v; exists M_NONE, v_undef; cbn; auto). auto.
    - destruct (parse_three d opc k addr (opcode_bytes p opc) K1 K2 K3 t nb a b rest) as (t1 & t2 & t3 & n1 & n2 & n3 & v1 & v2 & v3 & o1 & o2 & o3 & b' & P1 & P2 & P3 & EN & B' & PO & RA); auto.
      { intros ->. discriminate. }
      { intros Q. rewrite Q in N23. exact N23. }
      { unfold opcode_bytes. destruct (p =? 0); cbn; auto. }
      exists n1, n2, n3, v1, v2, v3, t1, t2, t3, o1, o2, o3, (b' ++ rest). rewrite last_skip by assumption. auto 10. }
  destruct OPS as (n1 & n2 & n3 & v1 & v2 & v3 & t1 & t2 & t3 & o1 & o2 & o3 & scan & P1 & P2 & P3 & -> & SK & PO & RA1 & RA2 & RA3).
  rewrite PO. cbn [bind]. cbv zeta. rewrite SK.
  destruct RA1 as (om1 & w1 & -> & IM1 & IV1). destruct RA2 as (om2 & w2 & -> & IM2 & IV2). destruct RA3 as (om3 & w3 & -> & IM3 & IV3). cbn [o_mode].
  rewrite forallb_forall in CK. specialize (CK om1 IM1). rewrite forallb_forall in CK. specialize (CK om2 IM2). rewrite forallb_forall in CK. specialize (CK om3 IM3).
  destruct (mc6800_searchName ty nm' om1 om2 om3) as [[er [[p' e']|]]| | | |]; try discriminate.
  2:{ destruct er; discriminate. }
  destruct er; try discriminate. rewrite !andb_true_iff in CK. destruct CK as ((C1 & F1) & (F2 & (F3 & C2))). apply Z.eqb_eq in C1, C2. subst p'.
  cbn [bind i_err new_insn]. change (setErrorIfAt OK OK) with OK. change (isOK OK) with true. cbn [negb].
  change (new_insn addr) with (part addr (base p) []).
  pose proof (piece_length _ _ _ _ _ _ _ _ _ P1) as L1. pose proof (piece_length _ _ _ _ _ _ _ _ _ P2) as L2. pose proof (piece_length _ _ _ _ _ _ _ _ _ P3) as L3.
  assert (REL : forall K q n, negb (is_rel K) || (p =? 0) || q = true -> (q = true -> n <> []) -> K = K_rel -> p = 0 \/ n <> (@nil Z)).
  { intros K q n H Q ->. cbn [is_rel negb orb] in H. destruct (Z.eqb_spec p 0); [now left|]. right. now apply Q. }
  rewrite (emit_piece d K1 opc (Some k) addr p [] t1 n1 v1 (e_m1 e') om1 w1 (e_opc e')); [|now rewrite app_nil_r|exact F1|exact IM1|exact IV1|exact AR|cbn; lia|].
  2:{ apply (REL K1 false); [now rewrite orb_false_r|discriminate]. }
  cbn [bind app].
  assert (N1 : is_none K1 = false -> n1 <> []).
  { destruct K1; cbn [piece is_none] in *; try discriminate; intros _.
    - destruct P1 as (_ & -> & _). discriminate.
    - destruct P1 as (? & ? & ? & -> & _). discriminate.
    - destruct P1 as (? & _ & -> & _). discriminate.
    - destruct P1 as (? & -> & _). discriminate.
    - destruct P1 as (? & _ & -> & _). discriminate.
    - destruct P1 as (? & ? & ? & -> & _). discriminate.
    - destruct P1 as (? & -> & _). discriminate. }
  rewrite (emit_piece d K2 opc (Some k) addr p n1 t2 n2 v2 (e_m2 e') om2 w2 _ P2 F2 IM2 IV2 AR ltac:(lia)).
  2:{ apply (REL K2 (negb (is_none K1))); [exact RL2|]. intros Q. apply N1. now apply negb_true_iff. }
  cbn [bind].
  assert (N2 : K3 = K_rel -> p = 0 \/ n1 ++ n2 <> []).
  { intros ->. right. intros Q. apply app_eq_nil in Q. destruct Q as (Q & _). apply N1 in Q; [exact Q|]. cbn [is_none negb orb] in N23.
    destruct (is_none K1); [|reflexivity]. cbn [negb orb] in N12. rewrite N12 in N23. discriminate. }
  rewrite (emit_piece d K3 opc (Some k) addr p (n1 ++ n2) t3 n3 v3 (e_m3 e') om3 w3 _ P3 F3 IM3 IV3 AR ltac:(rewrite app_length; lia) N2).
  cbn [bind]. rewrite C2. rewrite <- app_assoc. set (nb := n1 ++ n2 ++ n3).
  assert (LNB : (length nb <= 60)%nat) by (unfold nb; rewrite !app_length; lia).
  destruct (part_done p opc addr nb BP BO LNB) as (D1 & D2).
  unfold ai_emitInsn, base, opcode_bytes, ai_set in *. cbn [ai_prefix ai_insn ai_err ai_opc].
  destruct (negb (p =? 0)); cbn [ai_prefix ai_insn ai_err ai_opc app]; [rewrite D2|rewrite D1]; reflexivity.
Qed.

(* ------------------------------------------------------------ the disassembler *)
Section Whole.
Variables (d : disasm) (ty : Z).
Hypothesis RD : reads_as d.
Hypothesis T : In ty types.
Let P0 : pfx ty 0 = false.
Proof.
  destruct (pfx ty 0) eqn:E; [|reflexivity]. destruct (pfx_ok ty 0 T ltac:(unfold byte; lia)) as (_ & H). destruct (H E) as (_ & N). congruence.
Qed.
Let START : forall p o addr mem s, (p = 0 \/ pfx ty p = true) -> byte p -> byte o -> within addr mem 2 s -> decode_opcode d ty p o s = chain d ty p o (t_seterr OK s).
Proof. intros p o addr mem s Q BP BO W. eapply chain_start; eauto using pfx_in. Qed.
Let GOOD : forall p o, (p = 0 \/ pfx ty p = true) -> byte p -> byte o -> good (n_chain ty p o) (R_chain d ty p o) (chain d ty p o).
Proof. intros p o Q BP BO. apply good_chain; auto. eapply pfx_in; eauto. Qed.
Let LEN : forall p o, (p = 0 \/ pfx ty p = true) -> byte p -> byte o -> (length (opcode_bytes p o) + n_chain ty p o <= 5)%nat.
Proof. intros p o Q BP BO. apply chain_len; auto. eapply pfx_in; eauto. Qed.
Lemma decode_eq mem addr size : Forall byte mem -> mc6800_decode d ty mem addr size = dis_decode d (decode_impl (pfx ty) (decode_opcode d ty)) mem addr size.
Proof.
  intros FM. unfold mc6800_decode, dis_decode. destruct (negb _); [reflexivity|]. rewrite decode_shape; [reflexivity|exact T|exact FM].
Qed.
Lemma mc6800_total mem addr size : Forall byte mem -> exists r, mc6800_decode d ty mem addr size = Val r.
Proof. intros FM. rewrite decode_eq by exact FM. exact (decode_total d (pfx ty) (decode_opcode d ty) (chain d ty) (R_chain d ty) (n_chain ty) 5 START GOOD LEN ltac:(lia) mem addr size FM). Qed.
Lemma mc6800_within mem addr size r : Forall byte mem -> mc6800_decode d ty mem addr size = Val r ->
  exists m, mem = i_code (r_insn r) ++ m /\ (length (i_code (r_insn r)) <= 5)%nat.
Proof. intros FM. rewrite decode_eq by exact FM. exact (decode_within d (pfx ty) (decode_opcode d ty) (chain d ty) (R_chain d ty) (n_chain ty) 5 P0 START GOOD LEN ltac:(lia) mem addr size r FM). Qed.
Lemma mc6800_takes : takes d (mc6800_decodeImpl d ty) 5.
Proof.
  intros mem addr size FM NE. rewrite decode_shape; [|exact T|exact FM].
  exact (decode_takes d (pfx ty) (decode_opcode d ty) (chain d ty) (R_chain d ty) (n_chain ty) 5 P0 START GOOD LEN ltac:(lia) mem addr size FM NE).
Qed.
Lemma mc6800_accepts mem addr size r : Forall byte mem -> mem <> [] -> mc6800_decode d ty mem addr size = Val r -> i_err (r_insn r) = OK ->
  checkAddr 16 addr false = OK /\
  exists p o nb m, In p prefixes /\ byte p /\ byte o /\ mem = opcode_bytes p o ++ nb ++ m /\
    (length (opcode_bytes p o ++ nb) <= 5)%nat /\
    r_insn r = canon addr (opcode_bytes p o ++ nb) /\
    R_chain d ty p o (mkH (Some (da_uppercase d)) addr (opcode_bytes p o) []) (r_operands r) nb (r_name r) /\
    forall m', Forall byte m' -> mc6800_decode d ty (opcode_bytes p o ++ nb ++ m') addr size = Val r.
Proof.
  intros FM NE H E. rewrite decode_eq in H by exact FM.
  destruct (decode_accepts d (pfx ty) (decode_opcode d ty) (chain d ty) (R_chain d ty) (n_chain ty) 5 P0 START GOOD LEN ltac:(lia) mem addr size r FM NE H E)
    as (CA & p & o & nb & m & PP & BP & BO & EM & L & RI & Q & FR).
  destruct RD as (_ & _ & AW & _). rewrite AW in CA. split; [exact CA|]. exists p, o, nb, m.
  split; [eapply pfx_in; eauto|]. repeat (split; [assumption|]). intros m' FM'. rewrite decode_eq; [now apply FR|].
  rewrite EM in FM. rewrite app_assoc in FM |- *. apply Forall_app in FM. apply Forall_app. tauto.
Qed.
Lemma none_zero : find_opcode ty 0 0 = Val None.
Proof. cbn in T. repeat (destruct T as [<-|T0]; [vm_compute; reflexivity|clear T; rename T0 into T]). destruct T. Qed.
Lemma mc6800_empty addr size r : mc6800_decode d ty [] addr size = Val r -> i_err (r_insn r) <> OK.
Proof.
  rewrite decode_eq by apply Forall_nil. unfold dis_decode. destruct (isOK (checkAddr (da_aw d) addr false)) eqn:CA; cbn [negb].
  2:{ injection 1 as <-. cbn. intros Q. rewrite Q in CA. discriminate. }
  unfold decode_impl. rewrite (surjective_pairing (t_byte _)). change (fst (t_byte _)) with 0. cbv iota beta. rewrite P0.
  unfold decode_opcode, searchOpCodeImpl. cbv zeta. rewrite none_zero. cbn [bind]. injection 1 as <-. cbn. discriminate.
Qed.
Lemma mc6800_round mem addr size r a indent gap b rest :
  Forall byte mem -> mem <> [] -> mc6800_decode d ty mem addr size = Val r -> i_err (r_insn r) = OK ->
  a_pl a = pl_motorola -> a_radix a = 10 -> a_aw a = 16 -> 0 <= addr < 2^32 ->
  blanks indent -> blanks gap -> gap <> [] \/ r_operands r = [] -> blanks b -> last_rest rest ->
  mc6800_encode ty a (indent ++ r_name r ++ gap ++ r_operands r ++ b ++ rest) addr = Val (L_insn (r_insn r) rest).
Proof.
  intros FM NE H E PL RX AW AR BI BG NG BB LR. destruct (mc6800_accepts mem addr size r FM NE H E) as (CA & p & o & nb & m & IP & BP & BO & _ & _ & RI & Q & _).
  destruct (chain_three d ty p o (da_uppercase d) (mkH (Some (da_uppercase d)) addr (opcode_bytes p o) []) (r_operands r) nb (r_name r) T IP BO eq_refl Q) as (nm & K1 & K2 & K3 & CK & NM & R1 & R2 & R3 & TH).
  rewrite RI, NM. apply (encode_ok d (da_uppercase d) ty p o nm K1 K2 K3); auto.
  apply C31_addr in CA; [|lia|exact AR]. lia.
Qed.
End Whole.
