(** What the assembler of the F8 emits is an instruction of its disassembler (C79). *)
From Coq Require Import String ZArith List Bool Lia ZifyBool.
From Verif Require Import M_Char M_Error M_Value M_Text M_StrBuffer M_Format M_Number M_Insn M_Config M_Operators
  M_Parsers M_Expr M_Directive M_Table M_Asm M_Dis M_F3850Defs T_F3850 M_F3850 S_Cpu P_StrBuffer P_Table P_Insn P_Config P_Value
  P_Room P_AsmText P_CpuShape P_CpuText P_CpuGood P_CpuRange P_CpuFine P_F3850.
Import ListNotations.
Open Scope string_scope.
Open Scope list_scope.
Local Open Scope Z_scope.

(* ------------------------------------------------------------ all instructions *)
(* the opcodes that an operand can make *)
Definition outs (mode o : Z) : list Z :=
  if mode =? M_REG then map (fun x => u8 (Z.lor o x)) [0; 1; 2; 3; 4; 5; 6; 7; 8; 9; 10; 11; 12; 13; 14]
  else if mode =? M_C1 then [o; u8 (o + 2)]
  else if mode =? M_IM3 then map (fun x => u8 (Z.lor o x)) [0; 1; 2; 3; 4; 5; 6; 7]
  else if mode =? M_IOS then map (fun x => u8 (Z.lor o x)) [0; 1; 4; 5; 6; 7; 8; 9; 10; 11; 12; 13; 14; 15]
  else if mode =? M_IM4 then map (fun x => u8 (Z.lor o x)) [0; 1; 2; 3; 4; 5; 6; 7; 8; 9; 10; 11; 12; 13; 14; 15]
  else [o].
(* the bytes that it adds *)
Definition adds_kind (mode : Z) : kind :=
  if mode =? M_IOA then K_byte 4 else if mode =? M_IM8 then K_byte 0 else if mode =? M_ADDR then K_addr else if mode =? M_REL then K_rel else K_none.
Definition plain (K : kind) : bool := match K with K_none | K_name _ | K_val _ => true | _ => false end.
Definition kind_eqb (a b : kind) : bool :=
  match a, b with K_byte x, K_byte y => y <=? x | K_addr, K_addr => true | K_rel, K_rel => true | _, _ => plain a && plain b end.
Definition emits (e : entry) : bool :=
  let a1 := adds_kind (e_m1 e) in let a2 := adds_kind (e_m2 e) in let a := if plain a1 then a2 else a1 in
  (0 <=? e_opc e) && (e_opc e <? 256) && (plain a1 || plain a2) &&
  forallb (fun o1 => (0 <=? o1) && (o1 <? 256) && forallb (fun o =>
    (0 <=? o) && (o <? 256) &&
    match look o with
    | Some e' => kind_eqb a (kind_of o (e_m1 e')) && plain (kind_of o (e_m2 e')) || plain (kind_of o (e_m1 e')) && kind_eqb a (kind_of o (e_m2 e'))
    | None => false
    end) (outs (e_m2 e) o1)) (outs (e_m1 e) (e_opc e)).
Definition pages : list epage := match cpu_pages with Val p => p | _ => [] end.
Lemma emits_all : forallb (fun p => forallb emits (p_items p)) pages = true.
Proof. vm_compute. reflexivity. Qed.

(* ------------------------------------------------------------ the disassembler *)
Definition sat (K : kind) (addr : Z) (nb : list Z) : Prop :=
  match K with
  | K_bad => False
  | K_none | K_name _ | K_val _ => nb = []
  | K_byte low => exists x, nb = [x] /\ low <= x
  | K_addr => exists hi lo, nb = [hi; lo]
  | K_rel => exists x, nb = [x] /\ checkAddr 16 (u32 (u32 (addr + 1) + int8 x)) false = OK
  end.
Lemma reg_adds r b : adds 5 b (outRegName r b).
Proof.
  assert (Q : (length (reg_text r) <= 5)%nat /\ Forall printable (reg_text r)).
  { unfold reg_text. destruct (name_of r REG_ENTRIES) as [t|] eqn:N; [|cbn; split; [lia|constructor]].
    assert (H : forallb (fun e => (length (name_text e) <=? 5)%nat && forallb (fun c => (32 <=? c) && (c <=? 126)) (name_text e)) REG_ENTRIES = true) by (vm_compute; reflexivity).
    assert (G : exists e, In e REG_ENTRIES /\ t = name_text e).
    { clear H. unfold name_of in N. destruct (searchByNumber _ _ _) as [k|]; [|discriminate]. destruct (nth_error REG_ENTRIES k) as [e|] eqn:NE; [|discriminate]. injection N as <-. exists e. split; [eapply nth_error_In, NE|reflexivity]. }
    destruct G as (e & IN & ->). rewrite forallb_forall in H. specialize (H e IN). apply andb_prop in H. destruct H as (H1 & H2). apply Nat.leb_le in H1. split; [exact H1|]. now apply printable_text. }
  destruct Q as (L & P). unfold outRegName. unfold reg_text in *. destruct (name_of r REG_ENTRIES) as [t|]; [|apply adds_refl; lia].
  apply (adds_le (Z.of_nat (length t))); [lia|]. now apply adds_text.
Qed.
Section Dis.
Variable d : disasm.
Hypothesis NS : da_symtab d = None.
Hypothesis BP : brief_plugin (da_plug d).
Hypothesis AW : da_aw d = 16.
Hypothesis PC : printable (da_cursym d).
Lemma fine_reg addr r : fineAt addr [] 40 (fun s => Val (t_put (outRegName r) s)).
Proof. apply fineAt_of. apply (fine_le _ 5); [lia|]. apply fine_put. apply reg_adds. Qed.
Lemma fine_hex addr v bits relax : 0 <= v < 2^32 -> -16 <= bits <= 16 -> fineAt addr [] 40 (t_print (dis_outHex d v bits relax)).
Proof. intros V B. apply fineAt_of. apply (fine_le _ 26); [lia|]. apply fine_print. now apply prints_hex. Qed.
Lemma fine_dec addr v bits : 0 <= v < 2^32 -> -16 <= bits <= 16 -> fineAt addr [] 40 (t_print (dis_outDec d v bits)).
Proof. intros V B. apply fineAt_of. apply (fine_le _ 26); [lia|]. apply fine_print. now apply prints_dec. Qed.
Lemma fine_operand addr nb o mode : byte o -> sat (kind_of o mode) addr nb -> fineAt addr nb 40 (decodeOperand d o mode).
Proof.
  intros O. assert (R15 : 0 <= Z.land o 15 <= 15) by (change 15 with (Z.ones 4) at 1 2; rewrite Z.land_ones by lia; pose proof (Z.mod_pos_bound o (2^4)); lia).
  assert (R7 : 0 <= Z.land o 7 <= 7) by (change 7 with (Z.ones 3) at 1 2; rewrite Z.land_ones by lia; pose proof (Z.mod_pos_bound o (2^3)); lia).
  unfold decodeOperand, kind_of. cbv zeta. change 0xF with 15.
  destruct (mode =? M_REG).
  { destruct (Z.land o 15 =? 15); [intros []|]. destruct (negb (decodeRegName o =? REG_UNDEF)); intros ->; [apply fine_reg|apply fine_dec; lia]. }
  destruct (mode =? M_C1); [intros ->; apply fine_dec; lia|]. destruct (mode =? M_C4); [intros ->; apply fine_dec; lia|].
  destruct (mode =? M_IM3); [intros ->; apply fine_hex; lia|].
  destruct ((mode =? M_IOS) || (mode =? M_IM4)).
  { destruct ((mode =? M_IOS) && _); [intros []|]. intros ->. apply fine_hex; lia. }
  destruct (mode =? M_IOA).
  { intros (x & -> & L). apply fineAt_byte. intros X. unfold byte in X. replace (x <? 4) with false by lia. apply fine_hex; lia. }
  destruct (mode =? M_IM8).
  { intros (x & -> & L). apply fineAt_byte. intros X. unfold byte in X. apply fine_hex; lia. }
  destruct (mode =? M_ADDR).
  { intros (hi & lo & ->). apply fineAt_be. intros X Y. unfold byte in X, Y. apply fineAt_of. apply (fine_le _ 26); [lia|]. apply fine_print. apply prints_abs; auto; lia. }
  destruct (mode =? M_REL).
  { intros (x & -> & CK). unfold decodeRelative. apply (fineAt_byte addr x [] 40 (fun v s => t_print (outRelAddr d (u32 (u32 (i_addr (d_insn (t_in s)) + 1) + int8 v)) (i_addr (d_insn (t_in s))) 8) (t_setErrorIf (checkAddr (da_aw d) (u32 (u32 (i_addr (d_insn (t_in s)) + 1) + int8 v)) false) s))).
    intros X. apply (fineAt_addr addr [] 40 (fun a s => t_print (outRelAddr d (u32 (u32 (a + 1) + int8 x)) a 8) (t_setErrorIf (checkAddr (da_aw d) (u32 (u32 (a + 1) + int8 x)) false) s))).
    apply (fineAt_check addr [] 40 _ (t_print (outRelAddr d (u32 (u32 (addr + 1) + int8 x)) addr 8))); [rewrite AW; exact CK|].
    apply fineAt_of. apply (fine_le _ 28); [lia|]. apply fine_print. apply prints_rel; auto; try lia. apply Z.mod_pos_bound. lia. }
  assert (V : fineAt addr [] 40 (fun s => Val s)) by (apply fineAt_of; apply (fine_le _ 0); [lia|]; apply fine_val).
  destruct (mode =? M_NONE); [intros ->; exact V|]. destruct (mode =? M_J); [intros ->; apply fine_reg|]. destruct (mode <? M_REG); [intros ->; apply fine_reg|]. intros ->. exact V.
Qed.
Lemma fine_chain addr nb1 nb2 o e : byte o -> look o = Some e -> sat (kind_of o (e_m1 e)) addr nb1 -> sat (kind_of o (e_m2 e)) addr nb2 -> fineAt addr (nb1 ++ nb2) 82 (chain d o).
Proof.
  intros O L S1 S2. unfold chain. rewrite L. change 82 with (0 + (40 + 42)).
  apply (fineAt_seq addr [] (nb1 ++ nb2) 0 (40 + 42) (fun s => Val (t_readName (entry_name e) s))); [apply fineAt_of; apply fine_name|].
  apply fineAt_seq; [now apply fine_operand|]. unfold more_op. destruct (Z.eqb_spec (e_m2 e) M_NONE) as [E|_].
  - rewrite E in S2. assert (N : nb2 = []) by exact S2. rewrite N. apply fineAt_of. apply (fine_le _ 0); [lia|]. apply fine_val.
  - apply (fineAt_seq addr [] nb2 2 40 (fun s => Val (t_put comma s))); [apply fineAt_of; apply fine_put; apply comma_adds|now apply fine_operand].
Qed.
End Dis.

(* ------------------------------------------------------------ the assembler *)
Lemma emit_form mode op addr nb e o i' : 0 <= addr < 65536 -> plain (adds_kind mode) = true \/ nb = [] ->
  encodeOperand mode op (mkAI (part addr 1 nb) e o) = Val i' ->
  exists e' o' nb', i' = mkAI (part addr 1 (nb ++ nb')) e' o' /\ Forall byte nb' /\ (length nb' <= 2)%nat /\ (plain (adds_kind mode) = true -> nb' = []) /\
    (e' = OK -> e = OK /\ In o' (outs mode o) /\ sat (adds_kind mode) addr nb').
Proof.
  intros A NB. pose proof (getUnsigned_range (o_val op)) as VR. unfold encodeOperand. cbv zeta.
  change (ai_setErrorIf (o_err op) (mkAI (part addr 1 nb) e o)) with (mkAI (part addr 1 nb) (setErrorIfAt e (o_err op)) o).
  set (e1 := setErrorIfAt e (o_err op)). assert (E1 : e1 = OK -> e = OK /\ o_err op = OK) by apply seterr_ok.
  assert (FL : forall (b : bool) x f, (if b then ai_setErrorIf x (mkAI (part addr 1 nb) f o) else mkAI (part addr 1 nb) f o) = mkAI (part addr 1 nb) (if b then setErrorIfAt f x else f) o) by (intros [] x f; reflexivity).
  assert (FE : forall (b : bool) x f, x <> OK -> (if b then setErrorIfAt f x else f) = OK -> b = false /\ f = OK).
  { intros [] x f NX H; [|auto]. apply seterr_ok in H. tauto. }
  unfold outs, adds_kind in *.
  destruct (Z.eqb_spec mode M_REG) as [->|N1].
  { rewrite !FL. intros H. injection H as <-. eexists _, _, []. rewrite app_nil_r. split; [reflexivity|]. split; [constructor|]. split; [cbn; lia|]. split; [reflexivity|]. intros H. apply FE in H; [|discriminate]. destruct H as (B1 & H). apply FE in H; [|discriminate]. destruct H as (B2 & H).
    apply E1 in H. split; [tauto|]. split; [|reflexivity]. apply fits_unsigned in B2; [|lia]. set (v := getUnsigned (o_val op)) in *. apply in_map_iff. exists v. cbn [ai_opc].
    split; [do 2 f_equal; symmetry; change 0xF with (Z.ones 4); rewrite Z.land_ones by lia; apply Z.mod_small; lia|]. cbn; lia. }
  destruct (Z.eqb_spec mode M_C1) as [->|N2].
  { destruct (_ =? 1); [|destruct (_ =? 4)]; intros H; injection H as <-; eexists _, _, []; rewrite app_nil_r; (split; [reflexivity|]); (split; [constructor|]); (split; [cbn; lia|]); (split; [reflexivity|]); intros H; cbn [ai_opc].
    - apply E1 in H. split; [tauto|]. split; [now left|reflexivity].
    - apply E1 in H. split; [tauto|]. split; [right; now left|reflexivity].
    - apply seterr_ok in H. destruct H as (_ & H). discriminate. }
  destruct (Z.eqb_spec mode M_IM3) as [->|N3].
  { rewrite !FL. intros H. injection H as <-. eexists _, _, []. rewrite app_nil_r. split; [reflexivity|]. split; [constructor|]. split; [cbn; lia|]. split; [reflexivity|]. intros H. apply FE in H; [|discriminate]. destruct H as (B1 & H).
    apply E1 in H. split; [tauto|]. split; [|reflexivity]. apply fits_unsigned in B1; [|lia]. set (v := getUnsigned (o_val op)) in *. apply in_map_iff. exists v. cbn [ai_opc].
    split; [do 2 f_equal; symmetry; change 7 with (Z.ones 3); rewrite Z.land_ones by lia; apply Z.mod_small; lia|]. cbn; lia. }
  destruct (Z.eqb_spec mode M_IOS) as [->|N4]; [|destruct (Z.eqb_spec mode M_IM4) as [->|N5]]; cbn [orb andb].
  1,2: rewrite !FL; intros H; injection H as <-; eexists _, _, []; rewrite app_nil_r; (split; [reflexivity|]); (split; [constructor|]); (split; [cbn; lia|]); (split; [reflexivity|]); intros H; apply FE in H; [|discriminate]; destruct H as (B1 & H); try (apply FE in H; [|discriminate]; destruct H as (B2 & H));
    apply E1 in H; (split; [tauto|]); (split; [|reflexivity]); apply fits_unsigned in B1; [|lia]; set (v := getUnsigned (o_val op)) in *; apply in_map_iff; exists v; cbn [ai_opc];
    (split; [do 2 f_equal; symmetry; change 0xF with (Z.ones 4); rewrite Z.land_ones by lia; apply Z.mod_small; lia|]; cbn; lia).
  assert (BY : byte (u8 (getUnsigned (o_val op)))) by (apply Z.mod_pos_bound; lia).
  destruct (Z.eqb_spec mode M_IOA) as [->|N6]; [|destruct (Z.eqb_spec mode M_IM8) as [->|N7]]; cbn [orb andb].
  { destruct NB as [NB| ->]; [discriminate|]. rewrite !FL, (emit8 (u8 (getUnsigned (o_val op)))) by auto. intros H. injection H as <-. eexists _, _, [_]. split; [reflexivity|]. split; [auto|]. split; [cbn; lia|]. split; [discriminate|].
    intros H. apply FE in H; [|discriminate]. destruct H as (B1 & H). apply FE in H; [|discriminate]. destruct H as (B2 & H). apply E1 in H. destruct H as (H & OE). rewrite OE in B2. cbn [isOK andb] in B2.
    split; [exact H|]. split; [now left|]. cbn [sat]. change (sat (K_byte 4) addr [u8 (getUnsigned (o_val op))]). eexists. split; [reflexivity|]. pose proof (fits_byte (o_val op) 3 ltac:(lia) B1 ltac:(destruct (overflow _ 3 0); [reflexivity|discriminate])) as F. unfold u8. change (2^8) with 256. lia. }
  { destruct NB as [NB| ->]; [discriminate|]. rewrite !FL, (emit8 (u8 (getUnsigned (o_val op)))) by auto. intros H. injection H as <-. eexists _, _, [_]. split; [reflexivity|]. split; [auto|]. split; [cbn; lia|]. split; [discriminate|].
    intros H. apply FE in H; [|discriminate]. destruct H as (B1 & H). apply E1 in H. split; [tauto|]. split; [now left|]. change (sat (K_byte 0) addr [u8 (getUnsigned (o_val op))]). eexists. split; [reflexivity|]. unfold byte in BY. lia. }
  destruct (Z.eqb_spec mode M_ADDR) as [->|N8].
  { destruct NB as [NB| ->]; [discriminate|]. set (w := getUnsigned (o_val op)) in *. rewrite (emit16 ((w mod 65536) / 256) ((w mod 65536) mod 256)).
    - intros H. injection H as <-. eexists _, _, [_; _]. split; [reflexivity|]. split; [constructor; [|constructor; [|constructor]]; unfold byte|].
      + pose proof (Z.mod_pos_bound w 65536). split; [apply Z.div_pos; lia|apply Z.div_lt_upper_bound; lia].
      + apply Z.mod_pos_bound. lia.
      + split; [cbn; lia|]. split; [discriminate|]. intros H. apply E1 in H. split; [tauto|]. split; [now left|]. change (sat K_addr addr [(w mod 65536) / 256; (w mod 65536) mod 256]). eexists _, _. reflexivity.
    - pose proof (Z.mod_pos_bound w 65536). unfold byte. split; [apply Z.div_pos; lia|apply Z.div_lt_upper_bound; lia].
    - apply Z.mod_pos_bound. lia.
    - unfold u16. change (2^16) with 65536. pose proof (Z.div_mod (w mod 65536) 256). lia. }
  destruct (Z.eqb_spec mode M_REL) as [->|N9].
  { destruct NB as [NB| ->]; [discriminate|]. unfold emitRelative. cbv zeta. change (i_addr (ai_insn (mkAI (part addr 1 []) e1 o))) with addr. cbn [ai_err].
    assert (BS : u32 (addr + 1) = addr + 1) by (unfold u32; apply Z.mod_small; lia). rewrite BS.
    set (tg := if negb (isOK (o_err op)) then addr + 1 else getUnsigned (o_val op)).
    assert (TR : 0 <= tg < 2^32) by (unfold tg; destruct (negb _); lia).
    destruct (branch_inv (addr + 1) tg e1 ltac:(lia) TR) as (dl & e2 & -> & BI). cbn [overflowDelta]. change (overflowDelta dl 8) with (Some ((dl <? -128) || (128 <=? dl))). cbv iota beta.
    change (ai_seterr e2 (mkAI (part addr 1 []) e1 o)) with (mkAI (part addr 1 []) e2 o). rewrite FL, (emit8 (u8 dl)) by (auto; apply Z.mod_pos_bound; lia).
    intros H. injection H as <-. eexists _, _, [_]. split; [reflexivity|]. split; [constructor; [apply Z.mod_pos_bound; lia|constructor]|]. split; [cbn; lia|]. split; [discriminate|].
    intros H. apply FE in H; [|discriminate]. destruct H as (FR & H). destruct (BI H) as (H1 & T & ->). apply E1 in H1. split; [tauto|]. split; [now left|].
    change (sat K_rel addr [u8 (tg - (addr + 1))]). eexists. split; [reflexivity|]. unfold u8. change (2^8) with 256. rewrite int8_delta by lia. rewrite BS.
    replace (addr + 1 + (tg - (addr + 1))) with tg by lia. unfold u32. rewrite Z.mod_small by lia. apply C31_addr; [lia|lia|]. split; [change (2^16) with 65536; lia|discriminate]. }
  intros H. injection H as <-. exists e1, o, []. rewrite app_nil_r. split; [reflexivity|]. split; [constructor|]. split; [cbn; lia|]. split; [reflexivity|]. intros H. apply E1 in H. split; [tauto|]. split; [now left|reflexivity].
Qed.

Lemma search_in name m1 m2 e' e : f3850_searchName name m1 m2 = Val (e', Some e) -> exists p, In p pages /\ In e (p_items p).
Proof.
  unfold f3850_searchName, search_entry, pages. destruct cpu_pages as [ps| | | |]; cbn [bind]; try discriminate.
  destruct (searchName entry_name name _ ps) as [[pg k|er]| | | |] eqn:SN; cbn [bind]; try discriminate.
  destruct (searchName_found _ _ _ _ _ _ SN) as (p & x & NP & NE & _ & AC).
  assert (I1 : @item_at epage ps pg = Val p) by (unfold item_at; change (@nth_error epage ps pg) with (@nth_error (M_Table.page unit entry) ps pg); rewrite NP; reflexivity).
  rewrite I1. cbn [bind]. unfold item_at. rewrite NE. cbn [bind]. intros H. injection H as _ <-.
  exists p. split; [eapply nth_error_In, NP|]. eapply nth_error_In, NE.
Qed.
Lemma kind_sat a k addr nb : kind_eqb a k = true -> sat a addr nb -> sat k addr nb.
Proof.
  unfold kind_eqb. destruct a, k; cbn [plain andb sat]; try discriminate; auto.
  intros L (x & -> & X). exists x. split; [reflexivity|]. lia.
Qed.
Lemma plain_sat a addr : plain a = true -> sat a addr [].
Proof. destruct a; cbn; auto; discriminate. Qed.
Lemma f3850_emitted a line addr i rest : a_aw a = 16 -> 0 <= addr < 2^32 -> f3850_encode a line addr = Val (L_insn i rest) -> i_err i = OK ->
  checkAddr 16 addr false = OK /\ exists o nb1 nb2 e, byte o /\ Forall byte (nb1 ++ nb2) /\ (length (nb1 ++ nb2) <= 2)%nat /\ i = canon addr (o :: nb1 ++ nb2) /\ look o = Some e /\
    sat (kind_of o (e_m1 e)) addr nb1 /\ sat (kind_of o (e_m2 e)) addr nb2.
Proof.
  intros AW A H E. destruct (encode_inv _ _ _ _ _ _ _ _ H E) as (CA & name & scan & IM). rewrite AW in CA. split; [exact CA|]. clear H.
  assert (AR : 0 <= addr < 65536) by (apply C31_addr in CA; [change (2^16) with 65536 in CA; lia|lia|lia]). clear A CA.
  unfold f3850_encodeImpl in IM. destruct (hasOperand name) as [has| | | |]; cbn [bind] in IM; try discriminate.
  destruct (if has then parseOperands a addr scan else Val (Two no_operand no_operand scan)) as [[e0 s0|o1 o2 s0]| | | |] eqn:PO; cbn [bind] in IM; try discriminate.
  { injection IM as <- _. cbn [i_seterr i_err] in E. subst e0. exfalso. clear - PO. destruct has; [|discriminate]. unfold parseOperands in PO.
    destruct (parseOperand a addr scan) as [[[e1 p1] s1]| | | |]; cbn [bind] in PO; try discriminate. destruct (negb (isOK e1) && hasError (o_err p1)) eqn:H1.
    - injection PO as PO _. rewrite PO, andb_false_r in H1. discriminate.
    - destruct (expect_char 44 _) as [s2|]; [|discriminate]. destruct (parseOperand a addr s2) as [[[e2 p2] s3]| | | |]; cbn [bind] in PO; try discriminate.
      destruct (negb (isOK e2) && hasError (o_err p2)) eqn:H2; [|discriminate]. injection PO as PO _. rewrite PO, andb_false_r in H2. discriminate. }
  destruct (f3850_searchName name (o_mode o1) (o_mode o2)) as [[e' found]| | | |] eqn:SN; cbn [bind] in IM; try discriminate.
  change (i_err (new_insn addr)) with OK in IM. cbv zeta in IM.
  destruct (isOK (setErrorIfAt OK e')) eqn:CK; cbn [negb] in IM; [|injection IM as <- _; cbn [i_seterr i_err] in E; rewrite E in CK; discriminate].
  destruct found as [en|].
  2:{ exfalso. apply isOK_e in CK. apply seterr_ok in CK. destruct CK as (_ & ->). clear - SN. unfold f3850_searchName, search_entry in SN.
      destruct cpu_pages as [ps| | | |]; cbn [bind] in SN; try discriminate. destruct (searchName _ _ _ ps) as [[pg k|er]| | | |] eqn:X; cbn [bind] in SN; try discriminate.
      - destruct (item_at ps pg) as [p| | | |]; cbn [bind] in SN; try discriminate. destruct (item_at (p_items p) k) as [x| | | |]; cbn [bind] in SN; discriminate.
      - injection SN as ->. apply (searchName_miss _ _ _ _ _ X eq_refl). }
  destruct (search_in _ _ _ _ _ SN) as (p & IP & IE).
  pose proof emits_all as CH. rewrite forallb_forall in CH. specialize (CH p IP). rewrite forallb_forall in CH. specialize (CH en IE).
  unfold emits in CH. cbv zeta in CH. rewrite !andb_true_iff in CH. destruct CH as (((B0 & B1) & PL) & CH).
  change (new_insn addr) with (part addr 1 []) in IM.
  destruct (encodeOperand (e_m1 en) o1 _) as [i1| | | |] eqn:X1; cbn [bind] in IM; try discriminate.
  destruct (emit_form (e_m1 en) o1 addr [] OK (e_opc en) i1 AR ltac:(now right) X1) as (e1 & p1 & n1 & -> & BN1 & L1 & N1 & Q1). clear X1.
  cbn [app] in IM. destruct (encodeOperand (e_m2 en) o2 _) as [i2| | | |] eqn:X2; cbn [bind] in IM; try discriminate.
  assert (NB : plain (adds_kind (e_m2 en)) = true \/ n1 = []) by (apply orb_prop in PL; destruct PL as [PL|PL]; [right; now apply N1|now left]).
  destruct (emit_form (e_m2 en) o2 addr n1 e1 p1 i2 AR NB X2) as (e2 & o & n2 & -> & BN2 & L2 & N2 & Q2). clear X2.
  assert (LEN : (length (n1 ++ n2) <= 2)%nat).
  { rewrite app_length. destruct NB as [NB| ->]; [rewrite (N2 NB); cbn [length]; lia|cbn [length]; lia]. }
  unfold ai_emitInsn, ai_set in IM. cbn [ai_insn ai_err ai_opc] in IM. cbv zeta in IM.
  assert (IM' := IM). injection IM as IM _. rename IM into IMx. rename IM' into IM.
  assert (E2 : e2 = OK) by (rewrite <- IMx in E; exact E). destruct (Q2 E2) as (E1 & I2 & S2). destruct (Q1 E1) as (_ & I1 & S1).
  rewrite forallb_forall in CH. specialize (CH p1 I1). rewrite !andb_true_iff in CH. destruct CH as (_ & CH). rewrite forallb_forall in CH. specialize (CH o I2).
  rewrite !andb_true_iff in CH. destruct CH as ((O0 & O1) & CH). assert (BO : byte o) by (unfold byte; lia).
  destruct (look o) as [ee|] eqn:LK; [|discriminate].
  assert (SA : sat (if plain (adds_kind (e_m1 en)) then adds_kind (e_m2 en) else adds_kind (e_m1 en)) addr (n1 ++ n2)).
  { destruct (plain (adds_kind (e_m1 en))) eqn:P1; [rewrite (N1 eq_refl); exact S2|]. cbn [orb] in PL. rewrite (N2 PL), app_nil_r. exact S1. }
  destruct (part_done 0 o addr (n1 ++ n2) ltac:(unfold byte; lia) BO ltac:(lia)) as (D1 & _). cbn [ai_insn ai_err ai_opc] in IM. rewrite D1 in IM. injection IM as IM _. clear IMx.
  assert (II : i = canon addr (o :: n1 ++ n2)) by (rewrite <- IM, E2; reflexivity).
  apply orb_prop in CH. destruct CH as [CH|CH]; apply andb_prop in CH; destruct CH as (C1 & C2).
  - exists o, (n1 ++ n2), [], ee. rewrite app_nil_r. split; [exact BO|]. split; [now apply Forall_app|]. split; [exact LEN|]. split; [exact II|]. split; [exact LK|]. split; [eapply kind_sat; eauto|now apply plain_sat].
  - exists o, [], (n1 ++ n2), ee. cbn [app]. split; [exact BO|]. split; [now apply Forall_app|]. split; [exact LEN|]. split; [exact II|]. split; [exact LK|]. split; [now apply plain_sat|eapply kind_sat; eauto].
Qed.
Lemma f3850_decodes d a line addr i rest m size : da_symtab d = None -> da_aw d = 16 -> printable (da_cursym d) -> brief_plugin (da_plug d) -> a_aw a = 16 -> 0 <= addr < 2^32 ->
  f3850_encode a line addr = Val (L_insn i rest) -> i_err i = OK -> Forall byte m -> 83 <= size ->
  i_addr i = addr /\ Forall byte (i_code i) /\ (1 <= length (i_code i) <= 3)%nat /\
  exists r, f3850_decode d (i_code i ++ m) addr size = Val r /\ r_insn r = i.
Proof.
  intros NS AW PC BP AA A H E BM SZ. destruct (f3850_emitted a line addr i rest AA A H E) as (CA & o & n1 & n2 & e & BO & BN & LN & -> & LK & S1 & S2).
  rewrite canon_code. split; [reflexivity|]. split; [now constructor|]. split; [cbn [length]; lia|].
  pose proof (fine_chain d NS BP AW PC addr n1 n2 o e BO LK S1 S2) as FI.
  destruct (fineAt_decode d (fun _ => false) (fun _ o => decode_opcode d o) (fun _ o => chain d o) 0 o (n1 ++ n2) m addr size 82 (or_introl (conj eq_refl eq_refl)) ltac:(unfold byte; lia) BO) as (r & D & R); auto; try lia.
  - intros mem s _. now apply chain_start.
  - rewrite AW. exact CA.
  - exists r. split; [|exact R]. exact D.
Qed.
