(** What the assembler of the TMS32010 family emits is an instruction of its disassembler (C79). *)
From Coq Require Import String ZArith List Bool Lia ZifyBool.
From Verif Require Import M_Char M_Error M_Value M_Text M_StrBuffer M_Format M_Number M_Insn M_Config M_Operators
  M_Parsers M_Expr M_Directive M_Table M_Asm M_Dis M_Tms32010Defs T_Tms32010 M_Tms32010 S_Cpu P_StrBuffer P_Table P_Insn P_Config P_Value
  P_Room P_AsmText P_CpuShape P_CpuText P_CpuGood P_CpuSigned P_CpuRange P_CpuWord P_CpuFine P_Tms32010.
Import ListNotations.
Open Scope string_scope.
Open Scope list_scope.
Local Open Scope Z_scope.

(* ------------------------------------------------------------ all instructions *)
Fixpoint from (z : Z) (n : nat) : list Z := match n with O => [] | S n => z :: from (z + 1) n end.
Definition upto (n : nat) : list Z := from 0 n.
Definition merged (o : Z) (l : list Z) : list Z := map (Z.lor o) l.
(* the opcodes that an operand can make *)
Definition outs (ct mode o : Z) : list Z :=
  if mode =? M_MAM then
    merged o (0x88 :: 0xA8 :: 0x98 :: if o =? SST then upto (Z.to_nat (dataMemoryLimit ct - 0x7F)) else upto 128)
  else if mode =? M_LS3 then merged o [0; 0x100; 0x400]
  else if mode =? M_LS4 then merged o (map (fun x => 256 * x) (upto 16))
  else if mode =? M_PA then merged o (map (fun x => 256 * x) (upto 8))
  else if mode =? M_NARP then o :: merged (u16 (Z.land o (Z.lnot 8))) [0; 1]
  else if mode =? M_AR then merged o [0; 0x100]
  else if (mode =? M_ARK) || (mode =? M_DPK) then merged o [0; 1]
  else if mode =? M_IM8 then merged o (upto 256)
  else if mode =? M_IM13 then merged o (upto (Z.to_nat 8192))
  else [o].
(* an opcode that is an instruction: by its own entry, and its operand is not refused *)
Definition bad_at (ct o : Z) : bool := is_bad (kind_of ct o M_MAM).
Definition emits_to (ct o : Z) (e : entry) : bool := (0 <=? o) && (o <? 0xF400) && matchOpCode o e && negb (bad_at ct o).
Definition branch_to (ct : Z) (e : entry) : bool :=
  match look ct (e_opc e) with
  | Some e' => e_m1 e' =? M_PMA
  | None => false
  end && (e_m2 e =? M_NONE) && (e_m3 e =? M_NONE) && (0xF400 <=? e_opc e) && (e_opc e <? 65536) && negb (bad_at ct (e_opc e)).
Definition emits (ct : Z) (e : entry) : bool :=
  if e_m1 e =? M_PMA then branch_to ct e
  else
    negb (e_m2 e =? M_PMA) && negb (e_m3 e =? M_PMA) &&
    forallb (fun o1 => forallb (fun o2 => forallb (fun o => emits_to ct o e) (outs ct (e_m3 e) o2)) (outs ct (e_m2 e) o1)) (outs ct (e_m1 e) (e_opc e)).
Lemma emits_all : forallb (fun ct => forallb (emits ct) TABLE_TMS32010) types = true.
Proof. vm_compute. reflexivity. Qed.
Lemma from_in z : forall n a, a <= z < a + Z.of_nat n -> In z (from a n).
Proof. intros n. induction n as [|n IH]; intros a R; cbn [from In]; [lia|]. destruct (Z.eq_dec a z); [now left|]. right. apply IH. lia. Qed.
Lemma upto_in n v : 0 <= v < Z.of_nat n -> In v (upto n).
Proof. intros V. apply from_in. lia. Qed.
Lemma bad_only ct o mode : bad_at ct o = false -> is_bad (kind_of ct o mode) = false.
Proof.
  unfold bad_at, kind_of. change (M_MAM =? M_MAM) with true. cbv iota. destruct (mode =? M_MAM); [auto|]. intros _. unfold next_kind, shift_kind.
  repeat match goal with |- is_bad (if ?c then _ else _) = _ => destruct c end; reflexivity.
Qed.
Lemma look_some ct o e : In ct types -> In e TABLE_TMS32010 -> matchOpCode o e = true -> exists e', look ct o = Some e'.
Proof.
  intros C IE M. destruct (look_val ct o C) as (LV & _). destruct (look ct o) as [e'|]; [eauto|]. exfalso. unfold tms32010_searchOpCode in LV.
  assert (E : cpu_pages ct = Val TMS32010_PAGES) by (cbn in C; destruct C as [<-|[<-|[]]]; reflexivity). rewrite E in LV. cbn [bind] in LV. unfold searchOpCode in LV.
  pose proof (searchOpCode_spec _ _ (fun _ => true) (fun _ => matchOpCode o) TMS32010_PAGES 0) as S.
  destruct (searchOpCode_from _ _ TMS32010_PAGES 0) as [pg i|x].
  - destruct S as (q & p & a & -> & NP & _ & NI & _ & _). cbn [Nat.add] in LV. unfold item_at in LV. unfold epage in *. rewrite NP in LV. cbn [bind] in LV. rewrite NI in LV. discriminate.
  - destruct S as (_ & S). specialize (S _ e (or_introl eq_refl) eq_refl IE). cbv beta in S. congruence.
Qed.
Lemma branches_high : forallb (fun e => negb (e_m1 e =? M_PMA) || (0xF4 <=? Z.shiftr (e_opc e) 8) && (e_m2 e =? M_NONE)) TABLE_TMS32010 = true.
Proof. vm_compute. reflexivity. Qed.
Lemma not_branch ct o e : In ct types -> 0 <= o < 0xF400 -> look ct o = Some e -> e_m1 e <> M_PMA.
Proof.
  intros C O L P. destruct (proj2 (look_val ct o C) e L) as (IE & M). apply match_hi in M. pose proof branches_high as B. rewrite forallb_forall in B. specialize (B e IE).
  unfold hi_ok in M. cbv zeta in M. rewrite P in B, M. change (M_PMA =? M_PMA) with true in B. cbn [negb orb] in B. rewrite andb_true_iff in B. destruct B as (B & N). apply Z.eqb_eq in N. rewrite N in M.
  change ((Z.shiftr o 8 =? Z.shiftr (e_opc e) 8) = true) in M.
  apply Z.eqb_eq in M. rewrite <- M in B. rewrite Z.shiftr_div_pow2 in B by lia. change (2^8) with 256 in B. assert (o / 256 < 0xF4) by (apply Z.div_lt_upper_bound; lia). lia.
Qed.

(* ------------------------------------------------------------ the disassembler *)
Lemma fineAt_le16 addr x y nb k g : (byte x -> byte y -> fineAt addr nb k (g (x + 256 * y))) -> fineAt addr (x :: y :: nb) k (fun s => let '(v, s) := t_uint16Le s in g v s).
Proof.
  intros G bs m nm out A B C. inversion A as [|? ? X A']; subst. inversion A' as [|? ? Y A'']; subst. cbn [app]. cbn [length] in C. rewrite t_word_at by (auto; lia).
  destruct (G X Y (bs ++ [x; y]) m nm out A'' B ltac:(rewrite app_length; cbn [length]; lia)) as (nm' & out' & E & Q).
  exists nm', out'. rewrite E, <- app_assoc. split; [reflexivity|exact Q].
Qed.
Lemma digit_adds n b : 0 <= n < 8 -> adds 1 b (out_sdec n 0 b).
Proof.
  intros N. unfold out_sdec. replace (int8 n) with n by (unfold int8; rewrite Z.mod_small; lia). replace (n <? 0) with false by lia. unfold out_dec. cbv zeta.
  assert (E : dec_loop (S (Z.to_nat (Z.log2 n))) 0 n b = (0, letter (n + 48) b)) by (cbn [dec_loop]; rewrite Z.mod_small, Z.div_small by lia; reflexivity).
  rewrite E. cbn [zeros Z.to_nat]. apply adds_reverse. apply adds_letter. unfold printable. lia.
Qed.
Lemma reg_adds r b : match r with R_AR n | R_PA n => 0 <= n < 8 end -> adds 3 b (outRegName r b).
Proof.
  assert (T : forall t n, length t = 2%nat -> Forall printable t -> 0 <= n < 8 -> adds 3 b (out_sdec n 0 (out_text t b))).
  { intros t n L F N. apply (adds_trans 2 1 b (out_text t b)); [|now apply digit_adds]. replace 2 with (Z.of_nat (length t)) by lia. now apply adds_text. }
  destruct r as [n|n]; intros N; unfold outRegName; apply T; auto; repeat constructor; cbn; lia.
Qed.
Lemma lor_bound_16 x y : 0 <= x < 65536 -> 0 <= y < 65536 -> 0 <= Z.lor x y < 65536.
Proof.
  intros X Y. split; [apply Z.lor_nonneg; lia|]. destruct (Z.eq_dec (Z.lor x y) 0) as [->|N]; [lia|]. assert (0 <= Z.lor x y) by (apply Z.lor_nonneg; lia).
  apply (Z.log2_lt_pow2 _ 16); [lia|]. rewrite Z.log2_lor by lia. apply Z.max_lub_lt.
  - destruct (Z.eq_dec x 0) as [->|]; [cbn; lia|]. apply Z.log2_lt_pow2; [lia|change (2^16) with 65536; lia].
  - destruct (Z.eq_dec y 0) as [->|]; [cbn; lia|]. apply Z.log2_lt_pow2; [lia|change (2^16) with 65536; lia].
Qed.
Lemma sign_adds c b : 32 <= c <= 126 -> adds 1 b (letter c b).
Proof. intros C. apply adds_letter. unfold printable. lia. Qed.
Section Dis.
Variable d : disasm.
Hypothesis NS : da_symtab d = None.
Hypothesis BP : brief_plugin (da_plug d).
Hypothesis AW : da_aw d = 12.
(* the bytes of an operand *)
Definition taken (mode : Z) (nb : list Z) : Prop :=
  if mode =? M_PMA then exists lo hi, nb = [lo; hi] /\ lo + 256 * hi < 4096 else nb = [].
Lemma fine_abs addr v w : 0 <= v < 65536 -> 0 <= w <= 16 -> fineAt addr [] 30 (t_print (outAbsAddr d v w)).
Proof. intros V W. apply fineAt_of. apply (fine_le _ 26); [lia|]. apply fine_print. apply prints_abs; auto; lia. Qed.
Lemma fine_dec addr v bits : 0 <= v < 2^32 -> -16 <= bits <= 16 -> fineAt addr [] 30 (t_print (dis_outDec d v bits)).
Proof. intros V B. apply fineAt_of. apply (fine_le _ 26); [lia|]. apply fine_print. now apply prints_dec. Qed.
Lemma fine_shift addr c o : 0 <= c < 16 -> fineAt addr [] 32 (outShiftCount d c o).
Proof.
  intros C. unfold outShiftCount. destruct (_ || _).
  - apply (fineAt_seq addr [] [] 2 30 (fun s => Val (t_put comma s)) (t_print (dis_outDec d c 4))); [apply fineAt_of; apply fine_put; apply comma_adds|apply fine_dec; lia].
  - apply fineAt_of. apply (fine_le _ 0); [lia|]. apply fine_val.
Qed.
Lemma fine_letters addr k f : k <= 32 -> (forall b, adds k b (f b)) -> fineAt addr [] 32 (fun s => Val (t_put f s)).
Proof. intros K F. apply fineAt_of. apply (fine_le _ k); [lia|]. now apply fine_put. Qed.
Lemma fine_operand ct addr nb o mode : 0 <= o < 65536 -> is_bad (kind_of ct o mode) = false -> taken mode nb -> fineAt addr nb 32 (decodeOperand d ct o mode).
Proof.
  intros O. pose proof (land_range o 7 ltac:(lia)) as R7. change (Z.ones 7) with 0x7F in R7. change (2^7) with 128 in R7.
  pose proof (land_range (Z.shiftr o 8) 4 ltac:(lia)) as R4. change (Z.ones 4) with 0xF in R4. change (2^4) with 16 in R4.
  pose proof (land_range (Z.shiftr o 8) 3 ltac:(lia)) as R3. change (Z.ones 3) with 7 in R3. change (2^3) with 8 in R3.
  unfold decodeOperand, kind_of, taken.
  destruct (Z.eqb_spec mode M_MAM) as [->|N1].
  { change (M_MAM =? M_PMA) with false. cbv iota. intros B ->. destruct (bit 7 o).
    - apply (fine_letters addr 2); [lia|]. intros b. unfold outIndirect.
      destruct (bit 5 o); [apply (adds_trans 1 1 b (letter 42 b)); apply sign_adds; lia|]. destruct (bit 4 o); [apply (adds_trans 1 1 b (letter 42 b)); apply sign_adds; lia|].
      apply (adds_le 1); [lia|]. apply sign_adds; lia.
    - apply (fineAt_le addr [] 30); [lia|]. unfold direct_kind in B. unfold outDirect. cbv zeta in *. destruct (_ =? 124); [|apply fine_abs; lia].
      destruct (dataMemoryLimit ct <? _); [discriminate|]. apply fine_abs; [|lia]. apply lor_bound_16; lia. }
  destruct (Z.eqb_spec mode M_NARP) as [->|N2].
  { change (M_NARP =? M_PMA) with false. cbv iota. intros _ ->. apply (fine_letters addr 5); [lia|]. intros b. unfold outNextArp. destruct (_ && _).
    - apply (adds_trans 2 3 b (comma b)); [apply comma_adds|]. apply reg_adds. destruct (bit 0 o); lia.
    - apply adds_refl. lia. }
  destruct (Z.eqb_spec mode M_LS4) as [->|N3].
  { change (M_LS4 =? M_PMA) with false. cbv iota. intros _ ->. apply fine_shift. lia. }
  destruct ((mode =? M_LS3) || (mode =? M_LS0)) eqn:N4.
  { assert (E : mode =? M_PMA = false) by (clear - N4; unfold M_LS3, M_LS0, M_PMA in *; lia). rewrite E. intros _ ->. apply fine_shift. lia. }
  destruct (Z.eqb_spec mode M_AR) as [->|N5].
  { change (M_AR =? M_PMA) with false. cbv iota. intros _ ->. apply (fine_letters addr 3); [lia|]. intros b. apply reg_adds. destruct (bit 8 o); lia. }
  destruct (Z.eqb_spec mode M_PA) as [->|N6].
  { change (M_PA =? M_PMA) with false. cbv iota. intros _ ->. apply (fine_letters addr 3); [lia|]. intros b. apply reg_adds. lia. }
  destruct (Z.eqb_spec mode M_ARK) as [->|N7].
  { change (M_ARK =? M_PMA) with false. cbv iota. intros _ ->. apply (fine_letters addr 3); [lia|]. intros b. apply reg_adds. destruct (bit 0 o); lia. }
  destruct (Z.eqb_spec mode M_DPK) as [->|N8].
  { change (M_DPK =? M_PMA) with false. cbv iota. intros _ ->. apply (fine_letters addr 1); [lia|]. intros b. apply sign_adds. destruct (bit 0 o); lia. }
  destruct (Z.eqb_spec mode M_IM8) as [->|N9].
  { change (M_IM8 =? M_PMA) with false. cbv iota. intros _ ->. apply (fineAt_le addr [] 30); [lia|]. pose proof (Z.mod_pos_bound o (2^8)). apply fine_dec; lia. }
  destruct (Z.eqb_spec mode M_IM13) as [->|N10].
  { change (M_IM13 =? M_PMA) with false. cbv iota. intros _ ->. apply (fineAt_le addr [] 30); [lia|]. assert (SE : signExtend o 13 = Some (sx o)) by (unfold sx; reflexivity). rewrite SE.
    apply fine_dec; [|lia]. apply Z.mod_pos_bound. lia. }
  destruct (mode =? M_PMA).
  { intros _ (lo & hi & -> & L). apply (fineAt_le addr [lo; hi] 30); [lia|]. unfold outProgramAddress.
    apply (fineAt_le16 addr lo hi [] 30 (fun pma s => let s := t_setErrorIf (checkAddr 12 pma false) s in t_print (outAbsAddr d pma (if isOK (d_err (t_in s)) then 0 else 16)) s)). intros X Y. unfold byte in X, Y.
    assert (CK : checkAddr 12 (lo + 256 * hi) false = OK) by (apply C31_addr; [lia|lia|split; [change (2^12) with 4096; lia|discriminate]]).
    cbv zeta. rewrite CK. intros bs m nm out A B C. apply (fine_abs addr (lo + 256 * hi) 0 ltac:(lia) ltac:(lia) bs m nm out A B C). }
  intros _ ->. apply fineAt_of. apply (fine_le _ 0); [lia|]. apply fine_val.
Qed.
Lemma fine_chain ct addr nb o e : In ct types -> 0 <= o < 65536 -> bad_at ct o = false -> look ct o = Some e -> taken (e_m1 e) nb -> fineAt addr nb 98 (chain d ct o).
Proof.
  intros C O B L T. unfold chain. rewrite L. destruct (look_at ct o e C O L) as (_ & SH & _). unfold shape in SH. rewrite !andb_true_iff in SH. destruct SH as ((_ & P2) & P3).
  assert (T2 : taken (e_m2 e) []) by (unfold taken; destruct (e_m2 e =? M_PMA); [discriminate|reflexivity]).
  assert (T3 : taken (e_m3 e) []) by (unfold taken; destruct (e_m3 e =? M_PMA); [discriminate|reflexivity]).
  change 98 with (0 + (32 + 66)).
  apply (fineAt_seq addr [] nb 0 (32 + 66) (fun s => Val (t_readName (entry_name e) s))); [apply fineAt_of; apply fine_name|].
  rewrite <- (app_nil_r nb). apply fineAt_seq; [apply fine_operand; auto using bad_only|]. change 66 with (34 + 32). apply (fineAt_seq addr [] [] 34 32).
  - unfold second_op. destruct (e_m2 e =? M_NONE); [apply fineAt_of; apply (fine_le _ 0); [lia|]; apply fine_val|]. destruct (silent (e_m2 e)).
    + apply (fineAt_le addr [] 32); [lia|]. apply fine_operand; auto using bad_only.
    + apply (fineAt_seq addr [] [] 2 32 (fun s => Val (t_put comma s))); [apply fineAt_of; apply fine_put; apply comma_adds|apply fine_operand; auto using bad_only].
  - unfold third_op. destruct (e_m3 e =? M_NONE); [apply fineAt_of; apply (fine_le _ 0); [lia|]; apply fine_val|]. apply fine_operand; auto using bad_only.
Qed.
End Dis.

(* ------------------------------------------------------------ the assembler *)
Definition parsed (op : operand) : Prop := o_err op = OK ->
  let g := getUnsigned (o_val op) in
  In (o_mode op) [M_ARP; M_INC; M_DEC] \/ (o_mode op = M_NONE /\ g = 0) \/ (o_mode op = M_AR /\ 0 <= g < 2) \/ (o_mode op = M_PA /\ 0 <= g < 8) \/ o_mode op = constantType g.
Lemma parsed_none : parsed no_operand.
Proof. intros _. right. left. split; reflexivity. Qed.
Lemma unsigned_of n : 0 <= n < 8 -> getUnsigned (setUnsigned n) = n.
Proof. intros N. assert (H : n = 0 \/ n = 1 \/ n = 2 \/ n = 3 \/ n = 4 \/ n = 5 \/ n = 6 \/ n = 7) by lia. destruct H as [->|[->|[->|[->|[->|[->|[->| ->]]]]]]]; reflexivity. Qed.
Lemma reg_range s r t : parseRegName s = Some (r, t) -> match r with R_AR n => 0 <= n < 2 | R_PA n => 0 <= n < 8 end.
Proof.
  unfold parseRegName. destruct (iexpectText (s2l "AR") s) as [p|].
  - destruct (parseRegNumber p) as [[n u]|]; [|discriminate]. destruct (_ || _) eqn:X; [discriminate|]. injection 1 as <- _. lia.
  - destruct (iexpectText (s2l "PA") s) as [p|]; [|discriminate]. destruct (parseRegNumber p) as [[n u]|]; [|discriminate]. destruct (_ || _) eqn:X; [discriminate|]. injection 1 as <- _. lia.
Qed.
Lemma parse_parsed a loc scan e op t : parseOperand a loc scan = Val (e, op, t) -> parsed op.
Proof.
  unfold parseOperand. cbv zeta. destruct (p_eol (a_pl a) (skipSpaces scan)) as [[|] p].
  { intros H. injection H as _ <- _. apply parsed_none. }
  destruct (expect_char 42 p) as [q|].
  { assert (IN : forall m, In m [M_ARP; M_INC; M_DEC] -> parsed (mkOp m v_undef OK)) by (intros m I _; now left).
    destruct (expect_char 43 q) as [q1|]; [intros H; injection H as _ <- _; apply IN; cbn; auto|].
    destruct (expect_char 45 q) as [q1|]; intros H; injection H as _ <- _; apply IN; cbn; auto. }
  destruct (parseRegName p) as [[[n|n] u]|] eqn:R.
  - apply reg_range in R. intros H. injection H as _ <- _. intros _. right. right. left. cbn [o_val o_mode]. rewrite unsigned_of by lia. auto.
  - apply reg_range in R. intros H. injection H as _ <- _. intros _. right. right. right. left. cbn [o_val o_mode]. rewrite unsigned_of by lia. auto.
  - destruct (parseInteger a loc p OK 0) as [[[v e0] u]| | | |]; cbn [bind]; try discriminate. destruct (hasError e0) eqn:HE; intros H; injection H as _ <- _.
    + intros E. cbn [o_err] in E. rewrite E in HE. discriminate.
    + intros _. right. right. right. right. reflexivity.
Qed.
Lemma more_parsed a loc scan e op t : parseMore a loc scan = Val (e, op, t) -> parsed op.
Proof.
  unfold parseMore. destruct (expect_char 44 scan) as [s|]; [|intros H; injection H as _ <- _; apply parsed_none].
  destruct (parseOperand a loc s) as [[[e1 o1] s1]| | | |] eqn:P; cbn [bind]; try discriminate. apply parse_parsed in P. destruct (_ && _); intros H; injection H as _ <- _; exact P.
Qed.
Lemma operands_parsed a loc scan o1 o2 o3 t : parseOperands a loc scan = Val (Three o1 o2 o3 t) -> parsed o1 /\ parsed o2 /\ parsed o3.
Proof.
  unfold parseOperands. destruct (parseOperand a loc scan) as [[[e1 p1] s1]| | | |] eqn:P1; cbn [bind]; try discriminate. destruct (_ && _); [discriminate|].
  destruct (parseMore a loc (skipSpaces s1)) as [[[e2 p2] s2]| | | |] eqn:P2; cbn [bind]; try discriminate. destruct (negb (isOK e2)); [discriminate|].
  destruct (parseMore a loc s2) as [[[e3 p3] s3]| | | |] eqn:P3; cbn [bind]; try discriminate. destruct (negb (isOK e3)); [discriminate|].
  intros H. injection H as <- <- <- _. split; [eapply parse_parsed, P1|]. split; eapply more_parsed; eauto.
Qed.
Lemma more_bad a loc scan e op t : parseMore a loc scan = Val (e, op, t) -> isOK e = false -> o_err op <> OK.
Proof.
  unfold parseMore. destruct (expect_char 44 scan) as [s|]; [|intros H; injection H as <- _ _; discriminate].
  destruct (parseOperand a loc s) as [[[e1 o1] s1]| | | |]; cbn [bind]; try discriminate. destruct (_ && _) eqn:X.
  - intros H. injection H as _ <- _. intros _ E. rewrite E, andb_false_r in X. discriminate.
  - intros H. injection H as <- _ _. discriminate.
Qed.
Lemma operands_bad a loc scan e t : parseOperands a loc scan = Val (Bad e t) -> e <> OK.
Proof.
  unfold parseOperands. destruct (parseOperand a loc scan) as [[[e1 p1] s1]| | | |] eqn:P1; cbn [bind]; try discriminate. destruct (_ && _) eqn:X.
  { intros H. injection H as <- _. intros E. rewrite E, andb_false_r in X. discriminate. }
  destruct (parseMore a loc (skipSpaces s1)) as [[[e2 p2] s2]| | | |] eqn:P2; cbn [bind]; try discriminate. destruct (isOK e2) eqn:X2; cbn [negb]; [|intros H; injection H as <- _; eapply more_bad; eauto].
  destruct (parseMore a loc s2) as [[[e3 p3] s3]| | | |] eqn:P3; cbn [bind]; try discriminate. destruct (isOK e3) eqn:X3; cbn [negb]; [discriminate|intros H; injection H as <- _; eapply more_bad; eauto].
Qed.
(* the numbers that an operand can have, by its mode in the table *)
Definition fits16 (mode x : Z) : bool :=
  if mode =? M_LS3 then (x =? 0) || (x =? 1) || (x =? 4)
  else if mode =? M_LS4 then x <? 16
  else if mode =? M_PA then x <? 8
  else if (mode =? M_NARP) || (mode =? M_AR) || (mode =? M_ARK) || (mode =? M_DPK) then x <? 2
  else if mode =? M_IM8 then x <? 256
  else true.
Lemma const_fits g mode : acceptMode (constantType g) mode = true -> fits16 mode (u16 g) = true.
Proof.
  unfold constantType. cbv zeta. set (x := u16 g). unfold fits16.
  destruct (Z.eqb_spec mode M_LS3) as [->|N1]; [|destruct (Z.eqb_spec mode M_LS4) as [->|N2]; [|destruct (Z.eqb_spec mode M_PA) as [->|N3]; [|destruct (Z.eqb_spec mode M_NARP) as [->|N4]; [|
    destruct (Z.eqb_spec mode M_AR) as [->|N5]; [|destruct (Z.eqb_spec mode M_ARK) as [->|N6]; [|destruct (Z.eqb_spec mode M_DPK) as [->|N7]; [|destruct (Z.eqb_spec mode M_IM8) as [->|N8]; [|reflexivity]]]]]]]]; cbn [orb];
  (destruct (Z.eqb_spec x 0); [intros _; lia|]; destruct (Z.eqb_spec x 1); [intros _; lia|]; destruct (Z.eqb_spec x 4); [intros H; try discriminate H; lia|];
   destruct (Z.ltb_spec x 8) as [L8|L8]; [intros H; try discriminate H; lia|]; destruct (Z.ltb_spec x 16) as [L16|L16]; [intros H; try discriminate H; lia|]; destruct (Z.ltb_spec x 256) as [L256|L256]; intros H; try discriminate H; lia).
Qed.
Lemma u16_range z : 0 <= u16 z < 65536.
Proof. apply Z.mod_pos_bound. lia. Qed.
Ltac mode_cases mode :=
  unfold fits16;
  destruct (Z.eqb_spec mode M_LS3) as [->|N1]; [|destruct (Z.eqb_spec mode M_LS4) as [->|N2]; [|destruct (Z.eqb_spec mode M_PA) as [->|N3]; [|destruct (Z.eqb_spec mode M_NARP) as [->|N4]; [|
    destruct (Z.eqb_spec mode M_AR) as [->|N5]; [|destruct (Z.eqb_spec mode M_ARK) as [->|N6]; [|destruct (Z.eqb_spec mode M_DPK) as [->|N7]; [|destruct (Z.eqb_spec mode M_IM8) as [->|N8]; [|reflexivity]]]]]]]]; cbn [orb].
Lemma operand_fits op mode : parsed op -> o_err op = OK -> acceptMode (o_mode op) mode = true ->
  o_mode op = M_NONE /\ u16 (getUnsigned (o_val op)) = 0 \/ o_mode op <> M_NONE /\ fits16 mode (u16 (getUnsigned (o_val op))) = true.
Proof.
  intros P E A. specialize (P E). cbv zeta in P. assert (U : forall z, 0 <= z < 8 -> u16 z = z) by (intros z Z0; unfold u16; apply Z.mod_small; lia).
  destruct P as [I|[(M & G)|[(M & G)|[(M & G)|M]]]].
  - right. cbn [In] in I. destruct I as [I|[I|[I|[]]]]; rewrite <- I in *; (split; [discriminate|]); mode_cases mode; discriminate.
  - left. rewrite M, G. auto.
  - right. rewrite M in *. split; [discriminate|]. rewrite U by lia. mode_cases mode; try discriminate A; lia.
  - right. rewrite M in *. split; [discriminate|]. rewrite U by lia. mode_cases mode; try discriminate A; lia.
  - right. rewrite M in *. split; [|now apply const_fits]. unfold constantType. cbv zeta. repeat match goal with |- (if ?c then _ else _) <> _ => destruct c end; discriminate.
Qed.
Lemma shl_u16 g : u16 g < 16 -> u16 (Z.shiftl g 8) = 256 * u16 g.
Proof.
  intros L. pose proof (u16_range g) as R. unfold u16 in *. rewrite Z.shiftl_mul_pow2 by lia. change (2^8) with 256.
  rewrite <- Z.mul_mod_idemp_l by lia. rewrite Z.mod_small by lia. lia.
Qed.
Lemma merged_in o v l : In v l -> In (Z.lor o v) (merged o l).
Proof. intros I. unfold merged. now apply in_map. Qed.
Lemma seterr_flag (b : bool) x i f o : (if b then ai_setErrorIf x (mkAI i f o) else mkAI i f o) = mkAI i (if b then setErrorIfAt f x else f) o.
Proof. destruct b; reflexivity. Qed.
Lemma limit_le ct : 0x8F <= dataMemoryLimit ct <= 0xFF.
Proof. unfold dataMemoryLimit. destruct (_ =? _); lia. Qed.
Lemma emit_form ct mode op i e o : parsed op -> acceptMode (o_mode op) mode = true -> mode <> M_PMA ->
  exists e' o', encodeOperand ct op mode (mkAI i e o) = mkAI i e' o' /\ (e' = OK -> e = OK /\ In o' (outs ct mode o)).
Proof.
  intros P A NP. unfold encodeOperand. cbv zeta. change (ai_setErrorIf (o_err op) (mkAI i e o)) with (mkAI i (setErrorIfAt e (o_err op)) o).
  set (e1 := setErrorIfAt e (o_err op)). assert (E1 : e1 = OK -> e = OK /\ o_err op = OK) by apply seterr_ok.
  pose proof (operand_fits op mode P) as F. set (g := getUnsigned (o_val op)) in *. assert (G : 0 <= g < 2^32) by apply getUnsigned_range. pose proof (u16_range g) as R16.
  unfold outs.
  destruct (Z.eqb_spec mode M_MAM) as [->|N1].
  { destruct (o_mode op =? M_ARP); [eexists _, _; split; [reflexivity|]; intros H; split; [now apply E1|apply merged_in; now left]|].
    destruct (o_mode op =? M_INC); [eexists _, _; split; [reflexivity|]; intros H; split; [now apply E1|apply merged_in; right; now left]|].
    destruct (o_mode op =? M_DEC); [eexists _, _; split; [reflexivity|]; intros H; split; [now apply E1|apply merged_in; right; right; now left]|].
    rewrite seterr_flag. cbn [ai_opc]. rewrite seterr_flag. unfold ai_embed. cbn [ai_insn ai_err ai_opc]. eexists _, _. split; [reflexivity|].
    intros H. assert (X : (o =? SST) && (g <? 128) = false /\ (dataMemoryLimit ct <? g) = false /\ e1 = OK).
    { destruct ((o =? SST) && (g <? 128)); [apply seterr_ok in H; destruct H; discriminate|]. destruct (dataMemoryLimit ct <? g); [apply seterr_ok in H; destruct H; discriminate|]. auto. }
    destruct X as (X1 & X2 & X3). split; [now apply E1|]. apply merged_in. right. right. right. pose proof (limit_le ct) as LL.
    change 0x7F with (Z.ones 7) at 1. rewrite Z.land_ones by lia. change (2^7) with 128. pose proof (Z.mod_pos_bound g 128 ltac:(lia)) as MB.
    unfold u16. rewrite (Z.mod_small (g mod 128)) by lia. destruct (Z.eqb_spec o SST).
    - apply upto_in. rewrite Z2Nat.id by lia. replace (g mod 128) with (g - 128) by (apply Z.mod_unique with 1; lia). lia.
    - apply upto_in. lia. }
  assert (V0 : o_mode op = M_NONE -> acceptMode M_NONE mode = true) by (intros X; now rewrite <- X).
  assert (SH : forall (L : list Z) n, (e1 = OK -> u16 g < n /\ In (256 * u16 g) L) -> n <= 16 -> exists e' o', ai_embed (Z.shiftl g 8) (mkAI i e1 o) = mkAI i e' o' /\ (e' = OK -> e = OK /\ In o' (merged o L))).
  { intros L n Q N. unfold ai_embed. cbn [ai_insn ai_err ai_opc]. eexists _, _. split; [reflexivity|]. intros H. split; [now apply E1|]. destruct (Q H) as (Q1 & Q2). rewrite shl_u16 by lia. now apply merged_in. }
  assert (EM : forall (L : list Z), (e1 = OK -> In (u16 g) L) -> exists e' o', ai_embed g (mkAI i e1 o) = mkAI i e' o' /\ (e' = OK -> e = OK /\ In o' (merged o L))).
  { intros L Q. unfold ai_embed. cbn [ai_insn ai_err ai_opc]. eexists _, _. split; [reflexivity|]. intros H. split; [now apply E1|]. now apply merged_in, Q. }
  assert (FO : e1 = OK -> fits16 mode (u16 g) = true \/ u16 g = 0 /\ o_mode op = M_NONE).
  { intros H. destruct (F (proj2 (E1 H)) A) as [(X & Y)|(X & Y)]; auto. }
  unfold fits16 in FO.
  destruct (Z.eqb_spec mode M_LS3) as [->|N2].
  { cbn [orb]. apply (SH _ 5); [|lia]. intros H. specialize (FO H). cbn [In]. lia. }
  cbn [orb]. destruct (Z.eqb_spec mode M_LS4) as [->|N3].
  { cbn [orb]. apply (SH _ 16); [|lia]. intros H. specialize (FO H). split; [lia|]. apply (in_map (fun x => 256 * x)). apply upto_in. lia. }
  cbn [orb]. destruct (Z.eqb_spec mode M_PA) as [->|N4].
  { apply (SH _ 8); [|lia]. intros H. specialize (FO H). split; [lia|]. apply (in_map (fun x => 256 * x)). apply upto_in. lia. }
  destruct (Z.eqb_spec mode M_NARP) as [->|N5].
  { destruct (Z.eqb_spec (o_mode op) M_NONE) as [ON|ON]; [eexists _, _; split; [reflexivity|]; intros H; split; [now apply E1|now left]|].
    unfold ai_setopc, ai_embed. cbn [ai_insn ai_err ai_opc]. eexists _, _. split; [reflexivity|]. intros H. split; [now apply E1|]. right. apply merged_in. specialize (FO H). cbn [orb] in FO. cbn [In]. lia. }
  destruct (Z.eqb_spec mode M_AR) as [->|N6].
  { apply (SH _ 2); [|lia]. intros H. specialize (FO H). cbn [orb] in FO. cbn [In]. lia. }
  destruct (Z.eqb_spec mode M_ARK) as [->|N7].
  { cbn [orb] in *. apply EM. intros H. specialize (FO H). cbn [In]. lia. }
  destruct (Z.eqb_spec mode M_DPK) as [->|N8].
  { cbn [orb] in *. apply EM. intros H. specialize (FO H). cbn [In]. lia. }
  cbn [orb] in *. destruct (Z.eqb_spec mode M_IM8) as [->|N9].
  { apply EM. intros H. specialize (FO H). apply upto_in. lia. }
  destruct (Z.eqb_spec mode M_IM13) as [->|N10].
  { rewrite seterr_flag. unfold ai_embed. cbn [ai_insn ai_err ai_opc]. eexists _, _. split; [reflexivity|]. intros H.
    split; [apply E1; destruct (overflow _ _ _); [now apply seterr_ok in H|exact H]|]. apply merged_in.
    change 0x1FFF with (Z.ones 13). rewrite Z.land_ones by lia. change (2^13) with 8192. pose proof (Z.mod_pos_bound g 8192 ltac:(lia)) as MB.
    unfold u16. rewrite (Z.mod_small (g mod 8192)) by lia. apply upto_in. rewrite Z2Nat.id by lia. exact MB. }
  replace (mode =? M_PMA) with false by (symmetry; now apply Z.eqb_neq). eexists _, _. split; [reflexivity|]. intros H. split; [now apply E1|now left].
Qed.
Lemma emit_branch ct op addr e o : exists e' lo hi, byte lo /\ byte hi /\ lo + 256 * hi < 4096 /\
  encodeOperand ct op M_PMA (mkAI (canon addr []) e o) = mkAI (part addr 2 [lo; hi]) e' o /\ (e' = OK -> e = OK).
Proof.
  unfold encodeOperand. cbv zeta. change (M_PMA =? M_MAM) with false. change ((M_PMA =? M_LS3) || (M_PMA =? M_LS4) || (M_PMA =? M_PA)) with false. change (M_PMA =? M_NARP) with false. change (M_PMA =? M_AR) with false.
  change ((M_PMA =? M_ARK) || (M_PMA =? M_DPK) || (M_PMA =? M_IM8)) with false. change (M_PMA =? M_IM13) with false. change (M_PMA =? M_PMA) with true. cbv iota.
  change (ai_setErrorIf (o_err op) (mkAI (canon addr []) e o)) with (mkAI (canon addr []) (setErrorIfAt e (o_err op)) o). rewrite seterr_flag.
  set (w := Z.land (getUnsigned (o_val op)) 0xFFF). assert (W : 0 <= w < 4096) by (unfold w; change 0xFFF with (Z.ones 12); change 4096 with (2^12); apply land_range; lia).
  unfold ai_emitOperand16. cbn [ai_insn ai_err ai_opc]. replace (u16 w) with w by (unfold u16; rewrite Z.mod_small; lia).
  destruct (word_bytes_byte w ltac:(lia)) as (B0 & B1 & E). 
  pose proof (part_le (w mod 256) (w / 256) addr 2 [] B1 B0 ltac:(cbn; lia)) as PL. rewrite E in PL. change (Z.of_nat (2 + length (@nil Z))) with 2 in PL. change (part addr 2 []) with (canon addr []) in PL. cbn [app] in PL.
  eexists _, (w mod 256), (w / 256). split; [exact B0|]. split; [exact B1|]. split; [rewrite E; lia|]. split; [now rewrite PL|].
  intros H. destruct (overflow _ _ _); [apply seterr_ok in H; destruct H as (H & _)|]; now apply seterr_ok in H.
Qed.
Lemma search_in ct name m1 m2 m3 e : In ct types -> tms32010_searchName ct name m1 m2 m3 = Val (OK, Some e) -> In e TABLE_TMS32010 /\ acceptModes m1 m2 m3 e = true.
Proof.
  intros C. unfold tms32010_searchName. assert (E : cpu_pages ct = Val TMS32010_PAGES) by (cbn in C; destruct C as [<-|[<-|[]]]; reflexivity). rewrite E. cbn [bind].
  destruct (searchName entry_name name _ TMS32010_PAGES) as [[pg k|er]| | | |] eqn:SN; cbn [bind]; try discriminate.
  destruct (searchName_found _ _ _ _ _ _ SN) as (q & x & NP & NE & _ & AC).
  assert (I1 : @item_at epage TMS32010_PAGES pg = Val q) by (unfold item_at; change (@nth_error epage TMS32010_PAGES pg) with (@nth_error (M_Table.page unit entry) TMS32010_PAGES pg); rewrite NP; reflexivity).
  rewrite I1. cbn [bind]. unfold item_at. rewrite NE. cbn [bind]. intros H. injection H as <-. split; [|exact AC].
  assert (P : q = mkPage tt TABLE_TMS32010 INDEX_TMS32010).
  { destruct pg as [|pg]; [now injection NP|]. unfold TMS32010_PAGES in NP. cbn [nth_error] in NP. destruct pg; discriminate. }
  rewrite P in NE. cbn [p_items] in NE. eapply nth_error_In, NE.
Qed.
Lemma search_none ct name m1 m2 m3 : tms32010_searchName ct name m1 m2 m3 = Val (OK, None) -> False.
Proof.
  intros SN. unfold tms32010_searchName in SN.
  destruct (cpu_pages ct) as [ps| | | |]; cbn [bind] in SN; try discriminate. destruct (searchName _ _ _ ps) as [[pg k|er]| | | |] eqn:X; cbn [bind] in SN; try discriminate.
  - destruct (item_at ps pg) as [p| | | |]; cbn [bind] in SN; try discriminate. destruct (item_at (p_items p) k) as [x| | | |]; cbn [bind] in SN; discriminate.
  - injection SN as ->. apply (searchName_miss _ _ _ _ _ X eq_refl).
Qed.
Lemma same_none ct op i e o : encodeOperand ct op M_NONE (mkAI i e o) = mkAI i (setErrorIfAt e (o_err op)) o.
Proof. reflexivity. Qed.
Lemma tms32010_emitted a ct line addr i rest : In ct types -> a_aw a = 12 -> 0 <= addr < 2^32 -> tms32010_encode a ct line addr = Val (L_insn i rest) -> i_err i = OK ->
  checkAddr 12 addr false = OK /\ exists o nb e, 0 <= o < 65536 /\ Forall byte nb /\ (length nb <= 2)%nat /\ i = canon addr (word_bytes o ++ nb) /\
    bad_at ct o = false /\ look ct o = Some e /\ taken (e_m1 e) nb.
Proof.
  intros T AW A H E. destruct (encode_inv _ _ _ _ _ _ _ _ H E) as (CA & name & scan & IM). rewrite AW in CA. split; [exact CA|]. clear H.
  unfold tms32010_encodeImpl in IM.
  destruct (parseOperands a addr scan) as [[e0 s0|o1 o2 o3 s0]| | | |] eqn:PO; cbn [bind] in IM; try discriminate.
  { injection IM as <- _. cbn [i_seterr i_err] in E. exfalso. eapply operands_bad; eauto. }
  apply operands_parsed in PO. destruct PO as (P1 & P2 & P3).
  destruct (tms32010_searchName ct name (o_mode o1) (o_mode o2) (o_mode o3)) as [[e' found]| | | |] eqn:SN; cbn [bind] in IM; try discriminate.
  change (i_err (new_insn addr)) with OK in IM. cbv zeta in IM.
  destruct (isOK (setErrorIfAt OK e')) eqn:CK; cbn [negb] in IM; [|injection IM as <- _; cbn [i_seterr i_err] in E; rewrite E in CK; discriminate].
  apply isOK_e in CK. rewrite CK in IM. apply seterr_ok in CK. destruct CK as (_ & ->).
  destruct found as [en|]; [|exfalso; eapply search_none, SN].
  destruct (search_in _ _ _ _ _ _ T SN) as (IE & AC). unfold acceptModes in AC. rewrite !andb_true_iff in AC. destruct AC as ((A1 & A2) & A3).
  pose proof emits_all as CH. rewrite forallb_forall in CH. specialize (CH ct T). rewrite forallb_forall in CH. specialize (CH en IE). unfold emits in CH.
  rewrite canon_new in IM.
  destruct (Z.eqb_spec (e_m1 en) M_PMA) as [PM|NP].
  - unfold branch_to in CH. rewrite !andb_true_iff in CH. destruct CH as (((((LK & N2) & N3) & R1) & R2) & BA). apply Z.eqb_eq in N2, N3. apply negb_true_iff in BA.
    rewrite PM, N2, N3 in IM. destruct (emit_branch ct o1 addr OK (e_opc en)) as (e1 & lo & hi & BL & BH & W & X & _). rewrite X, !same_none in IM. clear X.
    unfold ai_emitInsn in IM. cbn [ai_insn ai_err ai_opc] in IM. rewrite part_word in IM by (cbn [length]; lia).
    set (ee := setErrorIfAt OK _) in IM. injection IM as IM _. assert (ER : ee = OK) by (rewrite <- IM in E; exact E). rewrite ER in IM.
    destruct (look ct (e_opc en)) as [e''|] eqn:LO; [|discriminate].
    exists (e_opc en), [lo; hi], e''. split; [lia|]. split; [auto|]. split; [cbn; lia|]. split; [now rewrite <- IM|]. split; [exact BA|]. split; [exact LO|].
    unfold taken. rewrite LK. exists lo, hi. auto.
  - rewrite !andb_true_iff in CH. destruct CH as ((N2 & N3) & CH).
    destruct (emit_form ct (e_m1 en) o1 (canon addr []) OK (e_opc en) P1 A1 NP) as (e1 & w1 & X1 & Q1). rewrite X1 in IM.
    destruct (emit_form ct (e_m2 en) o2 (canon addr []) e1 w1 P2 A2 ltac:(intros Y; rewrite Y in N2; discriminate)) as (e2 & w2 & X2 & Q2). rewrite X2 in IM.
    destruct (emit_form ct (e_m3 en) o3 (canon addr []) e2 w2 P3 A3 ltac:(intros Y; rewrite Y in N3; discriminate)) as (e3 & w3 & X3 & Q3). rewrite X3 in IM. clear X1 X2 X3.
    unfold ai_emitInsn in IM. cbn [ai_insn ai_err ai_opc] in IM.
    remember (snd (emitUint16Le_at w3 0 (canon addr []))) as fin eqn:FIN. injection IM as IM _. assert (ER : setErrorIfAt OK e3 = OK) by (rewrite <- IM in E; exact E). rewrite ER in IM. apply seterr_ok in ER. destruct ER as (_ & ER).
    destruct (Q3 ER) as (ER2 & I3). destruct (Q2 ER2) as (ER1 & I2). destruct (Q1 ER1) as (_ & I1).
    rewrite forallb_forall in CH. specialize (CH _ I1). cbv beta in CH. rewrite forallb_forall in CH. specialize (CH _ I2). cbv beta in CH. rewrite forallb_forall in CH. specialize (CH _ I3). cbv beta in CH.
    unfold emits_to in CH. rewrite !andb_true_iff in CH. destruct CH as (((R1 & R2) & M) & BA). apply negb_true_iff in BA.
    pose proof (part_word w3 addr [] ltac:(lia) ltac:(cbn; lia)) as PW. change (part addr 2 []) with (canon addr []) in PW. rewrite PW in FIN. rewrite FIN in IM.
    destruct (look_some ct w3 en T IE M) as (e'' & LO). exists w3, [], e''. split; [lia|]. split; [constructor|]. split; [cbn; lia|]. split; [now rewrite <- IM|]. split; [exact BA|]. split; [exact LO|].
    unfold taken. pose proof (not_branch ct w3 e'' T ltac:(lia) LO) as NB. destruct (Z.eqb_spec (e_m1 e'') M_PMA); [contradiction|reflexivity].
Qed.
Lemma fineAt_word d F C o nb m addr size k : 0 <= o < 65536 -> (forall s, F o s = C o (t_seterr OK s)) ->
  checkAddr (da_aw d) addr false = OK -> Forall byte nb -> Forall byte m -> (length nb <= 60)%nat -> fineAt addr nb k (C o) -> k <= size - 1 ->
  exists r, dis_decode d (decode_word F) (word_bytes o ++ nb ++ m) addr size = Val r /\ r_insn r = canon addr (word_bytes o ++ nb).
Proof.
  intros O START CA BN BM LN FI SZ. unfold dis_decode. rewrite CA. cbn [isOK negb].
  set (out := mkB [] (size - 1) OK (Some (da_uppercase d))).
  assert (S0 : forall mem, mkDst (M_Insn.mkD (new_insn addr) mem OK) [] out = at_ addr [] mem [] out) by (intros mem; unfold at_; now rewrite canon_new).
  rewrite S0. destruct (word_bytes_byte o O) as (B0 & B1 & E).
  assert (GO : decode_word F (at_ addr [] (word_bytes o ++ nb ++ m) [] out) = C o (at_ addr (word_bytes o) (nb ++ m) [] out)).
  { unfold decode_word, word_bytes. cbn [app]. rewrite t_word_at by (auto; cbn; lia). rewrite E, START. reflexivity. }
  rewrite GO. destruct (FI (word_bytes o) m [] out BN BM ltac:(cbn [word_bytes length]; lia)) as (nm' & out' & EQ & Q).
  rewrite EQ. cbn [bind].
  eexists. split; [reflexivity|]. cbn [r_insn at_ t_in d_err d_insn t_out].
  destruct Q as (_ & _ & _ & _ & _ & NE). assert (EO : b_err out' = OK) by (apply NE; [reflexivity|cbn; unfold b_mark; cbn; lia]).
  set (i := canon addr (word_bytes o ++ nb)). assert (IE : i_seterr OK i = i) by reflexivity. rewrite IE. change (i_err i) with OK. cbn [isOK]. rewrite EO. exact IE.
Qed.
Lemma tms32010_decodes d ct a line addr i rest m size : In ct types -> da_symtab d = None -> da_aw d = 12 -> brief_plugin (da_plug d) -> a_aw a = 12 -> 0 <= addr < 2^32 ->
  tms32010_encode a ct line addr = Val (L_insn i rest) -> i_err i = OK -> Forall byte m -> 128 <= size ->
  i_addr i = addr /\ Forall byte (i_code i) /\ (length (i_code i) = 2 \/ length (i_code i) = 4)%nat /\
  exists r, tms32010_decode d ct (i_code i ++ m) addr size = Val r /\ r_insn r = i.
Proof.
  intros T NS AW BP AA A H E BM SZ. destruct (tms32010_emitted a ct line addr i rest T AA A H E) as (CA & o & nb & e & O & BN & LN & -> & BA & LK & TK).
  destruct (word_bytes_byte o O) as (B0 & B1 & _). rewrite canon_code. split; [reflexivity|]. split; [unfold word_bytes; cbn [app]; auto|]. split.
  { unfold taken in TK. destruct (_ =? _); [destruct TK as (lo & hi & -> & _)|subst nb]; cbn; auto. }
  pose proof (fine_chain d NS BP AW ct addr nb o e T O BA LK TK) as FI.
  destruct (fineAt_word d (decode_opcode d ct) (chain d ct) o nb m addr size 98 O) as (r & D & R); auto; try lia.
  - intros s. now apply chain_start.
  - now rewrite AW.
  - exists r. split; [|exact R]. rewrite <- app_assoc. exact D.
Qed.
