(** Whatever a line contains, the instruction buffer stays sound: through the directives, and
    through the encoders that are modelled. *)
From Coq Require Import String ZArith List Bool Lia.
From Verif Require Import M_Char M_Error M_Value M_Text M_Insn M_Config M_Operators M_Parsers M_Expr M_Directive M_Table M_Asm M_AsmLine
  M_AsmDriver M_I8080Defs T_I8080 M_I8080 M_AsmI8080 M_AsmMn1610 S_Insn S_AsmDriver P_Insn.
Import ListNotations.
Local Open Scope Z_scope.

Lemma sound_err e i : sound i -> sound (i_seterr e i).
Proof. exact (fun H => H). Qed.
Lemma sound_addr a i : sound i -> sound (i_setaddr a i).
Proof. exact (fun H => H). Qed.
Lemma sound_align n i i' : i_align n i = Some i' -> sound i -> sound i'.
Proof. unfold i_align. destruct (n =? 0); [discriminate|]. intros E H. injection E as <-. destruct (_ =? 0); [exact H|now apply sound_addr]. Qed.
Lemma sound_len i : sound i -> 0 <= i_len i.
Proof. unfold sound. tauto. Qed.
Lemma sound_byte v i : sound i -> sound (snd (emitByte v i)).
Proof. unfold emitByte. apply sound_emitByte. Qed.
Definition keeps (s s' : dstate) : Prop := sound (ds_insn s) -> sound (ds_insn s').
Lemma keeps_seterr e s s' : keeps s s' -> keeps s (ds_seterr e s').
Proof. intros K H. apply sound_err. auto. Qed.
Lemma keeps_if e s s' e' s'' : insn_setErrorIf e s' = (e', s'') -> keeps s s' -> keeps s s''.
Proof. unfold insn_setErrorIf. intros E K. injection E as _ <-. now apply keeps_seterr. Qed.
Ltac step := match goal with
  | |- bind ?r _ = Val _ -> _ => destruct r as [?x| | | |] eqn:?; cbn [bind]; try discriminate
  end.
Lemma keeps_origin a s e s' : defineOrigin a s = Val (e, s') -> keeps s s'.
Proof.
  unfold defineOrigin. step. destruct x as [[v e0] p]. destruct (negb (isOK e0)); [intros E; injection E as _ <-; now apply keeps_seterr; intros H|].
  cbn [setCurrentLocation insn_setErrorIf]. destruct (negb (isOK _)); intros E; injection E as _ <-; intros H.
  - exact H.
  - apply sound_reset; [exact H|lia].
Qed.
Lemma keeps_align_to a n s e s' : align_to a n s = Val (e, s') -> keeps s s'.
Proof.
  unfold align_to. destruct (i_align n (ds_insn s)) as [i|] eqn:E; [|discriminate]. cbn [setCurrentLocation insn_setErrorIf].
  intros X. injection X as _ <-. intros H. cbn. apply sound_err. eapply sound_align; eauto.
Qed.
Lemma keeps_align a n s e s' : alignOrigin a n s = Val (e, s') -> keeps s s'.
Proof.
  unfold alignOrigin. destruct (n =? ALIGN_ODD).
  - cbn [setCurrentLocation insn_setErrorIf]. intros E. injection E as _ <-. intros H. cbn. apply sound_err.
    destruct (_ =? 0); [|exact H]. cbn. apply sound_reset; [exact H|now apply sound_len].
  - destruct (n =? ALIGN_VAR); [|apply keeps_align_to]. step. destruct x as [[v e0] p].
    destruct (negb (isOK e0)); [intros E; injection E as _ <-; intros H; exact H|].
    destruct (overflow v 255 0); [intros E; injection E as _ <-; intros H; exact H|].
    intros E. apply keeps_align_to in E. exact E.
Qed.
Lemma keeps_space a ty al s e s' : allocateSpaces a ty al s = Val (e, s') -> keeps s s'.
Proof.
  unfold allocateSpaces. cbv zeta. destruct (if al && negb (i_addr (ds_insn s) mod 2 =? 0) then i_align 2 (ds_insn s) else Some (ds_insn s)) as [i|] eqn:E; [|discriminate].
  assert (K : sound (ds_insn s) -> sound i). { intros H. destruct (al && _); [eapply sound_align; eauto|congruence]. }
  step. destruct x as [[v e0] p]. destruct (negb (isOK e0)); [intros X; injection X as _ <-; intros H; cbn; apply sound_err; auto|].
  destruct (overflowUint16 v); [intros X; injection X as _ <-; intros H; cbn; apply sound_err; auto|].
  cbn [setCurrentLocation insn_setErrorIf]. intros X. injection X as _ <-. intros H. cbn. apply sound_err. auto.
Qed.
Lemma bytes_sound fuel : forall a delim p stop i e c i' e' c', string_bytes fuel a delim p stop i e c = Val (i', e', c') -> sound i -> sound i'.
Proof.
  induction fuel as [|fuel IH]; intros a delim p stop i e c i' e' c'; cbn [string_bytes]; [discriminate|]. destruct (Nat.ltb _ _).
  - destruct (l_read _ _ _) as [[? ch] q]. pose proof (sound_byte ch i) as B. destruct (emitByte ch i) as [ee j]. intros E H. eapply IH; [exact E|]. apply B. exact H.
  - intros E. injection E as <- _ _. auto.
Qed.
Lemma pad_sound st : sound (fst st) -> sound (fst (pad1 st)).
Proof. destruct st as [i e]. unfold pad1. pose proof (sound_byte 0 i). destruct (emitByte 0 i). auto. Qed.
Lemma padding_sound a ty c st : sound (fst st) -> sound (fst (string_padding a ty c st)).
Proof.
  intros H. unfold string_padding. destruct ty; repeat match goal with |- context [if ?b then _ else _] => destruct b end; auto using pad_sound.
  destruct (c mod 4) as [|[[|[]|]|[|[]|]|]|]; auto using pad_sound.
Qed.
Lemma string_sound a ty scan stop i e i' e' t : generateString a ty scan stop i e = Val (i', e', t) -> sound i -> sound i'.
Proof.
  unfold generateString. cbv zeta. destruct (match l_string_delim _ _ with Some r => r | None => _ end) as [delim p].
  step. destruct x as [[j e0] c]. pose proof (padding_sound a ty c (j, e0)) as P. destruct (string_padding _ _ _ _) as [j' e1]. intros X H. injection X as <- _ _.
  apply P. eapply bytes_sound; eauto.
Qed.
Lemma val_pair {A B} (r : A * B) a b : Val r = Val (a, b) -> snd r = b.
Proof. intros E. injection E as ->. reflexivity. Qed.
Lemma word_sound a v i : sound i -> sound (snd (emit_word a v i)).
Proof. intros H. unfold emit_word, emitUint16Be, emitUint16Le. destruct (a_big a); [apply sound16b; exact H|apply sound16l; exact H]. Qed.
Lemma long_sound a v i : sound i -> sound (snd (emit_long a v i)).
Proof. intros H. unfold emit_long, emitUint32Be, emitUint32Le. destruct (a_big a); [apply sound32b; exact H|apply sound32l; exact H]. Qed.
Lemma constant_sound a ty v i e i' : emit_constant a ty v i = Val (e, i') -> sound i -> sound i'.
Proof.
  unfold emit_constant. cbv zeta. generalize (getUnsigned v). intros n E H.
  destruct ty; try (apply val_pair in E; subst i').
  - now apply sound_byte.
  - destruct (overflowUint8 v); [now apply word_sound|now apply sound_byte].
  - now apply word_sound.
  - now apply sound_byte.
  - now apply word_sound.
  - now apply word_sound.
  - now apply long_sound.
  - discriminate E.
  - discriminate E.
Qed.
Definition round_keeps (s : dstate) (r : round) : Prop := match r with Stop _ s' => keeps s s' | More _ s' => keeps s s' end.
Lemma expr_keeps a ty e str s r : data_expr a ty e str s = Val r -> round_keeps s r.
Proof.
  unfold data_expr. step. destruct x as [[v ee] p]. destruct (endOfLine a p) as [eol q].
  destruct (_ && _); [intros E; injection E as <-; exact (fun H => H)|]. destruct (hasError ee); [intros E; injection E as <-; exact (fun H => H)|].
  step. destruct x as [em i]. destruct (err_eqb _ _); intros E; injection E as <-; intros H; cbn; eapply constant_sound; eauto.
Qed.
Lemma item_keeps a ty e s r : data_item a ty e s = Val r -> round_keeps s r.
Proof.
  unfold data_item. cbv zeta. destruct (has_string ty).
  - step. destruct x as [se stop]. destruct (isOK se).
    + step. destruct x as [[i se'] p]. destruct (err_eqb _ _); intros E; injection E as <-; intros H; cbn; eapply string_sound; eauto.
    + intros E. apply expr_keeps in E. destruct r; exact E.
  - intros E. apply expr_keeps in E. destruct r; exact E.
Qed.
Lemma items_keep fuel : forall a ty e s e' s', data_items fuel a ty e s = Val (e', s') -> keeps s s'.
Proof.
  induction fuel as [|fuel IH]; intros a ty e s e' s'; cbn [data_items]; [discriminate|]. step. apply item_keeps in Heqr. destruct x as [e0 s0|e0 s0]; cbn in Heqr.
  - intros E. injection E as _ <-. exact Heqr.
  - cbv zeta. destruct (expect_char _ _) as [t|].
    + intros E H. apply IH in E. apply E. cbn. auto.
    + intros E. injection E as _ <-. exact Heqr.
Qed.
Lemma keeps_data a ty al s e s' : defineDataConstant a ty al s = Val (e, s') -> keeps s s'.
Proof.
  unfold defineDataConstant. destruct (if al then i_align 2 (ds_insn s) else Some (ds_insn s)) as [i|] eqn:E; [|discriminate].
  assert (K : sound (ds_insn s) -> sound i). { intros H. destruct al; [eapply sound_align; eauto|congruence]. }
  cbv zeta. step. destruct x as [e0 s0]. intros X. injection X as _ <-. apply items_keep in Heqr. intros H. cbn. apply sound_err. apply Heqr.
  destruct al; cbn; auto.
Qed.
Lemma delimited_sound delim p : forall i e, sound i ->
  match delimited delim p i e with (Some (i', _, _), _) => sound i' | (None, i') => sound i' end.
Proof.
  induction p as [|c p IH]; intros i e H; cbn [delimited]; [exact H|]. destruct (c =? delim); [exact H|]. destruct (c =? 0); [exact H|].
  pose proof (sound_byte c i H) as B. destruct (emitByte c i) as [ee j]. apply IH. exact B.
Qed.
Lemma keeps_strings fuel : forall s e e' s', string_list fuel s e = Val (e', s') -> keeps s s'.
Proof.
  induction fuel as [|fuel IH]; intros s e e' s'; cbn [string_list]; [discriminate|]. cbv zeta.
  set (p := tl_ _). pose proof (delimited_sound (peek (skipSpaces (ds_scan s))) p (ds_insn s) e) as D.
  destruct (delimited _ p _ _) as [[[[i e0] t]|] i'].
  - destruct (expect_char _ _) as [u|]; intros E; [apply IH in E; intros H; apply E; cbn; auto|]. injection E as _ <-. intros H. cbn. apply sound_err. auto.
  - cbn [insn_setErrorIf]. intros E. injection E as _ <-. intros H. cbn. apply sound_err. auto.
Qed.
Lemma keeps_option {O} a (common own : list (string * option_of O)) s o e s' o' : setOption a common own s o = Val (e, s', o') -> keeps s s'.
Proof.
  unfold setOption. cbv zeta. destruct (opt_dquote _) as [dq p]. destruct (takeWhile _ p) as [name q].
  destruct (close_dquote dq q) as [q'|]; [|intros E; injection E as _ <- _; exact (fun H => H)].
  destruct (expect_char 44 _) as [r|]; [|intros E; injection E as _ <- _; exact (fun H => H)].
  step. destruct x as [[e0 p0] o0]. cbn [insn_setErrorIf]. destruct (isOK _); intros E; injection E as _ <- _; exact (fun H => H).
Qed.
Lemma keeps_directive {O} a (common own : list (string * option_of O)) d s o s' o' : run_directive a common own d s o = Val (s', o') -> keeps s s'.
Proof.
  unfold run_directive. destruct d; step; try (destruct x as [e0 s0]; intros E; injection E as <- _).
  - eapply keeps_data; eauto.
  - eapply keeps_space; eauto.
  - eapply keeps_align; eauto.
  - eapply keeps_origin; eauto.
  - eapply keeps_strings; eauto.
  - destruct x as [[e0 s0] o0]. intros E. injection E as <- _. eapply keeps_option; eauto.
Qed.
(* a whole line *)
Lemma line_sound {O} a specials tables (common own : list (string * option_of O)) special impl loc line i (o : O) i' loc' o' :
  (forall k s o s' o', special k s o = Val (s', o') -> keeps s s') ->
  (forall name scan i i' scan', impl name scan i = Val (i', scan') -> sound i -> sound i') ->
  encode_line a specials tables common own special impl loc line i o = Val (i', loc', o') -> sound i -> sound i'.
Proof.
  intros HS HI. unfold encode_line. cbv zeta. step. destruct x as [|k scan|t k scan|j scan].
  - intros E. injection E as <- _ _. apply sound_err.
  - step. destruct x as [s o1]. intros E. injection E as <- _ _. intros H. apply (HS _ _ _ _ _ Heqr0). cbn. apply sound_err. exact H.
  - destruct (directive_at tables t k) as [d|]; [|discriminate]. step. destruct x as [s o1]. intros E. injection E as <- _ _. intros H.
    apply (keeps_directive _ _ _ _ _ _ _ _ Heqr0). cbn. apply sound_err. exact H.
  - intros E. injection E as <- _ _. intros H. revert Heqr. unfold asm_encode. cbv zeta. destruct (p_line _ _) as [com sc]. destruct com; [discriminate|].
    destruct (match readInstruction _ _ with Some r => r | None => _ end) as [sym p]. destruct (linearSearch _ _); [discriminate|]. step.
    destruct x as [[? ?]|]; [discriminate|]. destruct (negb (isOK _)); [intros E; injection E as <- _; exact H|]. step. destruct x as [i2 sc2].
    intros E. injection E as <- _. apply (HI _ _ _ _ _ Heqr0). exact H.
Qed.
(* the 8080 *)
Lemma operand_sound z op m ai : sound (ai_insn ai) -> sound (ai_insn (encodeOperand z op m ai)).
Proof.
  intros H. unfold encodeOperand. cbv zeta. 
  assert (B : forall v ai, sound (ai_insn ai) -> sound (ai_insn (ai_emitOperand8 v ai))) by (intros v x X; apply sound_emitByte; exact X).
  assert (W : forall v ai, sound (ai_insn ai) -> sound (ai_insn (ai_emitOperand16 v ai))) by (intros v x X; apply sound16l; exact X).
  repeat match goal with |- context [if ?b then _ else _] => destruct b end; try exact H; try (apply B; exact H); apply W; exact H.
Qed.
Lemma i8080_impl_sound cpu z a loc name scan i i' scan' : i8080_encodeImpl cpu z a loc name scan i = Val (i', scan') -> sound i -> sound i'.
Proof.
  unfold i8080_encodeImpl. step. destruct x as [dst s1]. destruct (hasError _); [intros E; injection E as <- _; apply sound_err|]. cbv zeta.
  step. destruct x as [src s2]. step. destruct x as [e found]. destruct (negb _); [intros E; injection E as <- _; apply sound_err|].
  destruct found as [[pre en]|]; [|intros E; injection E as <- _; auto]. intros E H. injection E as <- _. apply sound_err.
  unfold ai_emitInsn. destruct (negb _).
  - apply sound_emitByte. apply sound_emitByte. now apply operand_sound, operand_sound.
  - apply sound_emitByte. now apply operand_sound, operand_sound.
Qed.
Lemma ops_8080_sound : emits_sound ops_8080.
Proof.
  intros o sy fn loc line i i' loc' o'. cbn [op_encode ops_8080]. unfold encode_8080. cbv zeta. apply line_sound.
  - intros k s x s' x'. unfold special_8080. step. destruct x0 as [[e p] y]. destruct (isOK e); intros E; injection E as <- _; exact (fun H => H).
  - intros. eapply i8080_impl_sound; eauto.
Qed.
(* the MN1610 *)
Lemma dc_expr_keeps a e str s r : dc_expr a e str s = Val r -> round_keeps s r.
Proof.
  unfold dc_expr. step. destruct x as [[v ee] p]. destruct (endOfLine a p) as [eol q].
  destruct (_ && _); [intros E; injection E as <-; exact (fun H => H)|]. destruct (hasError ee); [intros E; injection E as <-; exact (fun H => H)|].
  destruct (isInteger v); [|discriminate]. cbv zeta. pose proof (sound16b (getUnsigned v mod 2^16) (i_len (ds_insn s)) (ds_insn s)) as K.
  unfold emitUint16Be. destruct (emitUint16Be_at _ _ _) as [em i]. destruct (err_eqb _ _); intros E; injection E as <-; exact K.
Qed.
Lemma dc_item_keeps a e s r : dc_item a e s = Val r -> round_keeps s r.
Proof.
  unfold dc_item. cbv zeta. step. destruct x as [se stop]. destruct (isOK se).
  - step. destruct x as [[i se'] p]. destruct (err_eqb _ _); intros E; injection E as <-; intros H; cbn; eapply string_sound; eauto.
  - intros E. apply dc_expr_keeps in E. destruct r; exact E.
Qed.
Lemma dc_items_keep fuel : forall a e s e' s', dc_items fuel a e s = Val (e', s') -> keeps s s'.
Proof.
  induction fuel as [|fuel IH]; intros a e s e' s'; cbn [dc_items]; [discriminate|]. step. apply dc_item_keeps in Heqr. destruct x as [e0 s0|e0 s0]; cbn in Heqr.
  - intros E. injection E as _ <-. exact Heqr.
  - cbv zeta. destruct (expect_char _ _) as [t|].
    + intros E H. apply IH in E. apply E. cbn. auto.
    + intros E. injection E as _ <-. exact Heqr.
Qed.
Lemma ops_1610_sound : emits_sound ops_1610.
Proof.
  intros o sy fn loc line i i' loc' o'. cbn [op_encode ops_1610]. unfold encode_1610. cbv zeta. apply line_sound.
  - intros k s x s' x'. unfold special_1610. step. destruct x0 as [e s0]. intros E. injection E as <- _. apply dc_items_keep in Heqr. exact Heqr.
  - intros name scan j j' sc E. injection E as <- _. apply sound_err.
Qed.
