(** Facts shared by the round trip proofs of the processors: what a part of a disassembler does.
    [good n R f]: on memory of bytes [f] always ends, takes at most [n] bytes from the memory, does
    not look at what follows them, keeps errors, and, when nothing fails, relates by [R] the state
    it starts in to the text it prints, the bytes it takes and the name it leaves. *)
From Coq Require Import String ZArith List Bool Lia ZifyBool.
From Verif Require Import M_Char M_Error M_Value M_Text M_StrBuffer M_Format M_Number M_Insn M_Config M_Operators
  M_Parsers M_Expr M_Directive M_Table M_Asm M_Dis S_Value S_Number S_Expr S_ExprTree S_Table P_StrBuffer P_Number P_NumberRead
  P_ExprRead P_ExprTree P_ExprCase P_Table P_Insn P_Config P_Value P_Directive P_AsmText P_CpuShape.
Import ListNotations.
Open Scope string_scope.
Open Scope list_scope.
Local Open Scope Z_scope.

Record here := mkH { h_case : option bool; h_addr : Z; h_bs : list Z; h_nm : text }.
Definition rel := here -> text -> list Z -> text -> Prop.
Definition step := M_Dis.dstate -> res M_Dis.dstate.
(* how many bytes there are still to read *)
Definition left_of (s : M_Dis.dstate) : nat := length (d_mem (t_in s)).
Lemma left_byte s v s' : t_byte s = (v, s') -> (left_of s' <= left_of s)%nat /\ (d_mem (t_in s) <> [] -> left_of s' < left_of s)%nat.
Proof.
  unfold t_byte, M_Insn.readByte, left_of. destruct (d_mem (t_in s)) as [|c m] eqn:M.
  - injection 1 as <- <-. cbn. try rewrite M. cbn. split; [lia|congruence].
  - destruct (emitByte _ _) as [e i]. injection 1 as <- <-. cbn. split; [lia|intros; lia].
Qed.
Record good (n : nat) (R : rel) (f : step) : Prop := mkGood {
  g_total : forall s, bytes_in s -> exists s', f s = Val s';
  g_bytes : forall s s', bytes_in s -> f s = Val s' -> bytes_in s';
  g_keeps : keeps_err f;
  g_out : forall s s', bytes_in s -> f s = Val s' -> b_err (t_out s') = OK -> b_err (t_out s) = OK;
  g_frame : frames f;
  g_within : forall addr mem k s s', within addr mem k s -> (k + n <= 64)%nat -> f s = Val s' -> within addr mem (k + n) s';
  g_rel : forall addr bs mem nm out s', (length bs + n <= 64)%nat -> Forall byte mem ->
    f (at_ addr bs mem nm out) = Val s' -> s_ok s' ->
    exists t nb m nm', mem = nb ++ m /\ (length nb <= n)%nat /\ s' = at_ addr (bs ++ nb) m nm' (appb out t) /\ b_err out = OK /\
      R (mkH (b_case out) addr bs nm) t nb nm';
  g_left : forall s s', bytes_in s -> f s = Val s' -> (left_of s' <= left_of s)%nat }.

Lemma good_ext n R f g : (forall s, f s = g s) -> good n R f -> good n R g.
Proof.
  intros E [T B K O F W RR LF]. constructor; intros; try rewrite <- E in *; eauto.
  - intros s s' H. rewrite <- E in H. now apply K.
  - intros s s' H X. rewrite <- E in H. destruct (F s s' H X) as (nb & A & C). exists nb. split; [exact A|]. intros m. rewrite <- E. apply C.
Qed.
Lemma good_weaken n n' (R R' : rel) f : (n <= n')%nat -> (forall h t nb nm', R h t nb nm' -> R' h t nb nm') -> good n R f -> good n' R' f.
Proof.
  intros L I [T B K O F W RR LF]. constructor; auto.
  - intros addr mem k s s' H1 H2 H3. apply (within_le _ _ (k + n)); [lia|]. eapply W; eauto. lia.
  - intros addr bs mem nm out s' H1 H2 H3 H4. destruct (RR addr bs mem nm out s' ltac:(lia) H2 H3 H4) as (t & nb & m & nm' & A & B' & C & D & E).
    exists t, nb, m, nm'. repeat (split; [assumption||lia|]). now apply I.
Qed.

Definition R_none : rel := fun h t nb nm' => t = [] /\ nb = [] /\ nm' = h_nm h.
Lemma good_none : good 0 R_none (fun s => Val s).
Proof.
  constructor.
  - eauto.
  - intros s s' B H. now injection H as <-.
  - intros s s' H. now injection H as <-.
  - intros s s' B H. now injection H as <-.
  - apply frame_pure; [now injection 1 as <-|]. intros s s' m H. now injection H as <-.
  - intros addr mem k s s' W _ H. injection H as <-. now rewrite Nat.add_0_r.
  - intros addr bs mem nm out s' _ _ H (_ & E). injection H as <-. exists [], [], mem, nm. rewrite app_nil_r, appb_nil. cbn. unfold R_none. auto 10.
  - intros s s' B H. now injection H as <-.
Qed.

Definition R_seq (R1 R2 : rel) : rel := fun h t nb nm' => exists t1 t2 n1 n2 nm1,
  t = t1 ++ t2 /\ nb = n1 ++ n2 /\ R1 h t1 n1 nm1 /\ R2 (mkH (h_case h) (h_addr h) (h_bs h ++ n1) nm1) t2 n2 nm'.
Lemma good_seq n1 n2 R1 R2 f g : good n1 R1 f -> good n2 R2 g -> good (n1 + n2) (R_seq R1 R2) (fun s => bind (f s) g).
Proof.
  intros [T1 B1 K1 O1 F1 W1 RR1 LF1] [T2 B2 K2 O2 F2 W2 RR2 LF2]. constructor.
  - intros s B. destruct (T1 s B) as (s1 & H1). rewrite H1. cbn [bind]. apply T2. eapply B1; eauto.
  - intros s s' B H. destruct (f s) as [s1| | | |] eqn:H1; try discriminate. cbn [bind] in H. eapply B2; [|exact H]. eapply B1; eauto.
  - now apply keeps_seq.
  - intros s s' B H E. destruct (f s) as [s1| | | |] eqn:H1; try discriminate. cbn [bind] in H.
    exact (O1 s s1 B H1 (O2 s1 s' (B1 s s1 B H1) H E)).
  - now apply frame_seq.
  - intros addr mem k s s' W L H. destruct (f s) as [s1| | | |] eqn:H1; try discriminate. cbn [bind] in H.
    rewrite Nat.add_assoc. eapply W2; [eapply W1; [exact W|lia|exact H1]|lia|exact H].
  - intros addr bs mem nm out s' L FM H (E1 & E2).
    destruct (f (at_ addr bs mem nm out)) as [s1| | | |] eqn:H1; try discriminate. cbn [bind] in H.
    assert (BI : bytes_in s1) by exact (B1 (at_ addr bs mem nm out) s1 FM H1).
    assert (S1 : s_ok s1) by (split; [eapply K2; eauto|eapply O2; eauto]).
    destruct (RR1 addr bs mem nm out s1 ltac:(lia) FM H1 S1) as (t1 & b1 & m1 & nm1 & -> & L1 & -> & EO & Q1).
    assert (FM1 : Forall byte m1) by exact BI.
    destruct (RR2 addr (bs ++ b1) m1 nm1 (appb out t1) s' ltac:(rewrite app_length; lia) FM1 H (conj E1 E2)) as (t2 & b2 & m2 & nm2 & -> & L2 & -> & _ & Q2).
    exists (t1 ++ t2), (b1 ++ b2), m2, nm2. split; [now rewrite app_assoc|]. split; [rewrite app_length; lia|].
    split; [now rewrite appb_app, app_assoc|]. split; [exact EO|]. exists t1, t2, b1, b2, nm1. auto 10.
  - intros s s' B H. destruct (f s) as [s1| | | |] eqn:H1; try discriminate. cbn [bind] in H.
    pose proof (LF1 s s1 B H1). pose proof (LF2 s1 s' (B1 s s1 B H1) H). lia.
Qed.

Definition R_text (T : option bool -> text -> Prop) : rel := fun h t nb nm' => nb = [] /\ nm' = h_nm h /\ T (h_case h) t.
Lemma good_print f (T : option bool -> text -> Prop) : (forall out, exists o, f out = Val o) ->
  (forall out o, f out = Val o -> b_err o = OK -> b_err out = OK /\ exists t, o = appb out t /\ T (b_case out) t) ->
  good 0 (R_text T) (t_print f).
Proof.
  intros TO P. constructor.
  - intros s _. unfold t_print. destruct (TO (t_out s)) as (o & ->). cbn. eauto.
  - intros s s' B H. unfold bytes_in. now rewrite (print_err _ _ _ H).
  - apply keeps_print.
  - intros s s' B H E. unfold t_print in H. destruct (f (t_out s)) as [o| | | |] eqn:X; try discriminate. injection H as <-.
    now apply (P _ _ X).
  - apply frame_print.
  - intros addr mem k s s' W _ H. rewrite Nat.add_0_r. eapply within_print; eauto.
  - intros addr bs mem nm out s' _ _ H (_ & E). unfold t_print in H. cbn [t_out at_] in H.
    destruct (f out) as [o| | | |] eqn:X; try discriminate. injection H as <-. cbn [t_set_out t_out] in E.
    destruct (P _ _ X E) as (E0 & t & -> & Q). exists t, [], mem, nm. rewrite app_nil_r. unfold R_text. auto 10.
  - intros s s' B H. unfold left_of. now rewrite (print_err _ _ _ H).
Qed.
Lemma good_put f w : (forall b, f b = out_text w b) -> good 0 (R_text (fun k t => t = map (conv k) w)) (fun s => Val (t_put f s)).
Proof.
  intros F. apply (good_ext _ _ (t_print (fun b => Val (out_text w b)))).
  - intros s. unfold t_print, t_put. cbn [bind]. now rewrite F.
  - apply good_print; [eauto|]. intros out o H E. injection H as <-. split; [eapply out_text_err, E|].
    exists (map (conv (b_case out)) w). split; [now apply out_text_ok|reflexivity].
Qed.
Lemma good_comma : good 0 (R_text (fun _ t => t = [44; 32])) (fun s => Val (t_put comma s)).
Proof.
  apply (good_ext _ _ (t_print (fun b => Val (comma b)))); [reflexivity|].
  apply good_print; [eauto|]. intros out o H E. injection H as <-. destruct (comma_text _ E) as (E0 & C). split; [exact E0|]. exists [44; 32]. auto.
Qed.

Definition R_name (w : text) : rel := fun h t nb nm' => t = [] /\ nb = [] /\ nm' = firstn 11 (map (conv (h_case h)) w).
Lemma good_setname w : good 0 (fun h t nb nm' => t = [] /\ nb = [] /\ nm' = w) (fun s => Val (mkDst (t_in s) w (t_out s))).
Proof.
  constructor.
  - eauto.
  - intros s s' B H. now injection H as <-.
  - intros s s' H. now injection H as <-.
  - intros s s' B H. now injection H as <-.
  - apply frame_pure; [now injection 1 as <-|]. intros s s' m H. now injection H as <-.
  - intros addr mem k s s' W _ H. injection H as <-. now rewrite Nat.add_0_r.
  - intros addr bs mem nm out s' _ _ H (_ & E). injection H as <-. exists [], [], mem, w.
    rewrite app_nil_r, appb_nil. cbn. auto 10.
  - intros s s' B H. now injection H as <-.
Qed.
Lemma good_name w : good 0 (R_name w) (fun s => Val (t_readName w s)).
Proof.
  constructor.
  - eauto.
  - intros s s' B H. now injection H as <-.
  - intros s s' H. now injection H as <-.
  - intros s s' B H. now injection H as <-.
  - apply frame_pure; [now injection 1 as <-|]. intros s s' m H. now injection H as <-.
  - intros addr mem k s s' W _ H. injection H as <-. now rewrite Nat.add_0_r.
  - intros addr bs mem nm out s' _ _ H (_ & E). injection H as <-. exists [], [], mem, (firstn 11 (map (conv (b_case out)) w)).
    rewrite app_nil_r, appb_nil. cbn. unfold R_name. auto 10.
  - intros s s' B H. now injection H as <-.
Qed.

(* an error, or nothing *)
Definition R_check (e : err) : rel := fun h t nb nm' => e = OK /\ t = [] /\ nb = [] /\ nm' = h_nm h.
Lemma good_check e : good 0 (R_check e) (fun s => Val (t_setErrorIf e s)).
Proof.
  constructor.
  - eauto.
  - intros s s' B H. now injection H as <-.
  - intros s s' H E. injection H as <-. cbn in E. destruct (isOK (d_err (t_in s))) eqn:X; [now apply isOK_e|]. rewrite seterr_stays in E; [exact E|]. intros N. rewrite N in X. discriminate.
  - intros s s' B H. now injection H as <-.
  - apply frame_pure; [now injection 1 as <-|]. intros s s' m H. now injection H as <-.
  - intros addr mem k s s' W _ H. injection H as <-. now rewrite Nat.add_0_r.
  - intros addr bs mem nm out s' _ _ H (E1 & E2). injection H as <-. cbn in E1, E2.
    assert (e = OK) as ->. { unfold setErrorIfAt in E1. destruct e; (reflexivity || discriminate). }
    exists [], [], mem, nm. rewrite app_nil_r, appb_nil. unfold R_check. cbn [h_nm]. auto 10.
  - intros s s' B H. now injection H as <-.
Qed.

(* reading *)
Definition R_byte (R : Z -> rel) : rel := fun h t nb nm' => exists v nb',
  nb = v :: nb' /\ byte v /\ R v (mkH (h_case h) (h_addr h) (h_bs h ++ [v]) (h_nm h)) t nb' nm'.
Lemma good_byte n R g : (forall v, byte v -> good n (R v) (g v)) -> (forall v, keeps_err (g v)) -> (forall v, frames (g v)) ->
  good (S n) (R_byte R) (fun s => let '(v, s) := t_byte s in g v s).
Proof.
  intros G K F. constructor.
  - intros s B. destruct (t_byte s) as [v s1] eqn:X. destruct (bytes_kept _ _ _ X B) as (B1 & V & _). now apply (g_total _ _ _ (G v V)).
  - intros s s' B H. destruct (t_byte s) as [v s1] eqn:X. destruct (bytes_kept _ _ _ X B) as (B1 & V & _). now apply (g_bytes _ _ _ (G v V) s1).
  - intros s s' H E. destruct (t_byte s) as [v s1] eqn:X. pose proof (K v _ _ H E) as E1. clear H. rename E1 into H.
    destruct (isOK (d_err (t_in s))) eqn:OK1; [now apply isOK_e|].
    rewrite (byte_err _ _ _ X) in H; [exact H|]. intros N. rewrite N in OK1. discriminate.
  - intros s s' B H E. destruct (t_byte s) as [v s1] eqn:X. destruct (bytes_kept _ _ _ X B) as (B1 & V & O).
    rewrite <- O. now apply (g_out _ _ _ (G v V) s1 s').
  - now apply frame_byte.
  - intros addr mem k s s' W L H. destruct (t_byte s) as [v s1] eqn:X.
    assert (V : byte v).
    { destruct W as (FM & bs & M & _). assert (B : bytes_in s). { unfold bytes_in. rewrite M in FM. now apply Forall_app in FM. }
      now destruct (bytes_kept _ _ _ X B) as (_ & V & _). }
    replace (k + S n)%nat with (k + 1 + n)%nat by lia. eapply (g_within _ _ _ (G v V)); [eapply within_byte; [exact W|lia|exact X]|lia|exact H].
  - intros addr bs mem nm out s' L FM H E. destruct mem as [|v m].
    { destruct (t_byte_nil addr bs nm out) as (s1 & X & N). rewrite X in H. destruct E as (E & _). pose proof (K _ _ _ H E). congruence. }
    inversion FM as [|? ? V FM']; subst. rewrite t_byte_at in H by (auto; lia).
    destruct (g_rel _ _ _ (G v V) addr (bs ++ [v]) m nm out s' ltac:(rewrite app_length; cbn; lia) FM' H E) as (t & nb & m' & nm' & -> & L' & -> & EO & Q).
    exists t, (v :: nb), m', nm'. split; [reflexivity|]. split; [cbn; lia|]. split; [now rewrite <- app_assoc|]. split; [exact EO|].
    exists v, nb. auto.
  - intros s s' B H. destruct (t_byte s) as [v s1] eqn:X. destruct (bytes_kept _ _ _ X B) as (B1 & V & _).
    pose proof (g_left _ _ _ (G v V) s1 s' B1 H). apply left_byte in X. lia.
Qed.
(* an unconditional form *)
Lemma good_byte' n R g : (forall v, good n (R v) (g v)) -> good (S n) (R_byte R) (fun s => let '(v, s) := t_byte s in g v s).
Proof. intros G. apply good_byte; intros v; [intros _; apply G|apply G|apply G]. Qed.

Definition keeping (g : step) : Prop := keeps_err g /\ frames g.
Lemma keeping_of n R g : good n R g -> keeping g.
Proof. intros G. split; apply G. Qed.
Lemma keeping_seq f g : keeping f -> keeping g -> keeping (fun s => bind (f s) g).
Proof. intros (K1 & F1) (K2 & F2). split; [now apply keeps_seq|now apply frame_seq]. Qed.
Lemma keeping_print f : keeping (t_print f).
Proof. split; [apply keeps_print|apply frame_print]. Qed.
Lemma keeping_put f : keeping (fun s => Val (t_put f s)).
Proof. split; [apply keeps_put|apply frame_put]. Qed.

Definition R_be (R : Z -> rel) : rel := fun h t nb nm' => exists hi lo nb',
  nb = hi :: lo :: nb' /\ byte hi /\ byte lo /\ R (256 * hi + lo) (mkH (h_case h) (h_addr h) (h_bs h ++ [hi; lo]) (h_nm h)) t nb' nm'.
Definition R_le (R : Z -> rel) : rel := fun h t nb nm' => exists lo hi nb',
  nb = lo :: hi :: nb' /\ byte hi /\ byte lo /\ R (256 * hi + lo) (mkH (h_case h) (h_addr h) (h_bs h ++ [lo; hi]) (h_nm h)) t nb' nm'.
Lemma wordbe_split s v s' : t_uint16Be s = (v, s') -> exists x y s1, t_byte s = (x, s1) /\ t_byte s1 = (y, s') /\ v = Z.lor (Z.shiftl x 8) y.
Proof.
  unfold t_uint16Be, t_byte, readUint16Be. destruct (readByte (t_in s)) as [x d1] eqn:R1. destruct (readByte d1) as [y d2] eqn:R2.
  injection 1 as <- <-. exists x, y, (t_set_in d1 s). cbn [t_set_in t_in]. rewrite R2. auto.
Qed.
Lemma word_val hi lo : byte hi -> byte lo -> Z.lor (Z.shiftl hi 8) lo = 256 * hi + lo.
Proof. intros H L. rewrite word_le by assumption. lia. Qed.
Lemma good_be n R g : (forall v, 0 <= v < 65536 -> good n (R v) (g v)) -> (forall v, keeping (g v)) ->
  good (S (S n)) (R_be R) (fun s => let '(v, s) := t_uint16Be s in g v s).
Proof.
  intros G K.
  apply (good_ext _ _ (fun s => let '(x, s) := t_byte s in (fun s => let '(y, s) := t_byte s in g (Z.lor (Z.shiftl x 8) y) s) s)).
  { intros s. destruct (t_uint16Be s) as [v s1] eqn:W. apply wordbe_split in W. destruct W as (x & y & s2 & -> & -> & ->). reflexivity. }
  eapply good_weaken; [reflexivity| |apply (good_byte _ (fun x => R_byte (fun y => R (Z.lor (Z.shiftl x 8) y))))].
  - intros h t nb nm' (x & nb1 & -> & X & y & nb2 & -> & Y & Q). exists x, y, nb2. cbn [h_case h_addr h_bs h_nm] in Q.
    rewrite <- app_assoc in Q. rewrite word_val in Q by assumption. auto.
  - intros x X. apply good_byte; [|intros v; apply K..]. intros y Y. apply G. rewrite word_val by assumption. unfold byte in *. lia.
  - intros x. pose proof (frame_byte (fun y => g (Z.lor (Z.shiftl x 8) y))) as _.
    intros s s' H E. destruct (t_byte s) as [y s1] eqn:B. pose proof (proj1 (K _) _ _ H E) as E1. clear H. rename E1 into H.
    destruct (isOK (d_err (t_in s))) eqn:O; [now apply isOK_e|].
    rewrite (byte_err _ _ _ B) in H; [exact H|]. intros N. rewrite N in O. discriminate.
  - intros x. apply frame_byte; intros; apply K.
Qed.
Lemma good_le n R g : (forall v, 0 <= v < 65536 -> good n (R v) (g v)) -> (forall v, keeping (g v)) ->
  good (S (S n)) (R_le R) (fun s => let '(v, s) := t_uint16Le s in g v s).
Proof.
  intros G K.
  apply (good_ext _ _ (fun s => let '(x, s) := t_byte s in (fun s => let '(y, s) := t_byte s in g (Z.lor (Z.shiftl y 8) x) s) s)).
  { intros s. destruct (t_uint16Le s) as [v s1] eqn:W. apply word_split in W. destruct W as (x & y & s2 & -> & -> & ->). reflexivity. }
  eapply good_weaken; [reflexivity| |apply (good_byte _ (fun x => R_byte (fun y => R (Z.lor (Z.shiftl y 8) x))))].
  - intros h t nb nm' (x & nb1 & -> & X & y & nb2 & -> & Y & Q). exists x, y, nb2. cbn [h_case h_addr h_bs h_nm] in Q.
    rewrite <- app_assoc in Q. rewrite word_val in Q by assumption. auto.
  - intros x X. apply good_byte; [|intros v; apply K..]. intros y Y. apply G. rewrite word_val by assumption. unfold byte in *. lia.
  - intros x s s' H E. destruct (t_byte s) as [y s1] eqn:B. pose proof (proj1 (K _) _ _ H E) as E1. clear H. rename E1 into H.
    destruct (isOK (d_err (t_in s))) eqn:O; [now apply isOK_e|].
    rewrite (byte_err _ _ _ B) in H; [exact H|]. intros N. rewrite N in O. discriminate.
  - intros x. apply frame_byte; intros; apply K.
Qed.
(* looking at the instruction so far *)
Definition R_insn (R : insn -> rel) : rel := fun h => R (canon (h_addr h) (h_bs h)) h.
Lemma good_insn n R g : (forall i, good n (R i) (g i)) -> good n (R_insn R) (fun s => g (d_insn (t_in s)) s).
Proof.
  intros G. constructor.
  - intros s. apply (g_total _ _ _ (G _)).
  - intros s s'. apply (g_bytes _ _ _ (G _)).
  - intros s s'. apply (g_keeps _ _ _ (G _)).
  - intros s s'. apply (g_out _ _ _ (G _)).
  - intros s s' H E. destruct (g_frame _ _ _ (G (d_insn (t_in s))) s s' H E) as (nb & A & C). exists nb. split; [exact A|]. exact C.
  - intros addr mem k s s'. apply (g_within _ _ _ (G _)).
  - intros addr bs mem nm out s'. apply (g_rel _ _ _ (G _)).
  - intros s s'. apply (g_left _ _ _ (G _)).
Qed.

(* ------------------------------------------------------------ numbers *)
Definition R_num (np : number_parser) (v : Z) : rel := R_text (fun _ t => numeral np t v).
Lemma good_hex d np v bits relax : da_symtab d = None -> da_reads d np -> 0 <= v < 2 ^ bits -> 1 <= bits <= 32 ->
  good 0 (R_num np v) (t_print (dis_outHex d v bits relax)).
Proof.
  intros S R V B. apply good_print; [intros; now apply outHex_val|]. intros out o H E.
  assert (2 ^ bits <= 2 ^ 32) by (apply Z.pow_le_mono_r; lia).
  destruct (outHex_numeral d np v bits relax out o S R ltac:(lia) B H E) as (E0 & t & A & N). rewrite Z.mod_small in N by exact V. eauto.
Qed.
Lemma good_abs d np v width bits : da_symtab d = None -> da_reads d np -> bits = (if width =? 0 then da_aw d else width) ->
  0 <= v < 2 ^ bits -> 1 <= bits <= 32 ->
  good 0 (R_num np v) (t_print (outAbsAddr d v width)).
Proof.
  intros S R W V B. apply good_print; [intros; now apply outAbs_val|]. intros out o H E.
  assert (2 ^ bits <= 2 ^ 32) by (apply Z.pow_le_mono_r; lia).
  destruct (outAbs_numeral d np v width out o S R ltac:(lia) ltac:(rewrite <- W; exact B) H E) as (E0 & t & A & N).
  rewrite <- W, Z.mod_small in N by exact V. eauto.
Qed.
Lemma outDec_val d v bits out : da_symtab d = None -> exists o, dis_outDec d v bits out = Val o.
Proof. intros S. unfold dis_outDec, da_lookup. rewrite S. cbn [bind]. destruct (da_octal d); eauto. Qed.
Lemma good_dec d np v bits : da_symtab d = None -> da_reads d np -> 0 <= v < 2 ^ bits -> 1 <= bits <= 32 ->
  good 0 (R_num np v) (t_print (dis_outDec d v bits)).
Proof.
  intros S (FD & FO & FH) V B. apply good_print; [intros; now apply outDec_val|]. intros out o H E.
  assert (2 ^ bits <= 2 ^ 32) by (apply Z.pow_le_mono_r; lia).
  unfold dis_outDec, da_lookup in H. rewrite S in H. cbn [bind] in H.
  destruct (da_octal d); injection H as <-.
  - destruct (hex_case_numeral d _ np v bits out (FO eq_refl) ltac:(lia) B E) as (E0 & t & A & N). rewrite Z.mod_small in N by exact V. eauto.
  - destruct (hex_case_numeral d _ np v bits out (FD eq_refl) ltac:(lia) B E) as (E0 & t & A & N). rewrite Z.mod_small in N by exact V. eauto.
Qed.

(* ------------------------------------------------------------ relative addresses *)
(* the texts of an address: a numeral, or the current location and a distance *)
Definition place_text (np : number_parser) (c loc : Z) (t : text) (v : Z) : Prop :=
  numeral np t v \/ (t = [c] /\ v = loc) \/
  (exists u n, (t = c :: 43 :: u /\ v = loc + n \/ t = c :: 45 :: u /\ v = loc - n) /\ 0 <= n < 2^32 /\ numeral np u n).
Definition plain_case (c : Z) : Prop := forall k, conv k c = c.
Lemma plain_symbol c : is_alpha c = false -> plain_case c.
Proof.
  intros A k. unfold is_alpha in A. unfold conv, to_upper, to_lower.
  destruct (is_upper c); [discriminate|]. destruct (is_lower c); [discriminate|]. destruct k as [[|]|]; reflexivity.
Qed.
Lemma outRel_val d target origin bits out : da_symtab d = None -> exists o, outRelAddr d target origin bits out = Val o.
Proof.
  intros S. unfold outRelAddr. destruct (negb (da_relative d)); [now apply outAbs_val|]. unfold da_lookup. rewrite S. cbn [bind].
  destruct (s32 _ =? 0); [eauto|]. destruct (da_octal d); [eauto|]. destruct (bits <=? 14); [eauto|].
  destruct (outHex_val d (u32 (Z.abs (s32 (target - origin)))) bits true (case_buf (da_upperhex d) (letter (if s32 (target - origin) <? 0 then 45 else 43) (letter (da_cursym d) out))) S) as (o & ->).
  cbn. eauto.
Qed.
Lemma s32_small z : - 2^31 <= z < 2^31 -> s32 z = z.
Proof.
  intros H. unfold s32, u32. cbv zeta. destruct (Z.neg_nonneg_cases z) as [N|N].
  - replace (z mod 2^32) with (z + 2^32). 2:{ symmetry. replace z with (z + 2^32 + (-1) * 2^32) at 1 by lia. rewrite Z.mod_add by lia. apply Z.mod_small. lia. }
    destruct (Z.ltb_spec (z + 2^32) (2^31)); lia.
  - rewrite Z.mod_small by lia. destruct (Z.ltb_spec z (2^31)); lia.
Qed.
Lemma good_rel d np target origin bits : da_symtab d = None -> da_reads d np -> 1 <= da_aw d <= 31 ->
  0 <= target < 2 ^ 32 -> 1 <= bits <= 31 ->
  (da_relative d = true -> is_alpha (da_cursym d) = false) ->
  good 0 (R_text (fun _ t => 0 <= target < 2 ^ da_aw d -> 0 <= origin < 2 ^ da_aw d -> Z.abs (target - origin) < 2 ^ bits ->
      place_text np (da_cursym d) origin t target /\ (da_relative d = false -> numeral np t target)))
    (t_print (outRelAddr d target origin bits)).
Proof.
  intros S R A T B C. apply good_print; [intros; now apply outRel_val|]. intros out o H E. unfold outRelAddr in H.
  assert (P31 : 2 ^ da_aw d <= 2 ^ 31) by (apply Z.pow_le_mono_r; lia). change (2^31) with 2147483648 in P31.
  assert (PB : 2 ^ bits <= 2 ^ 31) by (apply Z.pow_le_mono_r; lia). change (2^31) with 2147483648 in PB.
  destruct (da_relative d) eqn:RL; cbn [negb] in H.
  - unfold da_lookup in H. rewrite S in H. cbn [bind] in H.
    assert (LC : forall b, b_err (letter (da_cursym d) b) = OK -> b_err b = OK /\ letter (da_cursym d) b = appb b [da_cursym d]).
    { intros b X. rewrite letter_text in *. split; [eapply out_text_err, X|]. rewrite out_text_ok by exact X. cbn [map]. now rewrite (plain_symbol _ (C eq_refl)). }
    set (dl := s32 (target - origin)) in *.
    assert (DL : 0 <= target < 2 ^ da_aw d -> 0 <= origin < 2 ^ da_aw d -> dl = target - origin) by (intros; apply s32_small; lia).
    destruct (Z.eqb_spec dl 0) as [Q|Q].
    + injection H as <-. destruct (LC _ E) as (E0 & X). split; [exact E0|]. exists [da_cursym d]. split; [exact X|].
      intros T1 O1 _. specialize (DL T1 O1). split; [|discriminate]. right; left. split; [reflexivity|lia].
    + set (sg := if dl <? 0 then 45 else 43) in *.
      assert (LS : forall b, b_err (letter sg b) = OK -> b_err b = OK /\ letter sg b = appb b [sg]).
      { intros b X. rewrite letter_text in *. split; [eapply out_text_err, X|]. rewrite out_text_ok by exact X. cbn [map].
        rewrite plain_symbol; [reflexivity|]. unfold sg. destruct (_ <? 0); reflexivity. }
      assert (UR : 0 <= u32 (Z.abs dl) < 2 ^ 32) by (unfold u32; apply Z.mod_pos_bound; lia).
      assert (X : b_err (letter sg (letter (da_cursym d) out)) = OK /\
        exists t, o = appb (letter sg (letter (da_cursym d) out)) t /\ numeral np t (u32 (Z.abs dl) mod 2 ^ bits)).
      { pose proof R as (FD & FO & FH). destruct (da_octal d) eqn:OC; [|destruct (Z.leb_spec bits 14)].
        - injection H as <-. now apply (hex_case_numeral d _ np (u32 (Z.abs dl)) bits _ (FO eq_refl) UR ltac:(lia)).
        - injection H as <-. now apply (hex_case_numeral d _ np (u32 (Z.abs dl)) bits _ (FD eq_refl) UR ltac:(lia)).
        - set (o1 := letter sg (letter (da_cursym d) out)) in *. destruct (dis_outHex d (u32 (Z.abs dl)) bits true (case_buf (da_upperhex d) o1)) as [o2| | | |] eqn:H2; try discriminate H.
          cbn [bind] in H. injection H as <-. unfold M_StrBuffer.over in E. cbn [b_err] in E.
          destruct (outHex_numeral d np _ bits true _ o2 S R UR ltac:(lia) H2 E) as (E1 & t & -> & N). split; [exact E1|]. exists t. split; [reflexivity|exact N]. }
      destruct X as (E1 & t & EQ & N).
      destruct (LS _ E1) as (E2 & X2). destruct (LC _ E2) as (E3 & X3). split; [exact E3|].
      exists (da_cursym d :: sg :: t). split; [rewrite EQ, X2, X3, !appb_app; reflexivity|]. intros T1 O1 D1. split; [|discriminate].
      specialize (DL T1 O1). unfold u32 in N. rewrite (Z.mod_small (Z.abs dl)) in N by lia. rewrite Z.mod_small in N by lia.
      right; right. exists t, (Z.abs dl). split; [|split; [lia|exact N]].
      unfold sg. destruct (Z.ltb_spec dl 0); [right|left]; split; try reflexivity; lia.
  - destruct (outAbs_numeral d np target 0 out o S R T ltac:(change (0 =? 0) with true; cbv iota; lia) H E) as (E0 & t & EQ & N).
    change (0 =? 0) with true in N. cbv iota in N. split; [exact E0|]. exists t. split; [exact EQ|].
    intros T1 O1 _. rewrite Z.mod_small in N by lia. split; [now left|auto].
Qed.

(* reading such a text *)
Definition head_ok (f : family) (t : text) : Prop := is_digit (peek t) = true \/ In (peek t) (fam_leads f).
Lemma parse_place f a loc delim c b0 t v b rest :
  In f tree_families -> a_pl a = fam_pl f -> a_radix a = 10 -> In delim [0; 41; 44; 93] ->
  In c (y_locations (p_symbol (fam_pl f))) -> 0 <= loc < 2^32 -> 0 <= v < 2^32 ->
  (forall u n, numeral (p_number (fam_pl f)) u n -> head_ok f u) ->
  In (ent "+" 6 LEFT add_) (fam_infix f) -> In (ent "-" 6 LEFT subtract) (fam_infix f) ->
  (forall d, In d (fam_infix f) -> (1 < length (d_text d))%nat -> forall r, d_text d <> 43 :: r /\ d_text d <> 45 :: r) ->
  place_text (p_number (fam_pl f)) c loc t v -> blanks b0 -> blanks b ->
  (rest = [] \/ exists c u, rest = c :: u /\ (c = 44 \/ c = 59 \/ (c = delim /\ c <> 0))) ->
  exists b' w, blanks b' /\ parseInteger a loc (b0 ++ t ++ b ++ rest) OK delim = Val (w, OK, b' ++ rest) /\
    int_value w /\ int_of w = v /\ (~ head_ok f [c] -> numeral (p_number (fam_pl f)) t v -> w = mkV V_UNSIGNED v).
Proof.
  intros I PL RX DL CL LOC VR HD PLUS MINUS SEP P B0 B R.
  set (cx := mkC loc (a_symbol a) (a_function a) delim).
  assert (EN : ends cx rest).
  { unfold ends. destruct R as [->|(x & u & -> & C)]; [trivial|]. cbn [c_delim cx]. tauto. }
  assert (TE : token_end (b ++ rest)).
  { destruct b as [|x b]; [|cbn; left; now inversion B]. cbn [app].
    destruct R as [->|(x & u & -> & C)]; [exact Logic.I|]. cbn [token_end]. right.
    cbn in DL. cbn. intuition (subst; auto 20). }
  assert (NUM : forall u n, numeral (p_number (fam_pl f)) u n -> derives f cx (Num u (mkV V_UNSIGNED n)) (u ++ b ++ rest) rest).
  { intros u n N. constructor; auto; [eapply HD; eauto|]. intros r T. apply N, token_boundary, T. }
  assert (UU : forall n, 0 <= n < 2^32 -> int_value (mkV V_UNSIGNED n) /\ int_of (mkV V_UNSIGNED n) = n).
  { intros n N. split; [cbn; lia|reflexivity]. }
  assert (GO : forall e s w, derives f cx e s rest -> well_nested e -> value_slots e <= 8 -> operator_slots e <= 8 -> value_of e = Val (OK, w) ->
     exists b', blanks b' /\ parseInteger a loc (b0 ++ s) OK delim = Val (w, OK, b' ++ rest)).
  { intros e s w D W VS OS V. pose proof (C18_exact f cx e b0 s rest I DL B0 D W EN VS OS) as X. rewrite V in X.
    destruct X as (b' & BB & X). exists b'. split; [exact BB|]. unfold parseInteger. rewrite PL, RX. fold cx. rewrite X. reflexivity. }
  assert (OP : forall d u n w sg, d_text d = [sg] -> sg = 43 \/ sg = 45 -> d_level d = 6 -> d_assoc d = LEFT -> In d (fam_infix f) ->
     numeral (p_number (fam_pl f)) u n ->
     eval2 (d_fn d) (setUnsigned loc) (mkV V_UNSIGNED n) = Some (OK, w) ->
     exists b', blanks b' /\ parseInteger a loc (b0 ++ (c :: sg :: u) ++ b ++ rest) OK delim = Val (w, OK, b' ++ rest)).
  { intros d u n w sg DT SG LV AS ID N EV.
    apply (GO (Bin d (Here (setUnsigned loc)) (Num u (mkV V_UNSIGNED n))) ((c :: sg :: u) ++ b ++ rest) w).
    - apply (D_bin f cx d [sg] [] _ _ _ (u ++ b ++ rest)).
      + exact ID.
      + left. now rewrite DT.
      + apply Forall_nil.
      + split.
        * intros d' I' L' (r & SW). cbn [app] in SW. destruct (d_text d') as [|x y] eqn:TX; [cbn in L'; lia|].
          cbn [app] in SW. injection SW as <- _. destruct (SEP d' I' ltac:(rewrite TX; exact L') y) as (S1 & S2). destruct SG as [->| ->]; congruence.
        * cbn [last]. destruct SG as [->| ->]; discriminate.
      + cbn [app]. apply (D_here f cx c [] (sg :: u ++ b ++ rest)); [exact CL|apply Forall_nil|]. cbn [app token_end]. right.
        destruct SG as [->| ->]; cbn; auto.
      + apply NUM, N.
    - cbn. rewrite LV, AS. repeat split; lia.
    - cbn. lia.
    - cbn. lia.
    - cbn [value_of andthen isOK err_eqb err_code Z.eqb]. change (isOK OK) with true. cbv iota. now rewrite EV. }
  destruct (UU loc LOC) as (IL & OL).
  assert (SL : setUnsigned loc = mkV V_UNSIGNED loc).
  { unfold setUnsigned. rewrite Z.mod_small by lia. unfold setU, u64. rewrite Z.mod_small by lia. reflexivity. }
  destruct P as [N|[(-> & ->)|(u & n & P & NR & N)]].
  - destruct (GO _ _ (mkV V_UNSIGNED v) (NUM t v N)) as (b' & BB & X); [exact Logic.I|cbn; lia|cbn; lia|reflexivity|].
    exists b', (mkV V_UNSIGNED v). destruct (UU v VR). auto.
  - destruct (GO (Here (setUnsigned loc)) ([c] ++ b ++ rest) (setUnsigned loc)) as (b' & BB & X).
    + apply (D_here f cx c b rest); auto.
    + exact Logic.I.
    + cbn; lia.
    + cbn; lia.
    + reflexivity.
    + exists b', (setUnsigned loc). rewrite SL in *. repeat (split; [assumption|]). reflexivity.
  - destruct (UU n NR) as (IN & ON). destruct P as [(-> & ->)|(-> & ->)].
    + destruct (v_add_ok (mkV V_UNSIGNED loc) (mkV V_UNSIGNED n) IL IN) as (w & EV & IW & OW); [rewrite ?OL, ?ON; lia..|]. rewrite OL, ON in OW.
      destruct (OP (ent "+" 6 LEFT add_) u n w 43 eq_refl ltac:(auto) eq_refl eq_refl PLUS N) as (b' & BB & X).
      * rewrite SL. cbn [ent d_fn eval2]. now rewrite EV.
      * exists b', w. repeat (split; [assumption|]). intros NC K. exfalso. apply NC. exact (HD _ _ K).
    + destruct (v_sub_ok (mkV V_UNSIGNED loc) (mkV V_UNSIGNED n) IL IN) as (w & EV & IW & OW); [rewrite ?OL, ?ON; lia..|]. rewrite OL, ON in OW.
      destruct (OP (ent "-" 6 LEFT subtract) u n w 45 eq_refl ltac:(auto) eq_refl eq_refl MINUS N) as (b' & BB & X).
      * rewrite SL. cbn [ent d_fn eval2]. now rewrite EV.
      * exists b', w. repeat (split; [assumption|]). intros NC K. exfalso. apply NC. exact (HD _ _ K).
Qed.

(* ------------------------------------------------------------ a whole instruction *)
Definition opcode_bytes (pfx opc : Z) : list Z := (if negb (pfx =? 0) then [pfx] else []) ++ [opc].
(* an opcode, or a prefix and an opcode, and what follows *)
Definition decode_impl (pfx : Z -> bool) (F : Z -> Z -> step) : step := fun s =>
  let '(opc, s) := t_byte s in
  if pfx opc then
    let '(opc2, s) := t_byte s in
    if negb (isOK (d_err (t_in s))) then Val s else F opc opc2 s
  else F 0 opc s.
(* a disassembler that always ends, and takes at least one byte, and at most [n] *)
Definition takes (d : disasm) (impl : step) (n : nat) : Prop := forall mem addr size, Forall byte mem -> mem <> [] ->
  exists s bs, impl (mkDst (M_Insn.mkD (new_insn addr) mem OK) [] (mkB [] (size - 1) OK (Some (da_uppercase d)))) = Val s /\
    mem = bs ++ d_mem (t_in s) /\ bs <> [] /\ (length bs <= n)%nat /\ d_insn (t_in s) = canon addr bs.
Section Decode.
Variables (d : disasm) (pfx : Z -> bool) (F C : Z -> Z -> step) (R : Z -> Z -> rel) (n : Z -> Z -> nat) (N : nat).
Hypothesis P0 : pfx 0 = false.
Hypothesis START : forall p o addr mem s, (p = 0 \/ pfx p = true) -> byte p -> byte o -> within addr mem 2 s -> F p o s = C p o (t_seterr OK s).
Hypothesis GOOD : forall p o, (p = 0 \/ pfx p = true) -> byte p -> byte o -> good (n p o) (R p o) (C p o).
Hypothesis LEN : forall p o, (p = 0 \/ pfx p = true) -> byte p -> byte o -> (length (opcode_bytes p o) + n p o <= N)%nat.
Hypothesis N64 : (N <= 64)%nat.
Let start (mem : list Z) (addr size : Z) : M_Dis.dstate :=
  mkDst (M_Insn.mkD (new_insn addr) mem OK) [] (mkB [] (size - 1) OK (Some (da_uppercase d))).
Lemma byte0 : byte 0.
Proof. unfold byte. lia. Qed.
Lemma decode_total mem addr size : Forall byte mem -> exists r, dis_decode d (decode_impl pfx F) mem addr size = Val r.
Proof.
  intros FM. unfold dis_decode. destruct (negb _); [eauto|].
  fold (start mem addr size). unfold decode_impl.
  assert (B0 : bytes_in (start mem addr size)) by exact FM.
  assert (W0 : within addr mem 0 (start mem addr size)).
  { split; [exact FM|]. exists []. unfold start. rewrite canon_new. cbn. auto. }
  destruct (t_byte (start mem addr size)) as [opc s1] eqn:R1. destruct (bytes_kept _ _ _ R1 B0) as (B1 & O1 & _).
  apply (within_byte _ _ _ _ _ _ W0) in R1; [|lia].
  destruct (pfx opc) eqn:IP.
  - destruct (t_byte s1) as [opc2 s2] eqn:R2. destruct (bytes_kept _ _ _ R2 B1) as (B2 & O2 & _).
    apply (within_byte _ _ _ _ _ _ R1) in R2; [|lia].
    destruct (negb _); [cbn; eauto|]. rewrite (START _ _ _ _ _ (or_intror IP) O1 O2 R2).
    destruct (g_total _ _ _ (GOOD opc opc2 (or_intror IP) O1 O2) (t_seterr OK s2) B2) as (s3 & ->). cbn. eauto.
  - rewrite (START _ _ _ _ _ (or_introl eq_refl) byte0 O1 (within_le _ _ 1 2 _ (le_S 1 1 (le_n 1)) R1)). destruct (g_total _ _ _ (GOOD 0 opc (or_introl eq_refl) byte0 O1) (t_seterr OK s1) B1) as (s3 & ->). cbn. eauto.
Qed.
Lemma decode_within mem addr size r : Forall byte mem -> dis_decode d (decode_impl pfx F) mem addr size = Val r ->
  exists m, mem = i_code (r_insn r) ++ m /\ (length (i_code (r_insn r)) <= N)%nat.
Proof.
  intros FM. unfold dis_decode. destruct (negb _).
  { injection 1 as <-. exists mem. cbn. split; [reflexivity|lia]. }
  fold (start mem addr size).
  assert (FIN : forall s, within addr mem N s -> exists m, mem = i_code (d_insn (t_in s)) ++ m /\ (length (i_code (d_insn (t_in s))) <= N)%nat).
  { intros s (_ & bs & A & B & E). exists (d_mem (t_in s)). rewrite E, canon_code. auto. }
  assert (W0 : within addr mem 0 (start mem addr size)).
  { split; [exact FM|]. exists []. unfold start. rewrite canon_new. cbn. auto. }
  destruct (decode_impl pfx F (start mem addr size)) as [s'| | | |] eqn:DI; try discriminate. cbn [bind].
  intros H. assert (E : i_code (r_insn r) = i_code (d_insn (t_in s'))).
  { injection H as <-. cbn [r_insn]. now destruct (isOK _). }
  rewrite E. apply FIN. clear H E r FIN.
  unfold decode_impl in DI.
  assert (B0 : bytes_in (start mem addr size)) by exact FM.
  destruct (t_byte (start mem addr size)) as [opc s1] eqn:R1. destruct (bytes_kept _ _ _ R1 B0) as (B1 & O1 & _).
  apply (within_byte _ _ _ _ _ _ W0) in R1; [|lia].
  assert (Y : forall o b, opcode_bytes 0 o = b -> b = [o]) by (intros ? ? <-; reflexivity).
  destruct (pfx opc) eqn:IP.
  - destruct (t_byte s1) as [opc2 s2] eqn:R2. destruct (bytes_kept _ _ _ R2 B1) as (B2 & O2 & _).
    apply (within_byte _ _ _ _ _ _ R1) in R2; [|lia].
    assert (NZ : opc <> 0) by congruence. apply Z.eqb_neq in NZ.
    pose proof (LEN opc opc2 (or_intror IP) O1 O2) as L. unfold opcode_bytes in L. rewrite NZ in L. cbn [negb app length] in L.
    destruct (negb _); [injection DI as <-; eapply within_le; [|exact R2]; lia|].
    rewrite (START _ _ _ _ _ (or_intror IP) O1 O2 R2) in DI. eapply within_le; [|eapply (g_within _ _ _ (GOOD opc opc2 (or_intror IP) O1 O2)); [|exact (Nat.le_trans _ _ _ L N64)|exact DI]].
    + exact L.
    + exact R2.
  - pose proof (LEN 0 opc (or_introl eq_refl) byte0 O1) as L. cbn [opcode_bytes app length] in L.
    rewrite (START _ _ _ _ _ (or_introl eq_refl) byte0 O1 (within_le _ _ 1 2 _ (le_S 1 1 (le_n 1)) R1)) in DI. eapply within_le; [|eapply (g_within _ _ _ (GOOD 0 opc (or_introl eq_refl) byte0 O1)); [|exact (Nat.le_trans _ _ _ L N64)|exact DI]].
    + exact L.
    + exact R1.
Qed.
Lemma decode_takes : takes d (decode_impl pfx F) N.
Proof.
  intros mem addr size FM NE. fold (start mem addr size).
  assert (B0 : bytes_in (start mem addr size)) by exact FM.
  assert (W0 : within addr mem 0 (start mem addr size)).
  { split; [exact FM|]. exists []. unfold start. rewrite canon_new. cbn. auto. }
  assert (FIN : forall s, within addr mem N s -> (left_of s < left_of (start mem addr size))%nat -> exists bs,
    mem = bs ++ d_mem (t_in s) /\ bs <> [] /\ (length bs <= N)%nat /\ d_insn (t_in s) = canon addr bs).
  { intros s (_ & bs & A & B & E) L. exists bs. repeat split; auto. intros ->. cbn [app] in A. unfold left_of, start in L. cbn in L. rewrite A in L. lia. }
  enough (exists s, decode_impl pfx F (start mem addr size) = Val s /\ within addr mem N s /\ (left_of s < left_of (start mem addr size))%nat) as (s & E & W & L).
  { destruct (FIN s W L) as (bs & Q). exists s, bs. auto. }
  unfold decode_impl.
  destruct (t_byte (start mem addr size)) as [opc s1] eqn:R1. destruct (bytes_kept _ _ _ R1 B0) as (B1 & O1 & _).
  pose proof (proj2 (left_byte _ _ _ R1) NE) as L1.
  apply (within_byte _ _ _ _ _ _ W0) in R1; [|lia].
  destruct (pfx opc) eqn:IP.
  - destruct (t_byte s1) as [opc2 s2] eqn:R2. destruct (bytes_kept _ _ _ R2 B1) as (B2 & O2 & _).
    pose proof (proj1 (left_byte _ _ _ R2)) as L2.
    apply (within_byte _ _ _ _ _ _ R1) in R2; [|lia].
    assert (NZ : opc <> 0) by congruence. apply Z.eqb_neq in NZ.
    pose proof (LEN opc opc2 (or_intror IP) O1 O2) as L. unfold opcode_bytes in L. rewrite NZ in L. cbn [negb app length] in L.
    destruct (negb _); [exists s2; split; [reflexivity|]; split; [eapply within_le; [|exact R2]; lia|lia]|].
    rewrite (START _ _ _ _ _ (or_intror IP) O1 O2 R2).
    destruct (g_total _ _ _ (GOOD opc opc2 (or_intror IP) O1 O2) (t_seterr OK s2) B2) as (s3 & H). exists s3. split; [exact H|]. split.
    + eapply within_le; [exact L|]. eapply (g_within _ _ _ (GOOD opc opc2 (or_intror IP) O1 O2)); [|exact (Nat.le_trans _ _ _ L N64)|exact H]. exact R2.
    + pose proof (g_left _ _ _ (GOOD opc opc2 (or_intror IP) O1 O2) (t_seterr OK s2) s3 B2 H) as Q. change (left_of (t_seterr OK s2)) with (left_of s2) in Q. lia.
  - pose proof (LEN 0 opc (or_introl eq_refl) byte0 O1) as L. cbn [opcode_bytes app length] in L.
    rewrite (START _ _ _ _ _ (or_introl eq_refl) byte0 O1 (within_le _ _ 1 2 _ (le_S 1 1 (le_n 1)) R1)).
    destruct (g_total _ _ _ (GOOD 0 opc (or_introl eq_refl) byte0 O1) (t_seterr OK s1) B1) as (s3 & H). exists s3. split; [exact H|]. split.
    + eapply within_le; [exact L|]. eapply (g_within _ _ _ (GOOD 0 opc (or_introl eq_refl) byte0 O1)); [|exact (Nat.le_trans _ _ _ L N64)|exact H]. exact R1.
    + pose proof (g_left _ _ _ (GOOD 0 opc (or_introl eq_refl) byte0 O1) (t_seterr OK s1) s3 B1 H) as Q. change (left_of (t_seterr OK s1)) with (left_of s1) in Q. lia.
Qed.
Lemma decode_accepts mem addr size r : Forall byte mem -> mem <> [] -> dis_decode d (decode_impl pfx F) mem addr size = Val r -> i_err (r_insn r) = OK ->
  checkAddr (da_aw d) addr false = OK /\
  exists p o nb m, (p = 0 \/ pfx p = true) /\ byte p /\ byte o /\ mem = opcode_bytes p o ++ nb ++ m /\
    (length (opcode_bytes p o ++ nb) <= N)%nat /\
    r_insn r = canon addr (opcode_bytes p o ++ nb) /\
    R p o (mkH (Some (da_uppercase d)) addr (opcode_bytes p o) []) (r_operands r) nb (r_name r) /\
    forall m', Forall byte m' -> dis_decode d (decode_impl pfx F) (opcode_bytes p o ++ nb ++ m') addr size = Val r.
Proof.
  intros FM NE H E. unfold dis_decode in *. destruct (isOK (checkAddr (da_aw d) addr false)) eqn:CA; cbn [negb] in *.
  2:{ injection H as <-. cbn in E. rewrite E in CA. discriminate. }
  split; [now apply isOK_e|]. fold (start mem addr size) in H.
  destruct (decode_impl pfx F (start mem addr size)) as [s'| | | |] eqn:DI; try discriminate. cbn [bind] in H.
  assert (SO : s_ok s').
  { injection H as <-. cbn [r_insn] in E. change (i_err (i_seterr (d_err (t_in s')) (d_insn (t_in s')))) with (d_err (t_in s')) in E.
    destruct (isOK (d_err (t_in s'))) eqn:X.
    - apply isOK_e in X. split; [exact X|exact E].
    - cbn [i_err i_seterr] in E. rewrite E in X. discriminate. }
  set (out := mkB [] (size - 1) OK (Some (da_uppercase d))) in *.
  assert (FINAL : forall p o mem0, (p = 0 \/ pfx p = true) -> byte p -> byte o -> Forall byte mem0 -> mem = opcode_bytes p o ++ mem0 ->
     F p o (at_ addr (opcode_bytes p o) mem0 [] out) = Val s' ->
     (forall m0, decode_impl pfx F (start (opcode_bytes p o ++ m0) addr size) = F p o (at_ addr (opcode_bytes p o) m0 [] out)) ->
     exists nb m, mem = opcode_bytes p o ++ nb ++ m /\ (length (opcode_bytes p o ++ nb) <= N)%nat /\
       r_insn r = canon addr (opcode_bytes p o ++ nb) /\
       R p o (mkH (Some (da_uppercase d)) addr (opcode_bytes p o) []) (r_operands r) nb (r_name r) /\
       forall m', Forall byte m' -> bind (decode_impl pfx F (start (opcode_bytes p o ++ nb ++ m') addr size)) (fun s : M_Dis.dstate =>
          let i := i_seterr (d_err (t_in s)) (d_insn (t_in s)) in
          let i0 := if isOK (i_err i) then i_seterr (b_err (t_out s)) i else i in
          Val (mkDec i0 (t_name s) (b_txt (t_out s)))) = Val r).
  { intros p o mem0 PP BP BO FM0 EM D ALL. pose proof (LEN p o PP BP BO) as L.
    assert (W2 : forall m0, Forall byte m0 -> within addr (opcode_bytes p o ++ m0) 2 (at_ addr (opcode_bytes p o) m0 [] out)).
    { intros m0 F0. split.
      - apply Forall_app. split; [|exact F0]. unfold opcode_bytes. destruct (negb _); cbn [app]; repeat (constructor; auto).
      - exists (opcode_bytes p o). repeat split. unfold opcode_bytes. destruct (negb _); cbn; lia. }
    rewrite (START _ _ _ _ _ PP BP BO (W2 _ FM0)) in D.
    change (t_seterr OK (at_ addr (opcode_bytes p o) mem0 [] out)) with (at_ addr (opcode_bytes p o) mem0 [] out) in D.
    destruct (g_rel _ _ _ (GOOD p o PP BP BO) addr (opcode_bytes p o) mem0 [] out s' ltac:(lia) FM0 D SO) as (t & nb & m & nm' & EM0 & LN & ES & _ & Q).
    exists nb, m. split; [now rewrite EM, EM0|]. split; [rewrite app_length; lia|].
    assert (RI : r = mkDec (canon addr (opcode_bytes p o ++ nb)) nm' t).
    { injection H as <-. subst s'. reflexivity. }
    split; [now rewrite RI|]. split; [rewrite RI; exact Q|]. intros m' FM'.
    rewrite ALL. rewrite (START _ _ _ _ _ PP BP BO (W2 (nb ++ m') ltac:(apply Forall_app; split; [rewrite EM0 in FM0; now apply Forall_app in FM0|exact FM']))). change (t_seterr OK (at_ addr (opcode_bytes p o) (nb ++ m') [] out)) with (setmem (nb ++ m') (at_ addr (opcode_bytes p o) mem0 [] out)).
    destruct (g_frame _ _ _ (GOOD p o PP BP BO) _ _ D (proj1 SO)) as (nb' & EM' & FR).
    rewrite ES in EM'. cbn [at_ t_in d_mem] in EM'. rewrite EM0 in EM'. apply app_inv_tail in EM'. subst nb'.
    rewrite (FR m'). cbn [bind]. rewrite RI, ES. reflexivity. }
  destruct mem as [|c0 mem]; [congruence|]. inversion FM as [|? ? C0 FM0]; subst.
  assert (B1 : forall m0, t_byte (start (c0 :: m0) addr size) = (c0, at_ addr [c0] m0 [] out)).
  { intros m0. unfold start. rewrite canon_new. fold out. fold (at_ addr [] (c0 :: m0) [] out). apply t_byte_at; [exact C0|cbn; lia]. }
  unfold decode_impl in DI. rewrite B1 in DI. destruct (pfx c0) eqn:IP.
  - destruct mem as [|c1 mem].
    { exfalso. destruct (t_byte_nil addr [c0] [] out) as (s1 & X & NN). rewrite X in DI.
      destruct (isOK (d_err (t_in s1))) eqn:Y; [apply isOK_e in Y; congruence|]. cbn [negb] in DI. injection DI as <-.
      destruct SO as (SO & _). rewrite SO in Y. discriminate. }
    inversion FM0 as [|? ? C1 FM1]; subst.
    assert (NZ : c0 <> 0) by congruence. apply Z.eqb_neq in NZ.
    assert (OB : opcode_bytes c0 c1 = [c0; c1]) by (unfold opcode_bytes; now rewrite NZ).
    assert (B2 : forall m0, t_byte (at_ addr [c0] (c1 :: m0) [] out) = (c1, at_ addr [c0; c1] m0 [] out)).
    { intros m0. apply t_byte_at; [exact C1|cbn; lia]. }
    rewrite B2 in DI. cbn [at_ t_in d_err] in DI. change (isOK OK) with true in DI. cbn [negb] in DI.
    fold (at_ addr [c0; c1] mem [] out) in DI. rewrite <- OB in DI.
    destruct (FINAL c0 c1 mem (or_intror IP) C0 C1 FM1 ltac:(now rewrite OB) DI) as (nb & m & X).
    { intros m0. rewrite OB. cbn [app]. unfold decode_impl. rewrite B1, IP, B2. reflexivity. }
    exists c0, c1, nb, m. split; [now right|]. split; [exact C0|]. split; [exact C1|]. exact X.
  - change [c0] with (opcode_bytes 0 c0) in DI.
    destruct (FINAL 0 c0 mem (or_introl eq_refl) byte0 C0 FM0 eq_refl DI) as (nb & m & X).
    { intros m0. change (opcode_bytes 0 c0) with [c0]. cbn [app]. unfold decode_impl. rewrite B1, IP. reflexivity. }
    exists 0, c0, nb, m. split; [now left|]. split; [exact byte0|]. split; [exact C0|]. exact X.
Qed.
End Decode.

(* ------------------------------------------------------------ emitting *)
Lemma set_at_app n x (l m : list Z) : (n < length l)%nat -> set_at n x (l ++ m) = set_at n x l ++ m.
Proof.
  revert n. induction l as [|y l IH]; intros [|n] L; cbn [length] in L; try lia; [reflexivity|]. cbn [app set_at]. now rewrite IH by lia.
Qed.
Lemma set_at_end (l m : list Z) x y : set_at (length l) x (l ++ y :: m) = l ++ x :: m.
Proof. induction l as [|z l IH]; [reflexivity|]. cbn [length app set_at]. now rewrite IH. Qed.
Lemma emit_over x pos addr bs : byte x -> 0 <= pos < Z.of_nat (length bs) -> (length bs <= 64)%nat ->
  snd (emitByte_at x pos (canon addr bs)) = canon addr (set_at (Z.to_nat pos) x bs).
Proof.
  intros X P L. unfold canon at 1. rewrite emit_pos; [|exact X|lia|rewrite app_length, repeat_length; lia|lia].
  rewrite set_at_app by lia. unfold canon. rewrite set_at_len. f_equal. lia.
Qed.
Lemma emit_gap x k addr bs : byte x -> (length bs + k < 64)%nat ->
  snd (emitByte_at x (Z.of_nat (length bs + k)) (canon addr bs)) = canon addr (bs ++ repeat 0 k ++ [x]).
Proof.
  intros X L. unfold canon at 1. rewrite emit_pos; [|exact X|lia|rewrite app_length, repeat_length; lia|lia].
  rewrite Nat2Z.id. unfold canon.
  replace (64 - length bs)%nat with (k + S (63 - length bs - k))%nat by lia. rewrite repeat_app. cbn [repeat].
  rewrite app_assoc. replace (length bs + k)%nat with (length (bs ++ repeat 0 k)) by (rewrite app_length, repeat_length; lia).
  rewrite set_at_end. rewrite !app_length, repeat_length. cbn [length]. f_equal; [lia|].
  rewrite <- !app_assoc. cbn [app]. do 4 f_equal. lia.
Qed.
Lemma emit_be hi lo pos i : byte hi -> byte lo ->
  snd (emitUint16Be_at (256 * hi + lo) pos i) = snd (emitByte_at lo (pos + 1) (snd (emitByte_at hi pos i))).
Proof.
  intros X Y. unfold emitUint16Be_at.
  assert (E1 : forall i p, emitByte_at (Z.shiftr (256 * hi + lo) 0) p i = emitByte_at lo p i).
  { intros j p. unfold emitByte_at. rewrite Z.shiftr_0_r. change (2^8) with 256.
    replace ((256 * hi + lo) mod 256) with (lo mod 256); [reflexivity|]. rewrite Z.add_comm, (Z.mul_comm 256), Z_mod_plus_full. reflexivity. }
  assert (E2 : Z.shiftr (256 * hi + lo) 8 = hi).
  { rewrite Z.shiftr_div_pow2 by lia. change (2^8) with 256. rewrite Z.add_comm, (Z.mul_comm 256), Z_div_plus by lia.
    unfold byte in Y. rewrite Z.div_small by lia. lia. }
  rewrite E2, Z.add_0_r. destruct (emitByte_at hi pos i) as [e j]. cbn [snd]. now rewrite E1.
Qed.
(* the operands' bytes [nb] of an instruction, before the [base] bytes in front of them *)
Definition part (addr : Z) (base : nat) (nb : list Z) : insn :=
  match nb with [] => canon addr [] | _ => canon addr (repeat 0 base ++ nb) end.
Definition part_pos (base : nat) (i : insn) : Z := if i_len i =? 0 then Z.of_nat base else i_len i.
Lemma part_len addr base nb : i_len (part addr base nb) = if (0 <? length nb)%nat then Z.of_nat (base + length nb) else 0.
Proof. destruct nb; [reflexivity|]. unfold part, canon. cbn [i_len]. rewrite app_length, repeat_length. reflexivity. Qed.
Lemma part_at addr base nb : part_pos base (part addr base nb) = Z.of_nat (base + length nb).
Proof.
  unfold part_pos. rewrite part_len. destruct nb; cbn [length Nat.ltb Nat.leb]; [cbn; lia|].
  destruct (Z.eqb_spec (Z.of_nat (base + S (length nb))) 0); lia.
Qed.
Lemma part_byte x addr base nb : byte x -> (base + length nb < 64)%nat ->
  snd (emitByte_at x (Z.of_nat (base + length nb)) (part addr base nb)) = part addr base (nb ++ [x]).
Proof.
  intros X L. destruct nb as [|y nb].
  - cbn [part length app]. rewrite Nat.add_0_r. pose proof (emit_gap x base addr [] X) as E. cbn [length Nat.add] in E.
    rewrite E by (cbn in L; lia). reflexivity.
  - unfold part. cbn [app]. set (l := y :: nb) in *. rewrite (app_comm_cons nb [x] y). fold l.
    pose proof (emit_gap x 0 addr (repeat 0 base ++ l) X) as E. rewrite app_length, repeat_length, Nat.add_0_r in E. rewrite E by lia.
    cbn [repeat app]. now rewrite <- app_assoc.
Qed.
Lemma part_be hi lo addr base nb : byte hi -> byte lo -> (base + length nb < 63)%nat ->
  snd (emitUint16Be_at (256 * hi + lo) (Z.of_nat (base + length nb)) (part addr base nb)) = part addr base (nb ++ [hi; lo]).
Proof.
  intros X Y L. rewrite emit_be by assumption. rewrite part_byte by (auto; lia).
  replace (Z.of_nat (base + length nb) + 1) with (Z.of_nat (base + length (nb ++ [hi]))) by (rewrite app_length; cbn; lia).
  rewrite part_byte by (auto; rewrite app_length; cbn; lia). now rewrite <- app_assoc.
Qed.
Lemma part_done p o addr nb : byte p -> byte o -> (length nb <= 60)%nat ->
  snd (emitByte_at o 0 (part addr 1 nb)) = canon addr (o :: nb) /\
  snd (emitByte_at o 1 (snd (emitByte_at p 0 (part addr 2 nb)))) = canon addr (p :: o :: nb).
Proof.
  intros P O L. destruct nb as [|y nb].
  - cbn [part]. split; [now apply (emit_gap o 0 addr []); cbn; try lia|].
    pose proof (emit_gap p 0 addr [] P) as E. cbn [length Nat.add Z.of_nat repeat app] in E. rewrite E by lia.
    pose proof (emit_gap o 0 addr [p] O) as F. cbn [length Nat.add repeat app] in F. apply F. lia.
  - cbn [length] in L. unfold part. cbn [repeat app]. split.
    + rewrite emit_over; [reflexivity|exact O|cbn; lia|cbn; lia].
    + rewrite (emit_over p); [|exact P|cbn; lia|cbn; lia]. rewrite emit_over; [reflexivity|exact O|cbn; lia|cbn; lia].
Qed.

(* a branch *)
Lemma branch_near aw base target : 1 <= aw <= 31 -> 0 <= target < 2^aw -> - 2^(aw-1) <= target - base < 2^(aw-1) ->
  branchDelta aw base target OK = Some (target - base, OK).
Proof.
  intros W T D. unfold branchDelta. assert (P : 0 < 2^aw <= 2^31) by (split; [apply Z.pow_pos_nonneg; lia|apply Z.pow_le_mono_r; lia]).
  assert (W2 : 2^aw = 2 * 2^(aw-1)). { rewrite <- Z.pow_succ_r by lia. f_equal. lia. }
  set (h := 2^(aw-1)) in *.
  destruct (signExtend_spec (u32 (target - base)) aw ltac:(lia) ltac:(unfold u32; apply Z.mod_pos_bound; lia)) as (d & E & R & M).
  fold h in R. rewrite E.
  assert (d = target - base).
  { apply congr_unique with (h := h); try lia. rewrite <- W2. unfold u32 in M. apply Z.mod_divide in M; [|lia]. destruct M as [k M]. apply Z.mod_divide; [lia|].
    exists (k - (target - base) / 2^32 * 2^(32 - aw)).
    assert (2^32 = 2^aw * 2^(32-aw)) by (rewrite <- Z.pow_add_r by lia; f_equal; lia).
    pose proof (Z.div_mod (target - base) (2^32) ltac:(lia)). clear E. nia. }
  subst d. rewrite checkAddr_false by lia. cbn [andb]. destruct (Z.leb_spec (2^aw) target); [lia|].
  change (setErrorIfAt OK OK) with OK.
  replace ((0 <=? target - base) && (target <? base) || (target - base <? 0) && (base <=? target)) with false by lia. reflexivity.
Qed.
