(** Facts shared by the round trip proofs of the processors: the shapes of printed operands, and
    the line an assembler is given. *)
From Coq Require Import String ZArith List Bool Lia ZifyBool.
From Verif Require Import M_Char M_Error M_Value M_Text M_StrBuffer M_Format M_Number M_Insn M_Config M_Operators
  M_Parsers M_Expr M_Directive M_Table M_Asm M_Dis S_Value S_Number S_Expr S_ExprTree S_Table P_StrBuffer P_Number P_NumberRead
  P_ExprRead P_ExprTree P_ExprCase P_Table P_Insn P_Value P_AsmText.
Import ListNotations.
Open Scope string_scope.
Open Scope list_scope.
Local Open Scope Z_scope.

Definition text_eqb (a b : text) : bool := if list_eq_dec Z.eq_dec a b then true else false.
Lemma text_eqb_eq a b : text_eqb a b = true -> a = b.
Proof. unfold text_eqb. now destruct (list_eq_dec Z.eq_dec a b). Qed.

(* ------------------------------------------------------------ shapes *)
(* the number of an operand: one fixed by the opcode, or that of the bytes that follow *)
Inductive number := N_const (v : Z) | N_byte | N_le.
Definition number_bytes (n : number) (bs : list Z) (v : Z) : Prop :=
  match n with
  | N_const c => bs = [] /\ v = c
  | N_byte => bs = [v] /\ byte v
  | N_le => exists lo hi, bs = [lo; hi] /\ byte lo /\ byte hi /\ v = lo + 256 * hi
  end.
Inductive shape := Sh_text (w : text) | Sh_num (pre post : text) (n : number).
(* [t] is printed, in the case [k], by an operand of shape [sh] that takes the bytes [bs] *)
Definition printed (np : number_parser) (k : option bool) (sh : shape) (t : text) (bs : list Z) (v : Z) : Prop :=
  match sh with
  | Sh_text w => t = map (conv k) w /\ bs = [] /\ v = 0
  | Sh_num pre post n => exists u, t = map (conv k) pre ++ u ++ map (conv k) post /\ numeral np u v /\ number_bytes n bs v
  end.

(* the state of a disassembler that has read [bs] without error *)
Definition at_ (addr : Z) (bs mem : list Z) (nm : text) (out : sbuf) : M_Dis.dstate :=
  mkDst (M_Insn.mkD (canon addr bs) mem OK) nm out.
Definition s_ok (s : M_Dis.dstate) : Prop := d_err (t_in s) = OK /\ b_err (t_out s) = OK.

Lemma letter_text c b : letter c b = out_text [c] b.
Proof. reflexivity. Qed.
Lemma out_text_app u v b : out_text (u ++ v) b = out_text v (out_text u b).
Proof. unfold out_text. apply fold_left_app. Qed.
Lemma put_text w addr bs mem nm out s' : t_put (out_text w) (at_ addr bs mem nm out) = s' -> s_ok s' ->
  b_err out = OK /\ s' = at_ addr bs mem nm (appb out (map (conv (b_case out)) w)).
Proof.
  intros <- (_ & E). cbn [t_put t_set_out t_out at_] in *. split; [eapply out_text_err, E|].
  unfold t_put, t_set_out, at_. cbn [t_in t_name t_out]. now rewrite out_text_ok.
Qed.
Lemma t_byte_at addr bs x mem nm out : byte x -> (length bs < 64)%nat ->
  t_byte (at_ addr bs (x :: mem) nm out) = (x, at_ addr (bs ++ [x]) mem nm out).
Proof. intros X L. unfold t_byte, at_, t_set_in. cbn [t_in t_name t_out]. now rewrite canon_read. Qed.
Lemma t_word_at addr bs lo hi mem nm out : byte lo -> byte hi -> (length bs < 63)%nat ->
  t_uint16Le (at_ addr bs (lo :: hi :: mem) nm out) = (lo + 256 * hi, at_ addr (bs ++ [lo; hi]) mem nm out).
Proof.
  intros X Y L. unfold t_uint16Le, at_, t_set_in, readUint16Le. cbn [t_in t_name t_out].
  rewrite canon_read by (auto; lia). rewrite canon_read by (auto; rewrite app_length; cbn; lia).
  rewrite <- app_assoc. cbn [app]. now rewrite word_le.
Qed.
Lemma t_byte_nil addr bs nm out : exists s, t_byte (at_ addr bs [] nm out) = (0, s) /\ d_err (t_in s) <> OK.
Proof. eexists. split; [reflexivity|]. cbn. discriminate. Qed.
Lemma t_word_short addr bs mem nm out : (length mem < 2)%nat ->
  d_err (t_in (snd (t_uint16Le (at_ addr bs mem nm out)))) <> OK.
Proof.
  intros L. destruct mem as [|x [|y m]]; [| |cbn in L; lia].
  - cbn. discriminate.
  - unfold t_uint16Le, at_, t_set_in, readUint16Le. cbn [t_in t_name t_out].
    unfold readByte at 1. cbn [d_mem d_insn d_err]. destruct (emitByte x (canon addr bs)) as [e i].
    rewrite no_read. cbn [t_in snd d_err]. destruct (isOK e); cbn; discriminate.
Qed.

(* printing keeps the instruction's error *)
Lemma print_err f s s' : t_print f s = Val s' -> t_in s' = t_in s.
Proof. unfold t_print. destruct (f (t_out s)); cbn [bind]; try discriminate. now injection 1 as <-. Qed.

Lemma hex_at d np v bits relax addr bs mem nm out s' :
  da_symtab d = None -> da_reads d np -> 0 <= v < 2 ^ bits -> 1 <= bits <= 32 ->
  t_print (dis_outHex d v bits relax) (at_ addr bs mem nm out) = Val s' -> s_ok s' ->
  b_err out = OK /\ exists u, s' = at_ addr bs mem nm (appb out u) /\ numeral np u v.
Proof.
  intros S R V B H (_ & E). unfold t_print in H. cbn [t_out at_] in H.
  destruct (dis_outHex d v bits relax out) as [o| | | |] eqn:D; try discriminate. cbn [bind] in H. injection H as <-.
  cbn [t_set_out t_out] in E.
  assert (2 ^ bits <= 2 ^ 32) by (apply Z.pow_le_mono_r; lia).
  destruct (outHex_numeral d np v bits relax out o S R ltac:(lia) B D E) as (E0 & u & A & N).
  split; [exact E0|]. exists u. split; [now subst o|]. now rewrite Z.mod_small in N.
Qed.
Lemma abs_at d np v bits addr bs mem nm out s' :
  da_symtab d = None -> da_reads d np -> da_aw d = bits -> 0 <= v < 2 ^ bits -> 1 <= bits <= 32 ->
  t_print (outAbsAddr d v 0) (at_ addr bs mem nm out) = Val s' -> s_ok s' ->
  b_err out = OK /\ exists u, s' = at_ addr bs mem nm (appb out u) /\ numeral np u v.
Proof.
  intros S R W V B H (_ & E). unfold t_print in H. cbn [t_out at_] in H.
  destruct (outAbsAddr d v 0 out) as [o| | | |] eqn:D; try discriminate. cbn [bind] in H. injection H as <-.
  cbn [t_set_out t_out] in E.
  assert (2 ^ bits <= 2 ^ 32) by (apply Z.pow_le_mono_r; lia).
  pose proof (outAbs_numeral d np v 0 out o S R ltac:(lia)) as X. change (0 =? 0) with true in X. cbv iota in X. rewrite W in X.
  destruct (X B D E) as (E0 & u & A & N).
  split; [exact E0|]. exists u. split; [now subst o|]. now rewrite Z.mod_small in N.
Qed.

(* memory stays bytes, and errors of the output stay *)
Definition bytes_in (s : M_Dis.dstate) : Prop := Forall byte (d_mem (t_in s)).
Lemma bytes_kept s v s' : t_byte s = (v, s') -> bytes_in s -> bytes_in s' /\ byte v /\ t_out s' = t_out s.
Proof.
  unfold t_byte, readByte, bytes_in. destruct (d_mem (t_in s)) as [|c m] eqn:M.
  - injection 1 as <- <-. cbn. unfold byte. intuition lia.
  - destruct (emitByte c _) as [e i]. injection 1 as <- <-. cbn. inversion 1; auto.
Qed.
Lemma word_split s v s' : t_uint16Le s = (v, s') -> exists x y s1, t_byte s = (x, s1) /\ t_byte s1 = (y, s') /\ v = Z.lor (Z.shiftl y 8) x.
Proof.
  unfold t_uint16Le, t_byte, readUint16Le. destruct (readByte (t_in s)) as [x d1] eqn:R1. destruct (readByte d1) as [y d2] eqn:R2.
  injection 1 as <- <-. exists x, y, (t_set_in d1 s). cbn [t_set_in t_in]. rewrite R2. auto.
Qed.
Lemma word_kept s v s' : t_uint16Le s = (v, s') -> bytes_in s -> bytes_in s' /\ 0 <= v < 65536 /\ t_out s' = t_out s.
Proof.
  intros H B. apply word_split in H. destruct H as (x & y & s1 & H1 & H2 & ->).
  destruct (bytes_kept _ _ _ H1 B) as (B1 & X & O1). destruct (bytes_kept _ _ _ H2 B1) as (B2 & Y & O2).
  split; [exact B2|]. split; [rewrite word_le by assumption; unfold byte in *; lia|congruence].
Qed.
Lemma hex_kept d np v bits relax s s' : da_symtab d = None -> da_reads d np -> 0 <= v < 2^32 -> 1 <= bits <= 32 ->
  t_print (dis_outHex d v bits relax) s = Val s' -> t_in s' = t_in s /\ (b_err (t_out s') = OK -> b_err (t_out s) = OK).
Proof.
  intros S R V B H. split; [eapply print_err, H|]. unfold t_print in H.
  destruct (dis_outHex d v bits relax (t_out s)) as [o| | | |] eqn:D; try discriminate. injection H as <-. cbn.
  intros E. now destruct (outHex_numeral d np v bits relax _ o S R V B D E).
Qed.
Lemma abs_kept d np v width s s' : da_symtab d = None -> da_reads d np -> 0 <= v < 2^32 ->
  1 <= (if width =? 0 then da_aw d else width) <= 32 ->
  t_print (outAbsAddr d v width) s = Val s' -> t_in s' = t_in s /\ (b_err (t_out s') = OK -> b_err (t_out s) = OK).
Proof.
  intros S R V B H. split; [eapply print_err, H|]. unfold t_print in H.
  destruct (outAbsAddr d v width (t_out s)) as [o| | | |] eqn:D; try discriminate. injection H as <-. cbn.
  intros E. now destruct (outAbs_numeral d np v width _ o S R V B D E).
Qed.
Lemma put_kept w s : t_in (t_put (out_text w) s) = t_in s /\ (b_err (t_out (t_put (out_text w) s)) = OK -> b_err (t_out s) = OK).
Proof. split; [reflexivity|]. cbn. apply out_text_err. Qed.
Lemma comma_text b : b_err (comma b) = OK -> b_err b = OK /\ comma b = appb b [44; 32].
Proof.
  unfold comma. intros H. pose proof (rletter_err _ _ H) as H1. split; [eapply rletter_err, H1|].
  rewrite (rletter_ok _ _ H), (rletter_ok _ _ H1), appb_app. reflexivity.
Qed.

(* errors stay *)
Lemma put_in f s : t_in (t_put f s) = t_in s.
Proof. reflexivity. Qed.
Lemma seterr_stays e x : e <> OK -> setErrorIfAt e x = e.
Proof. intros H. unfold setErrorIfAt. now destruct e. Qed.
Lemma byte_err s v s' : t_byte s = (v, s') -> d_err (t_in s) <> OK -> d_err (t_in s') = d_err (t_in s).
Proof.
  unfold t_byte, readByte. destruct (d_mem (t_in s)) as [|c m].
  - injection 1 as <- <-. intros N. cbn. now apply seterr_stays.
  - destruct (emitByte c _) as [e i]. injection 1 as <- <-. intros N. cbn. destruct (isOK e); [reflexivity|now apply seterr_stays].
Qed.
Lemma word_err s v s' : t_uint16Le s = (v, s') -> d_err (t_in s) <> OK -> d_err (t_in s') = d_err (t_in s).
Proof.
  unfold t_uint16Le, readUint16Le. intros H N.
  destruct (readByte (t_in s)) as [a d1] eqn:R1. destruct (readByte d1) as [b d2] eqn:R2. injection H as <- <-. cbn [t_in t_set_in].
  pose proof (byte_err s a (t_set_in d1 s)) as X. unfold t_byte in X. rewrite R1 in X. specialize (X eq_refl N). cbn [t_set_in t_in] in X.
  pose proof (byte_err (t_set_in d1 s) b (t_set_in d2 s)) as Y. unfold t_byte in Y. cbn [t_set_in t_in] in Y. rewrite R2 in Y.
  specialize (Y eq_refl). cbn [t_set_in t_in] in Y. rewrite X in Y. now apply Y.
Qed.

Lemma print_val d v bits relax s : da_symtab d = None -> exists s', t_print (dis_outHex d v bits relax) s = Val s'.
Proof. intros S. unfold t_print. destruct (outHex_val d v bits relax (t_out s) S) as (o & ->). cbn. eauto. Qed.
Lemma print_abs_val d v width s : da_symtab d = None -> exists s', t_print (outAbsAddr d v width) s = Val s'.
Proof. intros S. unfold t_print. destruct (outAbs_val d v width (t_out s) S) as (o & ->). cbn. eauto. Qed.

(* what follows the bytes read does not matter *)
Definition setmem (m : list Z) (s : M_Dis.dstate) : M_Dis.dstate :=
  mkDst (M_Insn.mkD (d_insn (t_in s)) m (d_err (t_in s))) (t_name s) (t_out s).
Definition frames (f : M_Dis.dstate -> res M_Dis.dstate) : Prop :=
  forall s s', f s = Val s' -> d_err (t_in s') = OK -> exists nb, d_mem (t_in s) = nb ++ d_mem (t_in s') /\
    forall m, f (setmem (nb ++ m) s) = Val (setmem m s').
Lemma frame_pure f : (forall s s', f s = Val s' -> d_mem (t_in s') = d_mem (t_in s)) ->
  (forall s s' m, f s = Val s' -> f (setmem m s) = Val (setmem m s')) -> frames f.
Proof.
  intros A B s s' H _. exists []. split; [cbn; symmetry; now apply A|]. intros m. cbn [app]. now apply B.
Qed.
Lemma frame_put f : frames (fun s => Val (t_put f s)).
Proof. apply frame_pure; [now injection 1 as <-|]. intros s s' m H. now injection H as <-. Qed.
Lemma frame_print f : frames (t_print f).
Proof.
  apply frame_pure; unfold t_print; intros s s'.
  - destruct (f (t_out s)); cbn; try discriminate. now injection 1 as <-.
  - intros m H. cbn [setmem t_out]. destruct (f (t_out s)); cbn in *; try discriminate. now injection H as <-.
Qed.
Definition keeps_err (g : M_Dis.dstate -> res M_Dis.dstate) : Prop :=
  forall s s', g s = Val s' -> d_err (t_in s') = OK -> d_err (t_in s) = OK.
Lemma frame_seq f g : keeps_err g -> frames f -> frames g -> frames (fun s => bind (f s) g).
Proof.
  intros MONO F G s s' H E. destruct (f s) as [s1| | | |] eqn:FS; try discriminate. cbn [bind] in H.
  destruct (G s1 s' H E) as (n2 & M2 & G2). destruct (F s s1 FS (MONO _ _ H E)) as (n1 & M1 & F1).
  exists (n1 ++ n2). split; [rewrite M1, M2; now rewrite app_assoc|]. intros m. rewrite <- app_assoc, F1. cbn [bind]. apply G2.
Qed.
Lemma frame_byte g : (forall v, keeps_err (g v)) -> (forall v, frames (g v)) -> frames (fun s => let '(v, s) := t_byte s in g v s).
Proof.
  intros K F s s' H E. destruct (t_byte s) as [v s1] eqn:B. pose proof (K v _ _ H E) as E1.
  destruct (F v _ _ H E) as (nb & M & G). unfold t_byte, readByte in B.
  destruct (d_mem (t_in s)) as [|c r] eqn:DM.
  - injection B as <- <-. cbn in E1. exfalso. unfold setErrorIfAt in E1. destruct (d_err (t_in s)); discriminate.
  - destruct (emitByte c (d_insn (t_in s))) as [e i] eqn:EM. injection B as <- <-. cbn [t_in t_set_in d_mem d_err] in *.
    exists (c :: nb). split; [now rewrite M|]. intros m. cbn [app]. unfold t_byte, readByte. cbn [setmem t_in d_mem d_insn d_err].
    rewrite EM. cbv beta iota zeta. rewrite <- G. unfold setmem, t_set_in. cbn [t_in t_name t_out d_insn d_err]. reflexivity.
Qed.
Lemma frame_word g : (forall v, keeps_err (g v)) -> (forall v, frames (g v)) -> frames (fun s => let '(v, s) := t_uint16Le s in g v s).
Proof.
  intros K F.
  assert (X : frames (fun s => let '(x, s) := t_byte s in let '(y, s) := t_byte s in g (Z.lor (Z.shiftl y 8) x) s)).
  { apply frame_byte; intros x.
    - intros s s' H E. destruct (t_byte s) as [y s1] eqn:B. pose proof (K _ _ _ H E) as E1.
      destruct (isOK (d_err (t_in s))) eqn:O; [now apply isOK_e|].
      rewrite (byte_err _ _ _ B) in E1; [exact E1|]. intros N. rewrite N in O. discriminate.
    - apply frame_byte; intros; [apply K|apply F]. }
  intros s s' H E.
  assert (EQ : forall s, (let '(v, s1) := t_uint16Le s in g v s1) = (let '(x, s) := t_byte s in let '(y, s) := t_byte s in g (Z.lor (Z.shiftl y 8) x) s)).
  { intros q. destruct (t_uint16Le q) as [v q1] eqn:W. apply word_split in W. destruct W as (x & y & q2 & -> & -> & ->). reflexivity. }
  rewrite EQ in H. destruct (X s s' H E) as (nb & M & G). exists nb. split; [exact M|]. intros m. rewrite EQ. apply G.
Qed.
Lemma keeps_put f : keeps_err (fun s => Val (t_put f s)).
Proof. intros s s' H. injection H as <-. trivial. Qed.
Lemma keeps_print f : keeps_err (t_print f).
Proof. intros s s' H. now rewrite (print_err _ _ _ H). Qed.
Lemma keeps_seq f g : keeps_err f -> keeps_err g -> keeps_err (fun s => bind (f s) g).
Proof. intros F G s s' H E. destruct (f s) as [s1| | | |] eqn:FS; try discriminate. cbn [bind] in H. eapply F; eauto. Qed.

(* ------------------------------------------------------------ the line *)
Definition insn_word (y : symbols) (nm : text) : bool :=
  forallb (fun c => y_insn_letter y c && negb (among (y_insn_end y) c)) nm.
Lemma insn_letters_app y nm z : insn_word y nm = true -> y_insn_letter y (peek z) = false ->
  insn_letters y (nm ++ z) = (nm, z).
Proof.
  intros W P. induction nm as [|c nm IH]; cbn [app].
  - destruct z as [|c z]; [reflexivity|]. cbn [peek] in P. cbn [insn_letters]. now rewrite P.
  - unfold insn_word in *. cbn [forallb] in W. apply andb_true_iff in W. destruct W as [C W]. apply andb_true_iff in C. destruct C as [C D].
    apply negb_true_iff in D. cbn [insn_letters]. now rewrite C, D, (IH W).
Qed.
(* an instruction name which is not a directive *)
Definition plain_name (y : symbols) (specials : list text) (tables : list name_table) (nm : text) : bool :=
  insn_word y nm && negb (is_space (peek nm)) && (Nat.leb 1 (length nm)) && (Nat.leb (length nm) 11) &&
  match linearSearch (fun w => strcasecmp nm w =? 0) specials with None => true | Some _ => false end &&
  match pseudo_search nm tables 0 with Val None => true | _ => false end.

Lemma line_insn a specials tables impl indent nm gap ops addr :
  plain_name (p_symbol (a_pl a)) specials tables nm = true ->
  (forall z, p_line (a_pl a) (nm ++ z) = (false, nm ++ z)) ->
  blanks indent -> blanks gap -> y_insn_letter (p_symbol (a_pl a)) (peek (gap ++ ops)) = false ->
  checkAddr (a_aw a) addr false = OK ->
  asm_encode a specials tables impl (indent ++ nm ++ gap ++ ops) (new_insn addr) =
  bind (impl nm (skipSpaces ops) (new_insn addr)) (fun '(i, scan) => Val (L_insn i scan)).
Proof.
  intros P LN BI BG NG CA. unfold plain_name in P. rewrite !andb_true_iff in P. destruct P as (((((W & H) & L1) & L11) & SS) & PS).
  apply Nat.leb_le in L1. apply Nat.leb_le in L11. apply negb_true_iff in H.
  unfold asm_encode. rewrite skip_blanks by exact BI.
  assert (SK : skipSpaces (nm ++ gap ++ ops) = nm ++ gap ++ ops).
  { destruct nm as [|c nm]; [cbn in L1; lia|]. cbn [app]. apply skip_none. exact H. }
  rewrite SK, LN. unfold readInstruction.
  rewrite insn_letters_app; [|exact W|exact NG].
  destruct nm as [|c nm]; [cbn in L1; lia|].
  unfold insn_name. rewrite firstn_all2 by exact L11.
  destruct (linearSearch _ specials); [discriminate|].
  destruct (pseudo_search (c :: nm) tables 0) as [[?|]| | | |]; try discriminate. cbn [bind].
  rewrite skip_blanks by exact BG. cbn [i_addr new_insn i_err i_seterr]. rewrite CA. reflexivity.
Qed.

(* ------------------------------------------------------------ operand values *)
Lemma unsigned_in v mx mn : 0 <= v <= mx -> mx < 2^32 -> - 2^31 <= mn <= 0 -> overflow (mkV V_UNSIGNED v) mx mn = false.
Proof.
  intros V M N. destruct (overflow (mkV V_UNSIGNED v) mx mn) eqn:O; [|reflexivity].
  apply overflow_ok in O; [|cbn; lia|lia|lia]. cbn [int_of v_type v_bits] in O. lia.
Qed.
Lemma unsigned_get v : 0 <= v < 2^32 -> getUnsigned (mkV V_UNSIGNED v) = v.
Proof. intros V. unfold getUnsigned. cbn [v_bits]. now apply Z.mod_small. Qed.

(* a byte at a position of an instruction *)
Lemma emit_pos x pos addr len bytes : byte x -> 0 <= pos < 64 -> length bytes = 64%nat -> 0 <= len ->
  snd (emitByte_at x pos (mkI addr len bytes OK false)) =
  mkI addr (Z.max len (pos + 1)) (set_at (Z.to_nat pos) x bytes) OK false.
Proof.
  intros X P L N. unfold emitByte_at, MAX_CODE. change (2^8) with 256.
  rewrite (Z.mod_small x) by exact X. rewrite (Z.mod_small pos) by lia.
  destruct (Z.leb_spec 64 pos); [lia|]. rewrite (Z.mod_small (_ + 1)) by lia.
  unfold store_byte. cbn [i_bytes i_len i_addr i_err i_ub]. rewrite L.
  destruct (Z.leb_spec 0 pos); [|lia]. destruct (Z.ltb_spec pos (Z.of_nat 64)); [|lia]. cbn [andb i_len].
  destruct (Z.ltb_spec len (pos + 1)); unfold i_setlen; cbn [snd i_addr i_bytes i_err i_ub]; f_equal; lia.
Qed.
Lemma set_at_len x n l : length (set_at n x l) = length l.
Proof. revert n. induction l as [|y l IH]; intros [|n]; cbn [set_at length]; auto. Qed.
Lemma le_bytes v : 0 <= v < 65536 -> exists lo hi, byte lo /\ byte hi /\ v = lo + 256 * hi.
Proof.
  intros V. exists (v mod 256), (v / 256). unfold byte. pose proof (Z.div_mod v 256). pose proof (Z.mod_pos_bound v 256).
  assert (0 <= v / 256 < 256) by (split; [apply Z.div_pos; lia|apply Z.div_lt_upper_bound; lia]). lia.
Qed.
Lemma emit16_pos lo hi pos addr len bytes : byte lo -> byte hi -> 0 <= pos < 63 -> length bytes = 64%nat -> 0 <= len ->
  snd (emitUint16Le_at (lo + 256 * hi) pos (mkI addr len bytes OK false)) =
  mkI addr (Z.max len (pos + 2)) (set_at (Z.to_nat (pos + 1)) hi (set_at (Z.to_nat pos) lo bytes)) OK false.
Proof.
  intros X Y P L N. unfold emitUint16Le_at.
  assert (E1 : forall i p, emitByte_at (Z.shiftr (lo + 256 * hi) 0) p i = emitByte_at lo p i).
  { intros i p. unfold emitByte_at. rewrite Z.shiftr_0_r. change (2^8) with 256.
    replace ((lo + 256 * hi) mod 256) with (lo mod 256); [reflexivity|]. rewrite (Z.mul_comm 256), Z_mod_plus_full. reflexivity. }
  assert (E2 : Z.shiftr (lo + 256 * hi) 8 = hi).
  { rewrite Z.shiftr_div_pow2 by lia. change (2^8) with 256. rewrite (Z.mul_comm 256), Z_div_plus by lia.
    unfold byte in X. rewrite Z.div_small by lia. lia. }
  rewrite E1, E2, Z.add_0_r.
  pose proof (emit_pos lo pos addr len bytes X ltac:(lia) L N) as Q.
  destruct (emitByte_at lo pos (mkI addr len bytes OK false)) as [e i]. cbn [snd] in Q. subst i.
  rewrite emit_pos; [|exact Y|lia|now rewrite set_at_len|lia]. f_equal. lia.
Qed.

(* the bytes taken so far are the start of the memory, and at most [n] *)
Definition within (addr : Z) (mem : list Z) (n : nat) (s : M_Dis.dstate) : Prop :=
  Forall byte mem /\ exists bs, mem = bs ++ d_mem (t_in s) /\ (length bs <= n)%nat /\ d_insn (t_in s) = canon addr bs.
Lemma within_eq addr mem n s s' : d_mem (t_in s') = d_mem (t_in s) -> d_insn (t_in s') = d_insn (t_in s) -> within addr mem n s -> within addr mem n s'.
Proof. intros A B (F & bs & H). split; [exact F|]. exists bs. now rewrite A, B. Qed.
Lemma within_le addr mem n n' s : (n <= n')%nat -> within addr mem n s -> within addr mem n' s.
Proof. intros L (F & bs & A & B & C). split; [exact F|]. exists bs. repeat split; auto. lia. Qed.
Lemma within_byte addr mem n s v s' : within addr mem n s -> (n < 64)%nat -> t_byte s = (v, s') -> within addr mem (n + 1) s'.
Proof.
  intros (F & bs & A & B & C) L T. unfold t_byte, readByte in T. destruct (d_mem (t_in s)) as [|c m] eqn:M.
  - injection T as <- <-. split; [exact F|]. exists bs. cbn. repeat split; auto. lia.
  - rewrite C in T. assert (byte c) by (rewrite A in F; rewrite Forall_forall in F; apply F, in_elt).
    rewrite canon_emit in T by (assumption || lia). injection T as <- <-. split; [exact F|]. exists (bs ++ [c]). cbn.
    rewrite <- app_assoc. cbn [app]. rewrite app_length. cbn. repeat split; auto. lia.
Qed.
Lemma within_word addr mem n s v s' : within addr mem n s -> (n < 63)%nat -> t_uint16Le s = (v, s') -> within addr mem (n + 2) s'.
Proof.
  intros W L T. unfold t_uint16Le, readUint16Le in T.
  destruct (readByte (t_in s)) as [x d1] eqn:R1. destruct (readByte d1) as [y d2] eqn:R2. injection T as <- <-.
  assert (B1 : t_byte s = (x, t_set_in d1 s)) by (unfold t_byte; now rewrite R1).
  assert (B2 : t_byte (t_set_in d1 s) = (y, t_set_in d2 (t_set_in d1 s))) by (unfold t_byte; cbn [t_in t_set_in]; now rewrite R2).
  apply (within_byte _ _ _ _ _ _ W) in B1; [|lia]. apply (within_byte _ _ _ _ _ _ B1) in B2; [|lia].
  replace (n + 2)%nat with (n + 1 + 1)%nat by lia. exact B2.
Qed.
Lemma within_print f addr mem n s s' : within addr mem n s -> t_print f s = Val s' -> within addr mem n s'.
Proof. intros W. unfold t_print. destruct (f (t_out s)); cbn; try discriminate. injection 1 as <-. exact W. Qed.
