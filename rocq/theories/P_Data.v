(** Proofs about data directives. *)
From Coq Require Import ZArith Lia ZifyBool String List Bool.
From Verif Require Import M_Char M_Error M_Value M_Text M_Number M_Insn M_Config M_Operators M_Parsers M_Expr M_Directive S_Value S_Insn S_Expr S_ExprTree S_Directive P_Value P_Operators P_Insn P_Config P_Expr P_ExprRead P_ExprOperand P_ExprTree P_ExprCase P_Directive.
Import ListNotations.
Open Scope list_scope.
Local Open Scope Z_scope.

(* ------------------------------------------------------------ bytes *)
(* all of [bs] has been emitted, as far as it fits, and the error says whether it did *)
Definition fill (bs : list Z) : err := if Z.of_nat (length bs) <=? 64 then OK else NO_MEMORY.
Definition holds (adr : Z) (bs : list Z) (i : insn) (e : err) : Prop :=
  sound i /\ i_code i = firstn 64 bs /\ i_addr i = adr /\ e = fill bs /\ i_err i = fill bs.
Lemma code_length i : sound i -> Z.of_nat (length (i_code i)) = i_len i.
Proof. intros (L & _ & R). unfold i_code. rewrite firstn_length. lia. Qed.
Lemma emit_error s b v i e i' : emit s b v i = (e, i') -> e = OK \/ e = i_err i'.
Proof.
  assert (forall v p i e i', emitByte_at v p i = (e, i') -> e = OK \/ e = i_err i') as B.
  { clear. intros v p i e i'. unfold emitByte_at. destruct (MAX_CODE <=? _); intros H; injection H as <- <-; [now right|now left]. }
  assert (forall d p i e i', emitUint16Be_at d p i = (e, i') -> e = OK \/ e = i_err i') as WB by (clear -B; intros d p i e i'; unfold emitUint16Be_at; destruct (emitByte_at _ _ i); apply B).
  assert (forall d p i e i', emitUint16Le_at d p i = (e, i') -> e = OK \/ e = i_err i') as WL by (clear -B; intros d p i e i'; unfold emitUint16Le_at; destruct (emitByte_at _ _ i); apply B).
  assert (forall d p i e i', emitUint32Be_at d p i = (e, i') -> e = OK \/ e = i_err i') as LB by (clear -WB; intros d p i e i'; unfold emitUint32Be_at; destruct (emitUint16Be_at _ _ i); apply WB).
  assert (forall d p i e i', emitUint32Le_at d p i = (e, i') -> e = OK \/ e = i_err i') as LL by (clear -WL; intros d p i e i'; unfold emitUint32Le_at; destruct (emitUint16Le_at _ _ i); apply WL).
  assert (forall d p i e i', emitUint64Be_at d p i = (e, i') -> e = OK \/ e = i_err i') as QB by (clear -LB; intros d p i e i'; unfold emitUint64Be_at; destruct (emitUint32Be_at _ _ i); apply LB).
  assert (forall d p i e i', emitUint64Le_at d p i = (e, i') -> e = OK \/ e = i_err i') as QL by (clear -LL; intros d p i e i'; unfold emitUint64Le_at; destruct (emitUint32Le_at _ _ i); apply LL).
  clear -B WB WL LB LL QB QL. intros H. rewrite emit_emit_at in H. destruct s, b; cbn [emit_at] in H; [apply B in H|apply B in H|apply WB in H|apply WL in H|apply LB in H|apply LL in H|apply QB in H|apply QL in H]; exact H.
Qed.
Lemma holds_emit adr bs i e s b v : holds adr bs i e ->
  exists ee i', emit s b v i = (ee, i') /\ holds adr (bs ++ data_bytes b s v) i' (setErrorIfAt e ee) /\ (e = OK -> setErrorIfAt OK ee = setErrorIfAt e ee).
Proof.
  intros (S & C & A & E & R). destruct (emit s b v i) as [ee i'] eqn:H. exists ee, i'. split; [reflexivity|].
  destruct (C25_append s b v i ee i' S H) as (S' & (_ & _ & EO & ER & AD) & C').
  pose proof (emit_error s b v i ee i' H) as EE. pose proof (code_length i S) as L. rewrite C in L. rewrite firstn_length in L.
  assert (0 < Z.of_nat (length (data_bytes b s v))) as NB. { rewrite data_bytes_length. destruct s; cbn; lia. }
  assert (i_err i' = fill (bs ++ data_bytes b s v)) as F.
  { rewrite ER, R. unfold fill. rewrite app_length, Nat2Z.inj_add.
    destruct (Z.leb_spec (Z.of_nat (length bs)) 64).
    - replace (i_len i) with (Z.of_nat (length bs)) by lia. destruct (_ <=? 64); reflexivity.
    - replace (i_len i) with 64 by lia. replace (64 + _ <=? 64) with false by lia. replace (_ + _ <=? 64) with false by lia. reflexivity. }
  split; [|now intros ->]. split; [exact S'|]. split; [|split; [congruence|split; [|exact F]]].
  - rewrite C', C. destruct (Nat.le_gt_cases (length bs) 64).
    + now rewrite firstn_all2 with (l := bs) by lia.
    + rewrite !firstn_app, firstn_firstn, firstn_length. replace (64 - Nat.min 64 (length bs))%nat with 0%nat by lia. replace (64 - length bs)%nat with 0%nat by lia. reflexivity.
  - rewrite <- F. subst e. rewrite <- R. destruct EE as [-> |EE].
    + pose proof (proj1 EO eq_refl). rewrite ER. replace (_ <=? 64) with true by lia. unfold setErrorIfAt. now rewrite andb_false_r.
    + rewrite EE, F, R. unfold fill. rewrite app_length, Nat2Z.inj_add.
      destruct (Z.leb_spec (Z.of_nat (length bs)) 64); destruct (Z.leb_spec (Z.of_nat (length bs) + Z.of_nat (length (data_bytes b s v))) 64); try reflexivity. lia.
Qed.
Lemma le_bytes_word v : le_bytes 2 (v mod 2^16) = le_bytes 2 v. Proof. exact (le_bytes_mod 2 2 v ltac:(lia)). Qed.
Lemma data_mod big s v m : (Z.to_nat (nbytes s) <= m)%nat -> data_bytes big s (v mod 256 ^ Z.of_nat m) = data_bytes big s v.
Proof. intros H. unfold data_bytes. now rewrite le_bytes_mod by auto. Qed.
Lemma mod32_16 v : (v mod 2^32) mod 2^16 = v mod 2^16. Proof. exact (mod_mod_w v (2^16) (2^16) ltac:(lia) ltac:(lia)). Qed.
Lemma mod32_8 v : (v mod 2^32) mod 2^8 = v mod 2^8. Proof. exact (mod_mod_w v (2^8) (2^24) ltac:(lia) ltac:(lia)). Qed.
Definition const_bytes (big : bool) (ty : dtype) (n : Z) := item_bytes big 1 ty (IConst n).
Lemma setIf_idem e ee : setErrorIfAt e (setErrorIfAt OK ee) = setErrorIfAt e ee.
Proof. assert (setErrorIfAt OK ee = ee) as -> by (destruct ee; reflexivity). reflexivity. Qed.
Lemma word_emit a x i : emit_word a x i = emit S16 (a_big a) (x mod 2^16) i. Proof. unfold emit_word. now destruct (a_big a). Qed.
Lemma long_emit a x i : emit_long a x i = emit S32 (a_big a) x i. Proof. unfold emit_long. now destruct (a_big a). Qed.
Lemma emit_const a ty v adr bs i e : integer_type ty = true -> int_value v -> holds adr bs i e ->
  exists ee i', emit_constant a ty v i = Val (ee, i') /\ holds adr (bs ++ const_bytes (a_big a) ty (int_of v)) i' (setErrorIfAt e ee).
Proof.
  intros T I H. pose proof (getUnsigned_mod v I) as G. 
  assert (forall s x, data_bytes (a_big a) s x = const_bytes (a_big a) ty (int_of v) -> exists ee i', emit s (a_big a) x i = (ee, i') /\ holds adr (bs ++ const_bytes (a_big a) ty (int_of v)) i' (setErrorIfAt e ee)) as K.
  { intros s x <-. destruct (holds_emit adr bs i e s (a_big a) x H) as (ee & i' & E & R & _). eauto. }
  assert (forall s x, data_bytes (a_big a) s x = const_bytes (a_big a) ty (int_of v) -> exists ee i', Val (emit s (a_big a) x i) = Val (ee, i') /\ holds adr (bs ++ const_bytes (a_big a) ty (int_of v)) i' (setErrorIfAt e ee)) as K2.
  { intros s x E. destruct (K s x E) as (ee & i' & X & R). exists ee, i'. split; [now rewrite X|exact R]. }
  assert (data_bytes (a_big a) S8 (getUnsigned v) = data_bytes (a_big a) S8 (int_of v)) as B1. { rewrite G. apply (data_mod (a_big a) S8 (int_of v) 4). cbn. lia. }
  assert (data_bytes (a_big a) S16 (getUnsigned v mod 2^16) = data_bytes (a_big a) S16 (int_of v)) as B2.
  { rewrite G, mod32_16. apply (data_mod (a_big a) S16 (int_of v) 2). cbn. lia. }
  assert (data_bytes (a_big a) S32 (getUnsigned v) = data_bytes (a_big a) S32 (int_of v)) as B4. { rewrite G. apply (data_mod (a_big a) S32 (int_of v) 4). cbn. lia. }
  unfold emit_constant. cbv zeta. rewrite ?word_emit, ?long_emit.
  destruct ty; try discriminate T; cbn [const_bytes item_bytes] in *.
  - now apply (K2 S8).
  - unfold const_bytes, item_bytes in *. destruct (overflowUint8 v) eqn:O.
    + apply (C24_overflow v 255 (-128) I) in O; [|lia|lia]. replace ((-128 <=? int_of v) && (int_of v <=? 255)) with false in * by lia. now apply (K2 S16).
    + assert (~ ~ (-128 <= int_of v <= 255)) as O'. { intros X. apply (C24_overflow v 255 (-128) I) in X; [|lia|lia]. change (overflow v 255 (-128)) with (overflowUint8 v) in X. congruence. }
      replace ((-128 <=? int_of v) && (int_of v <=? 255)) with true in * by lia. now apply (K2 S8).
  - apply (K2 S16). unfold const_bytes, item_bytes. change 0xFF with (Z.ones 8). rewrite Z.land_ones by lia. rewrite G.
    rewrite mod32_8. change (2^8) with 256. rewrite (Z.mod_small (_ mod 256) (2^16)); [reflexivity|]. pose proof (Z.mod_pos_bound (int_of v) 256 ltac:(lia)). lia.
  - now apply (K2 S8).
  - now apply (K2 S16).
  - now apply (K2 S16).
  - now apply (K2 S32).
Qed.

(* ------------------------------------------------------------ families *)
Lemma data_tree f : In f data_families -> In f tree_families.
Proof. unfold data_families. intros H. apply in_app_or in H. rewrite <- (firstn_skipn 18 tree_families). apply in_or_app. destruct H as [H|H]; [now left|]. right. now right. Qed.
Lemma data_eol f : In f data_families -> p_eol (fam_pl f) = eol_semicolon \/ p_eol (fam_pl f) = eol_sharp \/ p_eol (fam_pl f) = eol_star.
Proof.
  intros H. cbv [data_families tree_families firstn skipn app] in H. cbn [In] in H.
  repeat (destruct H as [<-|H]; [cbv [mkP' fam_pl p_eol pl_default pl_intel pl_motorola pl_texas pl_zilog pl_i8080 pl_i8086 pl_z80 pl_z8 pl_z8000 pl_mc68000 pl_mos6502 pl_cdp1802 pl_f3850 pl_ins8060 pl_ins8070 pl_mn1610 pl_ns32000 pl_scn2650 pl_tms32010]; first [left; reflexivity|right; left; reflexivity|right; right; reflexivity]|]). contradiction.
Qed.
Lemma eol_comma f b r : In f data_families -> blanks b -> exists q, p_eol (fam_pl f) (b ++ 44 :: r) = (q, 44 :: r).
Proof.
  intros I B. assert (skipSpaces (b ++ 44 :: r) = 44 :: r) as K by (rewrite skip_blanks by exact B; reflexivity).
  destruct (data_eol f I) as [-> |[-> | ->]]; unfold eol_sharp, eol_star, eol_semicolon; rewrite K; eexists; reflexivity.
Qed.
Lemma eol_end f b r : In f data_families -> blanks b -> line_end r -> p_eol (fam_pl f) (b ++ r) = (true, r).
Proof.
  intros I B L. assert (skipSpaces (b ++ r) = r) as K by (rewrite skip_blanks by exact B; destruct r as [|c r]; [reflexivity|cbn in L; subst; reflexivity]).
  assert (((peek r =? 0) || (peek r =? 59)) = true) as P by (destruct r as [|c r]; [reflexivity|cbn in L; subst; reflexivity]).
  destruct (data_eol f I) as [-> |[-> | ->]]; unfold eol_sharp, eol_star, eol_semicolon; rewrite K, P; [reflexivity..|]. now rewrite orb_true_r.
Qed.
Lemma eol_quote f d t : In f data_families -> In d [34; 39] -> p_eol (fam_pl f) (d :: t) = (false, d :: t).
Proof.
  intros I D. destruct (data_eol f I) as [-> |[-> | ->]]; cbn in D; destruct D as [<-|[<-|[]]]; reflexivity.
Qed.
(* what may follow an item *)
Definition after (r : text) : Prop := line_end r \/ peek r = 44.
Lemma eol_after f b r : In f data_families -> blanks b -> after r -> exists q, p_eol (fam_pl f) (b ++ r) = (q, r) /\ (q || (peek r =? 44)) = true.
Proof.
  intros I B [L|L]; [exists true; split; [now apply eol_end|reflexivity]|].
  destruct r as [|c r]; [discriminate L|]. cbn in L. subst c. destruct (eol_comma f b r I B) as (q & ->). exists q. split; [reflexivity|]. now rewrite orb_true_r.
Qed.
Lemma skip_after b r : blanks b -> after r -> skipSpaces (b ++ r) = r.
Proof. intros B A. rewrite skip_blanks by exact B. destruct r as [|c r]; [reflexivity|]. destruct A as [A|A]; cbn in A; subst; reflexivity. Qed.
Definition string_facts (l : letters) (pre : text) (delims : list Z) : Prop :=
  l_read l = readLetter_default /\ forall d, In d delims -> In d [34; 39] /\ forall p t,
    (l_string_delim l (d :: t) = Some (d, t)) /\ (p = [] \/ (exists c, p = [c] /\ In (to_upper c) pre) -> skip_prefix l (p ++ d :: t) = d :: t).
Ltac one_syntax :=
  split; [reflexivity|]; intros d D; cbn in D; repeat (destruct D as [<-|D]); try contradiction;
  (split; [cbn; tauto|]; intros p t; split; [reflexivity|]; intros [-> |(c & -> & C)]; [reflexivity|]; cbn -[to_upper] in C; repeat (destruct C as [C|C]); try contradiction).
Lemma iexpect_upper x c t : to_upper c = x -> to_upper x = x -> iexpect x (c :: t) = Some t.
Proof. intros E X. unfold iexpect. now rewrite E, X, Z.eqb_refl. Qed.
Lemma syntax_facts pl pre delims : In (pl, (pre, delims)) string_syntax -> string_facts (p_letter pl) pre delims.
Proof.
  intros H. unfold string_syntax in H. cbn [In] in H.
  repeat (destruct H as [H|H]; [injection H as <- <- <-; one_syntax; unfold skip_prefix; cbn [p_letter]; cbv [mkP' pl_cdp1802 pl_f3850 pl_mn1610 pl_scn2650 p_letter lp_rca lp_fairchild lp_ibm lp_signetics l_string_prefix optional_prefix opt_ichar]; cbn [app]; rewrite (iexpect_upper _ _ _ (eq_sym C) eq_refl); reflexivity|]). contradiction.
Qed.
Lemma not_string f s : In f data_families -> ~ In (peek s) [34; 39] -> ~ In (peek_at 1 s) [34; 39] ->
  l_string_delim (p_letter (fam_pl f)) (skip_prefix (p_letter (fam_pl f)) s) = None.
Proof.
  intros I P Q. assert (skip_prefix (p_letter (fam_pl f)) s = s \/ skip_prefix (p_letter (fam_pl f)) s = tl_ s) as K.
  { assert (forall x, opt_ichar x s = s \/ opt_ichar x s = tl_ s) as O. { intros x. unfold opt_ichar, iexpect. destruct s as [|c s]; [now left|]. destruct (_ =? _); [right|left]; reflexivity. }
    apply data_tree in I. fam I; try (left; reflexivity); try exact (O _). }
  assert (forall t, ~ In (peek t) [34; 39] -> l_string_delim (p_letter (fam_pl f)) t = None) as D.
  { intros t T. assert (expect_char 34 t = None /\ expect_char 39 t = None) as (A & B).
    { unfold expect_char. destruct t as [|c t]; [split; reflexivity|]. cbn in T. split; [destruct (Z.eqb_spec c 34)|destruct (Z.eqb_spec c 39)]; try reflexivity; subst; exfalso; apply T; auto. }
    apply data_tree in I. assert (delim_quote t = None /\ delim_dquote t = None /\ delim_either t = None) as (X1 & X2 & X3).
    { unfold delim_either, delim_quote, delim_dquote, QUOTE, DQUOTE. rewrite A, B. repeat split. }
    fam I; cbv [mkP' fam_pl p_letter pl_default pl_intel pl_motorola pl_texas pl_zilog pl_i8080 pl_i8086 pl_z80 pl_z8 pl_z8000 pl_mc68000 pl_mos6502 pl_cdp1802 pl_f3850 pl_ins8060 pl_ins8070 pl_mn1610 pl_ns32000 pl_scn2650 pl_tms32010 l_string_delim lp_default lp_cstyle lp_motorola lp_zilog lp_ibm lp_rca lp_fairchild lp_mostek lp_signetics lp_ns32000 lp_pdp8 lp_tms32010] ; first [exact X1|exact X2|exact X3]. }
  destruct K as [-> | ->]; apply D; [exact P|]. destruct s as [|c [|c' s]]; exact Q.
Qed.

(* ------------------------------------------------------------ strings *)
Definition esc (d : Z) (l : text) : text := flat_map (fun c => if c =? d then [d; d] else [c]) l.
Lemma quoted_esc d l r : quoted d l ++ r = d :: esc d l ++ d :: r.
Proof. unfold quoted, esc. cbn [app]. now rewrite <- app_assoc. Qed.
Lemma read_esc d c l r : d <> 0 -> c <> 0 -> readLetter_default d (esc d (c :: l) ++ d :: r) = (OK, c, esc d l ++ d :: r).
Proof.
  intros D C. unfold readLetter_default, esc. cbn [flat_map]. destruct (Z.eqb_spec c d) as [-> |N]; cbn [app expect_char].
  - rewrite Z.eqb_refl. cbn [expect_char]. now rewrite Z.eqb_refl.
  - replace (c =? d) with false by lia. reflexivity.
Qed.
Lemma string_end_ok f a d b r : In f data_families -> a_pl a = fam_pl f -> l_read (p_letter (fam_pl f)) = readLetter_default -> In d [34; 39] -> blanks b -> after r ->
  forall l fuel, Forall (fun c => c <> 0) l -> (length (esc d l ++ d :: b ++ r) < fuel)%nat ->
  string_end fuel a d (esc d l ++ d :: b ++ r) = Val (OK, d :: b ++ r).
Proof.
  intros I AP RD D B A. assert (d <> 0) as D0 by (cbn in D; lia).
  induction l as [|c l IH]; intros fuel F L.
  - destruct fuel as [|fuel]; [lia|]. cbn [esc flat_map app string_end peek tl_]. replace (d =? 0) with false by lia. rewrite Z.eqb_refl.
    unfold endOfLine. rewrite AP. destruct (eol_after f b r I B A) as (q & -> & ->). reflexivity.
  - destruct fuel as [|fuel]; [lia|]. cbn [string_end]. apply Forall_cons_iff in F. destruct F as (C0 & F).
    rewrite AP, RD, (read_esc d c l (b ++ r) D0 C0).
    assert (length (esc d l ++ d :: b ++ r) < fuel)%nat as L'. { unfold esc in *. cbn [flat_map] in L. rewrite <- app_assoc, app_length in L. destruct (c =? d); cbn [length] in L; lia. }
    specialize (IH fuel F L'). cbn [isOK err_eqb err_code Z.eqb].
    unfold esc at 1 2 3 4 5. cbn [flat_map]. destruct (Z.eqb_spec c d) as [-> |N]; cbn [app peek tl_].
    + replace (d =? 0) with false by lia. rewrite Z.eqb_refl. unfold endOfLine. rewrite AP, (eol_quote f d _ I D). cbn [orb peek].
      replace (d =? 44) with false by (cbn in D; lia). exact IH.
    + replace (c =? 0) with false by lia. replace (c =? d) with false by lia. exact IH.
Qed.
Lemma data_bytes_8 c : data_bytes true S8 c = [c mod 256]. Proof. reflexivity. Qed.
Lemma string_bytes_ok a d r adr : l_read (p_letter (a_pl a)) = readLetter_default -> d <> 0 ->
  forall l fuel bs i e n, Forall (fun c => c <> 0) l -> (length l < fuel)%nat -> holds adr bs i e ->
  exists i', string_bytes fuel a d (esc d l ++ d :: r) (d :: r) i e n = Val (i', fill (bs ++ map (fun c => c mod 256) l), match l with [] => n | _ => (n + Z.of_nat (length l)) mod 2^8 end) /\
    holds adr (bs ++ map (fun c => c mod 256) l) i' (fill (bs ++ map (fun c => c mod 256) l)).
Proof.
  intros RD D. induction l as [|c l IH]; intros fuel bs i e n F L H; (destruct fuel as [|fuel]; [cbn in L; lia|]); cbn [string_bytes].
  - cbn [esc flat_map app map]. rewrite Nat.ltb_irrefl, app_nil_r. exists i. pose proof H as (_ & _ & _ & -> & _). split; [reflexivity|exact H].
  - apply Forall_cons_iff in F. destruct F as (C0 & F). cbn [length] in L.
    assert (Nat.ltb (length (d :: r)) (length (esc d (c :: l) ++ d :: r)) = true) as ->.
    { apply Nat.ltb_lt. rewrite app_length. unfold esc. cbn [flat_map]. destruct (c =? d); cbn [app length]; lia. }
    rewrite RD, (read_esc d c l r D C0).
    destruct (holds_emit adr bs i e S8 true c H) as (ee & i1 & E & H1 & _). change (emit S8 true c i) with (emitByte c i) in E. rewrite E. rewrite data_bytes_8 in H1.
    destruct (IH fuel (bs ++ [c mod 256]) i1 (setErrorIfAt e ee) ((n + 1) mod 2^8) F ltac:(lia) H1) as (i' & X & Y).
    exists i'. rewrite X. rewrite <- app_assoc in *. cbn [app map] in *. split; [|exact Y]. f_equal. f_equal.
    destruct l as [|c' l]; cbn [length]; [reflexivity|]. rewrite Zplus_mod_idemp_l. f_equal. lia.
Qed.
Lemma pad_one adr bs i e : holds adr bs i e -> exists i', pad1 (i, e) = (i', fill (bs ++ [0])) /\ holds adr (bs ++ [0]) i' (fill (bs ++ [0])).
Proof.
  intros H. destruct (holds_emit adr bs i e S8 true 0 H) as (ee & i1 & E & H1 & _). change (emit S8 true 0 i) with (emitByte 0 i) in E.
  unfold pad1. rewrite E. exists i1. pose proof H1 as (_ & _ & _ & K & _). rewrite K in H1. rewrite K. split; [reflexivity|exact H1].
Qed.

Lemma pads a ty adr bs i l n : (a_unit a = 1 \/ a_unit a = 2) -> n mod 4 = Z.of_nat (length l) mod 4 -> holds adr (bs ++ l) i (fill (bs ++ l)) ->
  exists i', string_padding a ty n (i, fill (bs ++ l)) = (i', fill (bs ++ pad_to (string_align (a_unit a) ty) l)) /\
    holds adr (bs ++ pad_to (string_align (a_unit a) ty) l) i' (fill (bs ++ pad_to (string_align (a_unit a) ty) l)).
Proof.
  intros U N H. assert (n mod 2 = Z.of_nat (length l) mod 2) as N2.
  { rewrite <- (mod_mod_w n 2 2), <- (mod_mod_w (Z.of_nat (length l)) 2 2) by lia. change (2 * 2) with 4. now rewrite N. }
  set (m := Z.of_nat (length l)) in *.
  assert (0 <= m mod 2 < 2) as R2 by (apply Z.mod_pos_bound; lia). assert (0 <= m mod 4 < 4) as R4 by (apply Z.mod_pos_bound; lia).
  assert (forall k z, 0 < k -> z = (- m) mod k -> pad_to k l = l ++ repeat 0 (Z.to_nat z)) as P by (intros k z _ ->; reflexivity).
  assert (forall k, 0 < k -> m mod k = 0 -> (- m) mod k = 0) as M0 by (intros k K E; apply Z.mod_opp_l_z; [lia|exact E]).
  assert (forall k, 0 < k -> m mod k <> 0 -> (- m) mod k = k - m mod k) as M1 by (intros k K E; apply Z.mod_opp_l_nz; [lia|exact E]).
  assert (exists i', (if n mod 2 =? 0 then (i, fill (bs ++ l)) else pad1 (i, fill (bs ++ l))) = (i', fill (bs ++ pad_to 2 l)) /\ holds adr (bs ++ pad_to 2 l) i' (fill (bs ++ pad_to 2 l))) as Two.
  { rewrite N2. destruct (Z.eqb_spec (m mod 2) 0) as [E|E].
    - rewrite (P 2 0) by (rewrite ?M0; auto; lia). cbn [repeat Z.to_nat]. rewrite app_nil_r. exists i. split; [reflexivity|exact H].
    - rewrite (P 2 1) by (rewrite ?M1; auto; lia). cbn [repeat Z.to_nat Pos.to_nat Pos.iter_op Nat.add]. rewrite app_assoc. exact (pad_one _ _ _ _ H). }
  assert (exists i', (i, fill (bs ++ l)) = (i', fill (bs ++ pad_to 1 l)) /\ holds adr (bs ++ pad_to 1 l) i' (fill (bs ++ pad_to 1 l))) as One.
  { rewrite (P 1 0) by (rewrite ?Z.mod_1_r; auto; lia). cbn [repeat Z.to_nat]. rewrite app_nil_r. exists i. split; [reflexivity|exact H]. }
  destruct ty; cbn [string_padding string_align]; try exact Two.
  6:{ rewrite N. destruct (Z.eq_dec (m mod 4) 0) as [E|E]; [|destruct (Z.eq_dec (m mod 4) 1) as [E1|E1]; [|destruct (Z.eq_dec (m mod 4) 2) as [E2|E2]]].
    - rewrite E. rewrite (P 4 0) by (rewrite ?M0; auto; lia). cbn [repeat Z.to_nat]. rewrite app_nil_r. exists i. split; [reflexivity|exact H].
    - rewrite E1. rewrite (P 4 3) by (rewrite ?M1; auto; lia). change (repeat 0 (Z.to_nat 3)) with ([0] ++ [0] ++ [0]). rewrite !app_assoc.
      destruct (pad_one _ _ _ _ H) as (i1 & -> & H1). destruct (pad_one _ _ _ _ H1) as (i2 & -> & H2). exact (pad_one _ _ _ _ H2).
    - rewrite E2. rewrite (P 4 2) by (rewrite ?M1; auto; lia). change (repeat 0 (Z.to_nat 2)) with ([0] ++ [0]). rewrite !app_assoc.
      destruct (pad_one _ _ _ _ H) as (i1 & -> & H1). exact (pad_one _ _ _ _ H1).
    - assert (m mod 4 = 3) as E3 by lia. rewrite E3. rewrite (P 4 1) by (rewrite ?M1; auto; lia). change (repeat 0 (Z.to_nat 1)) with [0]. rewrite !app_assoc. exact (pad_one _ _ _ _ H). }
  all: destruct U as [U|U]; rewrite U; cbn [Z.eqb Pos.eqb andb]; [exact One|destruct (n mod 2 =? 0); exact Two].
Qed.

(* ------------------------------------------------------------ lists *)
Lemma derives_length f cx e s rest : In f tree_families -> derives f cx e s rest -> (length rest < length s)%nat.
Proof.
  intros I. enough ((forall e s rest, derives f cx e s rest -> (length rest < length s)%nat) /\ (forall a s rest, derives_args f cx a s rest -> (length rest < length s)%nat)) as K by exact (proj1 K e s rest).
  apply (derives_both f cx (fun _ s rest _ => (length rest < length s)%nat) (fun _ s rest _ => (length rest < length s)%nat)).
  - intros t v b r L _ _ _. destruct (num_head f t I L) as (h & q & -> & _). cbn [app length]. rewrite !app_length. lia.
  - intros t v b r N _ _ _ _ _ _ _. destruct t as [|c t]; [contradiction|]. cbn [app length]. rewrite !app_length. lia.
  - intros c b r _ _ _. cbn [length]. rewrite !app_length. lia.
  - intros d tok b x u r _ _ _ _ _ IH. rewrite !app_length. lia.
  - intros d tok bl x y u0 u r _ _ _ _ _ IHa _ IHb. rewrite !app_length in IHa. lia.
  - intros b1 b2 x u r _ _ _ IH. cbn [length] in *. rewrite !app_length in *. lia.
  - intros t fn g b1 b2 b3 x u r _ _ _ _ _ _ _ _ _ IH. rewrite !app_length. cbn [length] in *. rewrite !app_length in *. lia.
  - intros x u r _ IH. exact IH.
  - intros b x y u0 u r _ _ IHe _ IHa. cbn [length] in IHe. rewrite app_length in IHe. lia.
Qed.
Definition datax (a : asm) (s : dstate) : context := mkC (ds_loc s) (a_symbol a) (a_function a) 0.
Lemma item_head f cx str i s rest : In f data_families -> item_text f cx str i s rest -> (length rest < length s)%nat /\ exists h t, s = h :: t /\ is_space h = false.
Proof.
  intros I H. destruct H as [e v s rest D _ _ _ _ _ _ _|l t b rest _ (pre & delims & p & d & Y & D & P & _ & ->) _].
  - split; [now apply (derives_length f cx e s rest (data_tree f I))|]. destruct (derives_head f cx (data_tree f I) e s rest D) as (h & t & -> & E & _).
    exists h, t. split; [reflexivity|]. apply E.
  - destruct (syntax_facts _ _ _ Y) as (_ & K). destruct (K d D) as (Q & _). 
    destruct P as [-> |(c & -> & C)].
    + split; [cbn [app quoted length]; rewrite !app_length; cbn; lia|]. exists d. eexists. split; [reflexivity|]. cbn in Q. destruct Q as [<-|[<-|[]]]; reflexivity.
    + split; [cbn [app quoted length]; rewrite !app_length; cbn [length]; lia|]. exists c. eexists. split; [reflexivity|].
      assert (is_alpha (to_upper c) = true) as AL.
      { unfold string_syntax in Y. cbn [In] in Y. repeat (destruct Y as [Y|Y]; [injection Y as _ <- _; cbn -[to_upper] in C; repeat (destruct C as [C|C]); try contradiction; rewrite <- C; reflexivity|]). contradiction. }
      apply upper_alpha in AL. unfold is_alpha, is_upper, is_lower, is_space in *. lia.
Qed.
(* one round *)
Lemma round_ok f a ty it s b t rest bs adr : In f data_families -> a_pl a = fam_pl f -> a_radix a = 10 -> (a_unit a = 1 \/ a_unit a = 2) -> total_functions (datax a s) -> integer_type ty = true ->
  ds_scan s = b ++ t -> blanks b -> item_text f (datax a s) (has_string ty) it t rest -> after rest -> holds adr bs (ds_insn s) OK ->
  exists i' p, data_item a ty OK s = Val (let r := fill (bs ++ item_bytes (a_big a) (a_unit a) ty it) in if err_eqb r NO_MEMORY then Stop r (mkDS (ds_loc s) p i') else More r (mkDS (ds_loc s) p i')) /\
    holds adr (bs ++ item_bytes (a_big a) (a_unit a) ty it) i' (fill (bs ++ item_bytes (a_big a) (a_unit a) ty it)) /\ skipSpaces p = rest.
Proof.
  intros I AP RX U TF TY SC B IT AF H. destruct (item_head _ _ _ _ _ _ I IT) as (_ & h & q & Et & Sp).
  unfold data_item. rewrite SC. assert (skipSpaces (b ++ t) = t) as -> by (rewrite Et; now apply skip_head).
  cbv zeta. destruct IT as [x v t rest D W V1 V2 VO IV Q1 Q2|l u b1 rest HS (pre & delims & p & d & Y & Dd & P & NZ & ->) B1].
  - (* expression *)
    assert (ends (datax a s) rest) as EN by (destruct rest as [|c rest]; [exact Logic.I|]; cbn; destruct AF as [AF|AF]; cbn in AF; subst; auto).
    assert (forall str, data_expr a ty OK str (ds_set_scan t s) = Val (let r := fill (bs ++ item_bytes (a_big a) (a_unit a) ty (IConst (int_of v))) in
       if err_eqb r NO_MEMORY then Stop r (mkDS (ds_loc s) rest (match emit_constant a ty v (ds_insn s) with Val (_, i') => i' | _ => ds_insn s end)) else More r (mkDS (ds_loc s) rest (match emit_constant a ty v (ds_insn s) with Val (_, i') => i' | _ => ds_insn s end))) /\
       holds adr (bs ++ item_bytes (a_big a) (a_unit a) ty (IConst (int_of v))) (match emit_constant a ty v (ds_insn s) with Val (_, i') => i' | _ => ds_insn s end) (fill (bs ++ item_bytes (a_big a) (a_unit a) ty (IConst (int_of v))))) as K.
    { intros str. pose proof (C18_exact f (datax a s) x [] t rest (data_tree f I) (or_introl eq_refl) (Forall_nil _) D W EN V1 V2) as X. rewrite VO in X.
      destruct X as (b2 & B2 & X). cbn [app] in X. unfold data_expr, parseExpr. cbn [ds_set_scan ds_loc ds_scan ds_insn]. rewrite AP, RX. fold (datax a s). rewrite X. cbn [bind].
      unfold endOfLine. rewrite AP. destruct (eol_after f b2 rest I B2 AF) as (z & -> & Z1).
      replace (negb z && negb (peek rest =? 44)) with false by (destruct z, (peek rest =? 44); try reflexivity; discriminate Z1).
      cbn [hasError]. destruct (emit_const a ty v adr bs (ds_insn s) OK TY IV H) as (ee & i' & E & H'). rewrite E. cbn [bind]. 
      change (hasError OK) with false. cbv iota. rewrite setIf_idem. pose proof H' as (_ & _ & _ & F & _). change (const_bytes (a_big a) ty (int_of v)) with (item_bytes (a_big a) (a_unit a) ty (IConst (int_of v))) in *.
      rewrite F in *. split; [|exact H']. destruct (err_eqb _ NO_MEMORY); reflexivity. }
    assert (skipSpaces rest = rest) as SR by exact (skip_after [] rest (Forall_nil _) AF).
    destruct (has_string ty).
    + unfold isString. rewrite AP, (not_string f t I Q1 Q2). cbn [bind]. change (isOK NOT_AN_EXPECTED) with false. cbv iota. 
      destruct (K (if err_eqb NOT_AN_EXPECTED NOT_AN_EXPECTED then OK else NOT_AN_EXPECTED)) as (K1 & K2). rewrite K1. eexists _, rest. split; [reflexivity|]. split; [exact K2|exact SR].
    + destruct (K OK) as (K1 & K2). rewrite K1. eexists _, rest. split; [reflexivity|]. split; [exact K2|exact SR].
  - (* string *)
    rewrite HS. destruct (syntax_facts _ _ _ Y) as (RD & Kd). destruct (Kd d Dd) as (Qd & Kp). rewrite <- app_assoc, quoted_esc.
    pose proof (Kp p (esc d l ++ d :: b1 ++ rest)) as (SD & SP). specialize (SP P).
    assert (d <> 0) as D0 by (cbn in Qd; lia).
    unfold isString. rewrite AP, SP, SD. rewrite (string_end_ok f a d b1 rest I AP RD Qd B1 AF l) by (auto; lia). cbn [bind].
    change (isOK OK) with true. cbv iota. unfold generateString. rewrite AP, SP, SD.
    rewrite <- AP in RD. cbn [ds_set_scan ds_insn].
    destruct (string_bytes_ok a d (b1 ++ rest) adr RD D0 l (S (length (esc d l ++ d :: b1 ++ rest))) bs (ds_insn s) OK 0 NZ) as (i1 & X & H1); [|exact H|].
    { unfold esc. rewrite app_length. clear. induction l as [|c l IH]; cbn [flat_map length]; [lia|]. rewrite app_length. destruct (c =? d); cbn [length] in *; lia. }
    rewrite X. cbn [bind]. rewrite (proj1 (Kp [] (b1 ++ rest))).
    set (n := match l with [] => 0 | _ => (0 + Z.of_nat (length l)) mod 2^8 end).
    assert (n mod 4 = Z.of_nat (length (map (fun c => c mod 256) l)) mod 4) as N4.
    { rewrite map_length. unfold n. destruct l as [|c l]; [reflexivity|]. rewrite Z.add_0_l. exact (mod_mod_w (Z.of_nat (length (c :: l))) 4 64 ltac:(lia) ltac:(lia)). }
    destruct (pads a ty adr bs i1 (map (fun c => c mod 256) l) n U N4 H1) as (i2 & X2 & H2). rewrite X2. cbn [bind item_bytes].
    exists i2, (b1 ++ rest). split; [|split; [exact H2|now apply skip_after]].
    cbv zeta. assert (forall x, setErrorIfAt OK (fill x) = fill x) as -> by (intros x; unfold fill; destruct (_ <=? _); reflexivity).
    destruct (err_eqb _ NO_MEMORY); reflexivity.
Qed.
Lemma items_ok f a ty adr loc : In f data_families -> a_pl a = fam_pl f -> a_radix a = 10 -> (a_unit a = 1 \/ a_unit a = 2) -> integer_type ty = true ->
  total_functions (mkC loc (a_symbol a) (a_function a) 0) ->
  forall its t, data_text f (mkC loc (a_symbol a) (a_function a) 0) (has_string ty) its t -> forall fuel i bs, (length t < fuel)%nat -> holds adr bs i OK ->
  let all := bs ++ flat_map (item_bytes (a_big a) (a_unit a) ty) its in
  exists s', data_items fuel a ty OK (mkDS loc t i) = Val (fill all, s') /\ holds adr all (ds_insn s') (fill all) /\ ds_loc s' = loc /\ (fill all = OK -> line_end (ds_scan s')).
Proof.
  intros I AP RX U TY TF its t H. induction H as [it b t rest B IT LE|it l b t rest B IT DT IH]; intros fuel i bs FU HO all; (destruct fuel as [|fuel]; [lia|]); cbn [data_items].
  - destruct (round_ok f a ty it (mkDS loc (b ++ t) i) b t rest bs adr I AP RX U TF TY eq_refl B IT (or_introl LE) HO) as (i' & p & X & H' & SK).
    rewrite X. cbn [bind]. assert (all = bs ++ item_bytes (a_big a) (a_unit a) ty it) as EA by (unfold all; cbn [flat_map]; now rewrite app_nil_r). rewrite <- EA in *. cbv zeta.
    assert (expect_char 44 rest = None) as EX by (destruct rest as [|c rest]; [reflexivity|]; cbn in LE; subst; reflexivity).
    destruct (err_eqb (fill all) NO_MEMORY) eqn:NM.
    + eexists. split; [reflexivity|]. split; [exact H'|]. split; [reflexivity|]. intros O. rewrite O in NM. discriminate.
    + cbn [ds_scan]. rewrite SK, EX. eexists. split; [reflexivity|]. split; [exact H'|]. split; [reflexivity|]. intros _. cbn. exact LE.
  - destruct (round_ok f a ty it (mkDS loc (b ++ t) i) b t (44 :: rest) bs adr I AP RX U TF TY eq_refl B IT (or_intror eq_refl) HO) as (i' & p & X & H' & SK).
    rewrite X. cbn [bind]. cbv zeta. set (one := bs ++ item_bytes (a_big a) (a_unit a) ty it) in *.
    assert (all = one ++ flat_map (item_bytes (a_big a) (a_unit a) ty) l) as EA by (unfold all, one; cbn [flat_map]; now rewrite app_assoc).
    destruct (err_eqb (fill one) NO_MEMORY) eqn:NM.
    + assert (64 < Z.of_nat (length one)) as L1 by (unfold fill in NM; destruct (Z.leb_spec (Z.of_nat (length one)) 64); [discriminate NM|lia]).
      assert (fill one = NO_MEMORY) as F1 by (unfold fill; now replace (_ <=? 64) with false by lia).
      assert (fill all = NO_MEMORY) as F2 by (unfold fill; rewrite EA, app_length; now replace (_ <=? 64) with false by lia).
      rewrite F2, F1 in *. eexists. split; [reflexivity|]. cbn [ds_insn ds_loc]. split; [|split; [reflexivity|discriminate]].
      destruct H' as (S' & C & A & _ & R). split; [exact S'|]. split; [|split; [exact A|]]; [|rewrite R, F1, F2; auto].
      rewrite C, EA, firstn_app. replace (64 - length one)%nat with 0%nat by lia. cbn [firstn]. now rewrite app_nil_r.
    + assert (fill one = OK) as F1 by (unfold fill in *; destruct (_ <=? 64); [reflexivity|discriminate NM]). rewrite F1 in *.
      cbn [ds_scan]. rewrite SK. cbn [expect_char Z.eqb Pos.eqb]. unfold ds_set_scan. cbn [ds_loc ds_insn].
      destruct (item_head _ _ _ _ _ _ I IT) as (L1 & _). cbn [length] in L1. rewrite app_length in FU.
      destruct (IH fuel i' one ltac:(lia) H') as (s' & R). rewrite <- EA in R. exists s'. exact R.
Qed.
Lemma C33_lists f a ty align s its :
  In f data_families -> a_pl a = fam_pl f -> a_radix a = 10 -> (a_unit a = 1 \/ a_unit a = 2) -> integer_type ty = true ->
  total_functions (mkC (data_loc align s) (a_symbol a) (a_function a) 0) -> sound (ds_insn s) -> i_err (ds_insn s) = OK ->
  0 <= i_addr (ds_insn s) -> data_start align s < 2^32 ->
  data_text f (mkC (data_loc align s) (a_symbol a) (a_function a) 0) (has_string ty) its (ds_scan s) ->
  let all := i_code (ds_insn s) ++ flat_map (item_bytes (a_big a) (a_unit a) ty) its in
  exists s', defineDataConstant a ty align s = Val (if Z.of_nat (length all) <=? 64 then OK else NO_MEMORY, s') /\
    i_code (ds_insn s') = firstn 64 all /\ i_err (ds_insn s') = (if Z.of_nat (length all) <=? 64 then OK else NO_MEMORY) /\
    i_addr (ds_insn s') = data_start align s /\ ds_loc s' = data_loc align s /\
    (Z.of_nat (length all) <= 64 -> line_end (ds_scan s')).
Proof.
  intros I AP RX U TY TF SO ER A0 A1 DT all. unfold defineDataConstant.
  assert (i_addr (ds_insn s) <= data_start align s) as S1 by (unfold data_start, space_start; destruct (align && _); lia).
  assert ((if align then i_align 2 (ds_insn s) else Some (ds_insn s)) = Some (i_setaddr (data_start align s) (ds_insn s))) as ->.
  { unfold data_start in *. rewrite <- space_aligned by lia. destruct align; [|reflexivity]. cbn [andb]. destruct (i_addr (ds_insn s) mod 2 =? 0) eqn:E; cbn [negb]; [|reflexivity]. unfold i_align. cbn [Z.eqb]. now rewrite E. }
  set (i := i_setaddr (data_start align s) (ds_insn s)).
  assert ((if align then snd (setCurrentLocation a (i_addr i) false (ds_set_insn i s)) else ds_set_insn i s) = mkDS (data_loc align s) (ds_scan s) i) as ->.
  { destruct align; reflexivity. }
  assert (holds (data_start align s) (i_code (ds_insn s)) i OK) as HO.
  { pose proof (code_length _ SO) as L. assert (sound i) as SI by exact SO. destruct SO as (_ & _ & R). split; [exact SI|]. split; [|split; [reflexivity|]].
    - change (i_code i) with (i_code (ds_insn s)). rewrite firstn_all2; [reflexivity|lia].
    - unfold fill. replace (_ <=? 64) with true by lia. split; [reflexivity|exact ER]. }
  destruct (items_ok f a ty (data_start align s) (data_loc align s) I AP RX U TY TF its (ds_scan s) DT (S (length (ds_scan s))) i (i_code (ds_insn s)) ltac:(lia) HO) as (s' & X & (S' & C & A & _ & R) & L & E).
  cbn [ds_scan]. rewrite X. cbn [bind]. eexists. split; [reflexivity|]. cbn. split; [exact C|]. split; [reflexivity|]. split; [exact A|]. split; [exact L|].
  intros LE. apply E. unfold fill. fold all. now replace (_ <=? 64) with true by lia.
Qed.

(* ------------------------------------------------------------ delimited strings *)
Lemma delimited_ok d r adr : forall l bs i e, Forall (fun c => c <> 0 /\ c <> d) l -> holds adr bs i e ->
  exists i', delimited d (l ++ d :: r) i e = (Some (i', fill (bs ++ map (fun c => c mod 256) l), r), i') /\ holds adr (bs ++ map (fun c => c mod 256) l) i' (fill (bs ++ map (fun c => c mod 256) l)).
Proof.
  induction l as [|c l IH]; intros bs i e F H; cbn [app delimited map].
  - rewrite Z.eqb_refl. rewrite app_nil_r. pose proof H as (_ & _ & _ & -> & _). exists i. split; [reflexivity|exact H].
  - apply Forall_cons_iff in F. destruct F as ((C0 & Cd) & F). replace (c =? d) with false by lia. replace (c =? 0) with false by lia.
    destruct (holds_emit adr bs i e S8 true c H) as (ee & i1 & E & H1 & _). change (emit S8 true c i) with (emitByte c i) in E. rewrite E. rewrite data_bytes_8 in H1.
    destruct (IH (bs ++ [c mod 256]) i1 (setErrorIfAt e ee) F H1) as (i' & X). rewrite <- app_assoc in X. exists i'. exact X.
Qed.
Lemma strings_ok adr loc : forall ls t, delimited_text ls t -> forall fuel bs i e, (length t < fuel)%nat -> holds adr bs i e ->
  let all := bs ++ map (fun c => c mod 256) (concat ls) in
  exists s', string_list fuel (mkDS loc t i) e = Val (fill all, s') /\ holds adr all (ds_insn s') (fill all) /\ ds_loc s' = loc /\ line_end (ds_scan s').
Proof.
  induction 1 as [b b' d l rest B B' D F LE|b b' d l ls rest B B' D F H IH]; intros fuel bs i e FU HO all; (destruct fuel as [|fuel]; [lia|]); cbn [string_list ds_scan ds_insn ds_loc]; cbv zeta.
  - rewrite (skip_blanks b _ B). destruct D as (D0 & Ds). unfold skipSpaces at 1 2. cbn [trimStart]. rewrite Ds. cbn [peek tl_].
    destruct (delimited_ok d (b' ++ rest) adr l bs i e F HO) as (i' & X & H'). rewrite X. rewrite (skip_after b' rest B' (or_introl LE)).
    assert (expect_char 44 rest = None) as -> by (destruct rest as [|c rest]; [reflexivity|]; cbn in LE; subst; reflexivity).
    assert (all = bs ++ map (fun c => c mod 256) l) as EA by (unfold all; cbn [concat]; now rewrite app_nil_r). rewrite <- EA in *.
    eexists. split; [reflexivity|]. cbn [ds_seterr ds_insn ds_loc ds_scan]. split; [|split; [reflexivity|exact LE]].
    destruct H' as (S' & C & A & _ & R). split; [exact S'|]. split; [exact C|]. split; [exact A|]. split; reflexivity.
  - rewrite (skip_blanks b _ B). destruct D as (D0 & Ds). unfold skipSpaces at 1 2. cbn [trimStart]. rewrite Ds. cbn [peek tl_].
    destruct (delimited_ok d (b' ++ 44 :: rest) adr l bs i e F HO) as (i' & X & H'). rewrite X. rewrite (skip_after b' (44 :: rest) B' (or_intror eq_refl)).
    cbn [expect_char Z.eqb Pos.eqb]. 
    assert (length rest < fuel)%nat as FU'. { rewrite !app_length in FU. cbn [length] in FU. rewrite !app_length in FU. cbn [length] in FU. rewrite !app_length in FU. cbn [length] in FU. lia. }
    destruct (IH fuel _ i' _ FU' H') as (s' & R). exists s'.
    assert (all = (bs ++ map (fun c => c mod 256) l) ++ map (fun c => c mod 256) (concat ls)) as EA by (unfold all; cbn [concat]; now rewrite map_app, app_assoc). rewrite EA. exact R.
Qed.
Lemma C33_delimited s ls : sound (ds_insn s) -> i_err (ds_insn s) = OK -> delimited_text ls (ds_scan s) ->
  let all := i_code (ds_insn s) ++ map (fun c => c mod 256) (concat ls) in
  exists s', defineString s = Val (if Z.of_nat (length all) <=? 64 then OK else NO_MEMORY, s') /\
    i_code (ds_insn s') = firstn 64 all /\ i_err (ds_insn s') = (if Z.of_nat (length all) <=? 64 then OK else NO_MEMORY) /\
    i_addr (ds_insn s') = i_addr (ds_insn s) /\ ds_loc s' = ds_loc s /\ line_end (ds_scan s').
Proof.
  intros SO ER DT all. unfold defineString. destruct s as [loc t i]. cbn [ds_scan ds_insn ds_loc] in *.
  assert (holds (i_addr i) (i_code i) i OK) as HO.
  { pose proof (code_length _ SO) as L. pose proof SO as (_ & _ & R). split; [exact SO|]. split; [rewrite firstn_all2; [reflexivity|lia]|split; [reflexivity|]].
    unfold fill. replace (_ <=? 64) with true by lia. split; [reflexivity|exact ER]. }
  destruct (strings_ok (i_addr i) loc ls t DT (S (length t)) (i_code i) i OK ltac:(lia) HO) as (s' & X & (S' & C & A & _ & R) & L & E).
  exists s'. split; [exact X|]. split; [exact C|]. split; [exact R|]. auto.
Qed.

(* ------------------------------------------------------------ a case *)
Definition ex_asm (aw : Z) (big : bool) : asm := mkA pl_intel (fun n => if iequals n (s2l "MASK") then Some (setUnsigned 5) else None) (fun _ => None) 10 aw 1 big.
Definition ex_line (loc : Z) (t : text) : dstate := mkDS loc t (new_insn loc).
Lemma ex_operand aw big loc n t v p : parseExpr (ex_asm aw big) (ex_line loc t) 0 = Val (v, OK, p) -> int_value v -> int_of v = n -> operand (ex_asm aw big) (ex_line loc t) n p.
Proof. intros H I N. exists v. auto. Qed.
Lemma C33_example : data_text ex_fam ex_cx true [IConst (-250); IStr (s2l "A'B"); IConst 2] (s2l " 10 - 2*( MASK-3) -$,'A''B' , 2 ; x").
Proof.
  assert (blanks [32]) as B1 by (constructor; [reflexivity|constructor]). assert (blanks []) as B0 by constructor.
  apply (DT_more ex_fam ex_cx true (IConst (-250)) _ [32] (s2l "10 - 2*( MASK-3) -$,'A''B' , 2 ; x") (s2l "'A''B' , 2 ; x")); [exact B1| |].
  - change (-250) with (int_of (setInteger (-250))). apply (IT_const _ _ _ ex_tree); [|cbn; intuition (try lia; auto)|cbn; lia|cbn; lia|vm_compute; reflexivity|vm_compute; intuition discriminate|intros H; vm_compute in H; intuition discriminate|intros H; vm_compute in H; intuition discriminate].
    unfold ex_tree.
      apply (D_bin ex_fam ex_cx ex_minus (s2l "-") [] _ _ _ (s2l "$,'A''B' , 2 ; x")); [cbn; tauto|now left|exact B0|apply ex_sep; cbn; tauto| |].
      * apply (D_bin ex_fam ex_cx ex_minus (s2l "-") [32] _ _ _ (s2l "2*( MASK-3) -$,'A''B' , 2 ; x")); [cbn; tauto|now left|exact B1|apply ex_sep; cbn; tauto| |].
        -- apply (D_num ex_fam ex_cx (s2l "10") _ [32]); [now left|apply ex_num; cbn; tauto|exact B1|now left].
        -- apply (D_bin ex_fam ex_cx ex_times (s2l "*") [] _ _ _ (s2l "( MASK-3) -$,'A''B' , 2 ; x")); [cbn; tauto|now left|exact B0|apply ex_sep; cbn; tauto| |].
           ++ apply (D_num ex_fam ex_cx (s2l "2") _ []); [now left|apply ex_num; cbn; tauto|exact B0|right; cbn; tauto].
           ++ apply (D_par ex_fam ex_cx [32] [32] _ (s2l "MASK-3) -$,'A''B' , 2 ; x")); [exact B1|exact B1|].
              apply (D_bin ex_fam ex_cx ex_minus (s2l "-") [] _ _ _ (s2l "3) -$,'A''B' , 2 ; x")); [cbn; tauto|now left|exact B0|apply ex_sep; cbn; tauto| |].
              ** apply (D_sym ex_fam ex_cx (s2l "MASK") _ []); [cbn; auto| |reflexivity|reflexivity|reflexivity|reflexivity|exact B0|right; cbn; tauto].
                 intros [(d & D & E & _)|K]; [|cbn in K; intuition discriminate].
                 cbn in D. repeat (destruct D as [<-|D]; [discriminate E|]). destruct D.
              ** apply (D_num ex_fam ex_cx (s2l "3") _ []); [now left|apply ex_num; cbn; tauto|exact B0|right; cbn; tauto].
      * apply (D_here ex_fam ex_cx 36 []); [cbn; tauto|exact B0|right; cbn; tauto].
  - apply (DT_more ex_fam ex_cx true (IStr (s2l "A'B")) _ [] (s2l "'A''B' , 2 ; x") (s2l " 2 ; x")); [exact B0| |].
    + apply (IT_str ex_fam ex_cx true (s2l "A'B") (s2l "'A''B'") [32] (s2l ", 2 ; x")); [reflexivity| |exact B1].
      exists [], [39], [], 39. split; [right; left; reflexivity|]. split; [now left|]. split; [now left|]. split; [|reflexivity].
      repeat constructor; discriminate.
    + apply (DT_last ex_fam ex_cx true (IConst 2) [32] (s2l "2 ; x") (s2l "; x")); [exact B1| |reflexivity].
      change 2 with (int_of (setUnsigned 2)) at 1. apply (IT_const _ _ _ (Num (s2l "2") (setUnsigned 2))); [|exact Logic.I|cbn; lia|cbn; lia|vm_compute; reflexivity|vm_compute; intuition discriminate|intros H; vm_compute in H; intuition discriminate|intros H; vm_compute in H; intuition discriminate].
      apply (D_num ex_fam ex_cx (s2l "2") _ [32]); [now left|apply ex_num; cbn; tauto|exact B1|now left].
Qed.
