(** The Intel expression reader with '.' as a delimiter: expressions without it are read as ever,
    and a numeral followed by it is read alone. *)
From Coq Require Import String ZArith Lia ZifyBool List Bool.
From Verif Require Import M_Char M_Error M_Value M_Text M_Number M_Operators M_Parsers M_Expr M_Directive M_Asm S_Number S_Expr S_ExprTree P_ExprRead P_ExprOperand P_AsmText.
Import ListNotations.
Open Scope string_scope.
Open Scope list_scope.
Local Open Scope Z_scope.

Section Dot.
Variables (loc : Z) (sym : text -> option value) (fns : text -> option functor).
Let c0 : context := mkC loc sym fns 0.
Let cd : context := mkC loc sym fns 46.
Definition with_eoe (s : state) (d : Z) : state :=
  mkSt (s_scan s) (s_vs s) (s_os s) d (s_paren s) (s_prefix s) (s_fnargs s) (s_infn s) (s_radix s) (s_err s).
Definition simd (sd s : state) : Prop := s_eoe s = 0 /\ exists d, (d = 0 \/ d = 46) /\ sd = with_eoe s d.
(* what a round gives when it gives something: the same but for the delimiter *)
Definition relc (rd r : res ctl) : Prop :=
  match r with
  | Val (Next a) => exists b, rd = Val (Next b) /\ simd b a
  | Val (Break a) => peek (skipSpaces (s_scan a)) <> 46 -> exists d, rd = Val (Break (with_eoe a d))
  | Val (Return v a) => isOK (s_err a) = true -> exists d, rd = Val (Return v (with_eoe a d))
  | _ => True
  end.

Lemma rel_bind {A} (r : res A) F G : (forall x, r = Val x -> relc (F x) (G x)) -> relc (bind r F) (bind r G).
Proof. intros H. destruct r; cbn [bind relc]; auto. Qed.
Lemma rel_fail s d e v : relc (fail (with_eoe s d) e v) (fail s e v).
Proof. unfold fail. cbn [relc s_err]. intros _. exists d. reflexivity. Qed.
Ltac nxt D := cbn [relc]; eexists; split; [reflexivity|]; split; [reflexivity|]; first [exists 0; split; [now left|reflexivity]|exists 46; split; [now right|reflexivity]|eexists; split; [exact D|reflexivity]].
Lemma rel_push s d t v e : s_eoe s = 0 -> d = 0 \/ d = 46 -> relc (push_value (with_eoe s d) t v e) (push_value s t v e).
Proof.
  intros Z D. unfold push_value. cbn [with_eoe s_vs]. destruct (vs_full (s_vs s)); [exact (rel_fail (set_scan s t) d _ _)|].
  cbn [relc]. eexists. split; [reflexivity|]. split; [exact Z|]. exists d. split; [exact D|reflexivity].
Qed.
Lemma rel_operator s d o : s_eoe s = 0 -> d = 0 \/ d = 46 -> relc (do_operator (with_eoe s d) o) (do_operator s o).
Proof.
  intros Z D. unfold do_operator. cbn [with_eoe s_vs s_os s_radix]. apply rel_bind. intros [[[e os] vs] rdx] _. cbv zeta.
  destruct (negb (isOK e)); [exact (rel_fail (set_stacks s vs os rdx) d _ _)|]. destruct (os_full os); [exact (rel_fail (set_stacks s vs os rdx) d _ _)|].
  cbn [relc]. eexists. split; [reflexivity|]. split; [exact Z|]. exists d. split; [exact D|reflexivity].
Qed.
Lemma rel_close s d : s_eoe s = 0 -> d = 0 \/ d = 46 -> relc (do_close cd (with_eoe s d)) (do_close c0 s).
Proof.
  intros Z D. unfold do_close. cbn [with_eoe s_vs s_os s_radix]. apply rel_bind. intros [[[e os] vs] rdx] _. cbv zeta.
  destruct (negb (isOK e)); [exact (rel_fail (set_stacks s vs os rdx) d _ _)|].
  assert (AF : forall os vs rdx infn,
    relc (Val (Next (mkSt (s_scan s) vs os (if (s_paren s - 1) mod 256 =? 0 then 46 else d) ((s_paren s - 1) mod 256) false (s_fnargs s) infn rdx (s_err s))))
         (Val (Next (mkSt (s_scan s) vs os (if (s_paren s - 1) mod 256 =? 0 then 0 else s_eoe s) ((s_paren s - 1) mod 256) false (s_fnargs s) infn rdx (s_err s))))).
  { intros os' vs' rdx' infn. cbn [relc]. eexists. split; [reflexivity|]. split; [cbn [s_eoe]; destruct (_ =? 0); [reflexivity|exact Z]|].
    destruct (_ =? 0); [exists 46|exists d]; (split; [auto|reflexivity]). }
  destruct os as [|paren os]; [cbn [relc]; intros _; exists d; reflexivity|].
  destruct os as [|top os']; [apply AF|]. destruct (isFunction top); [|apply AF].
  apply rel_bind. intros [[e' vs'] rdx'] _. destruct (isOK e'); [apply AF|]. exact (rel_fail (set_stacks (set_stacks s vs (paren :: top :: os') rdx) vs' os' rdx') d _ _).
Qed.
Lemma rel_punct pl expr s d : s_eoe s = 0 -> d = 0 \/ d = 46 -> relc (do_punct pl cd expr (with_eoe s d)) (do_punct pl c0 expr s).
Proof.
  intros Z D. unfold do_punct. cbn [with_eoe s_vs s_os s_radix s_infn s_scan]. destruct (if s_infn s =? 0 then None else expect_char 44 (s_scan s)) as [p|].
  - cbn [set_scan s_os s_vs s_radix]. apply rel_bind. intros [[[e os] vs] rdx] _. cbv zeta.
    destruct (negb (isOK e)); [exact (rel_fail (set_stacks (set_scan s p) vs os rdx) d _ _)|]. destruct os as [|x os]; [exact Logic.I|].
    cbn [relc]. eexists. split; [reflexivity|]. split; [exact Z|]. exists d. split; [exact D|reflexivity].
  - destruct (p_open pl (s_scan s)) as [p|].
    + cbn [s_prefix s_fnargs]. destruct (_ && _); [cbn [relc]; intros _; exists d; reflexivity|].
      destruct (os_full (s_os s)); [exact (rel_fail (set_scan s p) d _ _)|].
      cbn [relc]. eexists. split; [reflexivity|]. split; [reflexivity|]. exists 0. split; [now left|reflexivity].
    + destruct (p_close pl (s_scan s)) as [p|]; [exact (rel_close (set_scan s p) d Z D)|]. cbn [relc]. intros _. exists d. reflexivity.
Qed.
Lemma rel_infix pl expr s d : s_eoe s = 0 -> d = 0 \/ d = 46 -> relc (do_infix pl cd expr (with_eoe s d)) (do_infix pl c0 expr s).
Proof.
  intros Z D. unfold do_infix. change (s_prefix (with_eoe s d)) with (s_prefix s). change (s_vs (with_eoe s d)) with (s_vs s). change (s_scan (with_eoe s d)) with (s_scan s).
  change (s_radix (with_eoe s d)) with (s_radix s). change (s_err (with_eoe s d)) with (s_err s).
  assert (RT : forall s (o : option (oper * text)), relc (Val (Return v_undef (match o with Some (_, t) => set_scan (with_eoe s d) t | None => with_eoe s d end)))
                 (Val (Return v_undef (match o with Some (_, t) => set_scan s t | None => s end)))).
  { intros s' o. cbn [relc]. intros _. exists d. destruct o as [[o t]|]; reflexivity. }
  destruct (s_prefix s).
  - apply rel_bind. intros [[o vs] rdx] _. cbv zeta. set (s1 := set_stacks s vs (s_os s) rdx).
    change (s_err (set_stacks (with_eoe s d) vs (s_os (with_eoe s d)) rdx)) with (s_err s). change (s_err s1) with (s_err s). destruct (hasError (s_err s)); [exact (RT s1 o)|].
    destruct o as [[o t]|]; [exact (rel_operator (set_scan s1 t) d o Z D)|]. exact (rel_punct pl expr s1 d Z D).
  - destruct (hasError (s_err s)); [apply RT|]. destruct (p_infix pl (s_scan s)) as [[o t]|]; [exact (rel_operator (set_scan s t) d o Z D)|]. exact (rel_punct pl expr s d Z D).
Qed.
Lemma rel_symbol pl expr s d : s_eoe s = 0 -> d = 0 \/ d = 46 -> relc (do_symbol pl cd expr (with_eoe s d)) (do_symbol pl c0 expr s).
Proof.
  intros Z D. unfold do_symbol. change (s_scan (with_eoe s d)) with (s_scan s). destruct (readSymbol (p_symbol pl) (s_scan s)) as [[n t]|]; [|now apply rel_infix].
  change (c_symbol cd n) with (sym n). change (c_symbol c0 n) with (sym n). destruct (sym n) as [v|]; [destruct (isFloat v); [exact Logic.I|]|]; apply rel_push; assumption.
Qed.
Lemma constant_same pl rdx s r : parseConstant pl c0 rdx s = Val r -> parseConstant pl cd rdx s = Val r.
Proof.
  unfold parseConstant. destruct (l_parse (p_letter pl) s) as [[e c] p]. destruct (isOK e); [auto|]. destruct (negb (err_eqb e NOT_AN_EXPECTED)); [auto|].
  destruct (p_number pl s rdx) as [[e' v] q]. change (c_delim c0) with 0. change (c_delim cd) with 46.
  destruct (isFloatNumber q e' 0) eqn:F; [discriminate|]. replace (isFloatNumber q e' 46) with false; [auto|].
  symmetry. unfold isFloatNumber in *. destruct e'; auto. destruct (expect_char 46 q) as [q'|]; [|exact F].
  change (0 =? 46) with false in F. change (46 =? 46) with true. cbn [negb andb] in *. apply orb_false_iff in F. apply F.
Qed.
Lemma rel_operand pl expr s d : s_eoe s = 0 -> d = 0 \/ d = 46 -> relc (do_operand pl cd expr (with_eoe s d)) (do_operand pl c0 expr s).
Proof.
  intros Z D. unfold do_operand. change (s_scan (with_eoe s d)) with (s_scan s). change (s_radix (with_eoe s d)) with (s_radix s).
  destruct (parseConstant pl c0 (s_radix s) (s_scan s)) as [[[e v] t]| | | |] eqn:P; try exact Logic.I. rewrite (constant_same _ _ _ _ P). cbn [bind].
  destruct (isOK e); [now apply rel_push|]. destruct (negb (err_eqb e NOT_AN_EXPECTED)); [exact (rel_fail (set_scan s t) d _ _)|].
  destruct (readFunctionName (p_symbol pl) (s_scan s)) as [[n q]|]; [|now apply rel_symbol].
  change (lookupFunction pl cd n) with (lookupFunction pl c0 n). destruct (lookupFunction pl c0 n) as [f|]; [|now apply rel_symbol].
  cbv zeta. destruct (p_open pl (skipSpaces q)); [|exact (rel_fail (set_scan s (skipSpaces q)) d _ _)].
  cbn [relc]. eexists. split; [reflexivity|]. split; [exact Z|]. exists d. split; [exact D|reflexivity].
Qed.

(* ---- the Intel notation: nothing starts with a dot ---- *)
Lemma dot_punct expr t s : s_scan s = 46 :: t -> do_punct pl_intel c0 expr s = Val (Break (set_scan s expr)).
Proof. intros E. unfold do_punct. rewrite E. destruct (s_infn s =? 0); reflexivity. Qed.
Lemma dot_infix expr t s : s_scan s = 46 :: t -> peek (skipSpaces expr) = 46 -> relc (Val (Break s)) (do_infix pl_intel c0 expr s).
Proof.
  intros E X. unfold do_infix. rewrite E.
  assert (RT : forall s v, hasError (s_err s) = true -> relc (Val (Break s)) (Val (Return v s))).
  { intros s' v H. cbn [relc]. intros O. exfalso. unfold hasError in H. destruct (s_err s'); discriminate. }
  assert (BR : relc (Val (Break s)) (do_punct pl_intel c0 expr s)) by (rewrite (dot_punct expr t s E); cbn [relc set_scan s_scan]; congruence).
  destruct (s_prefix s).
  - change (p_prefix pl_intel (46 :: t) (s_vs s) (s_radix s)) with (Val (@None (oper * text), s_vs s, s_radix s)). cbn [bind]. cbv zeta.
    replace (set_stacks s (s_vs s) (s_os s) (s_radix s)) with s by (destruct s; reflexivity).
    destruct (hasError (s_err s)) eqn:H; [now apply RT|exact BR].
  - change (p_infix pl_intel (46 :: t)) with (@None (oper * text)). destruct (hasError (s_err s)) eqn:H; [now apply RT|exact BR].
Qed.
Lemma dot_operand expr t s : s_scan s = 46 :: t -> peek (skipSpaces expr) = 46 -> relc (Val (Break s)) (do_operand pl_intel c0 expr s).
Proof.
  intros E X. unfold do_operand. rewrite E.
  change (parseConstant pl_intel c0 (s_radix s) (46 :: t)) with (parseConstant pl_intel c0 (s_radix s) (46 :: t)).
  assert (P : parseConstant pl_intel c0 (s_radix s) (46 :: t) = FLOAT \/ exists e v q, parseConstant pl_intel c0 (s_radix s) (46 :: t) = Val (e, v, q) /\ isOK e = false).
  { unfold parseConstant. change (l_parse (p_letter pl_intel) (46 :: t)) with (l_parse lp_default (46 :: t)).
    destruct (l_parse lp_default (46 :: t)) as [[e c] p] eqn:L. assert (isOK e = false) as O by (vm_compute in L; injection L as <- _ _; reflexivity).
    rewrite O. destruct (negb (err_eqb e NOT_AN_EXPECTED)); [right; eauto 8|].
    destruct (p_number pl_intel (46 :: t) (s_radix s)) as [[e' v] q] eqn:N. destruct (isFloatNumber q e' (c_delim c0)); [now left|].
    destruct (negb (err_eqb e' NOT_AN_EXPECTED)) eqn:NE.
    - right. exists e', v, q. split; [reflexivity|]. destruct e'; try reflexivity. exfalso. 
      change (p_number pl_intel) with np_intel in N. unfold np_intel in N. assert (I : intel_suffix (46 :: t) = (RADIX_NONE, 46 :: t)) by reflexivity. rewrite I in N.
      change (RADIX_NONE =? RADIX_NONE) with true in N. cbv iota in N. unfold np_cstyle, cstyle_prefix in N.
      change (iexpectText (s2l "0x") (46 :: t)) with (@None text) in N. change (iexpectText (s2l "0b") (46 :: t)) with (@None text) in N. cbn [peek] in N.
      change (46 =? 48) with false in N. cbn [andb] in N.
      assert (D : is_digit_r (s_radix s) 46 = false) by (unfold is_digit_r; destruct (s_radix s =? RADIX_16); [reflexivity|change (48 <=? 46) with false; reflexivity]).
      rewrite D in N. change (RADIX_NONE =? RADIX_NONE) with true in N. discriminate N.
    - assert (q = 46 :: t) as ->.
      { apply negb_false_iff in NE. change (p_number pl_intel) with np_intel in N. unfold np_intel in N. assert (I : intel_suffix (46 :: t) = (RADIX_NONE, 46 :: t)) by reflexivity. rewrite I in N.
        change (RADIX_NONE =? RADIX_NONE) with true in N. cbv iota in N. unfold np_cstyle, cstyle_prefix in N.
        change (iexpectText (s2l "0x") (46 :: t)) with (@None text) in N. change (iexpectText (s2l "0b") (46 :: t)) with (@None text) in N. cbn [peek] in N.
        change (46 =? 48) with false in N. cbn [andb] in N.
        assert (D : is_digit_r (s_radix s) 46 = false) by (unfold is_digit_r; destruct (s_radix s =? RADIX_16); [reflexivity|change (48 <=? 46) with false; reflexivity]).
        rewrite D in N. change (RADIX_NONE =? RADIX_NONE) with true in N. unfold not_expected in N. now injection N. }
      change (y_location (p_symbol pl_intel) (46 :: t)) with (@None text). right. eauto 8. }
  destruct P as [P|(e & v & q & P & O)]; rewrite P; cbn [bind]; [exact Logic.I|]. rewrite O.
  destruct (negb (err_eqb e NOT_AN_EXPECTED)) eqn:NE.
  - unfold fail. cbn [relc s_err set_scan]. intros H. exfalso. destruct (s_err s); destruct e; discriminate.
  - change (readFunctionName (p_symbol pl_intel) (46 :: t)) with (@None (text * text)). unfold do_symbol. rewrite E.
    change (readSymbol (p_symbol pl_intel) (46 :: t)) with (@None (text * text)). now apply (dot_infix expr t s).
Qed.
Lemma rel_step s d : s_eoe s = 0 -> d = 0 \/ d = 46 -> relc (step pl_intel cd (with_eoe s d)) (step pl_intel c0 s).
Proof.
  intros Z D. unfold step. change (s_scan (with_eoe s d)) with (s_scan s). change (p_eol pl_intel) with eol_semicolon.
  assert (II : forall u, skipSpaces (skipSpaces u) = skipSpaces u).
  { intros u. unfold skipSpaces. induction u as [|c u IH]; [reflexivity|]. cbn [trimStart]. destruct (is_space c) eqn:S; [exact IH|]. cbn [trimStart]. now rewrite S. }
  assert (EQ : forall u, eol_semicolon (skipSpaces u) = (fst (eol_semicolon (skipSpaces u)), skipSpaces u)).
  { intros u. unfold eol_semicolon. cbv zeta. rewrite II. reflexivity. }
  rewrite (EQ (s_scan s)). destruct (fst (eol_semicolon (skipSpaces (s_scan s)))) eqn:S.
  { cbn [relc]. intros _. exists d. reflexivity. }
  set (t := skipSpaces (s_scan s)). set (s1 := set_scan s t).
  change (set_scan (with_eoe s d) t) with (with_eoe s1 d). change (s_eoe (with_eoe s1 d)) with d. change (s_eoe s1) with (s_eoe s). rewrite Z.
  change (s_vs (with_eoe s1 d)) with (s_vs s1). change (s_prefix (with_eoe s1 d)) with (s_prefix s1).
  assert (P0 : peek t <> 0). { unfold eol_semicolon in S. cbv zeta in S. rewrite II in S. cbn [fst] in S. fold t in S. lia. }
  replace (peek t =? 0) with false by lia. cbn [andb].
  destruct ((peek t =? d) && negb match s_vs s1 with [] => true | _ :: _ => false end) eqn:E0.
  - apply andb_true_iff in E0 as [E0 _]. apply Z.eqb_eq in E0. destruct D as [-> | ->]; [contradiction|].
    assert (X : exists q, t = 46 :: q) by (destruct t as [|c q]; [discriminate|cbn [peek] in E0; subst; eauto]). destruct X as (q & X).
    assert (W : forall r, relc (Val (Break s1)) r -> relc (Val (Break (with_eoe s1 46))) r).
    { intros r. destruct r as [[a|a|v a]| | | |]; cbn [relc]; auto.
      - intros (b & H & _). discriminate.
      - intros H N. destruct (H N) as (d & H'). assert (EE : s1 = with_eoe a d) by congruence. exists 46. now rewrite EE.
      - intros H N. destruct (H N) as (d & H'). discriminate. }
    apply W. destruct (s_prefix s1) eqn:PF.
    + change (s_vs s1) with (s_vs s). change (s_radix s1) with (s_radix s). rewrite X.
      change (p_prefix pl_intel (46 :: q) (s_vs s) (s_radix s)) with (Val (@None (oper * text), s_vs s, s_radix s)). cbn [bind]. cbv zeta.
      replace (set_stacks s1 (s_vs s) (s_os s1) (s_radix s)) with s1 by (destruct s; reflexivity).
      destruct (hasError (s_err s1)) eqn:H.
      * cbn [relc]. intros O. exfalso. unfold hasError in H. destruct (s_err s1); discriminate.
      * apply (dot_operand (s_scan s) q s1); [exact X|]. fold t. rewrite X. reflexivity.
    + apply (dot_infix (s_scan s) q s1); [exact X|]. fold t. rewrite X. reflexivity.
  - destruct (s_prefix s1); [|exact (rel_infix pl_intel (s_scan s) s1 d Z D)].
    apply rel_bind. intros [[o vs] rdx] _. cbv zeta. set (s2 := set_stacks s1 vs (s_os s1) rdx).
    cbn [set_stacks with_eoe s_err s2 s1 set_scan]. destruct (hasError (s_err s)).
    + cbn [relc]. intros _. exists d. destruct o as [[o u]|]; reflexivity.
    + destruct o as [[o u]|]; [exact (rel_operator (set_scan s2 u) d o Z D)|]. exact (rel_operand pl_intel (s_scan s) s2 d Z D).
Qed.
Lemma rounds_same n s d v t r : s_eoe s = 0 -> d = 0 \/ d = 46 -> rounds n pl_intel c0 s = Val (v, OK, t, r) -> peek (skipSpaces t) <> 46 ->
  rounds n pl_intel cd (with_eoe s d) = Val (v, OK, t, r).
Proof.
  revert s d. induction n as [|n IH]; intros s d Z D H T; [discriminate|]. cbn [rounds] in *. pose proof (rel_step s d Z D) as R.
  destruct (step pl_intel c0 s) as [[a|a|w a]| | | |]; try discriminate; cbn [bind relc] in *.
  - destruct R as (b & -> & Za & d' & D' & ->). now apply IH.
  - assert (s_scan a = t) as A.
    { unfold finish in H. destruct (reduce_all _ _ _) as [[[e vs] rdx]| | | |]; try discriminate. cbn [bind] in H. destruct (isOK e); injection H; auto. }
    rewrite <- A in T. destruct (R T) as (d' & ->). exact H.
  - injection H as <- E <- <-. rewrite E in R. destruct (R eq_refl) as (d' & ->). cbn [bind with_eoe s_err s_scan s_radix]. now rewrite E.
Qed.
Lemma eval_same u rdx v t r : eval pl_intel c0 u rdx OK = Val (v, OK, t, r) -> peek (skipSpaces t) <> 46 ->
  eval pl_intel cd u rdx OK = Val (v, OK, t, r).
Proof.
  unfold eval, eval_fuel. cbv zeta. intros H T. destruct (rounds _ pl_intel c0 _) as [[[[v' e'] t'] r']| | | |] eqn:R; try discriminate. cbn [bind] in H.
  destruct (Nat.eqb (length t') (length (skipSpaces u))) eqn:L; [injection H as _ X _ _; destruct e'; discriminate|]. injection H as -> -> -> ->.
  change (start cd (skipSpaces u) rdx OK) with (with_eoe (start c0 (skipSpaces u) rdx OK) 46).
  rewrite (rounds_same (S (length u)) (start c0 (skipSpaces u) rdx OK) 46 v t r eq_refl (or_intror eq_refl) R T). cbn [bind]. now rewrite L.
Qed.
End Dot.
(* an operand without a dot after it *)
Lemma integer_same a loc u v t : a_pl a = pl_intel -> parseInteger a loc u OK 0 = Val (v, OK, t) -> peek (skipSpaces t) <> 46 -> parseInteger a loc u OK 46 = Val (v, OK, t).
Proof.
  intros PL H T. unfold parseInteger in *. rewrite PL in *. destruct (eval pl_intel _ u (a_radix a) OK) as [[[[v' e'] t'] r']| | | |] eqn:E; try discriminate. cbn [bind] in H.
  injection H as -> -> ->. now rewrite (eval_same _ _ _ _ _ _ _ _ E T).
Qed.

(* ---------------------------------------------------- a numeral and a dot *)
Section Twin.
Variable r : text.
Definition twin (x y : text) : Prop := (exists t, x = t ++ 46 :: r /\ y = t ++ 44 :: r) \/ (x = y /\ (length x <= length r)%nat).
Lemma twin_cases x y : twin x y -> (x = [] /\ y = []) \/ exists a b x' y', x = a :: x' /\ y = b :: y' /\ twin x' y' /\ (a = b \/ (a = 46 /\ b = 44)).
Proof.
  intros [(t & -> & ->)|[<- L]].
  - right. destruct t as [|c t]; cbn [app].
    + exists 46, 44, r, r. repeat split; [right; auto|now right].
    + exists c, c, (t ++ 46 :: r), (t ++ 44 :: r). repeat split; [left; eauto|now left].
  - destruct x as [|c x]; [now left|]. right. exists c, c, x, x. repeat split; [right; cbn in L; split; [reflexivity|lia]|now left].
Qed.
Lemma twin_peek {A} (p : Z -> A) x y : twin x y -> p 46 = p 44 -> p (peek x) = p (peek y).
Proof. intros T P. destruct (twin_cases x y T) as [(-> & ->)|(a & b & x' & y' & -> & -> & _ & [->|(-> & ->)])]; cbn [peek]; auto. Qed.
Lemma twin_peek1 {A} (p : Z -> A) x y : twin x y -> p 46 = p 44 -> p (peek_at 1 x) = p (peek_at 1 y).
Proof.
  intros T P. destruct (twin_cases x y T) as [(-> & ->)|(a & b & x' & y' & -> & -> & T' & _)]; [reflexivity|]. unfold peek_at. cbn [nth].
  destruct (twin_cases x' y' T') as [(-> & ->)|(c & d & x2 & y2 & -> & -> & _ & [->|(-> & ->)])]; cbn [nth]; auto.
Qed.
Definition twino (x y : option text) : Prop := match x, y with Some x, Some y => twin x y | None, None => True | _, _ => False end.
Lemma twin_trim p : p 46 = p 44 -> forall x y, twin x y -> twin (trimStart p x) (trimStart p y).
Proof.
  intros P x. induction x as [|c x IH]; intros y T; destruct (twin_cases _ _ T) as [(E & ->)|(a & b & x' & y' & E & -> & T' & C)]; try discriminate; [exact T|].
  injection E as <- <-. cbn [trimStart]. replace (p b) with (p c) by (destruct C as [->|(-> & ->)]; auto). destruct (p c); [now apply IH|exact T].
Qed.
Lemma twin_iexpect c x y : twin x y -> to_upper c <> 46 -> to_upper c <> 44 -> twino (iexpect c x) (iexpect c y).
Proof.
  intros T N1 N2. destruct (twin_cases x y T) as [(-> & ->)|(a & b & x' & y' & -> & -> & T' & C)]; [exact Logic.I|]. cbn [iexpect].
  destruct C as [->|(-> & ->)]; [destruct (_ =? _); [exact T'|exact Logic.I]|].
  change (to_upper 46) with 46. change (to_upper 44) with 44. replace (46 =? to_upper c) with false by lia. replace (44 =? to_upper c) with false by lia. exact Logic.I.
Qed.
Lemma twin_expect c x y : twin x y -> c <> 46 -> c <> 44 -> twino (expect_char c x) (expect_char c y).
Proof.
  intros T N1 N2. destruct (twin_cases x y T) as [(-> & ->)|(a & b & x' & y' & -> & -> & T' & C)]; [exact Logic.I|]. cbn [expect_char].
  destruct C as [->|(-> & ->)]; [destruct (_ =? _); [exact T'|exact Logic.I]|].
  replace (46 =? c) with false by lia. replace (44 =? c) with false by lia. exact Logic.I.
Qed.
Lemma twin_text w : Forall (fun c => to_lower c <> 46 /\ to_lower c <> 44) w -> forall x y, twin x y -> twino (iexpectText w x) (iexpectText w y).
Proof.
  induction 1 as [|c w (N1 & N2) F IH]; intros x y T; cbn [iexpectText]; [exact T|].
  destruct (twin_cases x y T) as [(-> & ->)|(a & b & x' & y' & -> & -> & T' & C)]; [exact Logic.I|].
  destruct C as [->|(-> & ->)]; [destruct (_ =? _); [now apply IH|exact Logic.I]|].
  change (to_lower 46) with 46. change (to_lower 44) with 44. replace (to_lower c =? 46) with false by lia. replace (to_lower c =? 44) with false by lia. exact Logic.I.
Qed.
Lemma digit_rx q : is_digit_r q 46 = is_digit_r q 44.
Proof. unfold is_digit_r. destruct (q =? RADIX_16); reflexivity. Qed.
Lemma twin_scan q suf x y : twin x y -> suf <> 0 -> to_upper suf <> 46 -> to_upper suf <> 44 -> twino (scanNumberEnd x q suf) (scanNumberEnd y q suf).
Proof.
  intros T N0 N1 N2. unfold scanNumberEnd. cbv zeta.
  assert (CB : (match expect_char 48 x with Some p => match iexpect 66 p with Some z => is_binary (peek z) | None => false end | None => false end) =
               (match expect_char 48 y with Some p => match iexpect 66 p with Some z => is_binary (peek z) | None => false end | None => false end)).
  { pose proof (twin_expect 48 x y T ltac:(lia) ltac:(lia)) as E. destruct (expect_char 48 x) as [x'|], (expect_char 48 y) as [y'|]; try contradiction; [|reflexivity]. cbn [twino] in E.
    pose proof (twin_iexpect 66 x' y' E ltac:(discriminate) ltac:(discriminate)) as E'. destruct (iexpect 66 x') as [x2|], (iexpect 66 y') as [y2|]; try contradiction; [|reflexivity].
    apply twin_peek; [exact E'|reflexivity]. }
  rewrite CB. clear CB. destruct (_ && _); [exact Logic.I|].
  rewrite (twin_peek (is_digit_r q) x y T (digit_rx q)), (twin_peek (is_digit_r RADIX_10) x y T (digit_rx _)).
  destruct (is_digit_r q (peek y)); [|exact Logic.I]. destruct (_ && _); [exact Logic.I|]. replace (suf =? 0) with false by lia.
  apply twin_iexpect; auto. apply twin_trim; [apply digit_rx|exact T].
Qed.
Definition twin3 {A} (x y : err * A * text) : Prop := fst x = fst y /\ twin (snd x) (snd y).
Lemma valid_x q : isValidDigit 46 q = isValidDigit 44 q. Proof. unfold isValidDigit. destruct (q =? RADIX_16); reflexivity. Qed.
Lemma valid_no q : isValidDigit 46 q = false. Proof. unfold isValidDigit. destruct (q =? RADIX_16); reflexivity. Qed.
Lemma twin_loop q x : forall y v e, twin x y -> twin3 (digits_loop q x v e) (digits_loop q y v e).
Proof.
  induction x as [|c x IH]; intros y v e T; destruct (twin_cases _ _ T) as [(E & ->)|(a & b & x' & y' & E & -> & T' & C)]; try discriminate; [split; [reflexivity|exact T]|].
  injection E as <- <-. cbn [digits_loop]. destruct C as [->|(-> & ->)].
  - destruct (isValidDigit b q); [apply IH, T'|split; [reflexivity|exact T]].
  - rewrite <- valid_x, valid_no. split; [reflexivity|exact T].
Qed.
Lemma twin_vread q x y : twin x y -> twin3 (v_read x q) (v_read y q).
Proof.
  intros T. unfold v_read, read_digits. rewrite (twin_peek (fun c => isValidDigit c q) x y T (valid_x q)).
  destruct (isValidDigit (peek y) q).
  - pose proof (twin_loop q x y 0 OK T) as (E & T'). destruct (digits_loop q x 0 OK) as [[e v] x'], (digits_loop q y 0 OK) as [[e' v'] y']. cbn [fst snd] in *.
    injection E as <- <-. split; [reflexivity|exact T'].
  - split; [reflexivity|exact T].
Qed.
Lemma twin_number x y dr : twin x y -> twin3 (np_intel x dr) (np_intel y dr).
Proof.
  intros T. unfold np_intel.
  assert (S : fst (intel_suffix x) = fst (intel_suffix y) /\ twin (snd (intel_suffix x)) (snd (intel_suffix y))).
  { unfold intel_suffix.
    repeat match goal with |- context [scanNumberEnd x ?q ?f] =>
      let E := fresh in pose proof (twin_scan q f x y T ltac:(discriminate) ltac:(discriminate) ltac:(discriminate)) as E;
      destruct (scanNumberEnd x q f) as [?|], (scanNumberEnd y q f) as [?|]; try contradiction; [split; [reflexivity|exact E]|] end.
    split; [reflexivity|exact T]. }
  destruct (intel_suffix x) as [qx ex], (intel_suffix y) as [qy ey]. cbn [fst snd] in S. destruct S as (<- & TE).
  destruct (qx =? RADIX_NONE).
  - unfold np_cstyle.
    assert (S : fst (cstyle_prefix x dr) = fst (cstyle_prefix y dr) /\ twin (snd (cstyle_prefix x dr)) (snd (cstyle_prefix y dr))).
    { unfold cstyle_prefix.
      pose proof (twin_text (s2l "0x") ltac:(repeat constructor; discriminate) x y T) as E1.
      destruct (iexpectText (s2l "0x") x) as [?|], (iexpectText (s2l "0x") y) as [?|]; try contradiction; [split; [reflexivity|exact E1]|].
      pose proof (twin_text (s2l "0b") ltac:(repeat constructor; discriminate) x y T) as E2.
      destruct (iexpectText (s2l "0b") x) as [?|], (iexpectText (s2l "0b") y) as [?|]; try contradiction; [split; [reflexivity|exact E2]|].
      rewrite (twin_peek (fun c => c =? 48) x y T eq_refl), (twin_peek1 is_octal x y T eq_refl), (twin_peek (is_digit_r dr) x y T (digit_rx dr)).
      destruct (_ && _); [split; [reflexivity|exact T]|]. destruct (is_digit_r dr (peek y)); (split; [reflexivity|exact T]). }
    destruct (cstyle_prefix x dr) as [px x'], (cstyle_prefix y dr) as [py y']. cbn [fst snd] in S. destruct S as (<- & TP).
    destruct (px =? RADIX_NONE); [split; [reflexivity|exact T]|]. unfold read_from. pose proof (twin_vread px x' y' TP) as (E & T').
    destruct (v_read x' px) as [[e v] x2], (v_read y' px) as [[e' v'] y2]. cbn [fst snd] in *. injection E as <- <-.
    destruct (err_eqb e NOT_AN_EXPECTED); (split; [reflexivity|assumption]).
  - unfold intel_read. pose proof (twin_vread qx x y T) as (E & T').
    destruct (v_read x qx) as [[e v] x2], (v_read y qx) as [[e' v'] y2]. cbn [fst snd] in *. injection E as <- <-.
    destruct (err_eqb e NOT_AN_EXPECTED); (split; [reflexivity|assumption]).
Qed.
End Twin.
Lemma numeral_dot t v r : numeral np_intel t v -> np_intel (t ++ 46 :: r) 10 = (OK, mkV V_UNSIGNED v, 46 :: r).
Proof.
  intros N. specialize (N (44 :: r) ltac:(cbn; repeat split; discriminate)).
  pose proof (twin_number r (t ++ 46 :: r) (t ++ 44 :: r) 10 (or_introl (ex_intro _ t (conj eq_refl eq_refl)))) as (E & T). rewrite N in *.
  destruct (np_intel (t ++ 46 :: r) 10) as [p x]. cbn [fst snd] in *. subst p. f_equal. destruct T as [(q & -> & E)|[-> L]].
  - destruct q as [|c q]; [reflexivity|]. exfalso. cbn [app] in E. injection E as _ E. apply (f_equal (@length Z)) in E. rewrite app_length in E. cbn [length] in E. lia.
  - cbn [length] in L. lia.
Qed.
(* the numeral, then the dot that ends it *)
Lemma parse_dot a loc b0 t v r : a_pl a = pl_intel -> a_radix a = 10 -> numeral np_intel t v -> blanks b0 ->
  parseInteger a loc (b0 ++ t ++ 46 :: r) OK 46 = Val (mkV V_UNSIGNED v, OK, 46 :: r).
Proof.
  intros PL RX N B. unfold parseInteger. rewrite PL, RX. unfold eval, eval_fuel. cbv zeta.
  assert (DG : is_digit (peek t) = true). { specialize (N [] Logic.I). rewrite app_nil_r in N. eapply intel_head; [exact N|discriminate]. }
  assert (exists c q, t = c :: q /\ is_digit c = true) as (c & q & -> & DC) by (destruct t as [|c q]; [discriminate|eauto]). clear DG.
  pose proof (numeral_dot (c :: q) v r N) as ND. cbn [app] in *.
  assert (SK : skipSpaces (b0 ++ c :: q ++ 46 :: r) = c :: q ++ 46 :: r).
  { rewrite skip_blanks by exact B. apply skip_none. unfold is_digit, is_space in *. lia. }
  rewrite SK. set (u := q ++ 46 :: r) in *. set (cx := mkC loc (a_symbol a) (a_function a) 46).
  assert (S1 : step pl_intel cx (start cx (c :: u) 10 OK) = Val (Next (mkSt (46 :: r) [mkV V_UNSIGNED v] [] 46 0 false false 0 10 OK))).
  { unfold step. cbn [start s_scan]. rewrite skip_none by (unfold is_digit, is_space in *; lia).
    change (p_eol pl_intel) with eol_semicolon. unfold eol_semicolon. cbv zeta. rewrite skip_none by (unfold is_digit, is_space in *; lia). cbn [peek].
    replace (c =? 0) with false by (unfold is_digit in DC; lia). replace (c =? 59) with false by (unfold is_digit in DC; lia). cbn [orb].
    unfold set_scan, start. cbn [s_scan s_eoe s_vs s_prefix s_os s_paren s_fnargs s_infn s_radix s_err negb]. rewrite andb_false_r.
    change (p_prefix pl_intel) with (pure_prefix readPrefix_intel). unfold pure_prefix.
    assert (RP : readPrefix_intel (c :: u) = None).
    { destruct (num_head (mkFam pl_intel prefix_intel infix_intel []) (c :: u)) as (h & z & [= <- <-] & F & _); [cbn; tauto|left; exact DC|]. exact F. }
    rewrite RP. cbn [bind set_stacks s_os]. cbv zeta. cbn [set_stacks s_err hasError]. change (hasError OK) with false. cbv iota.
    unfold do_operand. cbn [s_scan set_stacks s_radix]. unfold parseConstant.
    destruct (num_letter (mkFam pl_intel prefix_intel infix_intel []) (c :: q) (46 :: r)) as (l & p & L); [cbn; tauto|left; exact DC|]. cbn [fam_pl app] in L. fold u in L. rewrite L.
    change (isOK NOT_AN_EXPECTED) with false. change (err_eqb NOT_AN_EXPECTED NOT_AN_EXPECTED) with true. cbn [negb].
    change (p_number pl_intel) with np_intel. rewrite ND. change (isFloatNumber (46 :: r) OK (c_delim cx)) with false. reflexivity. }
  cbn [length rounds]. rewrite S1. cbn [bind].
  assert (exists n, length u = S n) as (n & LU) by (unfold u; rewrite app_length; cbn [length]; exists (length q + length r)%nat; lia).
  assert (LB : exists k, length (b0 ++ c :: u) = S (S k)) by (rewrite app_length; cbn [length]; rewrite LU; exists (length b0 + n)%nat; lia).
  destruct LB as (k & ->). cbn [rounds].
  assert (S2 : step pl_intel cx (mkSt (46 :: r) [mkV V_UNSIGNED v] [] 46 0 false false 0 10 OK) = Val (Break (mkSt (46 :: r) [mkV V_UNSIGNED v] [] 46 0 false false 0 10 OK))) by reflexivity.
  rewrite S2. cbn [bind]. unfold finish. cbn [s_os s_vs s_radix reduce_all bind s_err s_scan]. change (isOK OK) with true. cbv iota. cbn [bind].
  replace (Nat.eqb (length (46 :: r)) (S (length u))) with false; [reflexivity|]. symmetry. apply Nat.eqb_neq. unfold u. rewrite app_length. cbn [length]. lia.
Qed.
