(** The theorems of C18 in the form stated, and a worked example. *)
From Coq Require Import ZArith Lia ZifyBool String List Bool.
From Verif Require Import M_Char M_Error M_Value M_Text M_Number M_Operators M_Parsers M_Expr S_Expr S_ExprTree P_Suffix P_Expr P_ExprRead P_ExprOperand P_ExprTree.
Import ListNotations.
Open Scope string_scope.
Open Scope list_scope.
Local Open Scope Z_scope.

Lemma C18_exact f cx e b0 s rest :
  In f tree_families -> quiet cx -> blanks b0 ->
  derives f cx e s rest -> well_nested e -> ends cx rest ->
  value_slots e <= 8 -> operator_slots e <= 8 ->
  match value_of e with
  | Val (OK, v) => exists b, blanks b /\ eval (fam_pl f) cx (b0 ++ s) 10 OK = Val (v, OK, b ++ rest, 10)
  | Val (x, _) => exists t, eval (fam_pl f) cx (b0 ++ s) 10 OK = Val (v_undef, x, t, 10)
  | UB => eval (fam_pl f) cx (b0 ++ s) 10 OK = UB
  | OOB => eval (fam_pl f) cx (b0 ++ s) 10 OK = OOB
  | FLOAT => eval (fam_pl f) cx (b0 ++ s) 10 OK = FLOAT
  | FUEL => eval (fam_pl f) cx (b0 ++ s) 10 OK = FUEL
  end.
Proof.
  intros I Q B D W E V O. destruct (tree_eval f cx e b0 s rest I Q D W E B) as [(t & _ & X)|H]; [lia|exact H].
Qed.
(* the same with the answers grouped *)
Lemma C18_cases f cx e b0 s rest :
  In f tree_families -> quiet cx -> blanks b0 ->
  derives f cx e s rest -> well_nested e -> ends cx rest ->
  value_slots e <= 8 -> operator_slots e <= 8 ->
  (exists v b, value_of e = Val (OK, v) /\ blanks b /\ eval (fam_pl f) cx (b0 ++ s) 10 OK = Val (v, OK, b ++ rest, 10)) \/
  (exists x v t, isOK x = false /\ value_of e = Val (x, v) /\ eval (fam_pl f) cx (b0 ++ s) 10 OK = Val (v_undef, x, t, 10)) \/
  (novalue (value_of e) /\ eval (fam_pl f) cx (b0 ++ s) 10 OK = relabel (value_of e)).
Proof.
  intros I Q B D W E V O. pose proof (C18_exact f cx e b0 s rest I Q B D W E V O) as X.
  destruct (val_cases (value_of e)) as [[v EV]|[_ [(x & v & K & EV)|EV]]].
  - left. rewrite EV in X. destruct X as (b & Bb & X). exists v, b. auto.
  - right. left. rewrite EV in X. assert (exists t, eval (fam_pl f) cx (b0 ++ s) 10 OK = Val (v_undef, x, t, 10)) as [t Y] by (destruct x; (discriminate K || exact X)).
    exists x, v, t. auto.
  - right. right. split; [exact EV|]. destruct (value_of e); [contradiction| | | |]; exact X.
Qed.
Lemma ends_head cx rest b : quiet cx -> ends cx rest -> blanks b -> skipSpaces (b ++ rest) = rest.
Proof.
  intros Q E B. rewrite (skip_blanks b rest B). destruct rest as [|c t]; [reflexivity|].
  unfold skipSpaces. cbn [trimStart]. replace (is_space c) with false; [reflexivity|]. unfold quiet in Q. cbn in Q, E. unfold is_space. lia.
Qed.
Lemma C18_sound f cx e b0 s rest v t r :
  In f tree_families -> quiet cx -> blanks b0 ->
  derives f cx e s rest -> well_nested e -> ends cx rest ->
  eval (fam_pl f) cx (b0 ++ s) 10 OK = Val (v, OK, t, r) ->
  value_of e = Val (OK, v) /\ skipSpaces t = rest /\ r = 10.
Proof.
  intros I Q B D W E H. destruct (tree_eval f cx e b0 s rest I Q D W E B) as [(t' & X & _)|X]; [congruence|].
  destruct (value_of e) as [[x w]| | | |]; try congruence. destruct (isOK x) eqn:K.
  - apply isOK_eq in K. subst x. destruct X as (b & Bb & X). rewrite H in X. injection X as -> -> ->. split; [reflexivity|]. split; [|reflexivity]. now apply (ends_head cx).
  - assert (exists t, eval (fam_pl f) cx (b0 ++ s) 10 OK = Val (v_undef, x, t, 10)) as [t' Y] by (destruct x; (discriminate K || exact X)).
    rewrite H in Y. injection Y as _ <- _ _. discriminate K.
Qed.
Lemma C18_unique f cx e1 e2 s rest1 rest2 :
  In f tree_families -> quiet cx ->
  derives f cx e1 s rest1 -> well_nested e1 -> ends cx rest1 -> value_slots e1 <= 8 -> operator_slots e1 <= 8 ->
  derives f cx e2 s rest2 -> well_nested e2 -> ends cx rest2 -> value_slots e2 <= 8 -> operator_slots e2 <= 8 ->
  match value_of e1 with
  | Val (OK, v) => value_of e2 = Val (OK, v) /\ rest1 = rest2
  | Val (e, _) => exists v', value_of e2 = Val (e, v')
  | r => value_of e2 = r
  end.
Proof.
  intros I Q D1 W1 E1 V1 O1 D2 W2 E2 V2 O2.
  destruct (C18_cases f cx e1 [] s rest1 I Q (Forall_nil _) D1 W1 E1 V1 O1) as [(v1 & b1 & X1 & B1 & H1)|[(x1 & v1 & t1 & K1 & X1 & H1)|[X1 H1]]];
  destruct (C18_cases f cx e2 [] s rest2 I Q (Forall_nil _) D2 W2 E2 V2 O2) as [(v2 & b2 & X2 & B2 & H2)|[(x2 & v2 & t2 & K2 & X2 & H2)|[X2 H2]]];
  rewrite H1 in H2; clear H1; try rewrite X1; try rewrite X2; try (destruct (value_of e1); (contradiction || discriminate)); try (destruct (value_of e2); (contradiction || discriminate)).
  - injection H2 as -> K. split; [reflexivity|]. rewrite <- (ends_head cx rest1 b1 Q E1 B1), K. now apply (ends_head cx).
  - injection H2 as _ <- _. discriminate K2.
  - injection H2 as _ -> _. discriminate K1.
  - injection H2 as -> _. destruct x2; (discriminate K2 || now exists v2).
  - destruct (value_of e1), (value_of e2); try contradiction; (reflexivity || discriminate).
Qed.

(* ------------------------------------------------------------ a case *)
(* 10 - 2 * ( MASK - 3 ) - $ in Intel syntax *)
Definition empty_ctx := mkC 0 (fun _ => None) (fun _ => None) 0.
Definition ex_cx := mkC 0x100 (fun n => if iequals n (s2l "MASK") then Some (setUnsigned 5) else None) (fun _ => None) 0.
Definition ex_fam := mkFam pl_intel prefix_intel infix_intel [].
Definition ex_minus := ent "-" 6 LEFT subtract.
Definition ex_times := ent "*" 5 LEFT multiply.
Definition ex_tree :=
  Bin ex_minus
    (Bin ex_minus (Num (s2l "10") (setUnsigned 10))
      (Bin ex_times (Num (s2l "2") (setUnsigned 2)) (Par (Bin ex_minus (Sym (s2l "MASK") (setUnsigned 5)) (Num (s2l "3") (setUnsigned 3))))))
    (Here (setUnsigned 0x100)).
Lemma ex_end (P : text -> Prop) : P [] ->
  (forall r, P (32 :: r)) -> (forall r, P (9 :: r)) -> (forall r, P (10 :: r)) -> (forall r, P (11 :: r)) -> (forall r, P (12 :: r)) -> (forall r, P (13 :: r)) ->
  (forall c r, In c (s2l "+-*/%<>=!&|^#(),;]") -> P (c :: r)) -> forall r, token_end r -> P r.
Proof.
  intros P0 P1 P2 P3 P4 P5 P6 PC [|c r] T; [exact P0|]. destruct T as [T|T]; [|now apply PC].
  unfold is_space in T. assert (c = 32 \/ c = 9 \/ c = 10 \/ c = 11 \/ c = 12 \/ c = 13) as K by lia.
  destruct K as [->|[->|[->|[->|[->| ->]]]]]; auto.
Qed.
Lemma ex_num t v : In (t, v) [(s2l "10", setUnsigned 10); (s2l "2", setUnsigned 2); (s2l "3", setUnsigned 3)] ->
  forall r, token_end r -> p_number pl_intel (t ++ r) 10 = (OK, v, r).
Proof.
  intros I r T. pattern r. revert r T. cbn in I. destruct I as [[= <- <-]|[[= <- <-]|[[= <- <-]|[]]]];
  (apply ex_end; [reflexivity|reflexivity|reflexivity|reflexivity|reflexivity|reflexivity|reflexivity|]);
  intros c r C; cbn in C; repeat (destruct C as [<-|C]; [reflexivity|]); destruct C.
Qed.
Lemma ex_sep tok rest : In tok [s2l "-"; s2l "*"] -> is_alnum (peek rest) = true \/ In (peek rest) [32; 40; 36] -> separate infix_intel tok rest.
Proof.
  intros K N. split.
  - intros d D L [r E]. assert (exists a b, tok ++ rest = a :: b :: tl rest /\ (a = 45 \/ a = 42) /\ b = peek rest) as (a & b & E' & A & B).
    { destruct rest as [|b rest]; [cbn in N; lia|]. cbn in K. destruct K as [<-|[<-|[]]]; cbn; eauto 10. }
    rewrite E' in E. assert ((1 < length (d_text d))%nat) as L1 by (cbn in K; destruct K as [<-|[<-|[]]]; exact L).
    cbn in D. repeat (destruct D as [<-|D]; [cbn in L1, E; try lia; injection E as E1 E2; lia|]). destruct D.
  - cbn in K. destruct K as [<-|[<-|[]]]; cbn; discriminate.
Qed.
Lemma C18_example :
  In ex_fam tree_families /\ quiet ex_cx /\
  derives ex_fam ex_cx ex_tree (s2l "10 - 2*( MASK-3) -$ ; rest") (s2l "; rest") /\
  well_nested ex_tree /\ ends ex_cx (s2l "; rest") /\ value_slots ex_tree <= 8 /\ operator_slots ex_tree <= 8 /\
  value_of ex_tree = Val (OK, setInteger (-250)) /\
  eval pl_intel ex_cx (s2l "10 - 2*( MASK-3) -$ ; rest") 10 OK = Val (setInteger (-250), OK, s2l "; rest", 10).
Proof.
  assert (blanks [32]) as B1 by (constructor; [reflexivity|constructor]). assert (blanks []) as B0 by constructor.
  split; [cbn; tauto|]. split; [cbn; tauto|]. split.
  - unfold ex_tree.
    apply (D_bin ex_fam ex_cx ex_minus (s2l "-") [] _ _ _ (s2l "$ ; rest")); [cbn; tauto|now left|exact B0|apply ex_sep; cbn; tauto| |].
    + apply (D_bin ex_fam ex_cx ex_minus (s2l "-") [32] _ _ _ (s2l "2*( MASK-3) -$ ; rest")); [cbn; tauto|now left|exact B1|apply ex_sep; cbn; tauto| |].
      * apply (D_num ex_fam ex_cx (s2l "10") _ [32]); [now left|apply ex_num; cbn; tauto|exact B1|now left].
      * apply (D_bin ex_fam ex_cx ex_times (s2l "*") [] _ _ _ (s2l "( MASK-3) -$ ; rest")); [cbn; tauto|now left|exact B0|apply ex_sep; cbn; tauto| |].
        -- apply (D_num ex_fam ex_cx (s2l "2") _ []); [now left|apply ex_num; cbn; tauto|exact B0|right; cbn; tauto].
        -- apply (D_par ex_fam ex_cx [32] [32] _ (s2l "MASK-3) -$ ; rest")); [exact B1|exact B1|].
           apply (D_bin ex_fam ex_cx ex_minus (s2l "-") [] _ _ _ (s2l "3) -$ ; rest")); [cbn; tauto|now left|exact B0|apply ex_sep; cbn; tauto| |].
           ++ apply (D_sym ex_fam ex_cx (s2l "MASK") _ []); [cbn; auto| |reflexivity|reflexivity|reflexivity|reflexivity|exact B0|right; cbn; tauto].
              intros [(d & D & E & _)|K]; [|cbn in K; intuition discriminate].
              cbn in D. repeat (destruct D as [<-|D]; [discriminate E|]). destruct D.
           ++ apply (D_num ex_fam ex_cx (s2l "3") _ []); [now left|apply ex_num; cbn; tauto|exact B0|right; cbn; tauto].
    + apply (D_here ex_fam ex_cx 36 [32]); [cbn; tauto|exact B1|now left].
  - split; [cbn; intuition (try lia; auto)|]. split; [cbn; tauto|]. split; [cbn; lia|]. split; [cbn; lia|].
    split; vm_compute; reflexivity.
Qed.
