(** C11: the symbol table. *)
From Coq Require Import ZArith String List Bool.
From Verif Require Import M_Char M_Error M_Value M_Text M_Operators M_Parsers M_Expr M_Symbols S_Value S_ExprTree S_Symbols P_Symbols.
Import ListNotations.
Open Scope string_scope.
Open Scope list_scope.
Local Open Scope Z_scope.

(* ------------------------------------------------------------ C11 *)
(* [run ds s h] makes the definitions [ds] one after the other and notes each with its answer.
   Every definition of every history gets the answer the specification gives it. *)
Theorem C11_answers : forall ds s h, int_defs ds -> run ds empty_store [] = (s, h) -> map fst h = rev ds /\ answered h.
Proof.
  intros ds s h I R. destruct (run_follows ds _ _ _ _ I follows_empty An_nil R) as (_ & A & M & _).
  rewrite app_nil_r in M. auto.
Qed.
Print Assumptions C11_answers.
(* a lookup gives the value of the last accepted definition of exactly that name, whatever was
   defined in between under other names *)
Theorem C11_lookup : forall ds s h name r, int_defs ds -> run ds empty_store [] = (s, h) -> latest name h r ->
  lookupSymbol name s = option_map df_value r /\ hasSymbol name s = match r with Some _ => true | None => false end.
Proof.
  intros ds s h name r I R L. destruct (run_follows ds _ _ _ _ I follows_empty An_nil R) as (F & _).
  destruct F as (_ & _ & F & _). specialize (F name r L). split; [exact F|].
  revert F. unfold lookupSymbol, hasSymbol, hasValue, the_map.
  destruct (m_find name (st_symbols s)), (m_find name (st_variables s)), r; cbn; congruence.
Qed.
Print Assumptions C11_lookup.
(* every name has a last accepted definition or none *)
Theorem C11_lookup_total : forall name h, exists r, latest name h r.
Proof. exact latest_total. Qed.
Print Assumptions C11_lookup_total.
(* no name is a symbol and a variable *)
Theorem C11_disjoint : forall ds s h name, int_defs ds -> run ds empty_store [] = (s, h) ->
  hasValue name false s = true -> hasValue name true s = true -> False.
Proof.
  intros ds s h name I R. destruct (run_follows ds _ _ _ _ I follows_empty An_nil R) as (F & _).
  destruct F as (_ & _ & _ & F & _). specialize (F name). revert F. unfold hasValue, the_map.
  destruct (m_find name (st_symbols s)), (m_find name (st_variables s)); try discriminate. intros F _ _. apply F; discriminate.
Qed.
Print Assumptions C11_disjoint.
(* a definition changes no other name, whatever its answer, and nothing at all when refused *)
Theorem C11_others_kept : forall v name variable s e s' other, internSymbol v name variable s = (e, s') -> other <> name ->
  lookupSymbol other s' = lookupSymbol other s /\ st_functions s' = st_functions s /\ (e <> OK -> s' = s).
Proof.
  unfold internSymbol. intros v name variable s e s' other H N.
  destruct (hasValue name (negb variable) s); [injection H as <- <-; auto|].
  destruct (overflowUint32 v); [injection H as <- <-; auto|]. injection H as <- <-.
  assert (K : key_eqb other name = false) by (destruct (key_eqb_spec other name); congruence).
  destruct variable; unfold lookupSymbol; cbn [st_symbols st_variables st_functions]; rewrite find_set, K; split; auto; split; auto; congruence.
Qed.
Print Assumptions C11_others_kept.
(* the copy taken between two passes is the table itself *)
Theorem C11_copy : forall ds s h, int_defs ds -> run ds empty_store [] = (s, h) -> copy_store s = s.
Proof.
  intros ds s h I R. destruct (run_follows ds _ _ _ _ I follows_empty An_nil R) as (F & _ & _ & E).
  destruct F as (_ & _ & _ & _ & F1 & F2). unfold copy_store. rewrite (copy_same _ F1), (copy_same _ F2).
  destruct s as [a b c]. cbn in *. subst c. reflexivity.
Qed.
Print Assumptions C11_copy.
Definition ex_defs : list def :=
  [mkDef (s2l "x") (setUnsigned 5) false; mkDef (s2l "y") (setUnsigned 6) true; mkDef (s2l "x") (setUnsigned 7) true;
   mkDef (s2l "y") (setUnsigned 8) true; mkDef (s2l "x") (mkV V_UNSIGNED (2^32)) false; mkDef (s2l "X") (setUnsigned 9) true].
Example C11_case : exists s h, int_defs ex_defs /\ run ex_defs empty_store [] = (s, h) /\
  map snd h = [OK; OVERFLOW_RANGE; OK; DUPLICATE_LABEL; OK; OK] /\
  lookupSymbol (s2l "x") s = Some (setUnsigned 5) /\ lookupSymbol (s2l "y") s = Some (setUnsigned 8).
Proof.
  eexists. eexists. split; [repeat constructor; vm_compute; intuition discriminate|].
  split; [vm_compute; reflexivity|]. split; [reflexivity|]. split; vm_compute; reflexivity.
Qed.
