(** Texts of malformed expressions: an operand, or a parenthesis, is missing. *)
From Coq Require Import ZArith String List Bool.
From Verif Require Import M_Char M_Error M_Value M_Text M_Number M_Operators M_Parsers M_Expr S_Expr S_ExprTree.
Import ListNotations.
Open Scope string_scope.
Open Scope list_scope.
Local Open Scope Z_scope.

(* a numeral, a symbol, the location, or an expression in parentheses *)
Definition primary (e : expr) : Prop := match e with Un _ _ | Bin _ _ _ => False | _ => True end.

(* [lead f cx n m s rest]: the text [s] is the beginning of an expression, with [n] operators and
   [m] open parentheses, up to a place where an operand must follow; there, [rest] begins *)
Inductive lead (f : family) (cx : context) : nat -> nat -> text -> text -> Prop :=
| L_here s : lead f cx 0 0 s s
| L_prefix d tok b n m s rest :
    In d (fam_prefix f) -> spells tok d -> blanks b -> separate (fam_prefix f) tok (b ++ s) ->
    lead f cx n m s rest ->
    lead f cx (S n) m (tok ++ b ++ s) rest
| L_infix d tok bl e n m s0 s rest :
    In d (fam_infix f) -> spells tok d -> blanks bl -> separate (fam_infix f) tok (bl ++ s) ->
    primary e -> well_nested e -> derives f cx e s0 (tok ++ bl ++ s) ->
    lead f cx n m s rest ->
    lead f cx (S n) m s0 rest
| L_open b n m s rest :
    blanks b -> lead f cx n m s rest -> lead f cx n (S m) (40 :: b ++ s) rest.

(* no name that occurs in the text is the name of a function *)
Definition no_calls (f : family) (cx : context) (s : text) : Prop :=
  forall a n b, s = a ++ n ++ b -> p_function (fam_pl f) n = None /\ c_function cx n = None.
(* the words SHR and SHL do not occur in the text *)
Definition no_word_shifts (s : text) : Prop :=
  forall a b, s = a ++ b -> ~ In (map to_upper (first_word b)) [s2l "SHR"; s2l "SHL"].

(* what follows is the end of the expression, or a closing parenthesis *)
Definition no_operand_here (cx : context) (rest : text) : Prop := ends cx rest \/ peek rest = 41.

(* the text begins with a complete application of a non-associative operator [d1], and another
   operator [d2] of the same level follows it, as in [1 = 2 = 3] *)
Inductive chain (f : family) (cx : context) : text -> Prop :=
| Chain d1 d2 a b tok bl s0 s :
    In d2 (fam_infix f) -> spells tok d2 -> blanks bl -> separate (fam_infix f) tok (bl ++ s) ->
    d_assoc d1 = NONE -> d_level d2 = d_level d1 -> well_nested (Bin d1 a b) ->
    derives f cx (Bin d1 a b) s0 (tok ++ bl ++ s) ->
    chain f cx s0.
