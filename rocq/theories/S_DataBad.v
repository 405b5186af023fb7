(** Lists of data one item of which is reported. *)
From Coq Require Import String ZArith List Bool.
From Verif Require Import M_Char M_Error M_Value M_Text M_Parsers M_Expr M_Directive S_ExprTree S_Directive.
Import ListNotations.
Local Open Scope list_scope.
Local Open Scope Z_scope.

(* the text is a list of data, in which the evaluation of an expression reports an error; before it
   there are only items without errors, after it there may be anything *)
Inductive bad_data (f : family) (a : asm) (loc : Z) (str : bool) : text -> Prop :=
| BD_here e b s : blanks b -> is_space (peek s) = false -> ~ In (peek s) [34; 39] -> ~ In (peek_at 1 s) [34; 39] ->
    (forall i, operand_error a (mkDS loc s i) e) -> bad_data f a loc str (b ++ s)
| BD_more i b s rest : blanks b -> item_text f (mkC loc (a_symbol a) (a_function a) 0) str i s (44 :: rest) ->
    bad_data f a loc str rest -> bad_data f a loc str (b ++ s).
