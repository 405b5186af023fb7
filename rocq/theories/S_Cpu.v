(** Vocabulary for the statements about one processor's assembler and disassembler. *)
From Coq Require Import ZArith List Bool.
From Verif Require Import M_Char M_Error M_Value M_Text M_Insn M_Operators M_Expr M_Directive S_Value S_ExprTree.
Import ListNotations.
Local Open Scope Z_scope.

(* memory is a sequence of bytes *)
Definition bytes_only (mem : list Z) : Prop := Forall (fun x => 0 <= x < 256) mem.
(* what may follow the operands of a line: nothing, or a comment *)
Definition line_end (rest : text) : Prop := rest = [] \/ exists u, rest = 59 :: u.
(* user functions end (see C12 about those that do not) *)
Definition ending_functions (function : text -> option functor) : Prop :=
  forall n g, function n = Some g -> forall s r, f_eval g s r <> FUEL.
(* the word at the start of a text *)
Definition leading_word (s : text) : text := fst (takeWhile (fun c => is_alnum c || (c =? 39)) s).
(* the text [s] is an expression (C18) of the integer value [v], followed by [rest]; it is one that
   the stacks of the parser can hold *)
Definition expression (F : family) (loc : Z) (symbol : text -> option value) (function : text -> option functor) (s rest : text) (v : value) : Prop :=
  exists e, derives F (mkC loc symbol function 0) e s rest /\ well_nested e /\ value_slots e <= 8 /\ operator_slots e <= 8 /\
    value_of e = Val (OK, v) /\ int_value v.
(* the same in a place where the letter [delim] ends it *)
Definition expression_until (delim : Z) (F : family) (loc : Z) (symbol : text -> option value) (function : text -> option functor) (s rest : text) (v : value) : Prop :=
  exists e, derives F (mkC loc symbol function delim) e s rest /\ well_nested e /\ value_slots e <= 8 /\ operator_slots e <= 8 /\
    value_of e = Val (OK, v) /\ int_value v.
