(** What user-defined functions mean. *)
From Coq Require Import ZArith List Bool.
From Verif Require Import M_Char M_Error M_Value M_Text M_Operators M_Parsers M_Expr M_Symbols S_Expr.
Import ListNotations.
Local Open Scope Z_scope.

(* [later s s']: the table [s'] is reached from [s] by further definitions, accepted or refused *)
Inductive later : store -> store -> Prop :=
| L_same s : later s s
| L_symbol s s1 v name variable e s2 : later s s1 -> internSymbol v name variable s1 = (e, s2) -> later s s2
| L_function s s1 name params body pl e s2 : later s s1 -> internFunction name params body pl s1 = (e, s2) -> later s s2.
(* the function [name] was defined, with these parameters, this body and in this syntax *)
Definition defined (name : text) (params : list text) (body : text) (pl : plugins) (s : store) : Prop :=
  exists s0 s1, internFunction name params body pl s0 = (OK, s1) /\ later s1 s.

(* the i-th parameter has the i-th value; other names are what they are outside *)
Fixpoint bound (params : list text) (vals : list value) (outer : text -> option value) (n : text) : option value :=
  match params, vals with
  | p :: ps, v :: vs => if list_eq_dec Z.eq_dec n p then Some v else bound ps vs outer n
  | _, _ => outer n
  end.

(* an expression sees the symbols [sym] and the functions of the table; calls nest [depth] deep
   before the outcome is [FUEL] *)
Definition caller (depth : nat) (s : store) (loc : Z) (sym : text -> option value) (delim : Z) : context :=
  mkC loc sym (user_function depth (st_functions s) loc sym delim) delim.
(* a value or an error, where the evaluator says so *)
Definition answer_of (r : res outcome) : res (err * value) :=
  match r with
  | Val (v, e, _, _) => Val (e, v)
  | UB => UB
  | OOB => OOB
  | FLOAT => FLOAT
  | FUEL => FUEL
  end.

(* [name] stands somewhere in the text *)
Definition mentioned (name t : text) : Prop := exists a b, t = a ++ name ++ b.
(* no function mentions itself, neither in its body nor through the functions its body mentions:
   there are ranks that fall from each function to the functions mentioned in its body *)
Definition ranked (s : store) (rank : text -> nat) : Prop :=
  forall name params body pl other, defined name params body pl s -> hasFunction other s = true ->
  mentioned other body -> (rank other < rank name)%nat.
(* every function was defined in one of the syntax combinations of the assemblers *)
Definition known_syntax (s : store) : Prop :=
  forall name params body pl, defined name params body pl s -> In pl all_families.

(* the operand of FUNCTION: parameters, each followed by a comma, then the body; in the body every
   comma comes after an opening parenthesis *)
Inductive function_line : list text -> text -> text -> Prop :=
| FL_body b body : Forall (fun c => is_space c = true) b -> is_space (peek body) = false ->
    (forall pre post, body = pre ++ 44 :: post -> In 40 pre) -> function_line [] body (b ++ body)
| FL_param b c p b' params body t : Forall (fun c => is_space c = true) b -> Forall (fun c => is_space c = true) b' ->
    is_alpha c = true \/ c = 95 -> forallb (fun c => is_alnum c || (c =? 95)) p = true ->
    function_line params body t -> function_line ((c :: p) :: params) body (b ++ (c :: p) ++ b' ++ 44 :: t).
