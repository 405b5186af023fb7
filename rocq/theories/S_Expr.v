(** Specification vocabulary for expression evaluation. *)
From Coq Require Import ZArith String List Bool.
From Verif Require Import M_Char M_Error M_Value M_Text M_Number M_Operators M_Parsers M_Expr.
Import ListNotations.
Local Open Scope Z_scope.

(* the expression syntaxes of the library: the five syntax families and the assemblers' own
   combinations, without the PDP-11 *)
Definition families : list plugins := [
  pl_default; pl_intel; pl_motorola; pl_texas; pl_zilog; pl_i8080; pl_i8086; pl_z80; pl_z8; pl_z8000;
  pl_mc68000; pl_mos6502; pl_cdp1802; pl_f3850; pl_ins8060; pl_ins8070; pl_mn1610; pl_ns32000; pl_pdp8;
  pl_scn2650; pl_tms32010].
Definition all_families : list plugins := families ++ [pl_pdp11].

(* the functions of a symbol table always come to an end *)
Definition total_functions (cx : context) : Prop :=
  forall n f, c_function cx n = Some f -> forall s r, f_eval f s r <> FUEL.
(* the functions of a symbol table keep the value stack within its slots: they take their
   arguments off it and leave one value or report an error *)
Definition safe_functor (f : functor) : Prop :=
  forall s r, (length s <= 8)%nat ->
    match f_eval f s r with
    | Val (e, s') => (length s' <= 8)%nat
    | OOB => False
    | _ => True
    end.
Definition safe_functions (cx : context) : Prop :=
  forall n f, c_function cx n = Some f -> safe_functor f.

(* the states the evaluation loop goes through on a text *)
Inductive reached (pl : plugins) (cx : context) (t : text) (rdx : Z) (e : err) : state -> Prop :=
| reached_start : reached pl cx t rdx e (start cx (skipSpaces t) rdx e)
| reached_next s s' : reached pl cx t rdx e s -> step pl cx s = Val (Next s') -> reached pl cx t rdx e s'.
