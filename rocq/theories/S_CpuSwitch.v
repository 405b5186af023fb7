(** What the statement CPU means. *)
From Coq Require Import ZArith List Bool.
From Verif Require Import M_Char M_Error M_Text M_Insn M_Config M_AsmDriver M_BinMemory.
Import ListNotations.
Local Open Scope Z_scope.

(* the first word of a text: up to a blank, a NUL or the end *)
Definition ends_word (c : Z) : bool := is_space c || (c =? 0).
Definition first_word (name operand : text) : Prop := exists rest, operand = name ++ rest /\
  forallb (fun c => negb (ends_word c)) name = true /\ match rest with [] => True | c :: _ => ends_word c = true end.
(* the [n]-th assembler is the first one to know the processor [name]; set to it, it is [o] *)
Definition first_to_know {O} (f : ops O) (name : text) (objs : list O) (n : nat) (o : O) : Prop :=
  (exists o0, nth_error objs n = Some o0 /\ op_setCpu f name o0 = Some o) /\
  forall m o1, (m < n)%nat -> nth_error objs m = Some o1 -> op_setCpu f name o1 = None.
Definition nobody_knows {O} (f : ops O) (name : text) (objs : list O) : Prop := forall o, In o objs -> op_setCpu f name o = None.
(* the assembler the next line goes to *)
Definition current {O} (d : drv O) : option O := nth_error (dr_objs d) (dr_cur d).
(* nothing is generated and the location stays *)
Definition no_code {O} (p p' : pass O) : Prop :=
  ps_memory p' = ps_memory p /\ ps_origin p' = ps_origin p /\
  exists t, ps_items p' = t :: ps_items p /\ it_bytes t = [].
