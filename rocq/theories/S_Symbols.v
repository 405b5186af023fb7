(** What a symbol table must do, told from the history of definitions alone. *)
From Coq Require Import ZArith List Bool.
From Verif Require Import M_Char M_Error M_Value M_Text M_Symbols S_Value.
Import ListNotations.
Local Open Scope Z_scope.

(* a definition: a label or constant (false), or a variable (true) *)
Record def := mkDef { df_name : text; df_value : value; df_variable : bool }.
(* values between -2^31 and 2^32 - 1 *)
Definition fits32 (v : value) : Prop := - 2^31 <= int_of v <= 2^32 - 1.
(* a definition and the answer given *)
Definition event := (def * err)%type.
(* the history, the latest first *)
Definition history := list event.
Definition accepted (h : history) (d : def) : Prop := In (d, OK) h.
(* the answer a definition must get *)
Inductive answer (h : history) (d : def) : err -> Prop :=
| A_duplicate d' : accepted h d' -> df_name d' = df_name d -> df_variable d' <> df_variable d -> answer h d DUPLICATE_LABEL
| A_range : (forall d', accepted h d' -> df_name d' = df_name d -> df_variable d' = df_variable d) ->
    ~ fits32 (df_value d) -> answer h d OVERFLOW_RANGE
| A_ok : (forall d', accepted h d' -> df_name d' = df_name d -> df_variable d' = df_variable d) ->
    fits32 (df_value d) -> answer h d OK.
(* the latest accepted definition of a name *)
Inductive latest (name : text) : history -> option def -> Prop :=
| L_none : latest name [] None
| L_this d h : df_name d = name -> latest name ((d, OK) :: h) (Some d)
| L_other d e h r : df_name d <> name \/ e <> OK -> latest name h r -> latest name ((d, e) :: h) r.
(* making definitions one after the other, each noted with the answer the table gave *)
Definition define (d : def) (s : store) : err * store := internSymbol (df_value d) (df_name d) (df_variable d) s.
Fixpoint run (ds : list def) (s : store) (h : history) : store * history :=
  match ds with
  | [] => (s, h)
  | d :: ds => let '(e, s') := define d s in run ds s' ((d, e) :: h)
  end.
Definition int_defs (ds : list def) : Prop := Forall (fun d => int_value (df_value d)) ds.
(* answers of a history *)
Inductive answered : history -> Prop :=
| An_nil : answered []
| An_cons d e h : answer h d e -> answered h -> answered ((d, e) :: h).
