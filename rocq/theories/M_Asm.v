(** Model of the assembler's line interface: Assembler::encode of src/asm_base.cpp, for any
    processor.  The directives themselves are modelled in M_Directive.v, the processors'
    [encodeImpl] in their own files.
    Simplifications: where in the line an error is reported is not modelled (only the error code
    is); what the directives OPTION and those a processor handles itself do is not modelled. *)
From Coq Require Import String ZArith List Bool.
From Verif Require Import M_Char M_Error M_Value M_Text M_Insn M_Config M_Operators M_Parsers M_Expr M_Directive M_Table.
Import ListNotations.
Open Scope string_scope.
Open Scope list_scope.
Local Open Scope Z_scope.

(* asm_base.cpp:112-119 parseInteger: the error is added to [e]; floating point is outside the
   model (outcome FLOAT of [eval]) *)
Definition parseInteger (a : asm) (loc : Z) (scan : text) (e : err) (delim : Z) : res (value * err * text) :=
  bind (eval (a_pl a) (mkC loc (a_symbol a) (a_function a) delim) scan (a_radix a) e)
       (fun '(v, e, t, _) => Val (v, e, t)).

(* insn_base.h:123-126: the name buffer keeps 11 letters (str_buffer.cpp:46-54) *)
Definition MAX_NAME : nat := 11.
Definition insn_name (symbol : text) : text := firstn MAX_NAME symbol.

(* what a line is, and what it gives *)
Inductive line :=
| L_comment                                        (* nothing *)
| L_special (k : nat) (scan : text)                (* a directive of the processor itself *)
| L_directive (table k : nat) (scan : text)        (* entry [k] of the directive table [table] *)
| L_insn (i : insn) (scan : text).                 (* an instruction; [scan] is what is left *)

(* asm_base.cpp:105-110 processPseudo: search the tables in turn *)
Fixpoint pseudo_search (name : text) (tables : list name_table) (n : nat) : res (option (nat * nat)) :=
  match tables with
  | [] => Val None
  | t :: tables' =>
    bind (pseudoSearch row_name name t) (fun r =>
      match r with
      | Some k => Val (Some (n, k))
      | None => pseudo_search name tables' (S n)
      end)
  end.

(* asm_base.cpp:79-103 encode; [specials] are the names a processor's own processPseudo takes
   before, [impl] is its encodeImpl, given the instruction's name *)
Definition asm_encode (a : asm) (specials : list text) (tables : list name_table)
    (impl : text -> text -> insn -> res (insn * text)) (src : text) (i : insn) : res line :=
  let i := i_seterr OK i in
  let '(com, scan) := p_line (a_pl a) (skipSpaces src) in
  if com then Val L_comment
  else
    let '(symbol, scan) := match readInstruction (p_symbol (a_pl a)) scan with
                           | Some r => r
                           | None => ([], scan)
                           end in
    let name := insn_name symbol in
    let scan := skipSpaces scan in
    match linearSearch (fun w => strcasecmp name w =? 0) specials with
    | Some k => Val (L_special k scan)
    | None =>
      bind (pseudo_search name tables 0) (fun r =>
        match r with
        | Some (t, k) => Val (L_directive t k scan)
        | None =>
          let e := setErrorIfAt (i_err i) (checkAddr (a_aw a) (i_addr i) false) in
          if negb (isOK e) then Val (L_insn (i_seterr e i) scan)
          else bind (impl name scan i) (fun '(i, scan) => Val (L_insn i scan))
        end)
    end.
