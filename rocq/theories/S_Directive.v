(** Specification vocabulary for the directives: operands, multiples, lists of data and their bytes. *)
From Coq Require Import ZArith String List Bool.
From Verif Require Import M_Char M_Error M_Value M_Text M_Insn M_Config M_Operators M_Parsers M_Expr M_Directive S_Value S_Insn S_Expr S_ExprTree.
Import ListNotations.
Open Scope string_scope.
Open Scope list_scope.
Local Open Scope Z_scope.

(* the operand of the line evaluates, without error, to the integer [n], and [p] is what follows *)
Definition operand (a : asm) (s : dstate) (n : Z) (p : text) : Prop :=
  exists v, parseExpr a s 0 = Val (v, OK, p) /\ int_value v /\ int_of v = n.
(* evaluating the operand reports [e] *)
Definition operand_error (a : asm) (s : dstate) (e : err) : Prop :=
  e <> OK /\ exists v p, parseExpr a s 0 = Val (v, e, p).

(* [m] is the least multiple of [n] that is not below [x] *)
Definition least_multiple (n x m : Z) : Prop :=
  (exists q, m = n * q) /\ x <= m /\ (forall q, x <= n * q -> m <= n * q).

(* ------------------------------------------------------------ data *)
(* a constant or the letters of a string *)
Inductive item := IConst (n : Z) | IStr (l : text).

(* the tree families other than the PDP-8, whose line ends are different *)
Definition data_families : list family := firstn 18 tree_families ++ skipn 19 tree_families.
(* how strings are written: letters that may precede the opening quote, and the quotes *)
Definition string_syntax : list (plugins * (text * list Z)) := [
  (pl_default, ([], [39])); (pl_intel, ([], [39])); (pl_motorola, ([], [39])); (pl_texas, ([], [39]));
  (pl_i8080, ([], [39])); (pl_i8086, ([], [39])); (pl_z80, ([], [39])); (pl_mc68000, ([], [39]));
  (pl_mos6502, ([], [39; 34])); (pl_cdp1802, (s2l "T", [39])); (pl_f3850, (s2l "C", [39]));
  (pl_ins8060, ([], [39])); (pl_ins8070, ([], [39])); (pl_mn1610, (s2l "C", [39]));
  (pl_scn2650, (s2l "A", [39])); (pl_tms32010, ([], [34]))].
(* a quote inside a string is written twice *)
Definition quoted (d : Z) (l : text) : text := d :: flat_map (fun c => if c =? d then [d; d] else [c]) l ++ [d].
Definition string_text (f : family) (l t : text) : Prop :=
  exists pre delims p d, In (fam_pl f, (pre, delims)) string_syntax /\ In d delims /\
    (p = [] \/ exists c, p = [c] /\ In (to_upper c) pre) /\ Forall (fun c => c <> 0) l /\ t = p ++ quoted d l.

(* [item_text f cx str i s rest]: the text [s] starts with the item [i] and goes on with [rest];
   [str]: strings are allowed *)
Inductive item_text (f : family) (cx : context) (str : bool) : item -> text -> text -> Prop :=
| IT_const e v s rest :
    derives f cx e s rest -> well_nested e -> value_slots e <= 8 -> operator_slots e <= 8 ->
    value_of e = Val (OK, v) -> int_value v ->
    ~ In (peek s) [34; 39] -> ~ In (peek_at 1 s) [34; 39] ->
    item_text f cx str (IConst (int_of v)) s rest
| IT_str l t b rest :
    str = true -> string_text f l t -> blanks b ->
    item_text f cx str (IStr l) (t ++ b ++ rest) rest.
Definition line_end (rest : text) : Prop := match rest with [] => True | c :: _ => c = 59 end.
(* items separated by commas, up to the end of the line or a comment *)
Inductive data_text (f : family) (cx : context) (str : bool) : list item -> text -> Prop :=
| DT_last i b s rest : blanks b -> item_text f cx str i s rest -> line_end rest -> data_text f cx str [i] (b ++ s)
| DT_more i l b s rest : blanks b -> item_text f cx str i s (44 :: rest) -> data_text f cx str l rest ->
    data_text f cx str (i :: l) (b ++ s).

(* the bytes of an item; a string is filled up with zeros to a whole number of elements, or of
   addresses *)
Definition pad_to (n : Z) (l : list Z) : list Z := l ++ repeat 0 (Z.to_nat ((- Z.of_nat (length l)) mod n)).
Definition string_align (unit : Z) (ty : dtype) : Z := match ty with DATA_WORD => 2 | DATA_LONG => 4 | _ => unit end.
Definition item_bytes (big : bool) (unit : Z) (ty : dtype) (i : item) : list Z :=
  match i with
  | IConst n =>
    match ty with
    | DATA_BYTE | DATA_BYTE_NO_STRING => data_bytes big S8 n
    | DATA_BYTE_OR_WORD => if (-128 <=? n) && (n <=? 255) then data_bytes big S8 n else data_bytes big S16 n
    | DATA_BYTE_IN_WORD => data_bytes big S16 (n mod 256)
    | DATA_WORD | DATA_WORD_NO_STRING => data_bytes big S16 n
    | DATA_LONG => data_bytes big S32 n
    | DATA_FLOAT32 | DATA_FLOAT64 => []
    end
  | IStr l => pad_to (string_align unit ty) (map (fun c => c mod 256) l)
  end.
Definition integer_type (ty : dtype) : bool := match ty with DATA_FLOAT32 | DATA_FLOAT64 => false | _ => true end.

(* where data or space starts: at the next even address when the directive aligns *)
Definition space_start (align : bool) (x : Z) : Z := if align && Z.odd x then x + 1 else x.
Definition data_start (align : bool) (s : dstate) : Z := space_start align (i_addr (ds_insn s)).
Definition data_loc (align : bool) (s : dstate) : Z := if align then data_start true s else ds_loc s.

(* strings between two equal letters, separated by commas *)
Definition delimiter (d : Z) : Prop := d <> 0 /\ is_space d = false.
Inductive delimited_text : list text -> text -> Prop :=
| DL_last b b' d l rest : blanks b -> blanks b' -> delimiter d -> Forall (fun c => c <> 0 /\ c <> d) l -> line_end rest ->
    delimited_text [l] (b ++ d :: l ++ d :: b' ++ rest)
| DL_more b b' d l ls rest : blanks b -> blanks b' -> delimiter d -> Forall (fun c => c <> 0 /\ c <> d) l -> delimited_text ls rest ->
    delimited_text (l :: ls) (b ++ d :: l ++ d :: b' ++ 44 :: rest).
