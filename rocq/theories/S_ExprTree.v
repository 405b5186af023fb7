(** The meaning of expressions, independently of the evaluator: operator tables of the syntax
    families, expression trees, the grammar that relates trees and texts, and the value of a tree. *)
From Coq Require Import ZArith String List Bool.
From Verif Require Import M_Char M_Error M_Value M_Text M_Number M_Operators M_Parsers M_Expr S_Expr.
Import ListNotations.
Open Scope string_scope.
Open Scope list_scope.
Local Open Scope Z_scope.

(* ------------------------------------------------------------ operator tables *)
(* spelling, level (a smaller level binds tighter), associativity, operation *)
Record opdoc := mkD { d_text : text; d_level : Z; d_assoc : assoc; d_fn : opfn }.
Definition ent (s : string) (l : Z) (a : assoc) (f : opfn) : opdoc := mkD (s2l s) l a f.

Definition prefix_c : list opdoc := [
  ent "~" 3 RIGHT bitwise_not; ent "!" 3 RIGHT logical_not;
  ent "-" 3 RIGHT unary_minus; ent "+" 3 RIGHT unary_plus].
Definition arith_c : list opdoc := [
  ent "*" 5 LEFT multiply; ent "%" 5 LEFT modulo; ent "+" 6 LEFT add_; ent "-" 6 LEFT subtract;
  ent "<<" 7 LEFT logical_shift_left; ent ">>" 7 LEFT arithmetic_shift_right;
  ent "<" 9 NONE less_than; ent "<=" 9 NONE less_than_or_equal;
  ent ">=" 9 NONE greater_than_or_equal; ent ">" 9 NONE greater_than;
  ent "&" 11 LEFT bitwise_and; ent "^" 12 LEFT bitwise_xor; ent "|" 13 LEFT bitwise_or;
  ent "||" 15 LEFT logical_or].
Definition div_c := ent "/" 5 LEFT divide.
Definition eq_c := ent "==" 10 NONE logical_equal.
Definition ne_c := ent "!=" 10 NONE logical_not_equal.
Definition and_c := ent "&&" 14 LEFT logical_and.
(* as in C, without the conditional and the assignments; comparisons do not chain *)
Definition infix_c : list opdoc := arith_c ++ [div_c; eq_c; ne_c; and_c].

Definition prefix_intel : list opdoc := [
  ent "~" 3 RIGHT bitwise_not; ent "!" 3 RIGHT logical_not;
  ent "HIGH" 3 RIGHT most_significant_byte; ent "LOW" 3 RIGHT least_significant_byte;
  ent "MSW" 3 RIGHT most_significant_word; ent "LSW" 3 RIGHT least_significant_word;
  ent "-" 6 RIGHT unary_minus; ent "+" 6 RIGHT unary_plus; ent "NOT" 10 RIGHT bitwise_not].
Definition infix_intel : list opdoc := infix_c ++ [
  ent "MOD" 5 LEFT modulo; ent "SHR" 5 LEFT logical_shift_right_16bit; ent "SHL" 5 LEFT logical_shift_left_16bit;
  ent "EQ" 9 NONE logical_equal; ent "NE" 9 NONE logical_not_equal; ent "LT" 9 NONE less_than;
  ent "LE" 9 NONE less_than_or_equal; ent "GE" 9 NONE greater_than_or_equal; ent "GT" 9 NONE greater_than;
  ent "AND" 11 LEFT bitwise_and; ent "OR" 12 LEFT bitwise_or; ent "XOR" 12 LEFT bitwise_xor].
Definition infix_motorola : list opdoc := infix_c ++ [
  ent "!." 5 LEFT bitwise_and; ent "!+" 5 LEFT bitwise_or; ent "!X" 5 LEFT bitwise_xor;
  ent "!^" 5 RIGHT exponential; ent "!<" 5 LEFT logical_shift_left_16bit; ent "!>" 5 LEFT logical_shift_right_16bit;
  ent "!L" 5 LEFT rotate_left_16bit; ent "!R" 5 LEFT rotate_right_16bit].
Definition prefix_zilog : list opdoc := prefix_c ++ [
  ent "LNOT" 3 RIGHT bitwise_not; ent "HIGH" 3 RIGHT most_significant_byte; ent "LOW" 3 RIGHT least_significant_byte;
  ent "HIGH16" 3 RIGHT most_significant_word; ent "LOW16" 3 RIGHT least_significant_word].
Definition infix_zilog : list opdoc := infix_c ++ [
  ent "MOD" 5 LEFT modulo; ent "SHR" 5 LEFT logical_shift_right_16bit; ent "SHL" 5 LEFT logical_shift_left_16bit;
  ent "LAND" 5 LEFT bitwise_and; ent "LOR" 6 LEFT bitwise_or; ent "LXOR" 6 LEFT bitwise_xor].
Definition prefix_signetics : list opdoc := prefix_c ++ [
  ent "<" 3 RIGHT least_significant_byte; ent ">" 3 RIGHT most_significant_byte].
Definition prefix_texas : list opdoc := prefix_c ++ [ent "#" 3 RIGHT bitwise_not].
(* [&&] is exclusive or, [++] is or, [=] and [#=] compare, [//] shifts right *)
Definition infix_texas : list opdoc := arith_c ++ [div_c; ne_c;
  ent "++" 13 LEFT bitwise_or; ent "&&" 12 LEFT bitwise_xor; ent "//" 5 LEFT logical_shift_right_16bit;
  ent "=" 10 NONE logical_equal; ent "#=" 10 NONE logical_not_equal].
(* [!] is or; [/] starts a comment *)
Definition infix_pdp8 : list opdoc := arith_c ++ [eq_c; and_c; ent "!" 13 LEFT bitwise_or].

(* the plugins of an assembler, its operators and the letters, other than decimal digits, that
   start its numerals *)
Record family := mkFam { fam_pl : plugins; fam_prefix : list opdoc; fam_infix : list opdoc; fam_leads : text }.
Definition tree_families : list family := [
  mkFam pl_default prefix_c infix_c [];
  mkFam pl_intel prefix_intel infix_intel [];
  mkFam pl_motorola prefix_c infix_motorola (s2l "$%@&");
  mkFam pl_texas prefix_texas infix_texas (s2l ">?");
  mkFam pl_zilog prefix_zilog infix_zilog (s2l "%");
  mkFam pl_i8080 prefix_intel infix_intel [];
  mkFam pl_i8086 prefix_intel infix_intel [];
  mkFam pl_z80 prefix_zilog infix_zilog [];
  mkFam pl_z8 prefix_zilog infix_zilog (s2l "%");
  mkFam pl_z8000 prefix_zilog infix_zilog (s2l "%");
  mkFam pl_mc68000 prefix_c infix_c (s2l "$%@&");
  mkFam pl_mos6502 prefix_c infix_c (s2l "$%@&");
  mkFam pl_cdp1802 prefix_c infix_c (s2l "#XxBbDd");
  mkFam pl_f3850 prefix_c infix_c (s2l "$HhBbOoDd");
  mkFam pl_ins8060 prefix_c infix_c (s2l "Xx");
  mkFam pl_ins8070 prefix_c infix_c (s2l "Xx");
  mkFam pl_mn1610 prefix_c infix_c (s2l "Xx");
  mkFam pl_ns32000 prefix_c infix_c (s2l "XxHhBbDdOoQq");
  mkFam pl_pdp8 prefix_c infix_pdp8 [];
  mkFam pl_scn2650 prefix_signetics infix_c (s2l "HhBbOoDd");
  mkFam pl_tms32010 prefix_c infix_c []].

(* ------------------------------------------------------------ trees *)
Inductive expr : Type :=
| Num (t : text) (v : value)          (* a numeral and its value *)
| Sym (t : text) (v : value)          (* the name of a defined symbol *)
| Here (v : value)                    (* the current location *)
| Un (d : opdoc) (e : expr)
| Bin (d : opdoc) (a b : expr)
| Par (e : expr)
| Call (n : text) (arity : Z) (g : list value -> res (err * value)) (a : args)   (* a function of [arity] arguments *)
with args : Type :=
| Arg1 (e : expr)
| ArgMore (e : expr) (a : args).

(* the level of the outermost operator *)
Definition level (e : expr) : Z :=
  match e with Un d _ => d_level d | Bin d _ _ => d_level d | _ => 0 end.
Definition right_rooted (e : expr) : Prop :=
  match e with Un d _ => d_assoc d = RIGHT | Bin d _ _ => d_assoc d = RIGHT | _ => True end.

(* the tree is the one that levels and associativities give to its text: an operand of an operator
   binds tighter, except that a left associative operator takes an equal level on its left and a
   right associative one on its right *)
Fixpoint well_nested (e : expr) : Prop :=
  match e with
  | Un d e => (level e < d_level d \/ (level e = d_level d /\ right_rooted e)) /\ well_nested e
  | Bin d a b =>
    (level a < d_level d \/ (level a = d_level d /\ d_assoc d = LEFT)) /\
    (level b < d_level d \/ (level b = d_level d /\ right_rooted b /\ d_assoc d = RIGHT)) /\
    well_nested a /\ well_nested b
  | Par e => well_nested e
  | Call _ _ _ a => well_nested_args a
  | _ => True
  end
with well_nested_args (a : args) : Prop :=
  match a with
  | Arg1 e => well_nested e
  | ArgMore e a => well_nested e /\ well_nested_args a
  end.

(* ------------------------------------------------------------ texts *)
Definition blanks (b : text) : Prop := Forall (fun c => is_space c = true) b.
(* what may follow a name or a numeral *)
Definition token_end (rest : text) : Prop :=
  match rest with [] => True | c :: _ => is_space c = true \/ In c (s2l "+-*/%<>=!&|^#(),;]") end.
(* a spelling: word operators may be written in either case *)
Definition is_word (w : text) : bool := forallb is_alnum w.
Definition spells (tok : text) (d : opdoc) : Prop :=
  tok = d_text d \/ (is_word (d_text d) = true /\ map to_upper tok = d_text d).
Definition starts_with (s w : text) : Prop := exists r, s = w ++ r.
(* the operator ends where its spelling ends: no longer operator of the table starts there, and an
   operator ending in a letter is not followed by a letter or digit *)
Definition separate (tbl : list opdoc) (tok rest : text) : Prop :=
  (forall d, In d tbl -> (length tok < length (d_text d))%nat -> ~ starts_with (tok ++ rest) (d_text d)) /\
  (is_alnum (last tok 0) = true -> is_alnum (peek rest) = false).

(* a name: a letter or an underscore, then letters, digits and underscores *)
Definition name_letter (c : Z) : bool := is_alnum c || (c =? 95).
Definition is_name (n : text) : Prop :=
  match n with
  | c :: t => (is_alpha c = true \/ c = 95) /\ forallb name_letter t = true
  | [] => False
  end.
(* the letters and digits a name starts with *)
Fixpoint first_word (n : text) : text :=
  match n with c :: t => if is_alnum c then c :: first_word t else [] | [] => [] end.
(* names the syntax takes for something else *)
Definition reserved (f : family) (n : text) : Prop :=
  (exists d, In d (fam_prefix f) /\ map to_upper (first_word n) = d_text d /\ is_word (d_text d) = true) \/
  In (map to_upper n) [s2l "INF"; s2l "INFINITY"; s2l "NAN"].

(* the functor [fn] takes its arguments, the last one on top, off the stack of 8 values, and leaves
   the value that [g] gives to them *)
Definition computes (fn : functor) (g : list value -> res (err * value)) : Prop :=
  forall vals stack, vals <> [] -> Z.of_nat (length vals) = f_nargs fn -> (length vals + length stack <= 8)%nat ->
  match g vals with
  | Val (OK, v) => f_eval fn (rev vals ++ stack) 10 = Val (OK, v :: stack)
  | Val (e, _) => exists s, f_eval fn (rev vals ++ stack) 10 = Val (e, s)
  | UB => f_eval fn (rev vals ++ stack) 10 = UB
  | OOB => f_eval fn (rev vals ++ stack) 10 = OOB
  | FLOAT => f_eval fn (rev vals ++ stack) 10 = FLOAT
  | FUEL => f_eval fn (rev vals ++ stack) 10 = FUEL
  end.

(* [derives f cx e s rest]: the text [s] is an expression with tree [e] followed by [rest] *)
Inductive derives (f : family) (cx : context) : expr -> text -> text -> Prop :=
| D_num t v b rest :
    (is_digit (peek t) = true \/ In (peek t) (fam_leads f)) ->
    (forall r, token_end r -> p_number (fam_pl f) (t ++ r) 10 = (OK, v, r)) ->
    blanks b -> token_end (b ++ rest) ->
    derives f cx (Num t v) (t ++ b ++ rest) rest
| D_sym t v b rest :
    is_name t -> ~ reserved f t -> p_function (fam_pl f) t = None -> c_function cx t = None ->
    c_symbol cx t = Some v -> isFloat v = false ->
    blanks b -> token_end (b ++ rest) ->
    derives f cx (Sym t v) (t ++ b ++ rest) rest
| D_here c b rest :
    In c (y_locations (p_symbol (fam_pl f))) ->
    blanks b -> token_end (b ++ rest) ->
    derives f cx (Here (setUnsigned (c_location cx))) (c :: b ++ rest) rest
| D_un d tok b e s rest :
    In d (fam_prefix f) -> spells tok d -> blanks b -> separate (fam_prefix f) tok (b ++ s) ->
    derives f cx e s rest ->
    derives f cx (Un d e) (tok ++ b ++ s) rest
| D_bin d tok bl a b s0 s rest :
    In d (fam_infix f) -> spells tok d -> blanks bl -> separate (fam_infix f) tok (bl ++ s) ->
    derives f cx a s0 (tok ++ bl ++ s) -> derives f cx b s rest ->
    derives f cx (Bin d a b) s0 rest
| D_par b1 b2 e s rest :
    blanks b1 -> blanks b2 ->
    derives f cx e s (41 :: b2 ++ rest) ->
    derives f cx (Par e) (40 :: b1 ++ s) rest
| D_call t fn g b1 b2 b3 a s rest :
    is_name t -> ~ reserved f t -> lookupFunction (fam_pl f) cx t = Some fn -> 0 <= f_nargs fn -> computes fn g ->
    blanks b1 -> blanks b2 -> blanks b3 ->
    derives_args f cx a s (41 :: b3 ++ rest) ->
    derives f cx (Call t (f_nargs fn) g a) (t ++ b1 ++ 40 :: b2 ++ s) rest
with derives_args (f : family) (cx : context) : args -> text -> text -> Prop :=
| A_one e s rest : derives f cx e s rest -> derives_args f cx (Arg1 e) s rest
| A_more b e a s0 s rest :
    blanks b -> derives f cx e s0 (44 :: b ++ s) -> derives_args f cx a s rest ->
    derives_args f cx (ArgMore e a) s0 rest.

(* ------------------------------------------------------------ values *)
(* the first error ends the evaluation *)
Definition andthen {A B} (none : B) (r : res (err * A)) (k : A -> res (err * B)) : res (err * B) :=
  match r with
  | Val (e, a) => if isOK e then k a else Val (e, none)
  | UB => UB
  | OOB => OOB
  | FLOAT => FLOAT
  | FUEL => FUEL
  end.
(* operations and functions applied bottom up, from left to right *)
Fixpoint value_of (e : expr) : res (err * value) :=
  match e with
  | Num _ v | Sym _ v | Here v => Val (OK, v)
  | Un d e => andthen v_undef (value_of e) (fun v => match eval1 (d_fn d) v with Some v' => Val (OK, v') | None => UB end)
  | Bin d a b =>
    andthen v_undef (value_of a) (fun va => andthen v_undef (value_of b) (fun vb =>
      match eval2 (d_fn d) va vb with Some r => Val r | None => UB end))
  | Par e => value_of e
  | Call _ arity g a =>
    andthen v_undef (values_of a) (fun vals =>
      let n := Z.of_nat (length vals) in
      if n =? arity then g vals
      else Val (if arity <? n then TOO_MANY_FUNC_ARGUMENT else TOO_FEW_FUNC_ARGUMENT, v_undef))
  end
with values_of (a : args) : res (err * list value) :=
  match a with
  | Arg1 e => andthen [] (value_of e) (fun v => Val (OK, [v]))
  | ArgMore e a => andthen [] (value_of e) (fun v => andthen [] (values_of a) (fun vals => Val (OK, v :: vals)))
  end.

(* how many value and operator slots the evaluation of a tree takes *)
Fixpoint value_slots (e : expr) : Z :=
  match e with
  | Un _ e | Par e => value_slots e
  | Bin _ a b => Z.max (value_slots a) (1 + value_slots b)
  | Call _ _ _ a => args_value_slots a
  | _ => 1
  end
with args_value_slots (a : args) : Z :=
  match a with
  | Arg1 e => value_slots e
  | ArgMore e a => Z.max (value_slots e) (1 + args_value_slots a)
  end.
Fixpoint operator_slots (e : expr) : Z :=
  match e with
  | Un _ e | Par e => 1 + operator_slots e
  | Bin _ a b => Z.max (operator_slots a) (1 + operator_slots b)
  | Call _ _ _ a => 2 + args_operator_slots a
  | _ => 0
  end
with args_operator_slots (a : args) : Z :=
  match a with
  | Arg1 e => operator_slots e
  | ArgMore e a => Z.max (operator_slots e) (args_operator_slots a)
  end.

(* the letters an operand may be delimited by, and what may follow a whole expression *)
Definition quiet (cx : context) : Prop := In (c_delim cx) [0; 41; 44; 93].
Definition ends (cx : context) (rest : text) : Prop :=
  match rest with [] => True | c :: _ => c = 44 \/ c = 59 \/ (c = c_delim cx /\ c <> 0) end.
