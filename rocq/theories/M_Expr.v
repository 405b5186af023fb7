(** Model of the expression evaluator: src/value_parser.cpp, with the operator readers and the
    predefined functions of src/operators.cpp.
    Simplifications: error positions are not modelled; the result [FLOAT] stands for every
    evaluation that meets a floating-point number. *)
From Coq Require Import ZArith String List Bool.
From Verif Require Import M_Char M_Error M_Text M_Value M_Number M_Operators M_Parsers.
Import ListNotations.
Open Scope string_scope.
Open Scope list_scope.
Local Open Scope Z_scope.

(* operators.h:41-46 Functor: argument count (negative: any) and evaluation on the stack *)
Record functor := mkF {
  f_nargs : Z;
  f_eval : vstack -> Z -> res (err * vstack)
}.

(* operators.h:51-130 Operator *)
Inductive assoc := LEFT | RIGHT | NONE.
Definition assoc_eqb (a b : assoc) : bool :=
  match a, b with LEFT, LEFT => true | RIGHT, RIGHT => true | NONE, NONE => true | _, _ => false end.
Record oper := mkO {
  o_prec : Z;
  o_assoc : assoc;
  o_nargs : Z;
  o_op : option opfn;
  o_fn : option functor
}.
Definition op_ (p : Z) (a : assoc) (n : Z) (f : opfn) : oper := mkO p a n (Some f) None.
(* operators.h:87-88 *)
Definition op_function (f : functor) : oper := mkO 2 LEFT 0 None (Some f).
Definition isFunction (o : oper) : bool := match o_fn o with Some _ => true | None => false end.
(* operators.h:95-98 *)
Definition op_paren (pos : Z) : oper := mkO 254 LEFT pos None None.
Definition isOpenParen (o : oper) : bool := o_prec o =? 254.

(* operators.cpp:31-33 *)
Definition isHigher (t o : oper) : bool :=
  (o_prec t <? o_prec o) || ((o_prec t =? o_prec o) && assoc_eqb (o_assoc o) LEFT).
(* operators.cpp:35-37 *)
Definition isNoneAssoc (t o : oper) : bool := (o_prec t =? o_prec o) && assoc_eqb (o_assoc t) NONE.

(* operators.cpp:39-49 Operator::eval *)
Definition op_eval (o : oper) (argc : Z) (s : vstack) (rdx : Z) : res (err * vstack * Z) :=
  let argc := if argc =? 0 then vs_size s else argc in
  match o_fn o with
  | Some f =>
    if (f_nargs f <? 0) || (argc =? f_nargs f) then
      bind (f_eval f s rdx) (fun '(e, s) => Val (e, s, rdx))
    else Val (if f_nargs f <? argc then TOO_MANY_FUNC_ARGUMENT else TOO_FEW_FUNC_ARGUMENT, s, rdx)
  | None =>
    if o_nargs o <=? argc then
      match o_op o with
      | None => UB                           (* a call through a null pointer *)
      | Some f => run_op f s rdx
      end
    else Val (MISSING_OPERAND, s, rdx)
  end.

(* ------------------------------------------------------ operator tables *)
(* operators.cpp:222-243 *)
Definition OP_BITWISE_NOT := op_ 3 RIGHT 1 bitwise_not.
Definition OP_LOGICAL_NOT := op_ 3 RIGHT 1 logical_not.
Definition OP_UNARY_MINUS := op_ 3 RIGHT 1 unary_minus.
Definition OP_UNARY_PLUS := op_ 3 RIGHT 1 unary_plus.
Definition OP_MUL := op_ 5 LEFT 2 multiply.
Definition OP_DIV := op_ 5 LEFT 2 divide.
Definition OP_MOD := op_ 5 LEFT 2 modulo.
Definition OP_ADD := op_ 6 LEFT 2 add_.
Definition OP_SUB := op_ 6 LEFT 2 subtract.
Definition OP_SHIFT_LEFT := op_ 7 LEFT 2 logical_shift_left.
Definition OP_SHIFT_RIGHT := op_ 7 LEFT 2 arithmetic_shift_right.
Definition OP_LOGICAL_LT := op_ 9 NONE 2 less_than.
Definition OP_LOGICAL_LE := op_ 9 NONE 2 less_than_or_equal.
Definition OP_LOGICAL_GE := op_ 9 NONE 2 greater_than_or_equal.
Definition OP_LOGICAL_GT := op_ 9 NONE 2 greater_than.
Definition OP_LOGICAL_EQ := op_ 10 NONE 2 logical_equal.
Definition OP_LOGICAL_NE := op_ 10 NONE 2 logical_not_equal.
Definition OP_BITWISE_AND := op_ 11 LEFT 2 bitwise_and.
Definition OP_BITWISE_XOR := op_ 12 LEFT 2 bitwise_xor.
Definition OP_BITWISE_OR := op_ 13 LEFT 2 bitwise_or.
Definition OP_LOGICAL_AND := op_ 14 LEFT 2 logical_and.
Definition OP_LOGICAL_OR := op_ 15 LEFT 2 logical_or.
(* operators.cpp:362-369 *)
Definition MOTOROLA_EXPONENTIAL := op_ 5 RIGHT 2 exponential.
Definition MOTOROLA_ROTATE_LEFT := op_ 5 LEFT 2 rotate_left_16bit.
Definition MOTOROLA_ROTATE_RIGHT := op_ 5 LEFT 2 rotate_right_16bit.
Definition MOTOROLA_SHIFT_LEFT := op_ 5 LEFT 2 logical_shift_left_16bit.
Definition MOTOROLA_SHIFT_RIGHT := op_ 5 LEFT 2 logical_shift_right_16bit.
Definition MOTOROLA_BITWISE_AND := op_ 5 LEFT 2 bitwise_and.
Definition MOTOROLA_BITWISE_XOR := op_ 5 LEFT 2 bitwise_xor.
Definition MOTOROLA_BITWISE_OR := op_ 5 LEFT 2 bitwise_or.
(* operators.cpp:427-440 *)
Definition INTEL_HIGH := op_ 3 RIGHT 1 most_significant_byte.
Definition INTEL_LOW := op_ 3 RIGHT 1 least_significant_byte.
Definition INTEL_MSW := op_ 3 RIGHT 1 most_significant_word.
Definition INTEL_LSW := op_ 3 RIGHT 1 least_significant_word.
Definition INTEL_SHIFT_RIGHT := op_ 5 LEFT 1 logical_shift_right_16bit.
Definition INTEL_SHIFT_LEFT := op_ 5 LEFT 1 logical_shift_left_16bit.
Definition INTEL_UNARY_MINUS := op_ 6 RIGHT 1 unary_minus.
Definition INTEL_UNARY_PLUS := op_ 6 RIGHT 1 unary_plus.
Definition INTEL_LOGICAL_EQ := op_ 9 NONE 2 logical_equal.
Definition INTEL_LOGICAL_NE := op_ 9 NONE 2 logical_not_equal.
Definition INTEL_BITWISE_NOT := op_ 10 RIGHT 1 bitwise_not.
Definition INTEL_BITWISE_AND := op_ 11 LEFT 2 bitwise_and.
Definition INTEL_BITWISE_XOR := op_ 12 LEFT 2 bitwise_xor.
Definition INTEL_BITWISE_OR := op_ 12 LEFT 2 bitwise_or.
(* operators.cpp:513-517 *)
Definition ZILOG_SHIFT_RIGHT := op_ 5 LEFT 1 logical_shift_right_16bit.
Definition ZILOG_SHIFT_LEFT := op_ 5 LEFT 1 logical_shift_left_16bit.
Definition ZILOG_BITWISE_AND := op_ 5 LEFT 2 bitwise_and.
Definition ZILOG_BITWISE_XOR := op_ 6 LEFT 2 bitwise_xor.
Definition ZILOG_BITWISE_OR := op_ 6 LEFT 2 bitwise_or.
(* operators.cpp:698,713 *)
Definition OP_RESTORE_RADIX := op_ 3 RIGHT 1 restore_radix.
Definition OP_TO_FLOAT16 := op_ 3 RIGHT 1 to_float16.

(* ------------------------------------------------------ operator readers *)
(* the operator read and the text after it *)
Definition op_reader := text -> option (oper * text).

(* operators.cpp:256-272 CStyleOperatorParser::readPrefix; '!' followed by '=' falls through to
   the test for '-' and '+' after the '!' has been consumed from the copy *)
Definition minus_plus (p : text) : option (oper * text) :=
  match expect_char 45 p with
  | Some p => Some (OP_UNARY_MINUS, p)
  | None => match expect_char 43 p with Some p => Some (OP_UNARY_PLUS, p) | None => None end
  end.
Definition readPrefix_cstyle : op_reader := fun s =>
  match expect_char 126 s with
  | Some p => Some (OP_BITWISE_NOT, p)
  | None =>
    match expect_char 33 s with
    | Some p => if peek p =? 61 then minus_plus p else Some (OP_LOGICAL_NOT, p)
    | None => minus_plus s
    end
  end.
(* operators.cpp:274-320 CStyleOperatorParser::readInfix *)
Definition readInfix_cstyle : op_reader := fun s =>
  match s with
  | [] => None
  | c :: p =>
    if c =? 42 then Some (OP_MUL, p)
    else if c =? 47 then Some (OP_DIV, p)
    else if c =? 37 then Some (OP_MOD, p)
    else if c =? 43 then Some (OP_ADD, p)
    else if c =? 45 then Some (OP_SUB, p)
    else if c =? 60 then
      match expect_char 60 p with
      | Some p => Some (OP_SHIFT_LEFT, p)
      | None => match expect_char 61 p with Some p => Some (OP_LOGICAL_LE, p) | None => Some (OP_LOGICAL_LT, p) end
      end
    else if c =? 62 then
      match expect_char 62 p with
      | Some p => Some (OP_SHIFT_RIGHT, p)
      | None => match expect_char 61 p with Some p => Some (OP_LOGICAL_GE, p) | None => Some (OP_LOGICAL_GT, p) end
      end
    else if c =? 38 then
      match expect_char 38 p with Some p => Some (OP_LOGICAL_AND, p) | None => Some (OP_BITWISE_AND, p) end
    else if c =? 94 then Some (OP_BITWISE_XOR, p)
    else if c =? 124 then
      match expect_char 124 p with Some p => Some (OP_LOGICAL_OR, p) | None => Some (OP_BITWISE_OR, p) end
    else if c =? 33 then
      match expect_char 61 p with Some p => Some (OP_LOGICAL_NE, p) | None => None end
    else if c =? 61 then
      match expect_char 61 p with Some p => Some (OP_LOGICAL_EQ, p) | None => None end
    else None
  end.

(* operators.cpp:372-400 MotorolaOperatorParser::readInfix; 'X' and 'L' are consumed from the copy
   even when the test that follows fails *)
Definition readInfix_motorola : op_reader := fun s =>
  let opr :=
    match expect_char 33 s with
    | None => None
    | Some p =>
      match expect_char 46 p with Some p => Some (MOTOROLA_BITWISE_AND, p) | None =>
      match expect_char 43 p with Some p => Some (MOTOROLA_BITWISE_OR, p) | None =>
      let '(x, p) := match expect_char 88 p with Some p => (true, p) | None => (false, p) end in
      if x && negb (is_alnum (peek p)) then Some (MOTOROLA_BITWISE_XOR, p) else
      match expect_char 94 p with Some p => Some (MOTOROLA_EXPONENTIAL, p) | None =>
      match expect_char 60 p with Some p => Some (MOTOROLA_SHIFT_LEFT, p) | None =>
      match expect_char 62 p with Some p => Some (MOTOROLA_SHIFT_RIGHT, p) | None =>
      let '(x, p) := match expect_char 76 p with Some p => (true, p) | None => (false, p) end in
      if x && negb (is_alnum (peek p)) then Some (MOTOROLA_ROTATE_LEFT, p) else
      match expect_char 82 p with
      | Some p => if is_alnum (peek p) then None else Some (MOTOROLA_ROTATE_RIGHT, p)
      | None => None
      end end end end end end
    end in
  match opr with Some r => Some r | None => readInfix_cstyle s end.

(* operators named by a word: the maximal run of letters and digits, compared ignoring case *)
Fixpoint find_word (w : text) (l : list (text * oper)) : option oper :=
  match l with
  | [] => None
  | (n, o) :: l' => if iequals w n then Some o else find_word w l'
  end.
Definition read_word (l : list (text * oper)) (s : text) : option (oper * text) :=
  let '(w, p) := takeWhile is_alnum s in
  match find_word w l with Some o => Some (o, p) | None => None end.
(* operators.cpp:455-465 *)
Definition intel_prefix_words := [
  (s2l "NOT", INTEL_BITWISE_NOT); (s2l "HIGH", INTEL_HIGH); (s2l "LOW", INTEL_LOW);
  (s2l "MSW", INTEL_MSW); (s2l "LSW", INTEL_LSW)].
(* operators.cpp:480-504 *)
Definition intel_infix_words := [
  (s2l "MOD", OP_MOD); (s2l "AND", INTEL_BITWISE_AND); (s2l "OR", INTEL_BITWISE_OR);
  (s2l "XOR", INTEL_BITWISE_XOR); (s2l "SHR", INTEL_SHIFT_RIGHT); (s2l "SHL", INTEL_SHIFT_LEFT);
  (s2l "EQ", INTEL_LOGICAL_EQ); (s2l "NE", INTEL_LOGICAL_NE); (s2l "LT", OP_LOGICAL_LT);
  (s2l "LE", OP_LOGICAL_LE); (s2l "GE", OP_LOGICAL_GE); (s2l "GT", OP_LOGICAL_GT)].
(* operators.cpp:527-537 *)
Definition zilog_prefix_words := [
  (s2l "LNOT", OP_BITWISE_NOT); (s2l "HIGH", INTEL_HIGH); (s2l "LOW", INTEL_LOW);
  (s2l "HIGH16", INTEL_MSW); (s2l "LOW16", INTEL_LSW)].
(* operators.cpp:552-564 *)
Definition zilog_infix_words := [
  (s2l "MOD", OP_MOD); (s2l "SHR", ZILOG_SHIFT_RIGHT); (s2l "SHL", ZILOG_SHIFT_LEFT);
  (s2l "LAND", ZILOG_BITWISE_AND); (s2l "LOR", ZILOG_BITWISE_OR); (s2l "LXOR", ZILOG_BITWISE_XOR)].

(* operators.cpp:443-471 *)
Definition readPrefix_intel : op_reader := fun s =>
  match expect_char 45 s with
  | Some p => Some (INTEL_UNARY_MINUS, p)
  | None =>
    match expect_char 43 s with
    | Some p => Some (INTEL_UNARY_PLUS, p)
    | None => match read_word intel_prefix_words s with Some r => Some r | None => readPrefix_cstyle s end
    end
  end.
(* operators.cpp:473-510 *)
Definition readInfix_intel : op_reader := fun s =>
  match read_word intel_infix_words s with Some r => Some r | None => readInfix_cstyle s end.
(* operators.cpp:520-543 *)
Definition readPrefix_zilog : op_reader := fun s =>
  match read_word zilog_prefix_words s with Some r => Some r | None => readPrefix_cstyle s end.
(* operators.cpp:545-570 *)
Definition readInfix_zilog : op_reader := fun s =>
  match read_word zilog_infix_words s with Some r => Some r | None => readInfix_cstyle s end.
(* operators.cpp:572-580 *)
Definition readPrefix_signetics : op_reader := fun s =>
  match expect_char 60 s with
  | Some p => Some (INTEL_LOW, p)
  | None => match expect_char 62 s with Some p => Some (INTEL_HIGH, p) | None => readPrefix_cstyle s end
  end.
(* operators.cpp:582-587 *)
Definition readPrefix_texas : op_reader := fun s =>
  match expect_char 35 s with Some p => Some (OP_BITWISE_NOT, p) | None => readPrefix_cstyle s end.
(* operators.cpp:589-603 *)
Definition readInfix_texas : op_reader := fun s =>
  match iexpectText (s2l "++") s with Some p => Some (OP_BITWISE_OR, p) | None =>
  match iexpectText (s2l "&&") s with Some p => Some (OP_BITWISE_XOR, p) | None =>
  match iexpectText (s2l "//") s with Some p => Some (MOTOROLA_SHIFT_RIGHT, p) | None =>
  match expect_char 61 s with Some p => Some (OP_LOGICAL_EQ, p) | None =>
  match iexpectText (s2l "#=") s with Some p => Some (OP_LOGICAL_NE, p) | None =>
  readInfix_cstyle s end end end end end.
(* operators.cpp:605-610 *)
Definition readInfix_pdp8 : op_reader := fun s =>
  match expect_char 33 s with Some p => Some (OP_BITWISE_OR, p) | None => readInfix_cstyle s end.
(* operators.cpp:749-758 *)
Definition readInfix_pdp11 : op_reader := fun s =>
  if (peek s =? 62) && negb (peek_at 1 s =? 62) && negb (peek_at 1 s =? 61) then None
  else match expect_char 33 s with Some p => Some (OP_BITWISE_OR, p) | None => readInfix_cstyle s end.

(* a prefix reader may push on the value stack and change the default radix (PDP-11) *)
Definition prefix_reader := text -> vstack -> Z -> res (option (oper * text) * vstack * Z).
Definition pure_prefix (r : op_reader) : prefix_reader := fun s vs rdx => Val (r s, vs, rdx).
(* operators.cpp:716-747: the push is not guarded *)
Definition readPrefix_pdp11 : prefix_reader := fun s vs rdx =>
  let radix r p :=
    bind (vs_push vs (setUnsigned rdx)) (fun vs => Val (Some (OP_RESTORE_RADIX, p), vs, r)) in
  if (peek s =? 60) && negb (peek_at 1 s =? 60) && negb (peek_at 1 s =? 61) then Val (None, vs, rdx)
  else
    match expect_char 94 s with
    | Some p =>
      match iexpect 68 p with Some p => radix RADIX_10 p | None =>
      match iexpect 79 p with Some p => radix RADIX_8 p | None =>
      match iexpect 66 p with Some p => radix RADIX_2 p | None =>
      match iexpect 67 p with Some p => Val (Some (OP_BITWISE_NOT, p), vs, rdx) | None =>
      match iexpect 70 p with Some p => Val (Some (OP_TO_FLOAT16, p), vs, rdx) | None =>
      Val (readPrefix_cstyle s, vs, rdx) end end end end end
    | None => Val (readPrefix_cstyle s, vs, rdx)
    end.

(* operators.h:138-139, 173-178 *)
Definition open_default (s : text) : option text := expect_char 40 s.
Definition close_default (s : text) : option text := expect_char 41 s.
Definition open_pdp11 (s : text) : option text :=
  match expect_char 40 s with Some p => Some p | None => expect_char 60 s end.
Definition close_pdp11 (s : text) : option text :=
  match expect_char 41 s with Some p => Some p | None => expect_char 62 s end.

(* ------------------------------------------------------ predefined functions *)
(* operators.cpp:612-688: pop one value, push one *)
Definition fn1 (f : Z -> Z) : functor := mkF 1 (fun s _ =>
  let '(v, s) := vs_pop s in
  bind (vs_push s (setUnsigned (f (getUnsigned v)))) (fun s => Val (OK, s))).
Definition FN_LOW := fn1 (fun v => v mod 256).
Definition FN_HIGH := fn1 (fun v => v / 256 mod 256).
Definition FN_A_rca := fn1 (fun v => Z.lor (v mod 2^16) 0x10000000).
(* reg_ins8060.h:43-49, on 16-bit addresses *)
Definition FN_ADDR_ins8060 := fn1 (fun v =>
  Z.lor (v mod 2^16 / 4096 * 4096) ((v - 1) mod 2^16 mod 4096)).
Definition FN_ADDR_ins8070 := fn1 (fun v => (v - 1) mod 2^16).
Definition fn_table := text -> option functor.
Definition fn_none : fn_table := fun _ => None.
Definition fn_rca : fn_table := fun n =>
  if iequals n (s2l "A.0") then Some FN_LOW
  else if iequals n (s2l "A.1") then Some FN_HIGH
  else if iequals n (s2l "A") then Some FN_A_rca else None.
Definition fn_ins8060 : fn_table := fun n =>
  if iequals n (s2l "H") then Some FN_HIGH
  else if iequals n (s2l "L") then Some FN_LOW
  else if iequals n (s2l "ADDR") then Some FN_ADDR_ins8060 else None.
Definition fn_ins8070 : fn_table := fun n =>
  if iequals n (s2l "H") then Some FN_HIGH
  else if iequals n (s2l "L") then Some FN_LOW
  else if iequals n (s2l "ADDR") then Some FN_ADDR_ins8070 else None.

(* ------------------------------------------------------ plugins *)
(* value_parser.h:43-56 *)
Record plugins := mkP {
  p_number : number_parser;
  p_eol : eol_parser;
  p_line : eol_parser;
  p_symbol : symbols;
  p_letter : letters;
  p_prefix : prefix_reader;
  p_infix : op_reader;
  p_open : text -> option text;
  p_close : text -> option text;
  p_function : fn_table
}.
Definition mkP' n e l s lt p i f := mkP n e l s lt (pure_prefix p) i open_default close_default f.
(* value_parser.cpp:26-127 *)
Definition pl_default := mkP' np_cstyle eol_semicolon eol_semicolon sp_default lp_default readPrefix_cstyle readInfix_cstyle fn_none.
Definition pl_intel := mkP' np_intel eol_semicolon eol_semicolon sp_intel lp_default readPrefix_intel readInfix_intel fn_none.
Definition pl_motorola := mkP' np_motorola eol_star line_star sp_motorola lp_motorola readPrefix_cstyle readInfix_motorola fn_none.
Definition pl_texas := mkP' np_texas eol_star line_star sp_default lp_default readPrefix_texas readInfix_texas fn_none.
Definition pl_zilog := mkP' np_zilog eol_semicolon eol_semicolon sp_default lp_zilog readPrefix_zilog readInfix_zilog fn_none.
(* the plugins of the assemblers: asm_*.cpp, defaultPlugins() *)
Definition pl_i8080 := mkP' np_intel eol_semicolon eol_semicolon sp_i8080 lp_default readPrefix_intel readInfix_intel fn_none.
Definition pl_i8086 := mkP' np_intel eol_semicolon eol_semicolon sp_i8086 lp_default readPrefix_intel readInfix_intel fn_none.
Definition pl_z80 := mkP' np_intel eol_semicolon eol_semicolon sp_intel lp_default readPrefix_zilog readInfix_zilog fn_none.
Definition pl_z8 := mkP' np_zilog eol_semicolon eol_semicolon sp_z8 lp_zilog readPrefix_zilog readInfix_zilog fn_none.
Definition pl_z8000 := mkP' np_zilog eol_semicolon eol_semicolon sp_z8000 lp_zilog readPrefix_zilog readInfix_zilog fn_none.
Definition pl_mc68000 := mkP' np_motorola eol_star line_star sp_mc68000 lp_default readPrefix_cstyle readInfix_cstyle fn_none.
Definition pl_mos6502 := mkP' np_motorola eol_star eol_semicolon sp_mostek lp_mostek readPrefix_cstyle readInfix_cstyle fn_none.
Definition pl_cdp1802 := mkP' np_rca eol_semicolon line_rca sp_rca lp_rca readPrefix_cstyle readInfix_cstyle fn_rca.
Definition pl_f3850 := mkP' np_fairchild eol_star line_star sp_fairchild lp_fairchild readPrefix_cstyle readInfix_cstyle fn_none.
Definition pl_ins8060 := mkP' np_ins80xx eol_semicolon eol_semicolon sp_ins80xx lp_default readPrefix_cstyle readInfix_cstyle fn_ins8060.
Definition pl_ins8070 := mkP' np_ins80xx eol_semicolon eol_semicolon sp_ins80xx lp_default readPrefix_cstyle readInfix_cstyle fn_ins8070.
Definition pl_mn1610 := mkP' np_panasonic eol_star line_star sp_panasonic lp_ibm readPrefix_cstyle readInfix_cstyle fn_none.
Definition pl_ns32000 := mkP' np_ns32000 eol_sharp eol_sharp sp_ns32000 lp_ns32000 readPrefix_cstyle readInfix_cstyle fn_none.
Definition pl_pdp8 := mkP' np_intel eol_pdp8 eol_pdp8 sp_pdp8 lp_pdp8 readPrefix_cstyle readInfix_pdp8 fn_none.
Definition pl_scn2650 := mkP' np_signetics eol_star line_star sp_default lp_signetics readPrefix_signetics readInfix_cstyle fn_none.
Definition pl_tms32010 := mkP' np_intel eol_semicolon line_tms32010 sp_tms32010 lp_tms32010 readPrefix_cstyle readInfix_cstyle fn_none.
Definition pl_pdp11 := mkP np_pdp11 eol_semicolon eol_semicolon sp_pdp11 lp_motorola readPrefix_pdp11 readInfix_pdp11
  open_pdp11 close_pdp11 fn_none.

(* ------------------------------------------------------ evaluation *)
(* value_parser.h:30-40 ParserContext, without the default radix, which evaluation may change *)
Record context := mkC {
  c_location : Z;
  c_symbol : text -> option value;
  c_function : text -> option functor;
  c_delim : Z
}.

(* value_parser.cpp:346-374 isFloatNumber *)
Definition is_exponent (p : text) : bool :=
  match iexpect 69 p with
  | Some p =>
    let p := match expect_char 45 p with Some q => q | None => opt_char 43 p end in
    is_digit (peek p)
  | None => false
  end.
Definition isFloatNumber (p : text) (e : err) (delim : Z) : bool :=
  match e with
  | OVERFLOW_RANGE => true
  | OK =>
    let frac :=
      match expect_char 46 p with
      | Some p => negb (delim =? 46) && is_digit (peek p)
      | None => false
      end in
    frac || is_exponent p
  | NOT_AN_EXPECTED =>
    match iexpectWord (s2l "inf") p with Some _ => true | None =>
    match iexpectWord (s2l "infinity") p with Some _ => true | None =>
    match iexpectWord (s2l "nan") p with Some _ => true | None => false end end end
  | _ => false
  end.

(* value_parser.cpp:377-419 parseConstant *)
Definition parseConstant (pl : plugins) (cx : context) (rdx : Z) (s : text) : res (err * value * text) :=
  let '(e, c, p) := l_parse (p_letter pl) s in
  if isOK e then Val (OK, setUnsigned c, p)
  else if negb (err_eqb e NOT_AN_EXPECTED) then Val (e, v_undef, s)
  else
    let '(e, v, p) := p_number pl s rdx in
    if isFloatNumber p e (c_delim cx) then FLOAT
    else if negb (err_eqb e NOT_AN_EXPECTED) then Val (e, v, p)
    else
      match y_location (p_symbol pl) p with
      | Some p => Val (OK, setUnsigned (c_location cx), p)
      | None => Val (NOT_AN_EXPECTED, v, s)
      end.

(* the local variables of _eval *)
Record state := mkSt {
  s_scan : text;
  s_vs : vstack;
  s_os : list oper;
  s_eoe : Z;            (* end_of_expr *)
  s_paren : Z;          (* in_paren *)
  s_prefix : bool;      (* maybe_prefix *)
  s_fnargs : bool;      (* expect_fn_args *)
  s_infn : Z;           (* in_fn_args *)
  s_radix : Z;          (* context.defaultRadix *)
  s_err : err
}.
Definition os_full (os : list oper) : bool := CAPACITY <=? Z.of_nat (length os).
(* stack.h:32-35: pushing on a full stack is silently dropped *)
Definition os_push (o : oper) (os : list oper) : list oper := if os_full os then os else o :: os.

(* value_parser.cpp:235-250: the error, the operators left, the values, the radix *)
Fixpoint reduce_higher (opr : oper) (os : list oper) (vs : vstack) (rdx : Z) : res (err * list oper * vstack * Z) :=
  match os with
  | [] => Val (OK, [], vs, rdx)
  | top :: os' =>
    if isNoneAssoc top opr then Val (OPERATOR_NOT_ASSOCIATIVE, os, vs, rdx)
    else if negb (isHigher top opr) then Val (OK, os, vs, rdx)
    else
      bind (op_eval top 0 vs rdx) (fun '(e, vs, rdx) =>
        if isOK e then reduce_higher opr os' vs rdx else Val (e, os', vs, rdx))
  end.
(* value_parser.cpp:263-270 and 296-303: up to an open parenthesis *)
Fixpoint reduce_paren (os : list oper) (vs : vstack) (rdx : Z) : res (err * list oper * vstack * Z) :=
  match os with
  | [] => Val (OK, [], vs, rdx)
  | top :: os' =>
    if isOpenParen top then Val (OK, os, vs, rdx)
    else
      bind (op_eval top 0 vs rdx) (fun '(e, vs, rdx) =>
        if isOK e then reduce_paren os' vs rdx else Val (e, os', vs, rdx))
  end.
(* value_parser.cpp:329-340 *)
Fixpoint reduce_all (os : list oper) (vs : vstack) (rdx : Z) : res (err * vstack * Z) :=
  match os with
  | [] => Val (OK, vs, rdx)
  | top :: os' =>
    if isOpenParen top then Val (MISSING_CLOSING_PAREN, vs, rdx)
    else
      bind (op_eval top 0 vs rdx) (fun '(e, vs, rdx) =>
        if isOK e then reduce_all os' vs rdx else Val (e, vs, rdx))
  end.

Inductive ctl := Next (s : state) | Break (s : state) | Return (v : value) (s : state).
(* [error.setErrorIf(at, e); return v] *)
Definition fail (s : state) (e : err) (v : value) : res ctl :=
  Val (Return v (mkSt (s_scan s) (s_vs s) (s_os s) (s_eoe s) (s_paren s) (s_prefix s) (s_fnargs s) (s_infn s)
                      (s_radix s) (setErrorIfAt (s_err s) e))).
Definition set_scan (s : state) (t : text) : state :=
  mkSt t (s_vs s) (s_os s) (s_eoe s) (s_paren s) (s_prefix s) (s_fnargs s) (s_infn s) (s_radix s) (s_err s).
Definition set_stacks (s : state) (vs : vstack) (os : list oper) (rdx : Z) : state :=
  mkSt (s_scan s) vs os (s_eoe s) (s_paren s) (s_prefix s) (s_fnargs s) (s_infn s) rdx (s_err s).
Definition set_prefix (s : state) (b : bool) : state :=
  mkSt (s_scan s) (s_vs s) (s_os s) (s_eoe s) (s_paren s) b (s_fnargs s) (s_infn s) (s_radix s) (s_err s).

(* push a value read at [t]: value_parser.cpp:172-178, 208-221 *)
Definition push_value (s : state) (t : text) (v : value) (e : err) : res ctl :=
  if vs_full (s_vs s) then fail (set_scan s t) TOO_COMPLEX_EXPRESSION v_undef
  else Val (Next (mkSt t (v :: s_vs s) (s_os s) (s_eoe s) (s_paren s) false (s_fnargs s) (s_infn s) (s_radix s)
                       (setErrorIfAt (s_err s) e))).

(* value_parser.cpp:234-259: an operator has been read *)
Definition do_operator (s : state) (opr : oper) : res ctl :=
  bind (reduce_higher opr (s_os s) (s_vs s) (s_radix s)) (fun '(e, os, vs, rdx) =>
    let s := set_stacks s vs os rdx in
    if negb (isOK e) then fail s e v_undef
    else if os_full os then fail s TOO_COMPLEX_EXPRESSION v_undef
    else Val (Next (set_prefix (set_stacks s vs (os_push opr os) rdx) true))).

(* value_parser.cpp:261-326: punctuation; [expr] is the position at the start of the round *)
Definition do_close (cx : context) (s : state) : res ctl :=
  bind (reduce_paren (s_os s) (s_vs s) (s_radix s)) (fun '(e, os, vs, rdx) =>
    let s := set_stacks s vs os rdx in
    if negb (isOK e) then fail s e v_undef
    else
      match os with
      | [] => Val (Break s)
      | paren :: os =>
        let after (os : list oper) vs rdx infn :=
          let n := (s_paren s - 1) mod 256 in
          Val (Next (mkSt (s_scan s) vs os (if n =? 0 then c_delim cx else s_eoe s) n false (s_fnargs s) infn rdx (s_err s))) in
        match os with
        | top :: os' =>
          if isFunction top then
            bind (op_eval top (vs_size vs - o_nargs paren) vs rdx) (fun '(e, vs, rdx) =>
              if isOK e then after os' vs rdx ((s_infn s - 1) mod 256)
              else fail (set_stacks s vs os' rdx) e v_undef)
          else after os vs rdx (s_infn s)
        | [] => after os vs rdx (s_infn s)
        end
      end).
Definition do_punct (pl : plugins) (cx : context) (expr : text) (s : state) : res ctl :=
  match (if s_infn s =? 0 then None else expect_char 44 (s_scan s)) with
  | Some p =>
    let s := set_scan s p in
    bind (reduce_paren (s_os s) (s_vs s) (s_radix s)) (fun '(e, os, vs, rdx) =>
      let s := set_stacks s vs os rdx in
      if negb (isOK e) then fail s e v_undef
      else
        match os with
        | [] => OOB                          (* top() of an empty stack *)
        | _ => Val (Next (set_prefix s true))
        end)
  | None =>
    match p_open pl (s_scan s) with
    | Some p =>
      if negb (s_prefix s) && negb (s_fnargs s) then Val (Break s)        (* --scan *)
      else if os_full (s_os s) then fail (set_scan s p) TOO_COMPLEX_EXPRESSION v_undef
      else
        Val (Next (mkSt p (s_vs s) (os_push (op_paren (vs_size (s_vs s))) (s_os s)) 0 ((s_paren s + 1) mod 256)
                        true false (s_infn s) (s_radix s) (s_err s)))
    | None =>
      match p_close pl (s_scan s) with
      | Some p => do_close cx (set_scan s p)
      | None => Val (Break (set_scan s expr))
      end
    end
  end.

(* value_parser.cpp:225-233: no operator yet *)
Definition do_infix (pl : plugins) (cx : context) (expr : text) (s : state) : res ctl :=
  if s_prefix s then
    bind (p_prefix pl (s_scan s) (s_vs s) (s_radix s)) (fun '(o, vs, rdx) =>
      let s := set_stacks s vs (s_os s) rdx in
      if hasError (s_err s) then Val (Return v_undef (match o with Some (_, t) => set_scan s t | None => s end))
      else
        match o with
        | Some (opr, t) => do_operator (set_scan s t) opr
        | None => do_punct pl cx expr s
        end)
  else
    let o := p_infix pl (s_scan s) in
    if hasError (s_err s) then Val (Return v_undef (match o with Some (_, t) => set_scan s t | None => s end))
    else
      match o with
      | Some (opr, t) => do_operator (set_scan s t) opr
      | None => do_punct pl cx expr s
      end.

(* value_parser.cpp:207-223 *)
Definition do_symbol (pl : plugins) (cx : context) (expr : text) (s : state) : res ctl :=
  match readSymbol (p_symbol pl) (s_scan s) with
  | Some (n, t) =>
    match c_symbol cx n with
    | Some v => if isFloat v then FLOAT else push_value s t v OK
    | None => push_value s t v_undef (if vs_full (s_vs s) then OK else UNDEFINED_SYMBOL)
    end
  | None => do_infix pl cx expr s
  end.
Definition lookupFunction (pl : plugins) (cx : context) (n : text) : option functor :=
  match p_function pl n with Some f => Some f | None => c_function cx n end.
(* value_parser.cpp:168-206: a constant or a function call, where an operand may start *)
Definition do_operand (pl : plugins) (cx : context) (expr : text) (s : state) : res ctl :=
  bind (parseConstant pl cx (s_radix s) (s_scan s)) (fun '(e, v, t) =>
    if isOK e then push_value s t v OK
    else if negb (err_eqb e NOT_AN_EXPECTED) then fail (set_scan s t) e v
    else
      match readFunctionName (p_symbol pl) (s_scan s) with
      | Some (n, t) =>
        match lookupFunction pl cx n with
        | Some f =>
          let o := skipSpaces t in
          match p_open pl o with
          | None => fail (set_scan s o) MISSING_FUNC_ARGUMENT v
          | Some _ =>
            Val (Next (mkSt o (s_vs s) (os_push (op_function f) (s_os s)) (s_eoe s) (s_paren s) false true
                            ((s_infn s + 1) mod 256) (s_radix s) (s_err s)))
          end
        | None => do_symbol pl cx expr s
        end
      | None => do_symbol pl cx expr s
      end).

(* one round of the loop: value_parser.cpp:150-327 *)
Definition step (pl : plugins) (cx : context) (s : state) : res ctl :=
  let expr := s_scan s in
  let '(stop, t) := p_eol pl (skipSpaces (s_scan s)) in
  let s := set_scan s t in
  if stop then Val (Break s)
  else if (peek t =? s_eoe s) && negb (match s_vs s with [] => true | _ => false end) then Val (Break s)
  else if s_prefix s then
    bind (p_prefix pl t (s_vs s) (s_radix s)) (fun '(o, vs, rdx) =>
      let s := set_stacks s vs (s_os s) rdx in
      if hasError (s_err s) then Val (Return v_undef (match o with Some (_, t) => set_scan s t | None => s end))
      else
        match o with
        | Some (opr, t) => do_operator (set_scan s t) opr
        | None => do_operand pl cx expr s
        end)
  else do_infix pl cx expr s.

(* the result: value, error, text left, default radix *)
Definition outcome := (value * err * text * Z)%type.
(* value_parser.cpp:329-341 *)
Definition finish (s : state) : res outcome :=
  bind (reduce_all (s_os s) (s_vs s) (s_radix s)) (fun '(e, vs, rdx) =>
    if isOK e then Val (fst (vs_pop vs), s_err s, s_scan s, rdx)
    else Val (v_undef, setErrorIfAt (s_err s) e, s_scan s, rdx)).
Fixpoint rounds (fuel : nat) (pl : plugins) (cx : context) (s : state) : res outcome :=
  match fuel with
  | O => FUEL
  | S fuel' =>
    bind (step pl cx s) (fun c =>
      match c with
      | Next s => rounds fuel' pl cx s
      | Break s => finish s
      | Return v s => Val (v, s_err s, s_scan s, s_radix s)
      end)
  end.
Definition start (cx : context) (t : text) (rdx : Z) (e : err) : state :=
  mkSt t [] [] (c_delim cx) 0 true false 0 rdx e.
(* value_parser.cpp:134-140 eval; the two pointers are equal when the lengths left are *)
Definition eval_fuel (fuel : nat) (pl : plugins) (cx : context) (t : text) (rdx : Z) (e : err) : res outcome :=
  let t := skipSpaces t in
  bind (rounds fuel pl cx (start cx t rdx e)) (fun '(v, e, t', rdx) =>
    Val (v, if Nat.eqb (length t') (length t) then setErrorIfAt e NOT_AN_EXPECTED else e, t', rdx)).
Definition eval (pl : plugins) (cx : context) (t : text) (rdx : Z) (e : err) : res outcome :=
  eval_fuel (S (length t)) pl cx t rdx e.
