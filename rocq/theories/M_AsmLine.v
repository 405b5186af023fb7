(** Model of what a source line does in an assembler: src/asm_base.cpp encode with the directives
    and options, for any processor (src/option_base.cpp, src/option_base.h, src/pseudos.h).
    Simplification: where in the line an error is reported is not modelled. *)
From Coq Require Import String ZArith List Bool.
From Verif Require Import M_Char M_Error M_Value M_Text M_Insn M_Config M_Operators M_Parsers M_Expr M_Directive M_Table M_Asm.
Import ListNotations.
Open Scope string_scope.
Open Scope list_scope.
Local Open Scope Z_scope.

(* ------------------------------------------------------------ options *)
(* the C library's strtol with base 10: the number and what follows it *)
Fixpoint strtol_digits (s : text) (n : Z) : Z * text :=
  match s with
  | c :: t => if is_digit c then strtol_digits t (n * 10 + (c - 48)) else (n, s)
  | [] => (n, [])
  end.
Definition strtol (s : text) : option (Z * text) :=
  let s := skipSpaces s in
  let '(neg, s) := match s with
                   | c :: t => if c =? 45 then (true, t) else if c =? 43 then (false, t) else (false, s)
                   | [] => (false, s)
                   end in
  if is_digit (peek s) then
    let '(n, t) := strtol_digits s 0 in
    Some (if neg then Z.max (- n) (- 2^63) else Z.min n (2^63 - 1), t)
  else None.
(* str_scanner.cpp:53-61 expectTrue, expectFalse *)
Fixpoint expect_word (ws : list string) (s : text) : option text :=
  match ws with
  | [] => None
  | w :: ws' => match iexpectWord (s2l w) s with Some t => Some t | None => expect_word ws' s end
  end.
Definition expectTrue := expect_word ["enable"; "true"; "yes"; "on"].
Definition expectFalse := expect_word ["disable"; "false"; "no"; "off"].
Definition opt_dquote (s : text) : bool * text := match expect_char DQUOTE s with Some t => (true, t) | None => (false, s) end.
(* the closing quote, when there was an opening one: [None] if it is missing *)
Definition close_dquote (dquote : bool) (s : text) : option text := if dquote then expect_char DQUOTE s else Some s.
(* option_base.cpp:28-46 parseBool *)
Definition parseBool (scan : text) : err * bool * text :=
  let '(dquote, p) := opt_dquote scan in
  match expectTrue p with
  | Some p => match close_dquote dquote p with Some p => (OK, true, p) | None => (MISSING_CLOSING_DQUOTE, false, scan) end
  | None =>
    match expectFalse p with
    | Some p => match close_dquote dquote p with Some p => (OK, false, p) | None => (MISSING_CLOSING_DQUOTE, false, scan) end
    | None => (NOT_AN_EXPECTED, false, scan)
    end
  end.
(* option_base.cpp:48-55 parseInt, 69-79 OptionBase::parseIntOption *)
Definition static_parseIntOption (scan : text) : err * Z * text :=
  let '(dquote, p) := opt_dquote scan in
  match strtol p with
  | None => (ILLEGAL_CONSTANT, 0, scan)
  | Some (v, p) => match close_dquote dquote p with Some p => (OK, s32 v, p) | None => (ILLEGAL_CONSTANT, s32 v, scan) end
  end.
(* option_base.cpp:59-67 OptionBase::parseBoolOption *)
Definition static_parseBoolOption (scan : text) : err * bool * text :=
  let '(e, b, p) := parseBool scan in
  if isOK e then (OK, b, p)
  else let '(e, v, p) := static_parseIntOption scan in
       if isOK e then (OK, negb (v =? 0), p) else (e, false, scan).
(* asm_base.cpp:427-439 Assembler::parseIntOption *)
Definition parseIntOption (a : asm) (loc : Z) (scan : text) : res (err * Z * text) :=
  let '(dquote, p) := opt_dquote scan in
  bind (parseInteger a loc p OK 0) (fun '(v, e, p) =>
    let n := s32 (getUnsigned v) in
    if isOK e then
      match close_dquote dquote p with Some p => Val (OK, n, p) | None => Val (ILLEGAL_CONSTANT, n, scan) end
    else Val (e, n, scan)).
(* asm_base.cpp:417-425 Assembler::parseBoolOption *)
Definition parseBoolOption (a : asm) (loc : Z) (scan : text) : res (err * bool * text) :=
  let '(e, b, p) := static_parseBoolOption scan in
  if isOK e then Val (OK, b, p)
  else bind (parseIntOption a loc scan) (fun '(e, v, p) => Val (e, negb (v =? 0), p)).

(* option_base.h:66-124 BoolOption, IntOption, of an assembler object of type [O] *)
Inductive option_of (O : Type) := OptBool (set : bool -> O -> err * O) | OptInt (set : Z -> O -> err * O).
Arguments OptBool {O}. Arguments OptInt {O}.
Definition set_option {O} (a : asm) (loc : Z) (opt : option_of O) (scan : text) (o : O) : res (err * text * O) :=
  match opt with
  | OptBool set =>
    bind (parseBoolOption a loc scan) (fun '(e, b, p) =>
      if isOK e then let '(e, o) := set b o in Val (e, p, o) else Val (e, p, o))
  | OptInt set =>
    bind (parseIntOption a loc scan) (fun '(e, n, p) =>
      if isOK e then let '(e, o) := set n o in Val (e, p, o) else Val (e, p, o))
  end.
(* option_base.cpp:102-113 *)
Fixpoint find_option {O} (name : text) (opts : list (string * option_of O)) : option (option_of O) :=
  match opts with
  | [] => None
  | (n, opt) :: opts' => if iequals name (s2l n) then Some opt else find_option name opts'
  end.
(* asm_base.cpp:153-157: the common options first, and those of the processor whenever that is not OK *)
Definition assembler_setOption {O} (a : asm) (loc : Z) (common own : list (string * option_of O)) (name scan : text) (o : O)
  : res (err * text * O) :=
  bind (match find_option name common with
        | Some opt => set_option a loc opt scan o
        | None => Val (UNKNOWN_OPTION, scan, o)
        end) (fun '(e, p, o) =>
    if isOK e then Val (OK, p, o)
    else match find_option name own with
         | Some opt => set_option a loc opt p o
         | None => Val (UNKNOWN_OPTION, p, o)
         end).
(* asm_base.cpp:159-174 setOption: a missing quote or comma is answered but not kept in the instruction *)
Definition setOption {O} (a : asm) (common own : list (string * option_of O)) (s : dstate) (o : O) : res (err * dstate * O) :=
  let scan := skipSpaces (ds_scan s) in
  let '(dquote, p) := opt_dquote scan in
  let '(name, p) := takeWhile (fun c => is_alnum c || (c =? 45)) p in
  match close_dquote dquote p with
  | None => Val (MISSING_CLOSING_DQUOTE, ds_set_scan scan s, o)
  | Some p =>
    match expect_char 44 (skipSpaces p) with
    | None => Val (MISSING_COMMA, ds_set_scan scan s, o)
    | Some p =>
      bind (assembler_setOption a (ds_loc s) common own name (skipSpaces p) o) (fun '(e, p, o) =>
        let '(e, s) := insn_setErrorIf e s in
        if isOK e then Val (OK, ds_set_scan p s, o) else Val (e, s, o))
    end
  end.

(* ------------------------------------------------------------ directives *)
Inductive directive :=
| D_DATA (ty : dtype) (align : bool) | D_SPACE (ty : dtype) (align : bool) | D_ALIGN (step : Z) | D_ORG | D_STRING | D_OPTION.
(* the handlers named in the directive tables (T_Tables.v) *)
Definition directive_names : list (string * directive) := [
  ("&Assembler::alignOrigin", D_ALIGN ALIGN_VAR);
  ("&Assembler::alignOrigin,Assembler::ALIGN_EVEN", D_ALIGN ALIGN_EVEN);
  ("&Assembler::alignOrigin,Assembler::ALIGN_ODD", D_ALIGN ALIGN_ODD);
  ("&Assembler::allocateSpaces,Assembler::DATA_BYTE", D_SPACE DATA_BYTE false);
  ("&Assembler::allocateSpaces,Assembler::DATA_LONG", D_SPACE DATA_LONG false);
  ("&Assembler::allocateSpaces,Assembler::DATA_LONG|Assembler::DATA_ALIGN2", D_SPACE DATA_LONG true);
  ("&Assembler::allocateSpaces,Assembler::DATA_WORD | Assembler::DATA_ALIGN2", D_SPACE DATA_WORD true);
  ("&Assembler::allocateSpaces,Assembler::DATA_WORD", D_SPACE DATA_WORD false);
  ("&Assembler::allocateSpaces,Assembler::DATA_WORD|Assembler::DATA_ALIGN2", D_SPACE DATA_WORD true);
  ("&Assembler::defineDataConstant,Assembler::DATA_BYTE", D_DATA DATA_BYTE false);
  ("&Assembler::defineDataConstant,Assembler::DATA_BYTE_IN_WORD", D_DATA DATA_BYTE_IN_WORD false);
  ("&Assembler::defineDataConstant,Assembler::DATA_BYTE_NO_STRING", D_DATA DATA_BYTE_NO_STRING false);
  ("&Assembler::defineDataConstant,Assembler::DATA_BYTE_OR_WORD", D_DATA DATA_BYTE_OR_WORD false);
  ("&Assembler::defineDataConstant,Assembler::DATA_FLOAT32", D_DATA DATA_FLOAT32 false);
  ("&Assembler::defineDataConstant,Assembler::DATA_FLOAT32|Assembler::DATA_ALIGN2", D_DATA DATA_FLOAT32 true);
  ("&Assembler::defineDataConstant,Assembler::DATA_FLOAT64", D_DATA DATA_FLOAT64 false);
  ("&Assembler::defineDataConstant,Assembler::DATA_FLOAT64|Assembler::DATA_ALIGN2", D_DATA DATA_FLOAT64 true);
  ("&Assembler::defineDataConstant,Assembler::DATA_LONG", D_DATA DATA_LONG false);
  ("&Assembler::defineDataConstant,Assembler::DATA_LONG|Assembler::DATA_ALIGN2", D_DATA DATA_LONG true);
  ("&Assembler::defineDataConstant,Assembler::DATA_WORD", D_DATA DATA_WORD false);
  ("&Assembler::defineDataConstant,Assembler::DATA_WORD_NO_STRING | Assembler::DATA_ALIGN2", D_DATA DATA_WORD_NO_STRING true);
  ("&Assembler::defineDataConstant,Assembler::DATA_WORD_NO_STRING", D_DATA DATA_WORD_NO_STRING false);
  ("&Assembler::defineDataConstant,Assembler::DATA_WORD|Assembler::DATA_ALIGN2", D_DATA DATA_WORD true);
  ("&Assembler::defineOrigin", D_ORG);
  ("&Assembler::defineString", D_STRING);
  ("&Assembler::setOption", D_OPTION)].
Fixpoint assoc_string {A} (k : string) (l : list (string * A)) : option A :=
  match l with [] => None | (n, x) :: l' => if String.eqb k n then Some x else assoc_string k l' end.
(* a row that names no handler of asm_base.cpp is not reached (tables of the processors' own
   handlers are modelled with them) *)
Definition directive_at (tables : list name_table) (t k : nat) : option directive :=
  match nth_error tables t with
  | Some tbl => match nth_error tbl k with Some (_, h) => assoc_string h directive_names | None => None end
  | None => None
  end.
(* pseudos.h:43-46 invoke *)
Definition run_directive {O} (a : asm) (common own : list (string * option_of O)) (d : directive) (s : dstate) (o : O)
  : res (dstate * O) :=
  let plain (r : res (err * dstate)) := bind r (fun '(_, s) => Val (s, o)) in
  match d with
  | D_DATA ty align => plain (defineDataConstant a ty align s)
  | D_SPACE ty align => plain (allocateSpaces a ty align s)
  | D_ALIGN step => plain (alignOrigin a step s)
  | D_ORG => plain (defineOrigin a s)
  | D_STRING => plain (defineString s)
  | D_OPTION => bind (setOption a common own s o) (fun '(_, s, o) => Val (s, o))
  end.
(* asm_base.cpp:79-103 encode: the instruction with its error, _currentLocation and the object;
   [special] runs the directives a processor handles itself *)
Definition encode_line {O} (a : asm) (specials : list text) (tables : list name_table) (common own : list (string * option_of O))
    (special : nat -> dstate -> O -> res (dstate * O)) (impl : text -> text -> insn -> res (insn * text))
    (loc : Z) (line : text) (i : insn) (o : O) : res (insn * Z * O) :=
  let i := i_seterr OK i in
  let run r := bind r (fun '(s, o) => Val (ds_insn s, ds_loc s, o)) in
  bind (asm_encode a specials tables impl line i) (fun l =>
    match l with
    | L_comment => Val (i, loc, o)
    | L_special k scan => run (special k (mkDS loc scan i) o)
    | L_directive t k scan =>
      match directive_at tables t k with
      | Some d => run (run_directive a common own d (mkDS loc scan i) o)
      | None => OOB
      end
    | L_insn i scan => Val (i, i_addr i, o)
    end).
