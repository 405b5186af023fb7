(** Model of the letter, symbol and comment parsers: src/letter_parser.h, src/symbol_parser.h,
    src/comment_parser.h and src/parsers.cpp.  Letters are bytes 0..255 (the code casts [char] to
    [uint8_t] before use); a scanner is the text it still has to read. *)
From Coq Require Import ZArith String List Bool.
From Verif Require Import M_Char M_Error M_Text M_Number.
Import ListNotations.
Open Scope string_scope.
Open Scope list_scope.
Local Open Scope Z_scope.

Definition QUOTE : Z := 39.
Definition DQUOTE : Z := 34.
Definition tl_ (s : text) : text := match s with [] => [] | _ :: t => t end.
(* an optional letter: [scan.expect(c);] with the result ignored *)
Definition opt_char (c : Z) (s : text) : text := match expect_char c s with Some t => t | None => s end.
Definition opt_ichar (c : Z) (s : text) : text := match iexpect c s with Some t => t | None => s end.

(* parsers.cpp:40-42 to_digit *)
Definition to_digit (c : Z) : Z := if is_digit c then c - 48 else to_upper c - 65 + 10.

(* ---------------------------------------------------------------- letters *)
(* the letter read and the error *)
Definition letter_reader := Z -> text -> err * Z * text.
Definition missing_closing (delim : Z) : err := if delim =? DQUOTE then MISSING_CLOSING_DQUOTE else MISSING_CLOSING_QUOTE.

(* parsers.cpp:359-376 LetterParser::readLetter *)
Definition readLetter_default : letter_reader := fun delim s =>
  match expect_char delim s with
  | Some p =>
    match expect_char delim p with
    | Some p' => (OK, delim, p')
    | None => (missing_closing delim, 0, s)
    end
  | None =>
    match s with
    | [] => (ILLEGAL_CONSTANT, 0, s)
    | c :: p => (OK, c, p)
    end
  end.

(* parsers.cpp:386-389 *)
Fixpoint hex_escape (s : text) (n : Z) : Z * text :=
  match s with
  | c :: t => if is_xdigit c then hex_escape t ((n * 16 + to_digit c) mod 2^32) else (n, s)
  | [] => (n, s)
  end.
(* parsers.cpp:398-401 *)
Fixpoint oct_escape (i : nat) (s : text) (n : Z) : Z * text :=
  match i, s with
  | S i', c :: t => if is_octal c then oct_escape i' t (n * 8 + to_digit c) else (n, s)
  | _, _ => (n, s)
  end.
(* parsers.cpp:378-436 CStyleLetterParser::readLetter *)
Definition readLetter_cstyle : letter_reader := fun delim s =>
  let c := peek s in
  let p := tl_ s in
  if c =? 92 then
    match iexpect 120 p with
    | Some p =>
      let '(n, p) := hex_escape p 0 in
      (if 255 <? n then OVERFLOW_RANGE else OK, n mod 256, p)
    | None =>
      if is_octal (peek p) then
        let '(n, p) := oct_escape 3 p 0 in
        (if 255 <? n then OVERFLOW_RANGE else OK, n mod 256, p)
      else
        let c := peek p in
        let p := tl_ p in
        if (c =? 39) || (c =? 34) || (c =? 63) || (c =? 92) then (OK, c, p)
        else if c =? 98 then (OK, 8, p)
        else if c =? 116 then (OK, 9, p)
        else if c =? 110 then (OK, 10, p)
        else if c =? 114 then (OK, 13, p)
        else (UNKNOWN_ESCAPE_SEQUENCE, c, p)
    end
  else if c =? delim then (ILLEGAL_CONSTANT, c, p)
  else (OK, c, p).

(* parsers.cpp:451-488 ZilogLetterParser::readLetter *)
Definition readLetter_zilog : letter_reader := fun delim s =>
  let c := peek s in
  let p := tl_ s in
  if c =? 37 then
    if is_xdigit (peek_at 0 p) && is_xdigit (peek_at 1 p) then
      (OK, (to_digit (peek_at 0 p) * 16 + to_digit (peek_at 1 p)) mod 256, tl_ (tl_ p))
    else
      let c := peek p in
      let p := tl_ p in
      let u := to_upper c in
      if u =? 76 then (OK, 10, p)
      else if u =? 84 then (OK, 9, p)
      else if u =? 82 then (OK, 13, p)
      else if u =? 80 then (OK, 12, p)
      else if u =? 37 then (OK, c, p)
      else if u =? 81 then (OK, 39, p)
      else (UNKNOWN_ESCAPE_SEQUENCE, c, p)
  else if c =? delim then (ILLEGAL_CONSTANT, c, p)
  else (OK, c, p).

(* parsers.cpp:527-535 Ns32000LetterParser::readLetter *)
Definition readLetter_ns32000 : letter_reader := fun delim s =>
  let c := peek s in
  let p := tl_ s in
  if (c =? 92) && negb (peek p =? 0) then (OK, peek p, tl_ p)
  else if c =? delim then (ILLEGAL_CONSTANT, c, p)
  else (OK, c, p).

(* parsers.cpp:553-561 Pdp8LetterParser::readLetter *)
Definition readLetter_pdp8 : letter_reader := fun _ s =>
  let c := peek s in
  if (c =? 0) || ((96 <=? c) && (c <? 127)) then (ILLEGAL_CONSTANT, 0, s)
  else (OK, (c + 128) mod 256, tl_ s).

(* parsers.cpp:339-357 LetterParser::parseLetter, for the letter prefix [pre] and the reader [rd];
   the letter delimiter is a single quote for every family *)
Definition letter_parser := text -> err * Z * text.
Definition parseLetter_with (pre : text -> option text) (rd : letter_reader) : letter_parser := fun s =>
  match pre s with
  | None => (NOT_AN_EXPECTED, 0, s)
  | Some p =>
    match expect_char QUOTE p with
    | None => (NOT_AN_EXPECTED, 0, s)
    | Some p =>
      let '(e, c, p) := rd QUOTE p in
      if isOK e then
        match expect_char QUOTE p with
        | Some p => (OK, c, p)
        | None => (missing_closing QUOTE, c, s)
        end
      else (e, c, s)
    end
  end.
Definition no_prefix (s : text) : option text := Some s.
Definition optional_prefix (c : Z) (s : text) : option text := Some (opt_ichar c s).

Definition parseLetter_default : letter_parser := parseLetter_with no_prefix readLetter_default.
Definition parseLetter_cstyle : letter_parser := parseLetter_with no_prefix readLetter_cstyle.
Definition parseLetter_zilog : letter_parser := parseLetter_with no_prefix readLetter_zilog.
Definition parseLetter_ns32000 : letter_parser := parseLetter_with no_prefix readLetter_ns32000.
(* letter_parser.h:96-116 *)
Definition parseLetter_ibm : letter_parser := parseLetter_with (optional_prefix 67) readLetter_default.
Definition parseLetter_rca : letter_parser := parseLetter_with (optional_prefix 84) readLetter_default.
(* letter_parser.h:133-136 *)
Definition parseLetter_signetics : letter_parser := parseLetter_with (iexpect 65) readLetter_default.

(* parsers.cpp:438-449 MotorolaLetterParser::parseLetter *)
Definition parseLetter_motorola : letter_parser := fun s =>
  match expect_char QUOTE s with
  | Some [] => (ILLEGAL_CONSTANT, 0, s)
  | Some (c :: p) => (OK, c, opt_char QUOTE p)
  | None => (NOT_AN_EXPECTED, 0, s)
  end.

(* parsers.cpp:490-515 FairchildLetterParser::parseLetter *)
Definition parseLetter_fairchild : letter_parser := fun s =>
  match iexpect 67 s with
  | Some p =>
    let '(e, c, p) := parseLetter_default p in
    if isOK e then (OK, c, p) else (e, c, s)
  | None =>
    match expect_char 35 s with
    | Some [] => (NOT_AN_EXPECTED, 0, s)
    | Some (c :: p) => (OK, c, p)
    | None =>
      match expect_char QUOTE s with
      | Some p =>
        let '(e, c, p) := readLetter_default QUOTE p in
        if isOK e then (OK, c, opt_char QUOTE p) else (e, c, s)
      | None => (NOT_AN_EXPECTED, 0, s)
      end
    end
  end.

(* parsers.cpp:537-551 Pdp8LetterParser::parseLetter *)
Definition parseLetter_pdp8 : letter_parser := fun s =>
  if peek s =? QUOTE then parseLetter_with no_prefix readLetter_pdp8 s
  else
    match expect_char DQUOTE s with
    | Some p =>
      let '(e, c, p) := readLetter_pdp8 0 p in
      if isOK e then (OK, c, p) else (ILLEGAL_CONSTANT, c, s)
    | None => (NOT_AN_EXPECTED, 0, s)
    end.

(* the string delimiter and the text after it; letter_parser.h:69,75,130,139,149, parsers.cpp:522-525 *)
Definition delim_quote (s : text) : option (Z * text) := option_map (fun t => (QUOTE, t)) (expect_char QUOTE s).
Definition delim_dquote (s : text) : option (Z * text) := option_map (fun t => (DQUOTE, t)) (expect_char DQUOTE s).
Definition delim_either (s : text) : option (Z * text) :=
  match delim_quote s with Some r => Some r | None => delim_dquote s end.

Record letters := mkL {
  l_parse : letter_parser;
  l_read : letter_reader;
  l_string_prefix : text -> option text;
  l_string_delim : text -> option (Z * text)
}.
Definition lp_default := mkL parseLetter_default readLetter_default no_prefix delim_quote.
Definition lp_cstyle := mkL parseLetter_cstyle readLetter_cstyle no_prefix delim_dquote.
Definition lp_motorola := mkL parseLetter_motorola readLetter_default no_prefix delim_quote.
Definition lp_zilog := mkL parseLetter_zilog readLetter_zilog no_prefix delim_quote.
Definition lp_ibm := mkL parseLetter_ibm readLetter_default (optional_prefix 67) delim_quote.
Definition lp_rca := mkL parseLetter_rca readLetter_default (optional_prefix 84) delim_quote.
Definition lp_fairchild := mkL parseLetter_fairchild readLetter_default (optional_prefix 67) delim_quote.
Definition lp_mostek := mkL parseLetter_motorola readLetter_default no_prefix delim_either.
Definition lp_signetics := mkL parseLetter_signetics readLetter_default (iexpect 65) delim_quote.
Definition lp_ns32000 := mkL parseLetter_ns32000 readLetter_ns32000 no_prefix delim_dquote.
Definition lp_pdp8 := mkL parseLetter_pdp8 readLetter_pdp8 no_prefix delim_quote.
Definition lp_tms32010 := mkL parseLetter_default readLetter_default no_prefix delim_dquote.

(* ---------------------------------------------------------------- symbols *)
(* parsers.cpp:251-253 SymbolParser::symbolLetter *)
Definition symbolLetter_default (c : Z) (head : bool) : bool :=
  is_alpha c || (negb head && is_digit c) || (c =? 95).
Definition among (w : text) (c : Z) : bool := negb (c =? 0) && existsb (Z.eqb c) w.
(* parsers.cpp:264-266 SimpleSymbolParser *)
Definition symbolLetter_simple (extra : text) (c : Z) (head : bool) : bool :=
  symbolLetter_default c head || among extra c.
(* parsers.cpp:268-276 PrefixSymbolParser; an absent list is None *)
Definition symbolLetter_prefix (prefix extra : option text) (c : Z) (head : bool) : bool :=
  if symbolLetter_default c head then true
  else
    match head, prefix with
    | true, Some w => among w c
    | _, _ => match extra with Some w => among w c | None => false end
    end.

(* parsers.cpp:255-262 locationSymbol(scan, location), tried for each letter of the list *)
Definition location_with (sl : Z -> bool -> bool) (c : Z) (s : text) : option text :=
  match expect_char c s with
  | Some p => if sl (peek p) false then None else Some p
  | None => None
  end.
Fixpoint location_any (sl : Z -> bool -> bool) (cs : list Z) (s : text) : option text :=
  match cs with
  | [] => None
  | c :: cs' => match location_with sl c s with Some p => Some p | None => location_any sl cs' s end
  end.

Record symbols := mkS {
  y_letter : Z -> bool -> bool;          (* symbolLetter(c, head) *)
  y_locations : list Z;                  (* letters of the location symbol, in the order tried *)
  y_label_delim : Z;                     (* labelDelimitor *)
  y_insn_extra : list Z;                 (* instructionLetter beyond symbolLetter *)
  y_insn_end : list Z;                   (* instructionTerminator *)
  y_fn_extra : list Z                    (* functionNameLetter beyond symbolLetter *)
}.
Definition y_insn_letter (y : symbols) (c : Z) : bool := y_letter y c false || among (y_insn_extra y) c.
Definition y_fn_letter (y : symbols) (c : Z) : bool := y_letter y c false || among (y_fn_extra y) c.
Definition y_location (y : symbols) (s : text) : option text := location_any (y_letter y) (y_locations y) s.

(* symbol_parser.h:29-168, parsers.cpp:278-337 *)
Definition sp_default := mkS symbolLetter_default [36] 58 [] [] [].
Definition sp_intel := mkS (symbolLetter_prefix None (Some (s2l "_?"))) [36] 58 [] [] [].
Definition sp_motorola := mkS (symbolLetter_prefix (Some (s2l ".")) (Some (s2l "_.$"))) [42] 58 [] [] [].
Definition sp_rca := mkS symbolLetter_default [42] 58 (s2l "=") (s2l "=") (s2l ".").
Definition sp_fairchild := mkS symbolLetter_default [42; 36; 46] 58 [] [] [].
Definition sp_panasonic := mkS symbolLetter_default [42] 58 [] [] [].
Definition sp_mostek := mkS (symbolLetter_simple (s2l "_")) [42] 58 (s2l ".=*:") (s2l "=") [].
Definition sp_ins80xx := mkS (symbolLetter_prefix (Some (s2l "$")) None) [46; 36] 58 (s2l "=.") (s2l "=") [].
Definition sp_mc68000 := mkS (symbolLetter_prefix (Some (s2l ".")) (Some (s2l "_.$"))) [42] 58 (s2l ".") [] [].
Definition sp_ns32000 := mkS (symbolLetter_simple (s2l "_.")) [46; 42] 58 (s2l ".") [] [].
Definition sp_pdp11 := mkS (symbolLetter_prefix (Some (s2l "_.$")) None) [46; 42] 58 (s2l "=.") (s2l "=") [].
Definition sp_pdp8 := mkS symbolLetter_default [46; 36] 44 (s2l "*=") (s2l "*=") [].
Definition sp_tms32010 := mkS (symbolLetter_simple (s2l "_$")) [36] 58 (s2l ".") [] [].
Definition sp_z8 := mkS (symbolLetter_simple (s2l "_.$?")) [36] 58 [] [] [].
Definition sp_z8000 := mkS (symbolLetter_prefix None (Some (s2l "_"))) [36] 58 [] [] [].

(* value_parser.cpp:421-472: the name read and the text after it *)
Definition readName (head : Z -> bool) (cont : Z -> bool) (s : text) : option (text * text) :=
  match s with
  | c :: t => if head c then let '(a, r) := takeWhile cont t in Some (c :: a, r) else None
  | [] => None
  end.
Definition readSymbol (y : symbols) : text -> option (text * text) :=
  readName (fun c => y_letter y c true) (fun c => y_letter y c false).
Definition readFunctionName (y : symbols) : text -> option (text * text) :=
  readName (fun c => y_letter y c true) (y_fn_letter y).
Definition readLabel (y : symbols) (s : text) : option (text * text) :=
  match readSymbol y s with
  | Some (n, r) => Some (n, opt_char (y_label_delim y) r)
  | None => None
  end.
(* value_parser.cpp:444-461 *)
Fixpoint insn_letters (y : symbols) (s : text) : text * text :=
  match s with
  | c :: t =>
    if y_insn_letter y c then
      if among (y_insn_end y) c then ([c], t)
      else let '(a, r) := insn_letters y t in (c :: a, r)
    else ([], s)
  | [] => ([], [])
  end.
Definition readInstruction (y : symbols) (s : text) : option (text * text) :=
  match insn_letters y s with
  | ([], _) => None
  | (n, r) => Some (n, r)
  end.

(* ---------------------------------------------------------------- comments *)
(* endOfLine and commentLine: the answer and the text left (spaces may have been skipped) *)
Definition eol_parser := text -> bool * text.
(* parsers.cpp:563-565 *)
Definition eol_semicolon : eol_parser := fun s =>
  let s := skipSpaces s in ((peek s =? 0) || (peek s =? 59), s).
(* parsers.cpp:567-569 *)
Definition eol_sharp : eol_parser := fun s =>
  let '(b, s) := eol_semicolon s in (b || (peek s =? 35), s).
(* parsers.cpp:575-579 *)
Definition eol_star : eol_parser := fun s =>
  let e := (peek s =? 0) || (peek s =? 32) in
  let s := skipSpaces s in
  (e || ((peek s =? 0) || (peek s =? 59)), s).
(* parsers.cpp:585-587 *)
Definition eol_pdp8 : eol_parser := fun s => ((peek s =? 0) || (peek s =? 47) || (peek s =? 59), s).
(* parsers.cpp:571-573, 581-583, comment_parser.h:61-80 *)
Definition line_star : eol_parser := fun s => ((peek s =? 42) || (peek s =? 59), s).
Definition line_rca : eol_parser := fun s =>
  match iexpectText (s2l "..") s with Some p => (true, p) | None => eol_semicolon s end.
Definition line_tms32010 : eol_parser := fun s => (peek s =? 42, s).

(* asm_i8080.cpp:44-46, asm_i8086.cpp:54-56 *)
Definition sp_i8080 := mkS (symbolLetter_prefix (Some (s2l "@?")) None) [36] 58 [] [] [].
Definition sp_i8086 := mkS (symbolLetter_simple (s2l "_@?")) [36] 58 [] [] [].
