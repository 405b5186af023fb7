(** Model of src/number_parser.h and the number parsers in src/parsers.cpp. *)
From Coq Require Import ZArith List Bool String.
From Verif Require Import M_Char M_Error M_Value M_Text.
Import ListNotations.
Local Open Scope string_scope.
Local Open Scope list_scope.
Local Open Scope Z_scope.

(* parsers.cpp:33-39 *)
Definition is_octal (c : Z) : bool := (48 <=? c) && (c <? 56).
Definition is_binary (c : Z) : bool := (c =? 48) || (c =? 49).
(* parsers.cpp:45-49 is_digit *)
Definition is_digit_r (r c : Z) : bool :=
  if r =? RADIX_16 then is_xdigit c else (48 <=? c) && (c <? 48 + r).

(* parsers.cpp:53-77 scanNumberEnd: the scanner after the number, or None for NOT_AN_EXPECTED *)
Definition scanNumberEnd (s : text) (r suffix : Z) : option text :=
  let cstyle_bin :=
    (r =? RADIX_2) && (suffix =? 66) &&
    match expect_char 48 s with
    | Some p => match iexpect 66 p with Some q => is_binary (peek q) | None => false end
    | None => false
    end in
  if cstyle_bin then None
  else if is_digit_r r (peek s) then
    if (r =? RADIX_16) && negb (is_digit_r RADIX_10 (peek s)) then None
    else
      let p := trimStart (is_digit_r r) s in
      if suffix =? 0 then if is_alnum (peek p) then None else Some p
      else iexpect suffix p
  else None.

(* a number parser: text, default radix; error, value, text after it *)
Definition number_parser := text -> Z -> err * value * text.
Definition not_expected (s : text) : err * value * text := (NOT_AN_EXPECTED, v_undef, s).

(* the common tail "const auto error = val.read(p, radix); if (error != NOT_AN_EXPECTED) scan = p;" *)
Definition read_from (s p : text) (r : Z) : err * value * text :=
  let '(e, v, q) := v_read p r in
  if err_eqb e NOT_AN_EXPECTED then (e, v, s) else (e, v, q).

(* parsers.cpp:79-89 CStyleNumberParser::hasPrefix *)
Definition cstyle_prefix (s : text) (dr : Z) : Z * text :=
  match iexpectText (s2l "0x") s with
  | Some p => (RADIX_16, p)
  | None =>
    match iexpectText (s2l "0b") s with
    | Some p => (RADIX_2, p)
    | None =>
      if (peek s =? 48) && is_octal (peek_at 1 s) then (RADIX_8, s)
      else if is_digit_r dr (peek s) then (dr, s)
      else (RADIX_NONE, s)
    end
  end.
(* parsers.cpp:91-101 CStyleNumberParser::parseNumber *)
Definition np_cstyle : number_parser := fun s dr =>
  let (r, p) := cstyle_prefix s dr in
  if r =? RADIX_NONE then not_expected s else read_from s p r.

(* parsers.cpp:103-113 IntelNumberParser::hasSuffix *)
Definition intel_suffix (s : text) : Z * text :=
  match scanNumberEnd s RADIX_16 72 with
  | Some e => (RADIX_16, e)
  | None =>
    match scanNumberEnd s RADIX_8 79 with
    | Some e => (RADIX_8, e)
    | None =>
      match scanNumberEnd s RADIX_8 81 with
      | Some e => (RADIX_8, e)
      | None =>
        match scanNumberEnd s RADIX_2 66 with
        | Some e => (RADIX_2, e)
        | None =>
          match scanNumberEnd s RADIX_10 68 with
          | Some e => (RADIX_10, e)
          | None => (RADIX_NONE, s)
          end
        end
      end
    end
  end.
(* parsers.cpp:123-129 parseNumber(scan, val, radix, end) *)
Definition intel_read (s : text) (r : Z) (e : text) : err * value * text :=
  let '(er, v, q) := v_read s r in
  if err_eqb er NOT_AN_EXPECTED then (er, v, q) else (er, v, e).
(* parsers.cpp:115-121 IntelNumberParser::parseNumber *)
Definition np_intel : number_parser := fun s dr =>
  let (r, e) := intel_suffix s in
  if r =? RADIX_NONE then np_cstyle s dr else intel_read s r e.

(* parsers.cpp:131-141 PrefixNumberParser::hasPrefix; a 0 letter is no prefix *)
Definition has_prefix1 (c r : Z) (s : text) : option (Z * text) :=
  if c =? 0 then None else match iexpect c s with Some p => Some (r, p) | None => None end.
Definition prefix_of (hex bin oct dec : Z) (s : text) : Z * text :=
  match has_prefix1 hex RADIX_16 s with
  | Some x => x
  | None =>
    match has_prefix1 bin RADIX_2 s with
    | Some x => x
    | None =>
      match has_prefix1 oct RADIX_8 s with
      | Some x => x
      | None =>
        match has_prefix1 dec RADIX_10 s with
        | Some x => x
        | None => (RADIX_NONE, s)
        end
      end
    end
  end.
(* parsers.cpp:143-152 PrefixNumberParser::parseNumber *)
Definition np_prefix (hex bin oct dec : Z) : number_parser := fun s dr =>
  let (r, p) := prefix_of hex bin oct dec s in
  if r =? RADIX_NONE then np_intel s dr else read_from s p r.
(* number_parser.h:103-105 MotorolaNumberParser *)
Definition np_motorola : number_parser := np_prefix 36 37 64 38.
(* number_parser.h:126-128 TexasNumberParser *)
Definition np_texas : number_parser := np_prefix 62 63 0 0.

(* parsers.cpp:154-162 ZilogNumberParser::hasPrefix *)
Definition zilog_prefix (s : text) : Z * text :=
  match iexpectText (s2l "%(8)") s with
  | Some p => (RADIX_8, p)
  | None =>
    match iexpectText (s2l "%(2)") s with
    | Some p => (RADIX_2, p)
    | None =>
      match expect_char 37 s with
      | Some p => if is_xdigit (peek p) then (RADIX_16, p) else (RADIX_NONE, p)
      | None => (RADIX_NONE, s)
      end
    end
  end.
(* parsers.cpp:164-174 ZilogNumberParser::parseNumber *)
Definition np_zilog : number_parser := fun s dr =>
  let (r, p) := zilog_prefix s in
  if r =? RADIX_NONE then np_intel s dr else read_from s p r.

(* parsers.cpp:176-192 IbmNumberParser::parseNumber *)
Definition np_ibm (hex bin oct dec : Z) : number_parser := fun s dr =>
  let (r, p) := prefix_of hex bin oct dec s in
  if r =? RADIX_NONE then np_intel s dr
  else
    match expect_char 39 p with
    | Some q =>
      if is_digit_r r (peek q) then
        let '(e, v, t) := v_read q r in
        match expect_char 39 t with
        | Some t' => (e, v, t')
        | None => (MISSING_CLOSING_QUOTE, v, s)
        end
      else not_expected s
    | None => not_expected s
    end.
(* number_parser.h:158-160 *)
Definition np_panasonic : number_parser := np_ibm 88 0 0 0.
(* number_parser.h:163-165 *)
Definition np_signetics : number_parser := np_ibm 72 66 79 68.

(* parsers.cpp:194-203 RcaNumberParser::parseNumber, number_parser.h:145-148 *)
Definition np_rca : number_parser := fun s dr =>
  if (peek s =? 35) && is_xdigit (peek_at 1 s) then
    let '(e, v, q) := v_read (tl s) RADIX_16 in
    if isOK e then (e, v, q) else (e, v, s)
  else np_ibm 88 66 0 68 s dr.

(* parsers.cpp:205-211 NationalNumberParser::hasPrefix *)
Definition national_prefix (hex bin oct dec : Z) (s : text) : Z * text :=
  match (if hex =? 0 then match iexpect 88 s with Some p => Some p | None => iexpect 72 s end else None) with
  | Some p => (RADIX_16, p)
  | None =>
    match (if oct =? 81 then iexpect 79 s else None) with
    | Some p => (RADIX_8, p)
    | None => prefix_of hex bin oct dec s
    end
  end.
(* parsers.cpp:213-228 NationalNumberParser::parseNumber *)
Definition np_national (hex bin oct dec : Z) : number_parser := fun s dr =>
  let (r, p) := national_prefix hex bin oct dec s in
  if r =? RADIX_NONE then np_intel s dr
  else
    match expect_char 39 p with
    | Some q =>
      if is_digit_r r (peek q) then
        let '(e, v, t) := v_read q r in
        let t := match expect_char 39 t with Some t' => t' | None => t end in
        if err_eqb e NOT_AN_EXPECTED then (e, v, s) else (e, v, t)
      else not_expected s
    | None => not_expected s
    end.
(* number_parser.h:186-192 *)
Definition np_ins80xx : number_parser := np_national 88 0 0 0.
Definition np_ns32000 : number_parser := np_national 0 66 81 68.

(* parsers.cpp:230-239 FairchildNumberParser::parseNumber, number_parser.h:153-156 *)
Definition np_fairchild : number_parser := fun s dr =>
  if (peek s =? 36) && is_xdigit (peek_at 1 s) then read_from s (tl s) RADIX_16
  else np_ibm 72 66 79 68 s dr.

(* parsers.cpp:241-253 Pdp11NumberParser::parseNumber *)
Definition np_pdp11 : number_parser := fun s dr =>
  if (peek s =? 34) && negb (peek_at 1 s =? 0) && negb (peek_at 2 s =? 0) then
    (OK, setUnsigned (Z.lor (peek_at 2 s * 256) (peek_at 1 s)), skipn 3 s)
  else
    match scanNumberEnd s RADIX_10 46 with
    | Some e => if is_digit (peek e) then np_intel s dr else intel_read s RADIX_10 e
    | None => np_intel s dr
    end.
