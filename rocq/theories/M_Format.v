(** Model of src/formatters.{h,cpp} and src/value_formatter.{h,cpp}: number output of the
    disassembler. *)
From Coq Require Import ZArith List Bool String.
From Verif Require Import M_Char M_Error M_StrBuffer.
Import ListNotations.
Local Open Scope string_scope.
Local Open Scope list_scope.
Local Open Scope Z_scope.

(* formatters.cpp:78-83: digit letters, lower case hexadecimal *)
Definition digit_letter (d : Z) : Z := if d <? 10 then d + 48 else d - 10 + 97.

(* formatters.cpp:28-32, 47-51, 65-69, 79-86: while (val).  A 32-bit value has at most
   [log2 val + 1] digits, which bounds the iterations. *)
Fixpoint digit_loop (fuel : nat) (r v : Z) (b : sbuf) : sbuf :=
  match fuel with
  | O => b
  | S f => if v =? 0 then b else digit_loop f r (v / r) (letter (digit_letter (v mod r)) b)
  end.
Definition out_digits (r v : Z) (b : sbuf) : sbuf := digit_loop (S (Z.to_nat (Z.log2 v))) r v b.

(* formatters.cpp:53-54, 72-73, 90-91: while (out.mark() - start < n && out.isOK()) *)
Fixpoint fill_loop (fuel : nat) (start n : Z) (b : sbuf) : sbuf :=
  match fuel with
  | O => b
  | S f =>
    if (b_mark b - start <? n) && isOK (b_err b) then fill_loop f start n (letter 48 b) else b
  end.
Definition zero_fill (start n : Z) (b : sbuf) : sbuf := fill_loop (Z.to_nat n) start n b.

(* formatters.cpp:26-36 outDec *)
Definition outDec (v : Z) (b : sbuf) : sbuf :=
  let start := b_mark b in
  let b := out_digits 10 v b in
  if b_mark b =? start then letter 48 b else b.
(* formatters.cpp:44-56 outBin *)
Definition outBin (v width : Z) (b : sbuf) : sbuf :=
  zero_fill (b_mark b) width (out_digits 2 v b).
(* formatters.cpp:63-75 outOct *)
Definition outOct (v width : Z) (b : sbuf) : sbuf :=
  zero_fill (b_mark b) (width / 3 + (if width mod 3 =? 0 then 0 else 1)) (out_digits 8 v b).
(* formatters.cpp:77-93 outHex *)
Definition outHex (v width : Z) (b : sbuf) : sbuf :=
  zero_fill (b_mark b) (width / 4 + (if width mod 4 =? 0 then 0 else 1)) (out_digits 16 v b).

(* a formatter: value, bits, buffer *)
Definition formatter := Z -> Z -> sbuf -> sbuf.

(* formatters.cpp:21-24 *)
Definition DecFormatter : formatter := fun v _ b => reverse (b_mark b) (outDec v b).
(* formatters.cpp:38-41 *)
Definition BinFormatter : formatter := fun v w b => reverse (b_mark b) (outBin v w b).
(* formatters.cpp:58-61 *)
Definition OctFormatter : formatter := fun v w b => reverse (b_mark b) (outOct v w b).
(* formatters.cpp:95-98 *)
Definition HexFormatter : formatter := fun v w b => reverse (b_mark b) (outHex v w b).

(* formatters.h:83-107 PrefixFormatter (a letter or a text) *)
Definition PrefixFormatter (f : formatter) (pre : text) : formatter := fun v w b => f v w (out_text pre b).
(* formatters.h:112-127 SuffixFormatter *)
Definition SuffixFormatter (f : formatter) (suf : Z) : formatter := fun v w b => letter suf (f v w b).
(* formatters.h:129-149 SurroundFormatter *)
Definition SurroundFormatter (f : formatter) (pre : text) (suf : Z) : formatter :=
  fun v w b => letter suf (f v w (out_text pre b)).
(* formatters.cpp:100-106 SuffixHexFormatter; [top[-1]] is the last letter written (0 here when
   the buffer is still empty, where the code reads the byte before the buffer) *)
Definition SuffixHexFormatter (suf : Z) : formatter := fun v w b =>
  let start := b_mark b in
  let b := outHex v w b in
  let b := if 57 <? last (b_txt b) 0 then letter 48 b else b in
  letter suf (reverse start b).
(* formatters.h:246-251, 266-271 CStyleBinFormatter, CStyleHexFormatter: the prefix is not
   case converted *)
Definition RawPrefixFormatter (f : formatter) (pre : text) : formatter :=
  fun v w b => f v w (out_rtext pre b).

(* value_formatter.h:27-43 Plugins *)
Record fplugin := mkF { f_dec : formatter; f_bin : formatter; f_oct : formatter; f_hex : formatter;
                        f_loc : Z }.
(* value_formatter.cpp:25-56 defaults *)
Definition fp_default : fplugin := mkF DecFormatter BinFormatter OctFormatter HexFormatter 36.
(* value_formatter.cpp:58-65, formatters.h:246-271 *)
Definition fp_cstyle : fplugin :=
  mkF DecFormatter (RawPrefixFormatter BinFormatter (s2l "0b")) (PrefixFormatter OctFormatter (s2l "0"))
      (RawPrefixFormatter HexFormatter (s2l "0x")) 36.
(* value_formatter.cpp:67-74, formatters.h:273-283 *)
Definition fp_intel : fplugin :=
  mkF DecFormatter (SuffixFormatter BinFormatter 66) (SuffixFormatter OctFormatter 81)
      (SuffixHexFormatter 72) 36.
(* value_formatter.cpp:76-85, formatters.h:285-295 *)
Definition fp_motorola : fplugin :=
  mkF DecFormatter (PrefixFormatter BinFormatter (s2l "%")) (PrefixFormatter OctFormatter (s2l "@"))
      (PrefixFormatter HexFormatter (s2l "$")) 42.
(* value_formatter.cpp:87-95, formatters.h:297-307, text_common.cpp:566-573 *)
Definition fp_fairchild : fplugin :=
  mkF DecFormatter (SurroundFormatter BinFormatter (s2l "b'") 39)
      (SurroundFormatter OctFormatter (s2l "o'") 39) (SurroundFormatter HexFormatter (s2l "h'") 39) 36.
(* value_formatter.cpp:97-104, formatters.h:309-319 *)
Definition fp_national : fplugin :=
  mkF DecFormatter (PrefixFormatter BinFormatter (s2l "b'")) (PrefixFormatter OctFormatter (s2l "o'"))
      (PrefixFormatter HexFormatter (s2l "x'")) 36.
(* value_formatter.cpp:106-113, formatters.h:321-327: no octal notation of its own *)
Definition fp_texas : fplugin :=
  mkF DecFormatter (PrefixFormatter BinFormatter (s2l "?")) OctFormatter
      (PrefixFormatter HexFormatter (s2l ">")) 36.
(* value_formatter.cpp:115-122, formatters.h:329-339 *)
Definition fp_zilog : fplugin :=
  mkF DecFormatter (PrefixFormatter BinFormatter (s2l "%(2)")) (PrefixFormatter OctFormatter (s2l "%(8)"))
      (PrefixFormatter HexFormatter (s2l "%")) 36.
(* dis_cdp1802.cpp:36-44 *)
Definition fp_cdp1802 : fplugin :=
  mkF DecFormatter BinFormatter OctFormatter (SurroundFormatter HexFormatter (s2l "x'") 39) 36.
(* dis_mn1610.cpp:29-37 *)
Definition fp_mn1610 : fplugin :=
  mkF DecFormatter BinFormatter OctFormatter (SurroundFormatter HexFormatter (s2l "x'") 39) 42.
(* dis_mos6502.cpp:38-45 *)
Definition fp_mos6502 : fplugin :=
  mkF DecFormatter BinFormatter OctFormatter (PrefixFormatter HexFormatter (s2l "$")) 42.
(* dis_scn2650.cpp:29-36 *)
Definition fp_scn2650 : fplugin :=
  mkF DecFormatter BinFormatter OctFormatter (SurroundFormatter HexFormatter (s2l "h'") 39) 36.
(* dis_tms32010.cpp:29-37 *)
Definition fp_tms32010 : fplugin :=
  mkF DecFormatter BinFormatter OctFormatter (SuffixHexFormatter 104) 36.
(* dis_ns32000.cpp:36-43 *)
Definition fp_ns32000 : fplugin :=
  mkF DecFormatter BinFormatter OctFormatter (PrefixFormatter HexFormatter (s2l "x'")) 46.
(* dis_pdp11.cpp:27-34, formatters.h:341-347 *)
Definition fp_pdp11 : fplugin :=
  mkF (PrefixFormatter DecFormatter (s2l "^D")) (PrefixFormatter BinFormatter (s2l "^B")) OctFormatter
      HexFormatter 46.
(* dis_pdp8.cpp:27-32 *)
Definition fp_pdp8 : fplugin := fp_default.

(* value_formatter.cpp:140-154 absolute: negative?, value.  int8_t bits in -32..32; 1UL is 64 bits
   wide (bits = 0 gives an empty mask). *)
Definition absolute (v bits : Z) : bool * Z :=
  let bw := Z.abs bits in
  let neg := (bits <? 0) && negb (Z.land v (2 ^ (bw - 1)) =? 0) in
  let v := if neg then ((2^32 - 1 - v) + 1) mod 2^32 else v in
  (neg, Z.land v (2 ^ bw - 1)).

(* value_formatter.cpp:156-161 makePositive, followed by a format *)
Definition format_signed (f : formatter) (v bits : Z) (b : sbuf) : sbuf :=
  let (neg, a) := absolute v bits in
  f a (Z.abs bits) (if neg then letter 45 b else b).
(* value_formatter.cpp:124-138 *)
Definition formatDec (p : fplugin) : Z -> Z -> sbuf -> sbuf := format_signed (f_dec p).
Definition formatBin (p : fplugin) : Z -> Z -> sbuf -> sbuf := format_signed (f_bin p).
Definition formatOct (p : fplugin) : Z -> Z -> sbuf -> sbuf := format_signed (f_oct p).
Definition formatHex (p : fplugin) : Z -> Z -> sbuf -> sbuf := format_signed (f_hex p).
