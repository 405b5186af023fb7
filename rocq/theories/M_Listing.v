(** Model of the listing: driver/list_formatter.{h,cpp} and driver/asm_formatter.{h,cpp}.
    [OOB] is reading past the 64 bytes of an instruction, [FUEL] a listing that has no end.
    Simplifications: the text of the error line is not modelled (it is a parameter). *)
From Coq Require Import String ZArith List Bool.
From Verif Require Import M_Char M_Error M_Value M_StrBuffer M_Format M_Insn M_Operators.
Import ListNotations.
Open Scope string_scope.
Open Scope list_scope.
Local Open Scope Z_scope.

(* config_base.h:71-75: addressUnit, opCodeWidth, endian *)
Record lconf := mkLC { lc_unit : Z; lc_width : Z; lc_big : bool }.
(* list_formatter.h:66-67: _listRadix is 8, not 16; _upperHex *)
Record lopts := mkLO { lo_octal : bool; lo_upper : bool }.
(* list_formatter.h:68-71 *)
Definition addressColumnWidth : Z := 10.
Definition bytesInLine : Z := 6.
(* list_formatter.h:58 *)
Definition bytesColumnWidth : Z := 19.

Definition list_radix (o : lopts) : Z := if lo_octal o then 8 else 16.
(* list_formatter.cpp:36-44 calcDigits; a 32-bit number has at most 32 digits *)
Fixpoint digits_loop (fuel : nat) (v base : Z) : Z :=
  match fuel with
  | O => 0
  | S fuel => 1 + (if v / base =? 0 then 0 else digits_loop fuel (v / base) base)
  end.
Definition calcDigits (v base : Z) : Z := digits_loop 32 v base.
(* list_formatter.cpp:59-67 calcBits *)
Fixpoint bits_loop (fuel : nat) (v mask bits : Z) : Z :=
  match fuel with
  | O => bits
  | S fuel => if (2 <=? mask) && (Z.land v mask =? 0) then bits_loop fuel v (Z.shiftr mask 1) (bits - 1) else bits
  end.
Definition calcBits (v : Z) : Z := bits_loop 32 v 0x80000000 32.
(* list_formatter.cpp:69-71 calcRadixBits *)
Definition calcRadixBits (radix : Z) : Z := calcBits (radix - 1).
(* list_formatter.cpp:159-164 outSpaces *)
Definition outSpaces (n : Z) (out : sbuf) : sbuf := out_text (repeat 32 (Z.to_nat n)) out.
(* list_formatter.cpp:151-157 formatTab; [delta] is 4 *)
Fixpoint tab_stop (fuel : nat) (tab pos : Z) : Z :=
  match fuel with
  | O => tab
  | S fuel => if tab <? pos + 1 then tab_stop fuel (tab + 4) pos else tab
  end.
Definition formatTab (tab : Z) (out : sbuf) : sbuf :=
  let pos := b_mark out in
  outSpaces (tab_stop (Z.to_nat (pos + 1 - tab)) tab pos - pos) out.

(* list_formatter.cpp:46-57 formatDec *)
Definition list_formatDec (v width : Z) (out : sbuf) : sbuf :=
  let out := if 0 <? width then outSpaces (width - calcDigits v 10) out else out in
  let start := b_mark out in
  let out := formatDec fp_default v 32 out in
  if width <? 0 then outSpaces (- width - (b_mark out - start)) out else out.
(* list_formatter.cpp:88-92: the zeros before the last digit *)
Fixpoint skip_zeros (t : list Z) : list Z :=
  match t with
  | [] => []
  | c :: t' => match t' with [] => t | _ => if c =? 48 then skip_zeros t' else t end
  end.
(* list_formatter.cpp:73-100 formatValue *)
Definition formatValue (o : lopts) (v bits width : Z) (zeroSuppress : bool) (out : sbuf) : sbuf :=
  let bits := if bits =? 0 then calcBits v else bits in
  let rb := calcRadixBits (list_radix o) in
  let out := if 0 <? width then outSpaces (width - (bits / rb + (if bits mod rb =? 0 then 0 else 1))) out else out in
  let start := length (b_txt out) in
  let out := if lo_octal o then formatOct fp_default v bits out
             else over (formatHex fp_default v bits (case_buf (lo_upper o) out)) out in
  if width <? 0 then
    let digits := skipn start (b_txt out) in
    let nonzero := if zeroSuppress then skip_zeros digits else digits in
    let digits' := nonzero ++ repeat 32 (length digits - length nonzero) in
    outSpaces (- width - Z.of_nat (length digits))
      (mkB (firstn start (b_txt out) ++ digits') (b_max out) (b_err out) (b_case out))
  else out.
(* list_formatter.cpp:102-106 formatAddress *)
Definition formatAddress (o : lopts) (addr : Z) (out : sbuf) : sbuf :=
  letter 58 (letter 32 (formatValue o addr 0 (addressColumnWidth - 2) true out)).

(* an instruction that is listed: its address, length, and the 64 bytes of its buffer *)
Record listed_insn := mkLI { li_addr : Z; li_size : Z; li_bytes : list Z }.
Definition listed_of (i : insn) : listed_insn := mkLI (i_addr i) (i_len i) (i_bytes i).
(* asm_formatter.h:64, dis_formatter.h:70 getByte *)
Definition getByte (i : listed_insn) (n : Z) : res Z :=
  match nth_error (li_bytes i) (Z.to_nat n) with Some b => Val b | None => OOB end.
(* list_formatter.cpp:108-149 formatBytes: the rounds from [pos] on, after [len] bytes *)
Fixpoint bytes_loop (fuel : nat) (c : lconf) (o : lopts) (i : listed_insn) (offset pos len : Z) (out : sbuf) : res (sbuf * Z) :=
  match fuel with
  | O => Val (out, len)
  | S fuel =>
    if (offset + len <? li_size i) && (pos <? bytesInLine) then
      let out := letter 32 out in
      bind (getByte i (offset + len)) (fun v =>
        let len := len + 1 in
        let digits := calcDigits 0xFFFF (list_radix o) in
        if (lc_width c =? 16) && (lc_unit c =? 1) && (pos =? 0) && ((offset + li_addr i) mod 2 =? 1) then
          bytes_loop fuel c o i offset (pos + 1) len (formatValue o v 8 (if lc_big c then digits else - digits) false out)
        else if (lc_width c =? 16) && (lc_unit c =? 1) && (offset + len =? li_size i) then
          bytes_loop fuel c o i offset (pos + 1) len (formatValue o v 8 (if lc_big c then 0 else digits) false out)
        else if lc_width c =? 8 then bytes_loop fuel c o i offset (pos + 1) len (formatValue o v 8 0 false out)
        else
          bind (getByte i (offset + len)) (fun w =>
            let v := if lc_big c then Z.lor (Z.shiftl v 8) w else Z.lor v (Z.shiftl w 8) in
            bytes_loop fuel c o i offset (pos + 2) (len + 1) (formatValue o v (lc_width c) 0 false out)))
    else Val (out, len)
  end.
Definition formatBytes (c : lconf) (o : lopts) (i : listed_insn) (offset : Z) (out : sbuf) : res (sbuf * Z) :=
  bytes_loop 6 c o i offset 0 0 out.

(* ------------------------------------------------------------ listing of a source line *)
(* what AsmFormatter knows of a line: configuration, options, the instruction, the value, the
   source line, and whether it is in an included file (its nesting) with which line number *)
Record aline := mkAL {
  al_conf : lconf; al_opts : lopts; al_insn : listed_insn; al_value : value; al_source : list Z;
  al_nest : Z; al_lineno : option Z }.   (* [None]: no line numbers *)
(* asm_formatter.cpp:99-118 formatLineNumber *)
Definition formatLineNumber (l : aline) (next : Z) (out : sbuf) : sbuf :=
  if next <=? 0 then
    let out := if 1 <? al_nest l then letter 41 (list_formatDec (al_nest l - 1) 0 (letter 40 out)) else outSpaces 3 out in
    match al_lineno l with
    | Some n => letter 47 (list_formatDec n 5 out)
    | None => out
    end
  else outSpaces (match al_lineno l with Some _ => 3 + 6 | None => 3 end) out.
(* asm_formatter.cpp:78-97: the line from the byte [next] on, and where the next one starts *)
Definition asm_line (l : aline) (next : Z) : res (sbuf * Z) :=
  let out := mkB [] 255 OK None in
  let out := formatLineNumber l next out in
  let out := formatAddress (al_opts l) ((li_addr (al_insn l) + next) mod 2^32) out in
  let pos := b_mark out in
  bind (if isUndefined (al_value l) then formatBytes (al_conf l) (al_opts l) (al_insn l) next out
        else Val (formatValue (al_opts l) (getUnsigned (al_value l)) 0 0 false (out_text (s2l " =") out), 0)) (fun '(out, n) =>
    let out := if (next =? 0) && (0 <? Z.of_nat (length (al_source l)))
               then out_text (al_source l) (formatTab (pos + bytesColumnWidth + 1) out) else out in
    Val (out, next + n)).
(* asm_driver.cpp:142-146: while (hasNextLine()) println(getLine()); there is at least one line *)
Fixpoint asm_lines (fuel : nat) (l : aline) (next : Z) : res (list (list Z)) :=
  match fuel with
  | O => FUEL
  | S fuel =>
    bind (asm_line l next) (fun '(out, next) =>
      if next <? li_size (al_insn l) then bind (asm_lines fuel l next) (fun ts => Val (b_txt out :: ts))
      else Val [b_txt out])
  end.
Definition asm_listing (l : aline) (error : option (list Z)) : res (list (list Z)) :=
  bind (asm_lines 64 l 0) (fun ts => Val (match error with Some t => t :: ts | None => ts end)).
