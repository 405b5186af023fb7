(** Model of the disassemblers of the 6800, F8, Z80, 6502, CDP1802, 8051, 8048 and TMS32010 as the
    driver uses them.  The names of the modules are written out, because the processors share many names. *)
From Coq Require Import String ZArith List Bool.
From Verif Require Import M_Char M_Error M_Value M_Text M_StrBuffer M_Format M_Insn M_Config M_Operators M_Listing M_Dis M_DisDriver.
From Verif Require M_Mc6800Defs M_Mc6800 M_F3850 M_Z80 M_Mos6502Defs M_Mos6502 M_Cdp1802Defs M_Cdp1802 M_I8051 M_I8048Defs M_I8048 M_Tms32010Defs M_Tms32010.
Import ListNotations.
Open Scope string_scope.
Open Scope list_scope.
Local Open Scope Z_scope.

(* table_mc6800.cpp:597-604, text_mc6800.cpp:25-31 the name of the current processor *)
Definition mc6800_cpu_name (ty : Z) : text :=
  if ty =? M_Mc6800Defs.MC6800 then s2l "6800" else if ty =? M_Mc6800Defs.MB8861 then s2l "MB8861"
  else if ty =? M_Mc6800Defs.MC6801 then s2l "6801" else if ty =? M_Mc6800Defs.HD6301 then s2l "6301" else s2l "6811".
(* config_mc6800.h:33-35: 16-bit addresses of bytes, 8-bit code, big endian, at most 5 letters in a name;
   value_formatter.cpp:77-85 motorola: a star starts a comment *)
Definition dis_6800 (ty : Z) (upperhex uppercase octal relative cstyle intelhex : bool) (cursym : Z) (message : err -> text) : dops :=
  let d := M_Mc6800.mc6800_dis upperhex uppercase octal relative cstyle intelhex cursym None in
  mkDO (mkLC 1 8 true) (mkLO octal upperhex) d 5 (mc6800_cpu_name ty) (s2l "*") (M_Mc6800.mc6800_decodeImpl d ty) message.

(* config_f3850.h:29-30: at most 4 letters in a name; table_f3850.cpp:202, text_f3850.cpp:25;
   value_formatter.cpp:87-95 fairchild: a star starts a comment *)
Definition dis_f8 (upperhex uppercase octal relative cstyle intelhex : bool) (cursym : Z) (message : err -> text) : dops :=
  let d := M_F3850.f3850_dis upperhex uppercase octal relative cstyle intelhex cursym None in
  mkDO (mkLC 1 8 true) (mkLO octal upperhex) d 4 (s2l "3850") (s2l "*") (M_F3850.f3850_decodeImpl d) message.

(* config_z80.h:29-30: little endian, at most 5 letters; table_z80.cpp:395, text_z80.cpp:24;
   value_formatter.cpp:49-51 a semicolon starts a comment *)
Definition dis_z80 (upperhex uppercase octal relative cstyle intelhex : bool) (cursym : Z) (message : err -> text) : dops :=
  let d := M_Z80.z80_dis upperhex uppercase octal relative cstyle intelhex cursym None in
  mkDO (mkLC 1 8 false) (mkLO octal upperhex) d 5 (s2l "Z80") (s2l ";") (M_Z80.z80_decodeImpl d) message.

(* table_mos6502.cpp:703-710, text_mos6502.cpp:25-29 *)
Definition mos6502_cpu_name (ty : Z) : text :=
  if ty =? M_Mos6502Defs.MOS6502 then s2l "6502" else if ty =? M_Mos6502Defs.G65SC02 then s2l "65SC02"
  else if ty =? M_Mos6502Defs.R65C02 then s2l "65C02" else if ty =? M_Mos6502Defs.W65C02S then s2l "W65C02S" else s2l "65816".
(* config_mos6502.h:33-41: little endian, at most 4 letters; addresses of 24 bits on the 65816, of 16 on
   the others; dis_mos6502.cpp:38-45 has the comment of value_formatter.cpp:49-51 *)
Definition dis_6502 (ty : Z) (opt : M_Mos6502.options) (upperhex uppercase octal relative cstyle intelhex : bool) (cursym : Z)
    (message : err -> text) : dops :=
  let d := M_Mos6502.mos6502_dis ty upperhex uppercase octal relative cstyle intelhex cursym None in
  mkDO (mkLC 1 8 false) (mkLO octal upperhex) d 4 (mos6502_cpu_name ty) (s2l ";") (M_Mos6502.mos6502_decodeImpl d ty opt) message.

(* table_cdp1802.cpp:317-321, text_cdp1802.cpp:25-27 *)
Definition cdp1802_cpu_name (ty : Z) : text :=
  if ty =? M_Cdp1802Defs.CDP1802 then s2l "1802" else if ty =? M_Cdp1802Defs.CDP1804 then s2l "1804" else s2l "1804A".
(* config_cdp1802.h:31-32: big endian, at most 4 letters; dis_cdp1802.cpp:36-44 two dots start a comment *)
Definition dis_1802 (ty : Z) (useReg upperhex uppercase octal relative cstyle intelhex : bool) (cursym : Z) (message : err -> text) : dops :=
  let d := M_Cdp1802.cdp1802_dis upperhex uppercase octal relative cstyle intelhex cursym None in
  mkDO (mkLC 1 8 true) (mkLO octal upperhex) d 4 (cdp1802_cpu_name ty) (s2l "..") (M_Cdp1802.cdp1802_decodeImpl d ty useReg) message.

(* config_i8051.h:29-30: big endian, at most 5 letters; table_i8051.cpp:272, text_i8051.cpp:25 *)
Definition dis_8051 (upperhex uppercase octal relative cstyle intelhex : bool) (cursym : Z) (message : err -> text) : dops :=
  let d := M_I8051.i8051_dis upperhex uppercase octal relative cstyle intelhex cursym None in
  mkDO (mkLC 1 8 true) (mkLO octal upperhex) d 5 (s2l "8051") (s2l ";") (M_I8051.i8051_decodeImpl d) message.

(* table_i8048.cpp:275-282, text_i8048.cpp:25-30 *)
Definition i8048_cpu_name (ty : Z) : text :=
  if ty =? M_I8048Defs.I8039 then s2l "8039" else if ty =? M_I8048Defs.I80C39 then s2l "80C39"
  else if ty =? M_I8048Defs.MSM80C39 then s2l "MSM80C39" else if ty =? M_I8048Defs.I8048 then s2l "8048"
  else if ty =? M_I8048Defs.I80C48 then s2l "80C48" else s2l "MSM80C48".
(* config_i8048.h:36-37: 12-bit addresses of bytes, big endian, at most 5 letters *)
Definition dis_8048 (ty : Z) (upperhex uppercase octal relative cstyle intelhex : bool) (cursym : Z) (message : err -> text) : dops :=
  let d := M_I8048.i8048_dis upperhex uppercase octal relative cstyle intelhex cursym None in
  mkDO (mkLC 1 8 true) (mkLO octal upperhex) d 5 (i8048_cpu_name ty) (s2l ";") (M_I8048.i8048_decodeImpl d ty) message.

(* config_tms32010.h:30-32: 12-bit addresses of words, 16-bit code, little endian, at most 4 letters;
   table_tms32010.cpp:169-172, text_tms32010.cpp:25-26; dis_tms32010.cpp:29-38 a star starts a comment *)
Definition dis_32010 (ty : Z) (upperhex uppercase octal relative cstyle intelhex : bool) (cursym : Z) (message : err -> text) : dops :=
  let d := M_Tms32010.tms32010_dis upperhex uppercase octal relative cstyle intelhex cursym None in
  mkDO (mkLC 2 16 false) (mkLO octal upperhex) d 4 (if ty =? M_Tms32010Defs.TMS32010 then s2l "32010" else s2l "32015") (s2l "*")
    (M_Tms32010.tms32010_decodeImpl d ty) message.
