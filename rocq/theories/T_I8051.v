(** Generated by tools/gencpu.py from /repo/src: the instruction tables of table_i8051.cpp and the
    register names of reg_i8051.cpp. *)
From Coq Require Import String ZArith List.
From Verif Require Import M_Char M_Table M_I8051Defs.
Import ListNotations.
Local Open Scope string_scope.
Local Open Scope list_scope.
Local Open Scope Z_scope.

(* src/table_i8051.cpp:34-146 *)
Definition TABLE_I8051 : list entry := [
  E0 0x00 "NOP";
  E1 0x01 "AJMP" M_ADR11;
  E1 0x02 "LJMP" M_ADR16;
  E1 0x03 "RR" M_AREG;
  E1 0x04 "INC" M_AREG;
  E1 0x05 "INC" M_ADR8;
  E1 0x06 "INC" M_IDIRR;
  E1 0x08 "INC" M_RREG;
  E2 0x10 "JBC" M_BITAD M_REL;
  E1 0x11 "ACALL" M_ADR11;
  E1 0x12 "LCALL" M_ADR16;
  E1 0x13 "RRC" M_AREG;
  E1 0x14 "DEC" M_AREG;
  E1 0x15 "DEC" M_ADR8;
  E1 0x16 "DEC" M_IDIRR;
  E1 0x18 "DEC" M_RREG;
  E2 0x20 "JB" M_BITAD M_REL;
  E0 0x22 "RET";
  E1 0x23 "RL" M_AREG;
  E2 0x24 "ADD" M_AREG M_IMM8;
  E2 0x25 "ADD" M_AREG M_ADR8;
  E2 0x26 "ADD" M_AREG M_IDIRR;
  E2 0x28 "ADD" M_AREG M_RREG;
  E2 0x30 "JNB" M_BITAD M_REL;
  E0 0x32 "RETI";
  E1 0x33 "RLC" M_AREG;
  E2 0x34 "ADDC" M_AREG M_IMM8;
  E2 0x35 "ADDC" M_AREG M_ADR8;
  E2 0x36 "ADDC" M_AREG M_IDIRR;
  E2 0x38 "ADDC" M_AREG M_RREG;
  E1 0x40 "JC" M_REL;
  E2 0x42 "ORL" M_ADR8 M_AREG;
  E2 0x43 "ORL" M_ADR8 M_IMM8;
  E2 0x44 "ORL" M_AREG M_IMM8;
  E2 0x45 "ORL" M_AREG M_ADR8;
  E2 0x46 "ORL" M_AREG M_IDIRR;
  E2 0x48 "ORL" M_AREG M_RREG;
  E1 0x50 "JNC" M_REL;
  E2 0x52 "ANL" M_ADR8 M_AREG;
  E2 0x53 "ANL" M_ADR8 M_IMM8;
  E2 0x54 "ANL" M_AREG M_IMM8;
  E2 0x55 "ANL" M_AREG M_ADR8;
  E2 0x56 "ANL" M_AREG M_IDIRR;
  E2 0x58 "ANL" M_AREG M_RREG;
  E1 0x60 "JZ" M_REL;
  E2 0x62 "XRL" M_ADR8 M_AREG;
  E2 0x63 "XRL" M_ADR8 M_IMM8;
  E2 0x64 "XRL" M_AREG M_IMM8;
  E2 0x65 "XRL" M_AREG M_ADR8;
  E2 0x66 "XRL" M_AREG M_IDIRR;
  E2 0x68 "XRL" M_AREG M_RREG;
  E1 0x70 "JNZ" M_REL;
  E2 0x72 "ORL" M_CREG M_BITAD;
  E1 0x73 "JMP" M_INDXD;
  E2 0x74 "MOV" M_AREG M_IMM8;
  E2 0x75 "MOV" M_ADR8 M_IMM8;
  E2 0x76 "MOV" M_IDIRR M_IMM8;
  E2 0x78 "MOV" M_RREG M_IMM8;
  E1 0x80 "SJMP" M_REL;
  E2 0x82 "ANL" M_CREG M_BITAD;
  E2 0x83 "MOVC" M_AREG M_INDXP;
  E1 0x84 "DIV" M_ABREG;
  E2 0x85 "MOV" M_ADR8 M_ADR8;
  E2 0x86 "MOV" M_ADR8 M_IDIRR;
  E2 0x88 "MOV" M_ADR8 M_RREG;
  E2 0x90 "MOV" M_DREG M_IMM16;
  E2 0x92 "MOV" M_BITAD M_CREG;
  E2 0x93 "MOVC" M_AREG M_INDXD;
  E2 0x94 "SUBB" M_AREG M_IMM8;
  E2 0x95 "SUBB" M_AREG M_ADR8;
  E2 0x96 "SUBB" M_AREG M_IDIRR;
  E2 0x98 "SUBB" M_AREG M_RREG;
  E2 0xA0 "ORL" M_CREG M_NOTAD;
  E2 0xA2 "MOV" M_CREG M_BITAD;
  E1 0xA3 "INC" M_DREG;
  E1 0xA4 "MUL" M_ABREG;
  E2 0xA6 "MOV" M_IDIRR M_ADR8;
  E2 0xA8 "MOV" M_RREG M_ADR8;
  E2 0xB0 "ANL" M_CREG M_NOTAD;
  E1 0xB2 "CPL" M_BITAD;
  E1 0xB3 "CPL" M_CREG;
  E3 0xB4 "CJNE" M_AREG M_IMM8 M_REL;
  E3 0xB5 "CJNE" M_AREG M_ADR8 M_REL;
  E3 0xB6 "CJNE" M_IDIRR M_IMM8 M_REL;
  E3 0xB8 "CJNE" M_RREG M_IMM8 M_REL;
  E1 0xC0 "PUSH" M_ADR8;
  E1 0xC2 "CLR" M_BITAD;
  E1 0xC3 "CLR" M_CREG;
  E1 0xC4 "SWAP" M_AREG;
  E2 0xC5 "XCH" M_AREG M_ADR8;
  E2 0xC6 "XCH" M_AREG M_IDIRR;
  E2 0xC8 "XCH" M_AREG M_RREG;
  E1 0xD0 "POP" M_ADR8;
  E1 0xD2 "SETB" M_BITAD;
  E1 0xD3 "SETB" M_CREG;
  E1 0xD4 "DA" M_AREG;
  E2 0xD5 "DJNZ" M_ADR8 M_REL;
  E2 0xD6 "XCHD" M_AREG M_IDIRR;
  E2 0xD8 "DJNZ" M_RREG M_REL;
  E2 0xE0 "MOVX" M_AREG M_IDIRD;
  E2 0xE2 "MOVX" M_AREG M_IDIRR;
  E1 0xE4 "CLR" M_AREG;
  E2 0xE5 "MOV" M_AREG M_ADR8;
  E2 0xE6 "MOV" M_AREG M_IDIRR;
  E2 0xE8 "MOV" M_AREG M_RREG;
  E2 0xF0 "MOVX" M_IDIRD M_AREG;
  E2 0xF2 "MOVX" M_IDIRR M_AREG;
  E1 0xF4 "CPL" M_AREG;
  E2 0xF5 "MOV" M_ADR8 M_AREG;
  E2 0xF6 "MOV" M_IDIRR M_AREG;
  E2 0xF8 "MOV" M_RREG M_AREG].

(* src/table_i8051.cpp:148-260 *)
Definition INDEX_I8051 : list Z := [9; 19; 20; 21; 22; 26; 27; 28; 29; 1; 38; 39; 40; 41; 42; 43; 59; 78; 81; 82; 83; 84; 86; 87; 101; 79; 80; 107; 95; 12; 13; 14; 15; 61; 96; 98; 4; 5; 6; 7; 74; 16; 8; 30; 53; 23; 37; 51; 44; 10; 2; 54; 55; 56; 57; 62; 63; 64; 65; 66; 73; 76; 77; 102; 103; 104; 108; 109; 110; 60; 67; 99; 100; 105; 106; 75; 0; 31; 32; 33; 34; 35; 36; 52; 72; 92; 85; 17; 24; 18; 25; 3; 11; 93; 94; 58; 68; 69; 70; 71; 88; 89; 90; 91; 97; 45; 46; 47; 48; 49; 50].

(* src/table_i8051.cpp:265-267 *)
Definition I8051_PAGES : list epage := [mkPage tt TABLE_I8051 INDEX_I8051].

(* src/table_i8051.cpp:271-273 *)
Definition CPU_TABLE : list (Z * string * list epage) := [(I8051, "8051", I8051_PAGES)].

(* src/reg_i8051.cpp:32-46 *)
Definition REG_ENTRIES : list (string * Z) := [("A", REG_A); ("AB", REG_AB); ("C", REG_C); ("DPTR", REG_DPTR); ("PC", REG_PC); ("R0", REG_R0); ("R1", REG_R1); ("R2", REG_R2); ("R3", REG_R3); ("R4", REG_R4); ("R5", REG_R5); ("R6", REG_R6); ("R7", REG_R7)].

