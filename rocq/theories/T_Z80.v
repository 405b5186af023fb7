(** Generated by tools/gencpu.py from /repo/src: the instruction tables of table_z80.cpp and the
    register names of reg_z80.cpp. *)
From Coq Require Import String ZArith List.
From Verif Require Import M_Char M_Table M_Z80Defs.
Import ListNotations.
Local Open Scope string_scope.
Local Open Scope list_scope.
Local Open Scope Z_scope.

(* src/table_z80.cpp:36-107 *)
Definition TABLE_I8080 : list entry := [
  E0 0x00 "NOP";
  E2 0x01 "LD" M_R16 M_IM16;
  E2 0x09 "ADD" R_HL M_R16;
  E2 0x02 "LD" I_PTR R_A;
  E2 0x0A "LD" R_A I_PTR;
  E2 0x22 "LD" M_ABS R_HL;
  E2 0x2A "LD" R_HL M_ABS;
  E2 0x32 "LD" M_ABS R_A;
  E2 0x3A "LD" R_A M_ABS;
  E1 0x03 "INC" M_R16;
  E1 0x0B "DEC" M_R16;
  E1 0x04 "INC" M_DST;
  E1 0x05 "DEC" M_DST;
  E2 0x06 "LD" M_DST M_IM8;
  E0 0x07 "RLCA";
  E0 0x0F "RRCA";
  E0 0x17 "RLA";
  E0 0x1F "RRA";
  E0 0x27 "DAA";
  E0 0x2F "CPL";
  E0 0x37 "SCF";
  E0 0x3F "CCF";
  E0 0x76 "HALT";
  E2 0x40 "LD" M_DST M_SR8;
  E2 0x40 "LD" M_DR8 M_SRC;
  E2 0x80 "ADD" R_A M_SRC;
  E2 0x88 "ADC" R_A M_SRC;
  E2 0x90 "SUB" R_A M_SRC;
  E1 0x90 "SUB" M_SRC;
  E2 0x98 "SBC" R_A M_SRC;
  E2 0xA0 "AND" R_A M_SRC;
  E1 0xA0 "AND" M_SRC;
  E2 0xA8 "XOR" R_A M_SRC;
  E1 0xA8 "XOR" M_SRC;
  E2 0xB0 "OR" R_A M_SRC;
  E1 0xB0 "OR" M_SRC;
  E2 0xB8 "CP" R_A M_SRC;
  E1 0xB8 "CP" M_SRC;
  E1 0xC0 "RET" M_CC8;
  E1 0xC1 "POP" M_STK;
  E0 0xC9 "RET";
  E2 0xF9 "LD" R_SP R_HL;
  E2 0xC2 "JP" M_CC8 M_IM16;
  E1 0xC3 "JP" M_IM16;
  E1 0xE9 "JP" I_HL;
  E2 0xD3 "OUT" M_IOA R_A;
  E2 0xDB "IN" R_A M_IOA;
  E2 0xE3 "EX" I_SP R_HL;
  E2 0xE3 "EX" R_HL I_SP;
  E2 0xEB "EX" R_DE R_HL;
  E2 0xEB "EX" R_HL R_DE;
  E0 0xF3 "DI";
  E0 0xFB "EI";
  E2 0xC4 "CALL" M_CC8 M_IM16;
  E1 0xC5 "PUSH" M_STK;
  E1 0xCD "CALL" M_IM16;
  E2 0xC6 "ADD" R_A M_IM8;
  E2 0xCE "ADC" R_A M_IM8;
  E2 0xD6 "SUB" R_A M_IM8;
  E1 0xD6 "SUB" M_IM8;
  E2 0xDE "SBC" R_A M_IM8;
  E2 0xE6 "AND" R_A M_IM8;
  E1 0xE6 "AND" M_IM8;
  E2 0xEE "XOR" R_A M_IM8;
  E1 0xEE "XOR" M_IM8;
  E2 0xF6 "OR" R_A M_IM8;
  E1 0xF6 "OR" M_IM8;
  E2 0xFE "CP" R_A M_IM8;
  E1 0xFE "CP" M_IM8;
  E1 0xC7 "RST" M_VEC].

(* src/table_z80.cpp:109-180 *)
Definition INDEX_I8080 : list Z := [26; 57; 2; 25; 56; 30; 31; 61; 62; 53; 55; 21; 36; 37; 67; 68; 19; 18; 10; 12; 51; 52; 47; 48; 49; 50; 22; 46; 9; 11; 42; 43; 44; 1; 3; 4; 5; 6; 7; 8; 13; 23; 24; 41; 0; 34; 35; 65; 66; 45; 39; 54; 38; 40; 16; 14; 17; 15; 69; 29; 60; 20; 27; 28; 58; 59; 32; 33; 63; 64].

(* src/table_z80.cpp:182-188 *)
Definition TABLE_Z80 : list entry := [
  E2 0x08 "EX" R_AF R_AFP;
  E1 0x10 "DJNZ" M_REL;
  E2 0x20 "JR" M_CC4 M_REL;
  E1 0x18 "JR" M_REL;
  E0 0xD9 "EXX"].

(* src/table_z80.cpp:190-196 *)
Definition INDEX_Z80 : list Z := [1; 0; 4; 2; 3].

(* src/table_z80.cpp:198-219 *)
Definition TABLE_CB : list entry := [
  E1 0x00 "RLC" M_SRC;
  E1 0x08 "RRC" M_SRC;
  E1 0x10 "RL" M_SRC;
  E1 0x18 "RR" M_SRC;
  E1 0x20 "SLA" M_SRC;
  E1 0x28 "SRA" M_SRC;
  E1 0x38 "SRL" M_SRC;
  E2 0x40 "BIT" M_BIT M_SRC;
  E2 0x80 "RES" M_BIT M_SRC;
  E2 0xC0 "SET" M_BIT M_SRC;
  I1 0x06 "RLC" M_IDX;
  I1 0x0E "RRC" M_IDX;
  I1 0x16 "RL" M_IDX;
  I1 0x1E "RR" M_IDX;
  I1 0x26 "SLA" M_IDX;
  I1 0x2E "SRA" M_IDX;
  I1 0x3E "SRL" M_IDX;
  I2 0x46 "BIT" M_BIT M_IDX;
  I2 0x86 "RES" M_BIT M_IDX;
  I2 0xC6 "SET" M_BIT M_IDX].

(* src/table_z80.cpp:221-242 *)
Definition INDEX_CB : list Z := [7; 17; 8; 18; 2; 12; 0; 10; 3; 13; 1; 11; 9; 19; 4; 14; 5; 15; 6; 16].

(* src/table_z80.cpp:244-277 *)
Definition TABLE_ED : list entry := [
  E2 0x40 "IN" M_DR8 I_C;
  E2 0x41 "OUT" I_C M_DR8;
  E2 0x42 "SBC" R_HL M_R16;
  E2 0x4A "ADC" R_HL M_R16;
  E2 0x43 "LD" M_ABS M_NOHL;
  E2 0x4B "LD" M_NOHL M_ABS;
  E0 0x44 "NEG";
  E0 0x45 "RETN";
  E0 0x4D "RETI";
  E1 0x46 "IM" M_IMMD;
  E2 0x47 "LD" R_I R_A;
  E2 0x4F "LD" R_R R_A;
  E2 0x57 "LD" R_A R_I;
  E2 0x5F "LD" R_A R_R;
  E0 0x67 "RRD";
  E0 0x6F "RLD";
  E0 0xA0 "LDI";
  E0 0xA8 "LDD";
  E0 0xB0 "LDIR";
  E0 0xB8 "LDDR";
  E0 0xA1 "CPI";
  E0 0xA9 "CPD";
  E0 0xB1 "CPIR";
  E0 0xB9 "CPDR";
  E0 0xA2 "INI";
  E0 0xAA "IND";
  E0 0xB2 "INIR";
  E0 0xBA "INDR";
  E0 0xA3 "OUTI";
  E0 0xAB "OUTD";
  E0 0xB3 "OTIR";
  E0 0xBB "OTDR"].

(* src/table_z80.cpp:279-312 *)
Definition INDEX_ED : list Z := [3; 21; 23; 20; 22; 9; 0; 25; 27; 24; 26; 4; 5; 10; 11; 12; 13; 17; 19; 16; 18; 6; 31; 30; 1; 29; 28; 8; 7; 15; 14; 2].

(* src/table_z80.cpp:314-345 *)
Definition TABLE_IX : list entry := [
  E2 0x09 "ADD" R_IDX M_R16X;
  E2 0x21 "LD" R_IDX M_IM16;
  E2 0x22 "LD" M_ABS R_IDX;
  E2 0x2A "LD" R_IDX M_ABS;
  E1 0x23 "INC" R_IDX;
  E1 0x2B "DEC" R_IDX;
  E1 0x34 "INC" M_IDX;
  E1 0x35 "DEC" M_IDX;
  E2 0x36 "LD" M_IDX M_IM8;
  E2 0x46 "LD" M_DR8 M_IDX;
  E2 0x70 "LD" M_IDX M_SR8;
  E2 0x86 "ADD" R_A M_IDX;
  E2 0x8E "ADC" R_A M_IDX;
  E2 0x96 "SUB" R_A M_IDX;
  E1 0x96 "SUB" M_IDX;
  E2 0x9E "SBC" R_A M_IDX;
  E2 0xA6 "AND" R_A M_IDX;
  E1 0xA6 "AND" M_IDX;
  E2 0xAE "XOR" R_A M_IDX;
  E1 0xAE "XOR" M_IDX;
  E2 0xB6 "OR" R_A M_IDX;
  E1 0xB6 "OR" M_IDX;
  E2 0xBE "CP" R_A M_IDX;
  E1 0xBE "CP" M_IDX;
  E2 0xCB "BIT" T_IXB T_IXB;
  E1 0xE1 "POP" R_IDX;
  E1 0xE9 "JP" I_IDX;
  E2 0xF9 "LD" R_SP R_IDX;
  E2 0xE3 "EX" I_SP R_IDX;
  E1 0xE5 "PUSH" R_IDX].

(* src/table_z80.cpp:347-378 *)
Definition INDEX_IX : list Z := [12; 0; 11; 16; 17; 24; 22; 23; 5; 7; 28; 4; 6; 26; 1; 2; 3; 8; 9; 10; 27; 20; 21; 25; 29; 15; 13; 14; 18; 19].

(* src/table_z80.cpp:383-390 *)
Definition Z80_PAGES : list epage := [mkPage 0x00 TABLE_I8080 INDEX_I8080; mkPage 0x00 TABLE_Z80 INDEX_Z80; mkPage 0xCB TABLE_CB INDEX_CB; mkPage 0xED TABLE_ED INDEX_ED; mkPage PREFIX_IX TABLE_IX INDEX_IX; mkPage PREFIX_IY TABLE_IX INDEX_IX].

(* src/table_z80.cpp:394-396 *)
Definition CPU_TABLE : list (Z * string * list epage) := [(Z80, "Z80", Z80_PAGES)].

(* src/reg_z80.cpp:33-51 *)
Definition REG_ENTRIES : list (string * Z) := [("A", REG_A); ("AF", REG_AF); ("AF'", REG_AFP); ("B", REG_B); ("BC", REG_BC); ("C", REG_C); ("D", REG_D); ("DE", REG_DE); ("E", REG_E); ("H", REG_H); ("HL", REG_HL); ("I", REG_I); ("IX", REG_IX); ("IY", REG_IY); ("L", REG_L); ("R", REG_R); ("SP", REG_SP)].

(* src/reg_z80.cpp:53-62 *)
Definition CC_ENTRIES : list (string * Z) := [("C", CC_C); ("M", CC_M); ("NC", CC_NC); ("NZ", CC_NZ); ("P", CC_P); ("PE", CC_PE); ("PO", CC_PO); ("Z", CC_Z)].

