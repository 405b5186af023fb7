(** Generated by tools/gencpu.py from /repo/src: the instruction tables of table_i8080.cpp and the
    register names of reg_i8080.cpp. *)
From Coq Require Import String ZArith List.
From Verif Require Import M_Char M_Table M_I8080Defs.
Import ListNotations.
Local Open Scope string_scope.
Local Open Scope list_scope.
Local Open Scope Z_scope.

(* src/table_i8080.cpp:35-114 *)
Definition TABLE_I8080 : list entry := [
  E0 0x00 "NOP";
  E2 0x01 "LXI" M_PTR M_IM16;
  E1 0x09 "DAD" M_PTR;
  E1 0x02 "STAX" M_IDX;
  E1 0x22 "SHLD" M_ABS;
  E1 0x32 "STA" M_ABS;
  E1 0x0A "LDAX" M_IDX;
  E1 0x2A "LHLD" M_ABS;
  E1 0x3A "LDA" M_ABS;
  E1 0x03 "INX" M_PTR;
  E1 0x0B "DCX" M_PTR;
  E1 0x04 "INR" M_DST;
  E1 0x05 "DCR" M_DST;
  E2 0x06 "MVI" M_DST M_IM8;
  E0 0x07 "RLC";
  E0 0x0F "RRC";
  E0 0x17 "RAL";
  E0 0x1F "RAR";
  E0 0x27 "DAA";
  E0 0x2F "CMA";
  E0 0x37 "STC";
  E0 0x3F "CMC";
  E0 0x76 "HLT";
  E2 0x40 "MOV" M_DST M_SRC;
  E1 0x80 "ADD" M_SRC;
  E1 0x88 "ADC" M_SRC;
  E1 0x90 "SUB" M_SRC;
  E1 0x98 "SBB" M_SRC;
  E1 0xA0 "ANA" M_SRC;
  E1 0xA8 "XRA" M_SRC;
  E1 0xB0 "ORA" M_SRC;
  E1 0xB8 "CMP" M_SRC;
  E0 0xC0 "RNZ";
  E0 0xC8 "RZ";
  E0 0xD0 "RNC";
  E0 0xD8 "RC";
  E0 0xE0 "RPO";
  E0 0xE8 "RPE";
  E0 0xF0 "RP";
  E0 0xF8 "RM";
  E1 0xC1 "POP" M_STK;
  E0 0xC9 "RET";
  E0 0xE9 "PCHL";
  E0 0xF9 "SPHL";
  E1 0xC2 "JNZ" M_ABS;
  E1 0xCA "JZ" M_ABS;
  E1 0xD2 "JNC" M_ABS;
  E1 0xDA "JC" M_ABS;
  E1 0xE2 "JPO" M_ABS;
  E1 0xEA "JPE" M_ABS;
  E1 0xF2 "JP" M_ABS;
  E1 0xFA "JM" M_ABS;
  E1 0xC3 "JMP" M_ABS;
  E1 0xD3 "OUT" M_IOA;
  E1 0xDB "IN" M_IOA;
  E0 0xE3 "XTHL";
  E0 0xEB "XCHG";
  E0 0xF3 "DI";
  E0 0xFB "EI";
  E1 0xC4 "CNZ" M_ABS;
  E1 0xCC "CZ" M_ABS;
  E1 0xD4 "CNC" M_ABS;
  E1 0xDC "CC" M_ABS;
  E1 0xE4 "CPO" M_ABS;
  E1 0xEC "CPE" M_ABS;
  E1 0xF4 "CP" M_ABS;
  E1 0xFC "CM" M_ABS;
  E1 0xC5 "PUSH" M_STK;
  E1 0xCD "CALL" M_ABS;
  E1 0xC6 "ADI" M_IM8;
  E1 0xCE "ACI" M_IM8;
  E1 0xD6 "SUI" M_IM8;
  E1 0xDE "SBI" M_IM8;
  E1 0xE6 "ANI" M_IM8;
  E1 0xEE "XRI" M_IM8;
  E1 0xF6 "ORI" M_IM8;
  E1 0xFE "CPI" M_IM8;
  E1 0xC7 "RST" M_VEC].

(* src/table_i8080.cpp:116-195 *)
Definition INDEX_I8080 : list Z := [70; 25; 24; 69; 28; 73; 68; 62; 66; 19; 21; 31; 61; 59; 65; 64; 76; 63; 60; 18; 2; 12; 10; 57; 58; 22; 54; 11; 9; 47; 51; 52; 46; 44; 50; 49; 48; 45; 8; 6; 7; 1; 23; 13; 0; 30; 75; 53; 42; 40; 67; 16; 17; 35; 41; 14; 39; 34; 32; 38; 37; 36; 15; 77; 33; 27; 72; 4; 43; 5; 3; 20; 26; 71; 56; 29; 74; 55].

(* src/table_i8080.cpp:197-268 *)
Definition TABLE_Z8080 : list entry := [
  E0 0x00 "NOP";
  E2 0x01 "LD" M_PTR M_IM16;
  E2 0x09 "ADD" R_HL M_PTR;
  E2 0x02 "LD" M_IDX R_A;
  E2 0x0A "LD" R_A M_IDX;
  E2 0x22 "LD" M_ABS R_HL;
  E2 0x2A "LD" R_HL M_ABS;
  E2 0x32 "LD" M_ABS R_A;
  E2 0x3A "LD" R_A M_ABS;
  E1 0x03 "INC" M_PTR;
  E1 0x0B "DEC" M_PTR;
  E1 0x04 "INC" M_DST;
  E1 0x05 "DEC" M_DST;
  E2 0x06 "LD" M_DST M_IM8;
  E0 0x07 "RLCA";
  E0 0x0F "RRCA";
  E0 0x17 "RLA";
  E0 0x1F "RRA";
  E0 0x27 "DAA";
  E0 0x2F "CPL";
  E0 0x37 "SCF";
  E0 0x3F "CCF";
  E0 0x76 "HALT";
  U2 0x76 "LD" I_HL I_HL;
  E2 0x40 "LD" M_DST M_SRC;
  E2 0x80 "ADD" R_A M_SRC;
  E2 0x88 "ADC" R_A M_SRC;
  E2 0x90 "SUB" R_A M_SRC;
  E1 0x90 "SUB" M_SRC;
  E2 0x98 "SBC" R_A M_SRC;
  E2 0xA0 "AND" R_A M_SRC;
  E1 0xA0 "AND" M_SRC;
  E2 0xA8 "XOR" R_A M_SRC;
  E1 0xA8 "XOR" M_SRC;
  E2 0xB0 "OR" R_A M_SRC;
  E1 0xB0 "OR" M_SRC;
  E2 0xB8 "CP" R_A M_SRC;
  E1 0xB8 "CP" M_SRC;
  E1 0xC0 "RET" M_CC;
  E1 0xC1 "POP" M_STK;
  E0 0xC9 "RET";
  E2 0xF9 "LD" R_SP R_HL;
  E2 0xC2 "JP" M_CC M_IM16;
  E1 0xC3 "JP" M_IM16;
  E1 0xE9 "JP" I_HL;
  E2 0xD3 "OUT" M_IOA R_A;
  E2 0xDB "IN" R_A M_IOA;
  E2 0xE3 "EX" I_SP R_HL;
  E2 0xE3 "EX" R_HL I_SP;
  E2 0xEB "EX" R_DE R_HL;
  E2 0xEB "EX" R_HL R_DE;
  E0 0xF3 "DI";
  E0 0xFB "EI";
  E2 0xC4 "CALL" M_CC M_IM16;
  E1 0xC5 "PUSH" M_STK;
  E1 0xCD "CALL" M_IM16;
  E2 0xC6 "ADD" R_A M_IM8;
  E2 0xCE "ADC" R_A M_IM8;
  E2 0xD6 "SUB" R_A M_IM8;
  E1 0xD6 "SUB" M_IM8;
  E2 0xDE "SBC" R_A M_IM8;
  E2 0xE6 "AND" R_A M_IM8;
  E1 0xE6 "AND" M_IM8;
  E2 0xEE "XOR" R_A M_IM8;
  E1 0xEE "XOR" M_IM8;
  E2 0xF6 "OR" R_A M_IM8;
  E1 0xF6 "OR" M_IM8;
  E2 0xFE "CP" R_A M_IM8;
  E1 0xFE "CP" M_IM8;
  E1 0xC7 "RST" M_VEC].

(* src/table_i8080.cpp:270-341 *)
Definition INDEX_Z8080 : list Z := [26; 57; 2; 25; 56; 30; 31; 61; 62; 53; 55; 21; 36; 37; 67; 68; 19; 18; 10; 12; 51; 52; 47; 48; 49; 50; 22; 46; 9; 11; 42; 43; 44; 1; 3; 4; 5; 6; 7; 8; 13; 23; 24; 41; 0; 34; 35; 65; 66; 45; 39; 54; 38; 40; 16; 14; 17; 15; 69; 29; 60; 20; 27; 28; 58; 59; 32; 33; 63; 64].

(* src/table_i8080.cpp:343-346 *)
Definition TABLE_I8085 : list entry := [
  E0 0x20 "RIM";
  E0 0x30 "SIM"].

(* src/table_i8080.cpp:348-351 *)
Definition INDEX_I8085 : list Z := [0; 1].

(* src/table_i8080.cpp:353-356 *)
Definition TABLE_Z8085 : list entry := [
  E2 0x20 "LD" R_A R_IM;
  E2 0x30 "LD" R_IM R_A].

(* src/table_i8080.cpp:358-361 *)
Definition INDEX_Z8085 : list Z := [0; 1].

(* src/table_i8080.cpp:363-366 *)
Definition TABLE_V30EMU : list entry := [
  E1 0xED "CALLN" M_IM8;
  E0 0xFD "RETEM"].

(* src/table_i8080.cpp:368-371 *)
Definition INDEX_V30EMU : list Z := [0; 1].

(* src/table_i8080.cpp:377-379 *)
Definition I8080_PAGES : list epage := [mkPage 0x00 TABLE_I8080 INDEX_I8080].

(* src/table_i8080.cpp:381-383 *)
Definition Z8080_PAGES : list epage := [mkPage 0x00 TABLE_Z8080 INDEX_Z8080].

(* src/table_i8080.cpp:385-388 *)
Definition I8085_PAGES : list epage := [mkPage 0x00 TABLE_I8080 INDEX_I8080; mkPage 0x00 TABLE_I8085 INDEX_I8085].

(* src/table_i8080.cpp:390-393 *)
Definition Z8085_PAGES : list epage := [mkPage 0x00 TABLE_Z8080 INDEX_Z8080; mkPage 0x00 TABLE_Z8085 INDEX_Z8085].

(* src/table_i8080.cpp:395-398 *)
Definition V30EMU_PAGES : list epage := [mkPage 0x00 TABLE_I8080 INDEX_I8080; mkPage 0xED TABLE_V30EMU INDEX_V30EMU].

(* src/table_i8080.cpp:400-403 *)
Definition Z30EMU_PAGES : list epage := [mkPage 0x00 TABLE_Z8080 INDEX_Z8080; mkPage 0xED TABLE_V30EMU INDEX_V30EMU].

(* src/table_i8080.cpp:407-411 *)
Definition INTEL_TABLE : list (Z * string * list epage) := [(I8080, "8080", I8080_PAGES);
  (I8085, "8085", I8085_PAGES);
  (V30EMU, "V30EMU", V30EMU_PAGES)].

(* src/table_i8080.cpp:413-417 *)
Definition ZILOG_TABLE : list (Z * string * list epage) := [(I8080, "8080", Z8080_PAGES);
  (I8085, "8085", Z8085_PAGES);
  (V30EMU, "V30EMU", Z30EMU_PAGES)].

(* src/reg_i8080.cpp:32-43 *)
Definition INTEL_ENTRIES : list (string * Z) := [("A", REG_A); ("B", REG_B); ("C", REG_C); ("D", REG_D); ("E", REG_E); ("H", REG_H); ("L", REG_L); ("M", REG_M); ("PSW", REG_PSW); ("SP", REG_SP)].

(* src/reg_i8080.cpp:45-61 *)
Definition ZILOG_ENTRIES : list (string * Z) := [("A", REG_A); ("AF", REG_AF); ("B", REG_B); ("BC", REG_BC); ("C", REG_C); ("D", REG_D); ("DE", REG_DE); ("E", REG_E); ("H", REG_H); ("HL", REG_HL); ("IM", REG_IM); ("L", REG_L); ("M", REG_M); ("PSW", REG_PSW); ("SP", REG_SP)].

(* src/reg_i8080.cpp:63-72 *)
Definition CC_ENTRIES : list (string * Z) := [("C", CC_C); ("M", CC_M); ("NC", CC_NC); ("NZ", CC_NZ); ("P", CC_P); ("PE", CC_PE); ("PO", CC_PO); ("Z", CC_Z)].

