(** Tables of the SC/MP, copied by a script from src/table_ins8060.cpp and src/reg_ins8060.cpp. *)
From Coq Require Import String ZArith List Bool.
From Verif Require Import M_Char M_Table M_Ins8060Defs.
Import ListNotations.
Open Scope string_scope.
Local Open Scope Z_scope.

(* src/table_ins8060.cpp:32-80 *)
Definition TABLE_INS8060 : list entry := [
  E0 0x00 "HALT";
  E0 0x01 "XAE";
  E0 0x02 "CCL";
  E0 0x03 "SCL";
  E0 0x04 "DINT";
  E0 0x05 "IEN";
  E0 0x06 "CSA";
  E0 0x07 "CAS";
  E0 0x08 "NOP";
  E0 0x19 "SIO";
  E0 0x1C "SR";
  E0 0x1D "SRL";
  E0 0x1E "RR";
  E0 0x1F "RRL";
  E1 0x30 "XPAL" M_PNTR;
  E1 0x34 "XPAH" M_PNTR;
  E1 0x3C "XPPC" M_PNTR;
  E0 0x40 "LDE";
  E0 0x50 "ANE";
  E0 0x58 "ORE";
  E0 0x60 "XRE";
  E0 0x68 "DAE";
  E0 0x70 "ADE";
  E0 0x78 "CAE";
  E1 0x8F "DLY" M_IMM8;
  E1 0x90 "JMP" M_REL8;
  E1 0x94 "JP" M_REL8;
  E1 0x98 "JZ" M_REL8;
  E1 0x9C "JNZ" M_REL8;
  E1 0xA8 "ILD" M_DISP;
  E1 0xB8 "DLD" M_DISP;
  E1 0xC4 "LDI" M_IMM8;
  E1 0xC0 "LD" M_INDX;
  E1 0xCC "ST" M_UNDEF;
  E1 0xC8 "ST" M_INDX;
  E1 0xD4 "ANI" M_IMM8;
  E1 0xD0 "AND" M_INDX;
  E1 0xDC "ORI" M_IMM8;
  E1 0xD8 "OR" M_INDX;
  E1 0xE4 "XRI" M_IMM8;
  E1 0xE0 "XOR" M_INDX;
  E1 0xEC "DAI" M_IMM8;
  E1 0xE8 "DAD" M_INDX;
  E1 0xF4 "ADI" M_IMM8;
  E1 0xF0 "ADD" M_INDX;
  E1 0xFC "CAI" M_IMM8;
  E1 0xF8 "CAD" M_INDX].

(* src/table_ins8060.cpp:82-130 *)
Definition INDEX_INS8060 : list Z := [44; 22; 43; 36; 18; 35; 46; 23; 45; 7; 2; 6; 42; 21; 41; 4; 30; 24; 0; 5; 29; 25; 28; 26; 27; 32; 17; 31; 8; 38; 19; 37; 12; 13; 3; 9; 10; 11; 33; 34; 1; 40; 15; 14; 16; 20; 39].

(* src/table_ins8060.cpp:135-137 *)
Definition INS8060_PAGES : list epage := [mkPage tt TABLE_INS8060 INDEX_INS8060].

(* src/table_ins8060.cpp:141-143 *)
Definition CPU_TABLE : list (Z * string * list epage) := [(INS8060, "SC/MP", INS8060_PAGES)].

(* src/reg_ins8060.cpp:32-39 *)
Definition REG_ENTRIES : list (string * Z) := [("E", REG_E); ("P0", REG_P0); ("P1", REG_P1); ("P2", REG_P2); ("P3", REG_P3); ("PC", REG_PC)].
