(** Generated by tools/gencpu.py from /repo/src: the instruction tables of table_f3850.cpp and the
    register names of reg_f3850.cpp. *)
From Coq Require Import String ZArith List.
From Verif Require Import M_Char M_Table M_F3850Defs.
Import ListNotations.
Local Open Scope string_scope.
Local Open Scope list_scope.
Local Open Scope Z_scope.

(* src/table_f3850.cpp:33-110 *)
Definition TABLE_3850 : list entry := [
  E2 0x00 "LR" M_A M_KU;
  E2 0x01 "LR" M_A M_KL;
  E2 0x02 "LR" M_A M_QU;
  E2 0x03 "LR" M_A M_QL;
  E2 0x04 "LR" M_KU M_A;
  E2 0x05 "LR" M_KL M_A;
  E2 0x06 "LR" M_QU M_A;
  E2 0x07 "LR" M_QL M_A;
  E2 0x08 "LR" M_K M_P;
  E2 0x09 "LR" M_P M_K;
  E2 0x0A "LR" M_A M_IS;
  E2 0x0B "LR" M_IS M_A;
  E0 0x0C "PK";
  E2 0x0D "LR" M_P0 M_Q;
  E2 0x0E "LR" M_Q M_DC;
  E2 0x0F "LR" M_DC M_Q;
  E2 0x10 "LR" M_DC M_H;
  E2 0x11 "LR" M_H M_DC;
  E1 0x12 "SR" M_C1;
  E1 0x13 "SL" M_C1;
  E1 0x14 "SR" M_C4;
  E1 0x15 "SL" M_C4;
  E0 0x16 "LM";
  E0 0x17 "ST";
  E0 0x18 "COM";
  E0 0x19 "LNK";
  E0 0x1A "DI";
  E0 0x1B "EI";
  E0 0x1C "POP";
  E2 0x1D "LR" M_W M_J;
  E2 0x1E "LR" M_J M_W;
  E0 0x1F "INC";
  E1 0x20 "LI" M_IM8;
  E1 0x21 "NI" M_IM8;
  E1 0x22 "OI" M_IM8;
  E1 0x23 "XI" M_IM8;
  E1 0x24 "AI" M_IM8;
  E1 0x25 "CI" M_IM8;
  E1 0x26 "IN" M_IOA;
  E1 0x27 "OUT" M_IOA;
  E1 0x28 "PI" M_ADDR;
  E1 0x29 "JMP" M_ADDR;
  E1 0x2A "DCI" M_ADDR;
  E0 0x2B "NOP";
  E0 0x2C "XDC";
  E1 0x30 "DS" M_REG;
  E2 0x40 "LR" M_A M_REG;
  E2 0x50 "LR" M_REG M_A;
  E1 0x60 "LISU" M_IM3;
  E1 0x68 "LISL" M_IM3;
  E0 0x70 "CLR";
  E1 0x70 "LIS" M_IM4;
  E1 0x81 "BP" M_REL;
  E1 0x82 "BC" M_REL;
  E1 0x84 "BZ" M_REL;
  E0 0x88 "AM";
  E0 0x89 "AMD";
  E0 0x8A "NM";
  E0 0x8B "OM";
  E0 0x8C "XM";
  E0 0x8D "CM";
  E0 0x8E "ADC";
  E1 0x8F "BR7" M_REL;
  E2 0x80 "BT" M_IM3 M_REL;
  E1 0x90 "BR" M_REL;
  E1 0x91 "BM" M_REL;
  E1 0x92 "BNC" M_REL;
  E1 0x94 "BNZ" M_REL;
  E1 0x98 "BNO" M_REL;
  E2 0x90 "BF" M_IM4 M_REL;
  E1 0xA0 "INS" M_IOS;
  E1 0xB0 "OUTS" M_IOS;
  E1 0xC0 "AS" M_REG;
  E1 0xD0 "ASD" M_REG;
  E1 0xE0 "XS" M_REG;
  E1 0xF0 "NS" M_REG].

(* src/table_f3850.cpp:112-189 *)
Definition INDEX_3850 : list Z := [61; 36; 55; 56; 72; 73; 53; 69; 65; 66; 68; 67; 52; 64; 62; 63; 54; 37; 50; 60; 24; 42; 26; 45; 27; 38; 31; 70; 41; 32; 51; 49; 48; 22; 25; 0; 1; 2; 3; 4; 5; 6; 7; 8; 9; 10; 11; 13; 14; 15; 16; 17; 29; 30; 46; 47; 33; 57; 43; 75; 34; 58; 39; 71; 40; 12; 28; 19; 21; 18; 20; 23; 44; 35; 59; 74].

(* src/table_f3850.cpp:195-197 *)
Definition F3850_PAGES : list epage := [mkPage tt TABLE_3850 INDEX_3850].

(* src/table_f3850.cpp:201-203 *)
Definition CPU_TABLE : list (Z * string * list epage) := [(F3850, "3850", F3850_PAGES)].

(* src/reg_f3850.cpp:32-52 *)
Definition REG_ENTRIES : list (string * Z) := [("A", REG_A); ("D", REG_D); ("DC", REG_DC); ("H", REG_H); ("HL", REG_HL); ("HU", REG_HU); ("I", REG_I); ("IS", REG_IS); ("J", REG_J); ("K", REG_K); ("KL", REG_KL); ("KU", REG_KU); ("P", REG_P); ("P0", REG_P0); ("Q", REG_Q); ("QL", REG_QL); ("QU", REG_QU); ("S", REG_S); ("W", REG_W)].

