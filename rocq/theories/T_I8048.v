(** Generated by tools/gencpu.py from /repo/src: the instruction tables of table_i8048.cpp and the
    register names of reg_i8048.cpp. *)
From Coq Require Import String ZArith List.
From Verif Require Import M_Char M_Table M_I8048Defs.
Import ListNotations.
Local Open Scope string_scope.
Local Open Scope list_scope.
Local Open Scope Z_scope.

(* src/table_i8048.cpp:33-122 *)
Definition TABLE_I8039 : list entry := [
  E2 0x68 "ADD" M_A M_R;
  E2 0x60 "ADD" M_A M_IR;
  E2 0x03 "ADD" M_A M_IMM8;
  E2 0x78 "ADDC" M_A M_R;
  E2 0x70 "ADDC" M_A M_IR;
  E2 0x13 "ADDC" M_A M_IMM8;
  E2 0x58 "ANL" M_A M_R;
  E2 0x50 "ANL" M_A M_IR;
  E2 0x53 "ANL" M_A M_BIT8;
  E2 0x48 "ORL" M_A M_R;
  E2 0x40 "ORL" M_A M_IR;
  E2 0x43 "ORL" M_A M_BIT8;
  E2 0xD8 "XRL" M_A M_R;
  E2 0xD0 "XRL" M_A M_IR;
  E2 0xD3 "XRL" M_A M_BIT8;
  E1 0x17 "INC" M_A;
  E1 0x07 "DEC" M_A;
  E1 0x27 "CLR" M_A;
  E1 0x37 "CPL" M_A;
  E1 0x57 "DA" M_A;
  E1 0x47 "SWAP" M_A;
  E1 0xE7 "RL" M_A;
  E1 0xF7 "RLC" M_A;
  E1 0x77 "RR" M_A;
  E1 0x67 "RRC" M_A;
  E2 0x08 "IN" M_A M_P12;
  E2 0x38 "OUTL" M_P12 M_A;
  E2 0x98 "ANL" M_P12 M_BIT8;
  E2 0x88 "ORL" M_P12 M_BIT8;
  E2 0x0C "MOVD" M_A M_PEXT;
  E2 0x3C "MOVD" M_PEXT M_A;
  E2 0x9C "ANLD" M_PEXT M_A;
  E2 0x8C "ORLD" M_PEXT M_A;
  E1 0x18 "INC" M_R;
  E1 0x10 "INC" M_IR;
  E1 0xC8 "DEC" M_R;
  E1 0x04 "JMP" M_AD11;
  E1 0xB3 "JMPP" M_IA;
  E2 0xE8 "DJNZ" M_R M_AD08;
  E1 0xF6 "JC" M_AD08;
  E1 0xE6 "JNC" M_AD08;
  E1 0xC6 "JZ" M_AD08;
  E1 0x96 "JNZ" M_AD08;
  E1 0x36 "JT0" M_AD08;
  E1 0x26 "JNT0" M_AD08;
  E1 0x56 "JT1" M_AD08;
  E1 0x46 "JNT1" M_AD08;
  E1 0xB6 "JF0" M_AD08;
  E1 0x76 "JF1" M_AD08;
  E1 0x16 "JTF" M_AD08;
  E1 0x86 "JNI" M_AD08;
  E2 0x12 "JB" M_BITN M_AD08;
  E1 0x14 "CALL" M_AD11;
  E0 0x83 "RET";
  E0 0x93 "RETR";
  E1 0x97 "CLR" M_C;
  E1 0xA7 "CPL" M_C;
  E1 0x85 "CLR" M_F;
  E1 0x95 "CPL" M_F;
  E2 0xF8 "MOV" M_A M_R;
  E2 0xF0 "MOV" M_A M_IR;
  E2 0x23 "MOV" M_A M_IMM8;
  E2 0xA8 "MOV" M_R M_A;
  E2 0xA0 "MOV" M_IR M_A;
  E2 0xB8 "MOV" M_R M_IMM8;
  E2 0xB0 "MOV" M_IR M_IMM8;
  E2 0xC7 "MOV" M_A M_PSW;
  E2 0xD7 "MOV" M_PSW M_A;
  E2 0x28 "XCH" M_A M_R;
  E2 0x20 "XCH" M_A M_IR;
  E2 0x30 "XCHD" M_A M_IR;
  E2 0x90 "MOVX" M_IR M_A;
  E2 0x80 "MOVX" M_A M_IR;
  E2 0xA3 "MOVP" M_A M_IA;
  E2 0xE3 "MOVP3" M_A M_IA;
  E2 0x42 "MOV" M_A M_T;
  E2 0x62 "MOV" M_T M_A;
  E1 0x55 "STRT" M_T;
  E1 0x45 "STRT" M_CNT;
  E1 0x65 "STOP" M_TCNT;
  E1 0x25 "EN" M_TCNTI;
  E1 0x35 "DIS" M_TCNTI;
  E1 0x05 "EN" M_I;
  E1 0x15 "DIS" M_I;
  E1 0xC5 "SEL" M_RB;
  E1 0xE5 "SEL" M_MB;
  E1 0x75 "ENT0" M_CLK;
  E0 0x00 "NOP"].

(* src/table_i8048.cpp:124-213 *)
Definition INDEX_I8039 : list Z := [0; 1; 2; 3; 4; 5; 6; 7; 8; 27; 31; 52; 17; 55; 57; 18; 56; 58; 19; 16; 35; 81; 83; 38; 80; 82; 86; 25; 15; 33; 34; 51; 39; 47; 48; 36; 37; 40; 50; 44; 46; 42; 43; 45; 49; 41; 59; 60; 61; 62; 63; 64; 65; 66; 67; 75; 76; 29; 30; 73; 74; 71; 72; 87; 9; 10; 11; 28; 32; 26; 53; 54; 21; 22; 23; 24; 84; 85; 79; 77; 78; 20; 68; 69; 70; 12; 13; 14].

(* src/table_i8048.cpp:215-220 *)
Definition TABLE_I8048 : list entry := [
  E2 0x08 "INS" M_A M_BUS;
  E2 0x02 "OUTL" M_BUS M_A;
  E2 0x98 "ANL" M_BUS M_BIT8;
  E2 0x88 "ORL" M_BUS M_BIT8].

(* src/table_i8048.cpp:222-227 *)
Definition INDEX_I8048 : list Z := [2; 0; 3; 1].

(* src/table_i8048.cpp:229-231 *)
Definition TABLE_I80C39 : list entry := [
  E0 0x01 "HALT"].

(* src/table_i8048.cpp:233-235 *)
Definition INDEX_I80C39 : list Z := [0].

(* src/table_i8048.cpp:237-248 *)
Definition TABLE_MSM80C39 : list entry := [
  E2 0x63 "MOV" M_A M_P1;
  E2 0x73 "MOV" M_A M_P2;
  E1 0xC0 "DEC" M_IR;
  E2 0xE0 "DJNZ" M_IR M_AD08;
  E2 0xC3 "MOVP1" M_P M_IR3;
  E2 0xF3 "MOV" M_P1 M_IR3;
  E0 0x82 "HLTS";
  E0 0xA2 "FLT";
  E0 0xC2 "FLTT";
  E0 0xE2 "FRES"].

(* src/table_i8048.cpp:250-261 *)
Definition INDEX_MSM80C39 : list Z := [2; 3; 7; 8; 9; 6; 0; 1; 5; 4].

(* src/table_i8048.cpp:266-271 *)
Definition INST_PAGES : list epage := [mkPage tt TABLE_I8048 INDEX_I8048; mkPage tt TABLE_I8039 INDEX_I8039; mkPage tt TABLE_I80C39 INDEX_I80C39; mkPage tt TABLE_MSM80C39 INDEX_MSM80C39].

(* src/table_i8048.cpp:275-282 *)
Definition CPU_TABLE : list (Z * string * list epage) := [(I8039, "8039", (firstn 1 (skipn 1 INST_PAGES)));
  (I80C39, "80C39", (firstn 2 (skipn 1 INST_PAGES)));
  (MSM80C39, "MSM80C39", (firstn 3 (skipn 1 INST_PAGES)));
  (I8048, "8048", (firstn 2 (skipn 0 INST_PAGES)));
  (I80C48, "80C48", (firstn 3 (skipn 0 INST_PAGES)));
  (MSM80C48, "MSM80C48", (firstn 4 (skipn 0 INST_PAGES)))].

(* src/reg_i8048.cpp:32-64 *)
Definition REG_ENTRIES : list (string * Z) := [("A", REG_A); ("BUS", REG_BUS); ("C", REG_C); ("CLK", REG_CLK); ("CNT", REG_CNT); ("F0", REG_F0); ("F1", REG_F1); ("I", REG_I); ("MB0", REG_MB0); ("MB1", REG_MB1); ("P", REG_P); ("P1", REG_P1); ("P2", REG_P2); ("P4", REG_P4); ("P5", REG_P5); ("P6", REG_P6); ("P7", REG_P7); ("PSW", REG_PSW); ("R0", REG_R0); ("R1", REG_R1); ("R2", REG_R2); ("R3", REG_R3); ("R4", REG_R4); ("R5", REG_R5); ("R6", REG_R6); ("R7", REG_R7); ("RB0", REG_RB0); ("RB1", REG_RB1); ("T", REG_T); ("TCNT", REG_TCNT); ("TCNTI", REG_TCNTI)].

