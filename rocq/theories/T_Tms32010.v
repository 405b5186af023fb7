(** Generated by tools/gencpu.py from /repo/src: the instruction tables of table_tms32010.cpp and the
    register names of reg_tms32010.cpp. *)
From Coq Require Import String ZArith List.
From Verif Require Import M_Char M_Table M_Tms32010Defs.
Import ListNotations.
Local Open Scope string_scope.
Local Open Scope list_scope.
Local Open Scope Z_scope.

(* src/table_tms32010.cpp:34-95 *)
Definition TABLE_TMS32010 : list entry := [
  E3 0x0000 "ADD" M_MAM M_LS4 M_NARP;
  E3 0x1000 "SUB" M_MAM M_LS4 M_NARP;
  E3 0x2000 "LAC" M_MAM M_LS4 M_NARP;
  E3 0x3000 "SAR" M_AR M_MAM M_NARP;
  E3 0x3800 "LAR" M_AR M_MAM M_NARP;
  E3 0x4000 "IN" M_MAM M_PA M_NARP;
  E3 0x4800 "OUT" M_MAM M_PA M_NARP;
  E3 0x5000 "SACL" M_MAM M_LS0 M_NARP;
  E3 0x5800 "SACH" M_MAM M_LS3 M_NARP;
  E2 0x6000 "ADDH" M_MAM M_NARP;
  E2 0x6100 "ADDS" M_MAM M_NARP;
  E2 0x6200 "SUBH" M_MAM M_NARP;
  E2 0x6300 "SUBS" M_MAM M_NARP;
  E2 0x6400 "SUBC" M_MAM M_NARP;
  E2 0x6500 "ZALH" M_MAM M_NARP;
  E2 0x6600 "ZALS" M_MAM M_NARP;
  E2 0x6700 "TBLR" M_MAM M_NARP;
  E1 0x6880 "LARP" M_ARK;
  E2 0x6800 "MAR" M_MAM M_NARP;
  E2 0x6900 "DMOV" M_MAM M_NARP;
  E2 0x6A00 "LT" M_MAM M_NARP;
  E2 0x6B00 "LTD" M_MAM M_NARP;
  E2 0x6C00 "LTA" M_MAM M_NARP;
  E2 0x6D00 "MPY" M_MAM M_NARP;
  E1 0x6E00 "LDPK" M_DPK;
  E2 0x6F00 "LDP" M_MAM M_NARP;
  E2 0x7000 "LARK" M_AR M_IM8;
  E2 0x7800 "XOR" M_MAM M_NARP;
  E2 0x7900 "AND" M_MAM M_NARP;
  E2 0x7A00 "OR" M_MAM M_NARP;
  E2 0x7B00 "LST" M_MAM M_NARP;
  E2 0x7C00 "SST" M_MAM M_NARP;
  E2 0x7D00 "TBLW" M_MAM M_NARP;
  E1 0x7E00 "LACK" M_IM8;
  E0 0x7F80 "NOP";
  E0 0x7F81 "DINT";
  E0 0x7F82 "EINT";
  E0 0x7F88 "ABS";
  E0 0x7F89 "ZAC";
  E0 0x7F8A "ROVM";
  E0 0x7F8B "SOVM";
  E0 0x7F8C "CALA";
  E0 0x7F8D "RET";
  E0 0x7F8E "PAC";
  E0 0x7F8F "APAC";
  E0 0x7F90 "SPAC";
  E0 0x7F9C "PUSH";
  E0 0x7F9D "POP";
  E1 0x8000 "MPYK" M_IM13;
  E1 0xF400 "BANZ" M_PMA;
  E1 0xF500 "BV" M_PMA;
  E1 0xF600 "BIOZ" M_PMA;
  E1 0xF800 "CALL" M_PMA;
  E1 0xF900 "B" M_PMA;
  E1 0xFA00 "BLZ" M_PMA;
  E1 0xFB00 "BLEZ" M_PMA;
  E1 0xFC00 "BGZ" M_PMA;
  E1 0xFD00 "BGEZ" M_PMA;
  E1 0xFE00 "BNZ" M_PMA;
  E1 0xFF00 "BZ" M_PMA].

(* src/table_tms32010.cpp:97-158 *)
Definition INDEX_TMS32010 : list Z := [37; 0; 9; 10; 28; 44; 53; 49; 57; 56; 51; 55; 54; 58; 50; 59; 41; 52; 35; 19; 36; 5; 2; 33; 4; 26; 17; 25; 24; 30; 20; 22; 21; 18; 23; 48; 34; 29; 6; 43; 47; 46; 42; 39; 8; 7; 3; 40; 45; 31; 1; 13; 11; 12; 16; 32; 27; 38; 14; 15].

(* src/table_tms32010.cpp:163-165 *)
Definition TMS32010_PAGES : list epage := [mkPage tt TABLE_TMS32010 INDEX_TMS32010].

(* src/table_tms32010.cpp:169-172 *)
Definition CPU_TABLE : list (Z * string * list epage) := [(TMS32010, "32010", TMS32010_PAGES);
  (TMS32015, "32015", TMS32010_PAGES)].

