(** Generated by tools/gencpu.py from /repo/src: the instruction tables of table_cdp1802.cpp and the
    register names of reg_cdp1802.cpp. *)
From Coq Require Import String ZArith List.
From Verif Require Import M_Char M_Table M_Cdp1802Defs.
Import ListNotations.
Local Open Scope string_scope.
Local Open Scope list_scope.
Local Open Scope Z_scope.

(* src/table_cdp1802.cpp:33-125 *)
Definition TABLE_CDP1802 : list entry := [
  E0 0x00 "IDL";
  E1 0x00 "LDN" M_REG1;
  E1 0x10 "INC" M_REGN;
  E1 0x20 "DEC" M_REGN;
  E1 0x30 "BR" M_SHRT;
  E1 0x31 "BQ" M_SHRT;
  E1 0x32 "BZ" M_SHRT;
  E1 0x33 "BDF" M_SHRT;
  E1 0x33 "BPZ" M_SHRT;
  E1 0x33 "BGE" M_SHRT;
  E1 0x34 "B1" M_PAGE;
  E1 0x35 "B2" M_PAGE;
  E1 0x36 "B3" M_PAGE;
  E1 0x37 "B4" M_PAGE;
  E0 0x38 "SKP";
  E1 0x38 "NBR" M_PAGE;
  E1 0x39 "BNQ" M_SHRT;
  E1 0x3A "BNZ" M_SHRT;
  E1 0x3B "BNF" M_SHRT;
  E1 0x3B "BM" M_SHRT;
  E1 0x3B "BL" M_SHRT;
  E1 0x3C "BN1" M_PAGE;
  E1 0x3D "BN2" M_PAGE;
  E1 0x3E "BN3" M_PAGE;
  E1 0x3F "BN4" M_PAGE;
  E1 0x40 "LDA" M_REGN;
  E1 0x50 "STR" M_REGN;
  E0 0x60 "IRX";
  E1 0x60 "OUT" M_IOAD;
  E1 0x68 "INP" M_IOAD;
  E0 0x70 "RET";
  E0 0x71 "DIS";
  E0 0x72 "LDXA";
  E0 0x73 "STXD";
  E0 0x74 "ADC";
  E0 0x75 "SDB";
  E0 0x76 "SHRC";
  E0 0x76 "RSHR";
  E0 0x77 "SMB";
  E0 0x78 "SAV";
  E0 0x79 "MARK";
  E0 0x7A "REQ";
  E0 0x7B "SEQ";
  E1 0x7C "ADCI" M_IMM8;
  E1 0x7D "SDBI" M_IMM8;
  E0 0x7E "SHLC";
  E0 0x7E "RSHL";
  E1 0x7F "SMBI" M_IMM8;
  E1 0x80 "GLO" M_REGN;
  E1 0x90 "GHI" M_REGN;
  E1 0xA0 "PLO" M_REGN;
  E1 0xB0 "PHI" M_REGN;
  E1 0xC0 "LBR" M_LONG;
  E1 0xC1 "LBQ" M_LONG;
  E1 0xC2 "LBZ" M_LONG;
  E1 0xC3 "LBDF" M_LONG;
  E1 0xC3 "LBPZ" M_LONG;
  E1 0xC3 "LBGE" M_LONG;
  E0 0xC4 "NOP";
  E0 0xC5 "LSNQ";
  E0 0xC6 "LSNZ";
  E0 0xC7 "LSNF";
  E0 0xC8 "LSKP";
  E1 0xC8 "NLBR" M_ADDR;
  E1 0xC9 "LBNQ" M_LONG;
  E1 0xCA "LBNZ" M_LONG;
  E1 0xCB "LBNF" M_LONG;
  E1 0xCB "LBM" M_LONG;
  E1 0xCB "LBL" M_LONG;
  E0 0xCC "LSIE";
  E0 0xCD "LSQ";
  E0 0xCE "LSZ";
  E0 0xCF "LSDF";
  E1 0xD0 "SEP" M_REGN;
  E1 0xE0 "SEX" M_REGN;
  E0 0xF0 "LDX";
  E0 0xF1 "OR";
  E0 0xF2 "AND";
  E0 0xF3 "XOR";
  E0 0xF4 "ADD";
  E0 0xF5 "SD";
  E0 0xF6 "SHR";
  E0 0xF7 "SM";
  E1 0xF8 "LDI" M_IMM8;
  E1 0xF9 "ORI" M_IMM8;
  E1 0xFA "ANI" M_IMM8;
  E1 0xFB "XRI" M_IMM8;
  E1 0xFC "ADI" M_IMM8;
  E1 0xFD "SDI" M_IMM8;
  E0 0xFE "SHL";
  E1 0xFF "SMI" M_IMM8].

(* src/table_cdp1802.cpp:127-219 *)
Definition INDEX_CDP1802 : list Z := [34; 43; 79; 87; 77; 85; 10; 11; 12; 13; 7; 9; 20; 19; 21; 22; 23; 24; 18; 16; 17; 8; 5; 4; 6; 3; 31; 49; 48; 0; 2; 29; 27; 55; 57; 68; 67; 66; 64; 65; 56; 53; 52; 54; 25; 83; 1; 75; 32; 72; 69; 62; 61; 59; 60; 70; 71; 40; 15; 63; 58; 76; 84; 28; 51; 50; 41; 30; 46; 37; 39; 80; 35; 44; 88; 73; 42; 74; 89; 45; 81; 36; 14; 82; 38; 47; 90; 26; 33; 78; 86].

(* src/table_cdp1802.cpp:221-244 *)
Definition TABLE_CDP1804 : list entry := [
  E0 0x00 "STPC";
  E0 0x01 "DTC";
  E0 0x02 "SPM2";
  E0 0x03 "SCM2";
  E0 0x04 "SPM1";
  E0 0x05 "SCM1";
  E0 0x06 "LDC";
  E0 0x07 "STM";
  E0 0x08 "GEC";
  E0 0x09 "ETQ";
  E0 0x0A "XIE";
  E0 0x0B "XID";
  E0 0x0C "CIE";
  E0 0x0D "CID";
  E1 0x3E "BCI" M_PAGE;
  E1 0x3F "BXI" M_PAGE;
  E1 0x60 "RLXA" M_REGN;
  E2 0x80 "SCAL" M_REGN M_ADDR;
  E1 0x90 "SRET" M_REGN;
  E1 0xA0 "RSXD" M_REGN;
  E1 0xB0 "RNX" M_REGN;
  E2 0xC0 "RLDI" M_REGN M_ADDR].

(* src/table_cdp1802.cpp:246-269 *)
Definition INDEX_CDP1804 : list Z := [14; 15; 13; 12; 1; 9; 8; 6; 21; 16; 20; 19; 17; 5; 3; 4; 2; 18; 7; 0; 11; 10].

(* src/table_cdp1802.cpp:271-282 *)
Definition TABLE_CDP1804A : list entry := [
  E2 0x20 "DBNZ" M_REGN M_ADDR;
  E0 0x74 "DADC";
  E0 0x76 "DSAV";
  E0 0x77 "DSMB";
  E1 0x7C "DACI" M_IMM8;
  E1 0x7F "DSBI" M_IMM8;
  E0 0xF4 "DADD";
  E0 0xF7 "DSM";
  E1 0xFC "DADI" M_IMM8;
  E1 0xFF "DSMI" M_IMM8].

(* src/table_cdp1802.cpp:284-295 *)
Definition INDEX_CDP1804A : list Z := [4; 1; 6; 8; 0; 2; 5; 7; 3; 9].

(* src/table_cdp1802.cpp:300-302 *)
Definition CDP1802_PAGES : list epage := [mkPage 0x00 TABLE_CDP1802 INDEX_CDP1802].

(* src/table_cdp1802.cpp:304-307 *)
Definition CDP1804_PAGES : list epage := [mkPage 0x00 TABLE_CDP1802 INDEX_CDP1802; mkPage 0x68 TABLE_CDP1804 INDEX_CDP1804].

(* src/table_cdp1802.cpp:309-313 *)
Definition CDP1804A_PAGES : list epage := [mkPage 0x00 TABLE_CDP1802 INDEX_CDP1802; mkPage 0x68 TABLE_CDP1804 INDEX_CDP1804; mkPage 0x68 TABLE_CDP1804A INDEX_CDP1804A].

(* src/table_cdp1802.cpp:317-321 *)
Definition CPU_TABLE : list (Z * string * list epage) := [(CDP1802, "1802", CDP1802_PAGES);
  (CDP1804, "1804", CDP1804_PAGES);
  (CDP1804A, "1804A", CDP1804A_PAGES)].

