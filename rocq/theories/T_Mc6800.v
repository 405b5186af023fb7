(** Generated by tools/gencpu.py from /repo/src: the instruction tables of table_mc6800.cpp and the
    register names of reg_mc6800.cpp. *)
From Coq Require Import String ZArith List.
From Verif Require Import M_Char M_Table M_Mc6800Defs.
Import ListNotations.
Local Open Scope string_scope.
Local Open Scope list_scope.
Local Open Scope Z_scope.

(* src/table_mc6800.cpp:36-154 *)
Definition MC6800_TABLE : list entry := [
  E0 0x01 "NOP";
  E0 0x06 "TAP";
  E0 0x07 "TPA";
  E0 0x08 "INX";
  E0 0x09 "DEX";
  E0 0x0A "CLV";
  E0 0x0B "SEV";
  E0 0x0C "CLC";
  E0 0x0D "SEC";
  E0 0x0E "CLI";
  E0 0x0F "SEI";
  E0 0x10 "SBA";
  E0 0x11 "CBA";
  E0 0x16 "TAB";
  E0 0x17 "TBA";
  E0 0x19 "DAA";
  E0 0x1B "ABA";
  E1 0x20 "BRA" M_REL;
  E1 0x22 "BHI" M_REL;
  E1 0x23 "BLS" M_REL;
  E1 0x24 "BHS" M_REL;
  E1 0x24 "BCC" M_REL;
  E1 0x25 "BLO" M_REL;
  E1 0x25 "BCS" M_REL;
  E1 0x26 "BNE" M_REL;
  E1 0x27 "BEQ" M_REL;
  E1 0x28 "BVC" M_REL;
  E1 0x29 "BVS" M_REL;
  E1 0x2A "BPL" M_REL;
  E1 0x2B "BMI" M_REL;
  E1 0x2C "BGE" M_REL;
  E1 0x2D "BLT" M_REL;
  E1 0x2E "BGT" M_REL;
  E1 0x2F "BLE" M_REL;
  E0 0x30 "TSX";
  E0 0x31 "INS";
  E0 0x32 "PULA";
  E0 0x33 "PULB";
  E0 0x34 "DES";
  E0 0x35 "TXS";
  E0 0x36 "PSHA";
  E0 0x37 "PSHB";
  E0 0x39 "RTS";
  E0 0x3B "RTI";
  E0 0x3E "WAI";
  E0 0x3F "SWI";
  E0 0x40 "NEGA";
  E0 0x50 "NEGB";
  E0 0x43 "COMA";
  E0 0x53 "COMB";
  E0 0x44 "LSRA";
  E0 0x54 "LSRB";
  E0 0x46 "RORA";
  E0 0x56 "RORB";
  E0 0x47 "ASRA";
  E0 0x57 "ASRB";
  E0 0x48 "ASLA";
  E0 0x58 "ASLB";
  E0 0x48 "LSLA";
  E0 0x58 "LSLB";
  E0 0x49 "ROLA";
  E0 0x59 "ROLB";
  E0 0x4A "DECA";
  E0 0x5A "DECB";
  E0 0x4C "INCA";
  E0 0x5C "INCB";
  E0 0x4D "TSTA";
  E0 0x5D "TSTB";
  E0 0x4F "CLRA";
  E0 0x5F "CLRB";
  E1 0x60 "NEG" M_GMEM;
  E1 0x63 "COM" M_GMEM;
  E1 0x64 "LSR" M_GMEM;
  E1 0x66 "ROR" M_GMEM;
  E1 0x67 "ASR" M_GMEM;
  E1 0x68 "ASL" M_GMEM;
  E1 0x68 "LSL" M_GMEM;
  E1 0x69 "ROL" M_GMEM;
  E1 0x6A "DEC" M_GMEM;
  E1 0x6C "INC" M_GMEM;
  E1 0x6D "TST" M_GMEM;
  E1 0x6E "JMP" M_GMEM;
  E1 0x6F "CLR" M_GMEM;
  E1 0x80 "SUBA" M_GN8;
  E1 0xC0 "SUBB" M_GN8;
  E1 0x81 "CMPA" M_GN8;
  E1 0xC1 "CMPB" M_GN8;
  E1 0x82 "SBCA" M_GN8;
  E1 0xC2 "SBCB" M_GN8;
  E1 0x84 "ANDA" M_GN8;
  E1 0xC4 "ANDB" M_GN8;
  E1 0x85 "BITA" M_GN8;
  E1 0xC5 "BITB" M_GN8;
  E1 0x86 "LDAA" M_GN8;
  E1 0xC6 "LDAB" M_GN8;
  U1 0x87 "STAA" M_IM8;
  U1 0xC7 "STAB" M_IM8;
  E1 0x87 "STAA" M_GN8;
  E1 0xC7 "STAB" M_GN8;
  E1 0x88 "EORA" M_GN8;
  E1 0xC8 "EORB" M_GN8;
  E1 0x89 "ADCA" M_GN8;
  E1 0xC9 "ADCB" M_GN8;
  E1 0x8A "ORAA" M_GN8;
  E1 0xCA "ORAB" M_GN8;
  E1 0x8B "ADDA" M_GN8;
  E1 0xCB "ADDB" M_GN8;
  E1 0x8C "CPX" M_GN16;
  E1 0x8D "BSR" M_REL;
  E1 0x8E "LDS" M_GN16;
  U1 0x8F "STS" M_IM16;
  E1 0x8F "STS" M_GN16;
  E1 0xAD "JSR" M_IDX;
  E1 0xBD "JSR" M_EXT;
  E1 0xCE "LDX" M_GN16;
  U1 0xCF "STX" M_IM16;
  E1 0xCF "STX" M_GN16].

(* src/table_mc6800.cpp:156-274 *)
Definition MC6800_INDEX : list Z := [16; 101; 102; 105; 106; 89; 90; 75; 56; 57; 74; 54; 55; 21; 23; 25; 30; 32; 18; 20; 91; 92; 33; 22; 19; 31; 29; 24; 28; 17; 108; 26; 27; 12; 7; 9; 82; 68; 69; 5; 85; 86; 71; 48; 49; 107; 15; 78; 62; 63; 38; 4; 99; 100; 79; 64; 65; 35; 3; 81; 112; 113; 93; 94; 109; 114; 76; 58; 59; 72; 50; 51; 70; 46; 47; 0; 103; 104; 40; 41; 36; 37; 77; 60; 61; 73; 52; 53; 43; 42; 11; 87; 88; 8; 10; 6; 95; 97; 96; 98; 110; 111; 115; 116; 83; 84; 45; 13; 1; 14; 2; 80; 66; 67; 34; 39; 44].

(* src/table_mc6800.cpp:276-283 *)
Definition MB8861_TABLE : list entry := [
  E2 0x71 "NIM" M_IM8 M_IDX;
  E2 0x72 "OIM" M_IM8 M_IDX;
  E2 0x75 "XIM" M_IM8 M_IDX;
  E2 0x7B "TMM" M_IM8 M_IDX;
  E1 0xEC "ADX" M_IM8;
  E1 0xFC "ADX" M_EXT].

(* src/table_mc6800.cpp:285-292 *)
Definition MB8861_INDEX : list Z := [4; 5; 0; 1; 3; 2].

(* src/table_mc6800.cpp:294-309 *)
Definition MC6801_TABLE : list entry := [
  E0 0x04 "LSRD";
  E0 0x05 "ASLD";
  E0 0x05 "LSLD";
  E1 0x21 "BRN" M_REL;
  E0 0x38 "PULX";
  E0 0x3A "ABX";
  E0 0x3C "PSHX";
  E0 0x3D "MUL";
  E1 0x83 "SUBD" M_GN16;
  E1 0x9D "JSR" M_DIR;
  E1 0xC3 "ADDD" M_GN16;
  E1 0xCC "LDD" M_GN16;
  U1 0xCD "STD" M_IM16;
  E1 0xCD "STD" M_GN16].

(* src/table_mc6800.cpp:311-326 *)
Definition MC6801_INDEX : list Z := [5; 10; 1; 3; 9; 11; 2; 0; 7; 6; 4; 12; 13; 8].

(* src/table_mc6800.cpp:328-347 *)
Definition HD6301_TABLE : list entry := [
  E0 0x18 "XGDX";
  E0 0x1A "SLP";
  E2 0x61 "AIM" M_BMM M_IDX;
  E2 0x61 "BCLR" M_BIT M_IDX;
  E2 0x62 "OIM" M_BMM M_IDX;
  E2 0x62 "BSET" M_BIT M_IDX;
  E2 0x65 "EIM" M_BMM M_IDX;
  E2 0x65 "BTGL" M_BIT M_IDX;
  E2 0x6B "TIM" M_BMM M_IDX;
  E2 0x6B "BTST" M_BIT M_IDX;
  E2 0x71 "AIM" M_BMM M_DIR;
  E2 0x71 "BCLR" M_BIT M_DIR;
  E2 0x72 "OIM" M_BMM M_DIR;
  E2 0x72 "BSET" M_BIT M_DIR;
  E2 0x75 "EIM" M_BMM M_DIR;
  E2 0x75 "BTGL" M_BIT M_DIR;
  E2 0x7B "TIM" M_BMM M_DIR;
  E2 0x7B "BTST" M_BIT M_DIR].

(* src/table_mc6800.cpp:349-368 *)
Definition HD6301_INDEX : list Z := [2; 10; 3; 11; 5; 13; 7; 15; 9; 17; 6; 14; 4; 12; 1; 8; 16; 0].

(* src/table_mc6800.cpp:370-383 *)
Definition MC68HC11_P00 : list entry := [
  E0 0x02 "IDIV";
  E0 0x03 "FDIV";
  E3 0x12 "BRSET" M_DIR M_IM8 M_REL;
  E3 0x13 "BRCLR" M_DIR M_IM8 M_REL;
  E2 0x14 "BSET" M_DIR M_IM8;
  E2 0x15 "BCLR" M_DIR M_IM8;
  E2 0x1C "BSET" M_IDX M_IM8;
  E2 0x1D "BCLR" M_IDX M_IM8;
  E3 0x1E "BRSET" M_IDX M_IM8 M_REL;
  E3 0x1F "BRCLR" M_IDX M_IM8 M_REL;
  E0 0x8F "XGDX";
  E0 0xCF "STOP"].

(* src/table_mc6800.cpp:385-398 *)
Definition MC68HC11_I00 : list Z := [5; 7; 3; 9; 2; 8; 4; 6; 1; 0; 11; 10].

(* src/table_mc6800.cpp:400-466 *)
Definition MC68HC11_P18 : list entry := [
  E0 0x08 "INY";
  E0 0x09 "DEY";
  E2 0x1C "BSET" M_IDY M_IM8;
  E2 0x1D "BCLR" M_IDY M_IM8;
  E3 0x1E "BRSET" M_IDY M_IM8 M_REL;
  E3 0x1F "BRCLR" M_IDY M_IM8 M_REL;
  E0 0x30 "TSY";
  E0 0x35 "TYS";
  E0 0x38 "PULY";
  E0 0x3A "ABY";
  E0 0x3C "PSHY";
  E1 0x60 "NEG" M_IDY;
  E1 0x63 "COM" M_IDY;
  E1 0x64 "LSR" M_IDY;
  E1 0x66 "ROR" M_IDY;
  E1 0x67 "ASR" M_IDY;
  E1 0x68 "ASL" M_IDY;
  E1 0x68 "LSL" M_IDY;
  E1 0x69 "ROL" M_IDY;
  E1 0x6A "DEC" M_IDY;
  E1 0x6C "INC" M_IDY;
  E1 0x6D "TST" M_IDY;
  E1 0x6E "JMP" M_IDY;
  E1 0x6F "CLR" M_IDY;
  E1 0x8C "CPY" M_IM16;
  E0 0x8F "XGDY";
  E1 0x9C "CPY" M_DIR;
  E1 0xA0 "SUBA" M_IDY;
  E1 0xE0 "SUBB" M_IDY;
  E1 0xA1 "CMPA" M_IDY;
  E1 0xE1 "CMPB" M_IDY;
  E1 0xA2 "SBCA" M_IDY;
  E1 0xE2 "SBCB" M_IDY;
  E1 0xA3 "SUBD" M_IDY;
  E1 0xE3 "ADDD" M_IDY;
  E1 0xA4 "ANDA" M_IDY;
  E1 0xE4 "ANDB" M_IDY;
  E1 0xA5 "BITA" M_IDY;
  E1 0xE5 "BITB" M_IDY;
  E1 0xA6 "LDAA" M_IDY;
  E1 0xE6 "LDAB" M_IDY;
  E1 0xA7 "STAA" M_IDY;
  E1 0xE7 "STAB" M_IDY;
  E1 0xA8 "EORA" M_IDY;
  E1 0xE8 "EORB" M_IDY;
  E1 0xA9 "ADCA" M_IDY;
  E1 0xE9 "ADCB" M_IDY;
  E1 0xAA "ORAA" M_IDY;
  E1 0xEA "ORAB" M_IDY;
  E1 0xAB "ADDA" M_IDY;
  E1 0xEB "ADDB" M_IDY;
  E1 0xAC "CPY" M_IDY;
  E1 0xAD "JSR" M_IDY;
  E1 0xAE "LDS" M_IDY;
  E1 0xAF "STS" M_IDY;
  E1 0xBC "CPY" M_EXT;
  E1 0xCE "LDY" M_IM16;
  E1 0xDE "LDY" M_DIR;
  E1 0xDF "STY" M_DIR;
  E1 0xEC "LDD" M_IDY;
  E1 0xED "STD" M_IDY;
  E1 0xEE "LDY" M_IDY;
  E1 0xEF "STY" M_IDY;
  E1 0xFE "LDY" M_EXT;
  E1 0xFF "STY" M_EXT].

(* src/table_mc6800.cpp:468-534 *)
Definition MC68HC11_I18 : list Z := [9; 45; 46; 49; 50; 34; 35; 36; 16; 15; 3; 37; 38; 5; 4; 2; 23; 29; 30; 12; 24; 26; 51; 55; 19; 1; 43; 44; 20; 0; 22; 52; 39; 40; 59; 53; 56; 57; 61; 63; 17; 13; 11; 47; 48; 10; 8; 18; 14; 31; 32; 41; 42; 60; 54; 58; 62; 64; 27; 28; 33; 21; 6; 7; 25].

(* src/table_mc6800.cpp:536-541 *)
Definition MC68HC11_P1A : list entry := [
  E1 0x83 "CPD" M_GN16;
  E1 0xAC "CPY" M_IDX;
  E1 0xEE "LDY" M_IDX;
  E1 0xEF "STY" M_IDX].

(* src/table_mc6800.cpp:543-548 *)
Definition MC68HC11_I1A : list Z := [0; 1; 2; 3].

(* src/table_mc6800.cpp:550-555 *)
Definition MC68HC11_PCD : list entry := [
  E1 0xA3 "CPD" M_IDY;
  E1 0xAC "CPX" M_IDY;
  E1 0xEE "LDX" M_IDY;
  E1 0xEF "STX" M_IDY].

(* src/table_mc6800.cpp:557-562 *)
Definition MC68HC11_ICD : list Z := [0; 1; 2; 3].

(* src/table_mc6800.cpp:567-569 *)
Definition MC6800_PAGES : list epage := [mkPage 0x00 MC6800_TABLE MC6800_INDEX].

(* src/table_mc6800.cpp:571-574 *)
Definition MB8861_PAGES : list epage := [mkPage 0x00 MC6800_TABLE MC6800_INDEX; mkPage 0x00 MB8861_TABLE MB8861_INDEX].

(* src/table_mc6800.cpp:576-579 *)
Definition MC6801_PAGES : list epage := [mkPage 0x00 MC6801_TABLE MC6801_INDEX; mkPage 0x00 MC6800_TABLE MC6800_INDEX].

(* src/table_mc6800.cpp:581-585 *)
Definition HD6301_PAGES : list epage := [mkPage 0x00 HD6301_TABLE HD6301_INDEX; mkPage 0x00 MC6801_TABLE MC6801_INDEX; mkPage 0x00 MC6800_TABLE MC6800_INDEX].

(* src/table_mc6800.cpp:587-594 *)
Definition MC68HC11_PAGES : list epage := [mkPage 0x00 MC68HC11_P00 MC68HC11_I00; mkPage 0x00 MC6801_TABLE MC6801_INDEX; mkPage 0x00 MC6800_TABLE MC6800_INDEX; mkPage 0x18 MC68HC11_P18 MC68HC11_I18; mkPage 0x1A MC68HC11_P1A MC68HC11_I1A; mkPage 0xCD MC68HC11_PCD MC68HC11_ICD].

(* src/table_mc6800.cpp:598-604 *)
Definition CPU_TABLE : list (Z * string * list epage) := [(MC6800, "6800", MC6800_PAGES);
  (MB8861, "MB8861", MB8861_PAGES);
  (MC6801, "6801", MC6801_PAGES);
  (HD6301, "6301", HD6301_PAGES);
  (MC68HC11, "6811", MC68HC11_PAGES)].

