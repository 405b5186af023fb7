(** Generated by tools/gencpu.py from /repo/src: the instruction tables of table_mos6502.cpp and the
    register names of reg_mos6502.cpp. *)
From Coq Require Import String ZArith List.
From Verif Require Import M_Char M_Table M_Mos6502Defs.
Import ListNotations.
Local Open Scope string_scope.
Local Open Scope list_scope.
Local Open Scope Z_scope.

(* src/table_mos6502.cpp:34-186 *)
Definition MOS6502_TABLE : list entry := [
  E0 0x00 "BRK";
  E0 0x40 "RTI";
  E0 0x60 "RTS";
  E0 0xEA "NOP";
  E0 0x08 "PHP";
  E0 0x28 "PLP";
  E0 0x48 "PHA";
  E0 0x68 "PLA";
  E0 0x88 "DEY";
  E0 0xC8 "INY";
  E0 0xCA "DEX";
  E0 0xE8 "INX";
  E0 0x98 "TYA";
  E0 0xA8 "TAY";
  E0 0x8A "TXA";
  E0 0xAA "TAX";
  E0 0x9A "TXS";
  E0 0xBA "TSX";
  E0 0x18 "CLC";
  E0 0x38 "SEC";
  E0 0x58 "CLI";
  E0 0x78 "SEI";
  E0 0xB8 "CLV";
  E0 0xD8 "CLD";
  E0 0xF8 "SED";
  E1 0x0A "ASL" M_REGA;
  E1 0x2A "ROL" M_REGA;
  E1 0x4A "LSR" M_REGA;
  E1 0x6A "ROR" M_REGA;
  E1 0xA0 "LDY" M_IMX;
  E1 0xA2 "LDX" M_IMX;
  E1 0xC0 "CPY" M_IMX;
  E1 0xE0 "CPX" M_IMX;
  E1 0x09 "ORA" M_IMA;
  E1 0x29 "AND" M_IMA;
  E1 0x49 "EOR" M_IMA;
  E1 0x69 "ADC" M_IMA;
  E1 0xA9 "LDA" M_IMA;
  E1 0xC9 "CMP" M_IMA;
  E1 0xE9 "SBC" M_IMA;
  E1 0x24 "BIT" M_DPG;
  E1 0x05 "ORA" M_DPG;
  E1 0x25 "AND" M_DPG;
  E1 0x45 "EOR" M_DPG;
  E1 0x65 "ADC" M_DPG;
  E1 0x85 "STA" M_DPG;
  E1 0xA5 "LDA" M_DPG;
  E1 0xC5 "CMP" M_DPG;
  E1 0xE5 "SBC" M_DPG;
  E1 0x84 "STY" M_DPG;
  E1 0xA4 "LDY" M_DPG;
  E1 0xC4 "CPY" M_DPG;
  E1 0x86 "STX" M_DPG;
  E1 0xA6 "LDX" M_DPG;
  E1 0xE4 "CPX" M_DPG;
  E1 0xC6 "DEC" M_DPG;
  E1 0xE6 "INC" M_DPG;
  E1 0x06 "ASL" M_DPG;
  E1 0x26 "ROL" M_DPG;
  E1 0x46 "LSR" M_DPG;
  E1 0x66 "ROR" M_DPG;
  E2 0x15 "ORA" M_DPG M_REGX;
  E2 0x35 "AND" M_DPG M_REGX;
  E2 0x55 "EOR" M_DPG M_REGX;
  E2 0x75 "ADC" M_DPG M_REGX;
  E2 0x95 "STA" M_DPG M_REGX;
  E2 0xB5 "LDA" M_DPG M_REGX;
  E2 0xD5 "CMP" M_DPG M_REGX;
  E2 0xF5 "SBC" M_DPG M_REGX;
  E2 0x94 "STY" M_DPG M_REGX;
  E2 0xB4 "LDY" M_DPG M_REGX;
  E2 0x96 "STX" M_DPG M_REGY;
  E2 0xB6 "LDX" M_DPG M_REGY;
  E2 0xD6 "DEC" M_DPG M_REGX;
  E2 0xF6 "INC" M_DPG M_REGX;
  E2 0x16 "ASL" M_DPG M_REGX;
  E2 0x36 "ROL" M_DPG M_REGX;
  E2 0x56 "LSR" M_DPG M_REGX;
  E2 0x76 "ROR" M_DPG M_REGX;
  E1 0x2C "BIT" M_ABS;
  E1 0x0D "ORA" M_ABS;
  E1 0x2D "AND" M_ABS;
  E1 0x4D "EOR" M_ABS;
  E1 0x6D "ADC" M_ABS;
  E1 0x8D "STA" M_ABS;
  E1 0xAD "LDA" M_ABS;
  E1 0xCD "CMP" M_ABS;
  E1 0xED "SBC" M_ABS;
  E1 0x8C "STY" M_ABS;
  E1 0xAC "LDY" M_ABS;
  E1 0xCC "CPY" M_ABS;
  E1 0x8E "STX" M_ABS;
  E1 0xAE "LDX" M_ABS;
  E1 0xEC "CPX" M_ABS;
  E1 0xCE "DEC" M_ABS;
  E1 0xEE "INC" M_ABS;
  E1 0x0E "ASL" M_ABS;
  E1 0x2E "ROL" M_ABS;
  E1 0x4E "LSR" M_ABS;
  E1 0x6E "ROR" M_ABS;
  E1 0x4C "JMP" M_ABS;
  E1 0x20 "JSR" M_ABS;
  E2 0x1D "ORA" M_ABS M_REGX;
  E2 0x3D "AND" M_ABS M_REGX;
  E2 0x5D "EOR" M_ABS M_REGX;
  E2 0x7D "ADC" M_ABS M_REGX;
  E2 0x9D "STA" M_ABS M_REGX;
  E2 0xBD "LDA" M_ABS M_REGX;
  E2 0xDD "CMP" M_ABS M_REGX;
  E2 0xFD "SBC" M_ABS M_REGX;
  E2 0x19 "ORA" M_ABS M_REGY;
  E2 0x39 "AND" M_ABS M_REGY;
  E2 0x59 "EOR" M_ABS M_REGY;
  E2 0x79 "ADC" M_ABS M_REGY;
  E2 0x99 "STA" M_ABS M_REGY;
  E2 0xB9 "LDA" M_ABS M_REGY;
  E2 0xD9 "CMP" M_ABS M_REGY;
  E2 0xF9 "SBC" M_ABS M_REGY;
  E2 0xBC "LDY" M_ABS M_REGX;
  E2 0xBE "LDX" M_ABS M_REGY;
  E2 0xDE "DEC" M_ABS M_REGX;
  E2 0xFE "INC" M_ABS M_REGX;
  E2 0x1E "ASL" M_ABS M_REGX;
  E2 0x3E "ROL" M_ABS M_REGX;
  E2 0x5E "LSR" M_ABS M_REGX;
  E2 0x7E "ROR" M_ABS M_REGX;
  E1 0x6C "JMP" I_ABS;
  E2 0x01 "ORA" I_DPG I_REGX;
  E2 0x21 "AND" I_DPG I_REGX;
  E2 0x41 "EOR" I_DPG I_REGX;
  E2 0x61 "ADC" I_DPG I_REGX;
  E2 0x81 "STA" I_DPG I_REGX;
  E2 0xA1 "LDA" I_DPG I_REGX;
  E2 0xC1 "CMP" I_DPG I_REGX;
  E2 0xE1 "SBC" I_DPG I_REGX;
  E2 0x11 "ORA" I_DPG M_REGY;
  E2 0x31 "AND" I_DPG M_REGY;
  E2 0x51 "EOR" I_DPG M_REGY;
  E2 0x71 "ADC" I_DPG M_REGY;
  E2 0x91 "STA" I_DPG M_REGY;
  E2 0xB1 "LDA" I_DPG M_REGY;
  E2 0xD1 "CMP" I_DPG M_REGY;
  E2 0xF1 "SBC" I_DPG M_REGY;
  E1 0x10 "BPL" M_REL;
  E1 0x30 "BMI" M_REL;
  E1 0x50 "BVC" M_REL;
  E1 0x70 "BVS" M_REL;
  E1 0x90 "BCC" M_REL;
  E1 0xB0 "BCS" M_REL;
  E1 0xD0 "BNE" M_REL;
  E1 0xF0 "BEQ" M_REL].

(* src/table_mos6502.cpp:188-340 *)
Definition MOS6502_INDEX : list Z := [36; 44; 64; 83; 105; 113; 130; 138; 34; 42; 62; 81; 103; 111; 128; 136; 25; 57; 75; 96; 122; 147; 148; 150; 40; 79; 144; 149; 143; 0; 145; 146; 18; 23; 20; 22; 38; 47; 67; 86; 108; 116; 133; 141; 32; 54; 93; 31; 51; 90; 55; 73; 94; 120; 10; 8; 35; 43; 63; 82; 104; 112; 129; 137; 56; 74; 95; 121; 11; 9; 100; 126; 101; 37; 46; 66; 85; 107; 115; 132; 140; 30; 53; 72; 92; 119; 29; 50; 70; 89; 118; 27; 59; 77; 98; 124; 3; 33; 41; 61; 80; 102; 110; 127; 135; 6; 4; 7; 5; 26; 58; 76; 97; 123; 28; 60; 78; 99; 125; 1; 2; 39; 48; 68; 87; 109; 117; 134; 142; 19; 24; 21; 45; 65; 84; 106; 114; 131; 139; 52; 71; 91; 49; 69; 88; 15; 13; 17; 14; 16; 12].

(* src/table_mos6502.cpp:342-370 *)
Definition G65SC02_TABLE : list entry := [
  E0 0x5A "PHY";
  E0 0x7A "PLY";
  E0 0xDA "PHX";
  E0 0xFA "PLX";
  E1 0x1A "INC" M_REGA;
  E1 0x3A "DEC" M_REGA;
  E1 0x89 "BIT" M_IMA;
  E1 0x04 "TSB" M_DPG;
  E1 0x14 "TRB" M_DPG;
  E1 0x64 "STZ" M_DPG;
  E2 0x34 "BIT" M_DPG M_REGX;
  E2 0x74 "STZ" M_DPG M_REGX;
  E1 0x0C "TSB" M_ABS;
  E1 0x1C "TRB" M_ABS;
  E1 0x9C "STZ" M_ABS;
  E2 0x3C "BIT" M_ABS M_REGX;
  E2 0x9E "STZ" M_ABS M_REGX;
  E2 0x7C "JMP" I_ABS I_REGX;
  E1 0x12 "ORA" I_DPG;
  E1 0x32 "AND" I_DPG;
  E1 0x52 "EOR" I_DPG;
  E1 0x72 "ADC" I_DPG;
  E1 0x92 "STA" I_DPG;
  E1 0xB2 "LDA" I_DPG;
  E1 0xD2 "CMP" I_DPG;
  E1 0xF2 "SBC" I_DPG;
  E1 0x80 "BRA" M_REL].

(* src/table_mos6502.cpp:372-400 *)
Definition G65SC02_INDEX : list Z := [21; 19; 6; 10; 15; 26; 24; 5; 20; 4; 17; 23; 18; 2; 0; 3; 1; 25; 22; 9; 11; 14; 16; 8; 13; 7; 12].

(* src/table_mos6502.cpp:402-435 *)
Definition R65C02_TABLE : list entry := [
  E2 0x0F "BBR0" M_DPG M_REL;
  E2 0x1F "BBR1" M_DPG M_REL;
  E2 0x2F "BBR2" M_DPG M_REL;
  E2 0x3F "BBR3" M_DPG M_REL;
  E2 0x4F "BBR4" M_DPG M_REL;
  E2 0x5F "BBR5" M_DPG M_REL;
  E2 0x6F "BBR6" M_DPG M_REL;
  E2 0x7F "BBR7" M_DPG M_REL;
  E2 0x8F "BBS0" M_DPG M_REL;
  E2 0x9F "BBS1" M_DPG M_REL;
  E2 0xAF "BBS2" M_DPG M_REL;
  E2 0xBF "BBS3" M_DPG M_REL;
  E2 0xCF "BBS4" M_DPG M_REL;
  E2 0xDF "BBS5" M_DPG M_REL;
  E2 0xEF "BBS6" M_DPG M_REL;
  E2 0xFF "BBS7" M_DPG M_REL;
  E1 0x07 "RMB0" M_DPG;
  E1 0x17 "RMB1" M_DPG;
  E1 0x27 "RMB2" M_DPG;
  E1 0x37 "RMB3" M_DPG;
  E1 0x47 "RMB4" M_DPG;
  E1 0x57 "RMB5" M_DPG;
  E1 0x67 "RMB6" M_DPG;
  E1 0x77 "RMB7" M_DPG;
  E1 0x87 "SMB0" M_DPG;
  E1 0x97 "SMB1" M_DPG;
  E1 0xA7 "SMB2" M_DPG;
  E1 0xB7 "SMB3" M_DPG;
  E1 0xC7 "SMB4" M_DPG;
  E1 0xD7 "SMB5" M_DPG;
  E1 0xE7 "SMB6" M_DPG;
  E1 0xF7 "SMB7" M_DPG].

(* src/table_mos6502.cpp:437-470 *)
Definition R65C02_INDEX : list Z := [0; 1; 2; 3; 4; 5; 6; 7; 8; 9; 10; 11; 12; 13; 14; 15; 16; 17; 18; 19; 20; 21; 22; 23; 24; 25; 26; 27; 28; 29; 30; 31].

(* src/table_mos6502.cpp:472-475 *)
Definition W65C02S_TABLE : list entry := [
  E0 0xCB "WAI";
  E0 0xDB "STP"].

(* src/table_mos6502.cpp:477-480 *)
Definition W65C02S_INDEX : list Z := [1; 0].

(* src/table_mos6502.cpp:482-576 *)
Definition W65C816_TABLE : list entry := [
  E0 0x0B "PHD";
  E0 0x1B "TCS";
  E0 0x2B "PLD";
  E0 0x3B "TSC";
  E0 0x4B "PHK";
  E0 0x5B "TCD";
  E0 0x6B "RTL";
  E0 0x7B "TDC";
  E0 0x8B "PHB";
  E0 0x9B "TXY";
  E0 0xAB "PLB";
  E0 0xBB "TYX";
  E0 0xEB "XBA";
  E0 0xFB "XCE";
  E1 0x02 "COP" M_IM8;
  E1 0x42 "WDM" M_IM8;
  E1 0xC2 "REP" M_IM8;
  E1 0xE2 "SEP" M_IM8;
  E1 0x5C "JMP" M_ABSL;
  E1 0xDC "JMP" L_ABS;
  E2 0xFC "JSR" I_ABS I_REGX;
  E1 0x22 "JSL" M_ABSL;
  E1 0x62 "PER" M_LREL;
  E1 0x82 "BRL" M_LREL;
  E1 0xD4 "PEI" I_DPG;
  E1 0xF4 "PEA" M_ABS;
  E2 0x44 "MVP" M_BANK M_BANK;
  E2 0x54 "MVN" M_BANK M_BANK;
  E2 0x03 "ORA" M_DPG M_REGS;
  E3 0x13 "ORA" I_DPG I_REGS M_REGY;
  E1 0x07 "ORA" L_DPG;
  E2 0x17 "ORA" L_DPG M_REGY;
  E1 0x0F "ORA" M_ABSL;
  E2 0x1F "ORA" M_ABSL M_REGX;
  E2 0x23 "AND" M_DPG M_REGS;
  E3 0x33 "AND" I_DPG I_REGS M_REGY;
  E1 0x27 "AND" L_DPG;
  E2 0x37 "AND" L_DPG M_REGY;
  E1 0x2F "AND" M_ABSL;
  E2 0x3F "AND" M_ABSL M_REGX;
  E2 0x43 "EOR" M_DPG M_REGS;
  E3 0x53 "EOR" I_DPG I_REGS M_REGY;
  E1 0x47 "EOR" L_DPG;
  E2 0x57 "EOR" L_DPG M_REGY;
  E1 0x4F "EOR" M_ABSL;
  E2 0x5F "EOR" M_ABSL M_REGX;
  E2 0x63 "ADC" M_DPG M_REGS;
  E3 0x73 "ADC" I_DPG I_REGS M_REGY;
  E1 0x67 "ADC" L_DPG;
  E2 0x77 "ADC" L_DPG M_REGY;
  E1 0x6F "ADC" M_ABSL;
  E2 0x7F "ADC" M_ABSL M_REGX;
  E2 0x83 "STA" M_DPG M_REGS;
  E3 0x93 "STA" I_DPG I_REGS M_REGY;
  E1 0x87 "STA" L_DPG;
  E2 0x97 "STA" L_DPG M_REGY;
  E1 0x8F "STA" M_ABSL;
  E2 0x9F "STA" M_ABSL M_REGX;
  E2 0xA3 "LDA" M_DPG M_REGS;
  E3 0xB3 "LDA" I_DPG I_REGS M_REGY;
  E1 0xA7 "LDA" L_DPG;
  E2 0xB7 "LDA" L_DPG M_REGY;
  E1 0xAF "LDA" M_ABSL;
  E2 0xBF "LDA" M_ABSL M_REGX;
  E2 0xC3 "CMP" M_DPG M_REGS;
  E3 0xD3 "CMP" I_DPG I_REGS M_REGY;
  E1 0xC7 "CMP" L_DPG;
  E2 0xD7 "CMP" L_DPG M_REGY;
  E1 0xCF "CMP" M_ABSL;
  E2 0xDF "CMP" M_ABSL M_REGX;
  E2 0xE3 "SBC" M_DPG M_REGS;
  E3 0xF3 "SBC" I_DPG I_REGS M_REGY;
  E1 0xE7 "SBC" L_DPG;
  E2 0xF7 "SBC" L_DPG M_REGY;
  E1 0xEF "SBC" M_ABSL;
  E2 0xFF "SBC" M_ABSL M_REGX;
  E1 0xDC "JMPL" I_ABS;
  E1 0x07 "ORAL" I_DPG;
  E2 0x17 "ORAL" I_DPG M_REGY;
  E1 0x27 "ANDL" I_DPG;
  E2 0x37 "ANDL" I_DPG M_REGY;
  E1 0x47 "EORL" I_DPG;
  E2 0x57 "EORL" I_DPG M_REGY;
  E1 0x67 "ADCL" I_DPG;
  E2 0x77 "ADCL" I_DPG M_REGY;
  E1 0x87 "STAL" I_DPG;
  E2 0x97 "STAL" I_DPG M_REGY;
  E1 0xA7 "LDAL" I_DPG;
  E2 0xB7 "LDAL" I_DPG M_REGY;
  E1 0xC7 "CMPL" I_DPG;
  E2 0xD7 "CMPL" I_DPG M_REGY;
  E1 0xE7 "SBCL" I_DPG;
  E2 0xF7 "SBCL" I_DPG M_REGY].

(* src/table_mos6502.cpp:578-672 *)
Definition W65C816_INDEX : list Z := [46; 47; 48; 49; 50; 51; 83; 84; 34; 35; 36; 37; 38; 39; 79; 80; 23; 64; 65; 66; 67; 68; 69; 89; 90; 14; 40; 41; 42; 43; 44; 45; 81; 82; 18; 19; 76; 21; 20; 58; 59; 60; 61; 62; 63; 87; 88; 27; 26; 28; 29; 30; 31; 32; 33; 77; 78; 25; 24; 22; 8; 0; 4; 10; 2; 16; 6; 70; 71; 72; 73; 74; 75; 91; 92; 17; 52; 53; 54; 55; 56; 57; 85; 86; 5; 1; 7; 3; 9; 11; 15; 12; 13].

(* src/table_mos6502.cpp:677-679 *)
Definition MOS6502_PAGES : list epage := [mkPage tt MOS6502_TABLE MOS6502_INDEX].

(* src/table_mos6502.cpp:680-683 *)
Definition G65SC02_PAGES : list epage := [mkPage tt MOS6502_TABLE MOS6502_INDEX; mkPage tt G65SC02_TABLE G65SC02_INDEX].

(* src/table_mos6502.cpp:684-688 *)
Definition R65C02_PAGES : list epage := [mkPage tt MOS6502_TABLE MOS6502_INDEX; mkPage tt G65SC02_TABLE G65SC02_INDEX; mkPage tt R65C02_TABLE R65C02_INDEX].

(* src/table_mos6502.cpp:689-694 *)
Definition W65C02S_PAGES : list epage := [mkPage tt MOS6502_TABLE MOS6502_INDEX; mkPage tt G65SC02_TABLE G65SC02_INDEX; mkPage tt R65C02_TABLE R65C02_INDEX; mkPage tt W65C02S_TABLE W65C02S_INDEX].

(* src/table_mos6502.cpp:695-700 *)
Definition W65C816_PAGES : list epage := [mkPage tt MOS6502_TABLE MOS6502_INDEX; mkPage tt G65SC02_TABLE G65SC02_INDEX; mkPage tt W65C02S_TABLE W65C02S_INDEX; mkPage tt W65C816_TABLE W65C816_INDEX].

(* src/table_mos6502.cpp:704-710 *)
Definition CPU_TABLE : list (Z * string * list epage) := [(MOS6502, "6502", MOS6502_PAGES);
  (G65SC02, "65SC02", G65SC02_PAGES);
  (R65C02, "65C02", R65C02_PAGES);
  (W65C02S, "W65C02S", W65C02S_PAGES);
  (W65C816, "65816", W65C816_PAGES)].

(* src/reg_mos6502.cpp:33-38 *)
Definition REG_ENTRIES : list (string * Z) := [("A", REG_A); ("S", REG_S); ("X", REG_X); ("Y", REG_Y)].

