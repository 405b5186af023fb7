(** Generated by tools/gentables.py from /repo/src: the instruction tables with their name
    indexes, the register tables, the directive tables and the processors' table pages.
    An instruction is its mnemonic and its operands (macro name and arguments, without the opcode).
    Simplification: opcodes and the encoding of the macro arguments are not kept. *)
From Coq Require Import ZArith String List.
From Verif Require Import M_Table.
Import ListNotations.
Local Open Scope string_scope.
Local Open Scope list_scope.
Local Open Scope Z_scope.

(* src/table_cdp1802.cpp:33-125 TABLE_CDP1802, 127-219 INDEX_CDP1802 *)
Definition t_cdp1802_TABLE_CDP1802 : insn_table := mkIT [
  ("IDL", "E0()");
  ("LDN", "E1(M_REG1)");
  ("INC", "E1(M_REGN)");
  ("DEC", "E1(M_REGN)");
  ("BR", "E1(M_SHRT)");
  ("BQ", "E1(M_SHRT)");
  ("BZ", "E1(M_SHRT)");
  ("BDF", "E1(M_SHRT)");
  ("BPZ", "E1(M_SHRT)");
  ("BGE", "E1(M_SHRT)");
  ("B1", "E1(M_PAGE)");
  ("B2", "E1(M_PAGE)");
  ("B3", "E1(M_PAGE)");
  ("B4", "E1(M_PAGE)");
  ("SKP", "E0()");
  ("NBR", "E1(M_PAGE)");
  ("BNQ", "E1(M_SHRT)");
  ("BNZ", "E1(M_SHRT)");
  ("BNF", "E1(M_SHRT)");
  ("BM", "E1(M_SHRT)");
  ("BL", "E1(M_SHRT)");
  ("BN1", "E1(M_PAGE)");
  ("BN2", "E1(M_PAGE)");
  ("BN3", "E1(M_PAGE)");
  ("BN4", "E1(M_PAGE)");
  ("LDA", "E1(M_REGN)");
  ("STR", "E1(M_REGN)");
  ("IRX", "E0()");
  ("OUT", "E1(M_IOAD)");
  ("INP", "E1(M_IOAD)");
  ("RET", "E0()");
  ("DIS", "E0()");
  ("LDXA", "E0()");
  ("STXD", "E0()");
  ("ADC", "E0()");
  ("SDB", "E0()");
  ("SHRC", "E0()");
  ("RSHR", "E0()");
  ("SMB", "E0()");
  ("SAV", "E0()");
  ("MARK", "E0()");
  ("REQ", "E0()");
  ("SEQ", "E0()");
  ("ADCI", "E1(M_IMM8)");
  ("SDBI", "E1(M_IMM8)");
  ("SHLC", "E0()");
  ("RSHL", "E0()");
  ("SMBI", "E1(M_IMM8)");
  ("GLO", "E1(M_REGN)");
  ("GHI", "E1(M_REGN)");
  ("PLO", "E1(M_REGN)");
  ("PHI", "E1(M_REGN)");
  ("LBR", "E1(M_LONG)");
  ("LBQ", "E1(M_LONG)");
  ("LBZ", "E1(M_LONG)");
  ("LBDF", "E1(M_LONG)");
  ("LBPZ", "E1(M_LONG)");
  ("LBGE", "E1(M_LONG)");
  ("NOP", "E0()");
  ("LSNQ", "E0()");
  ("LSNZ", "E0()");
  ("LSNF", "E0()");
  ("LSKP", "E0()");
  ("NLBR", "E1(M_ADDR)");
  ("LBNQ", "E1(M_LONG)");
  ("LBNZ", "E1(M_LONG)");
  ("LBNF", "E1(M_LONG)");
  ("LBM", "E1(M_LONG)");
  ("LBL", "E1(M_LONG)");
  ("LSIE", "E0()");
  ("LSQ", "E0()");
  ("LSZ", "E0()");
  ("LSDF", "E0()");
  ("SEP", "E1(M_REGN)");
  ("SEX", "E1(M_REGN)");
  ("LDX", "E0()");
  ("OR", "E0()");
  ("AND", "E0()");
  ("XOR", "E0()");
  ("ADD", "E0()");
  ("SD", "E0()");
  ("SHR", "E0()");
  ("SM", "E0()");
  ("LDI", "E1(M_IMM8)");
  ("ORI", "E1(M_IMM8)");
  ("ANI", "E1(M_IMM8)");
  ("XRI", "E1(M_IMM8)");
  ("ADI", "E1(M_IMM8)");
  ("SDI", "E1(M_IMM8)");
  ("SHL", "E0()");
  ("SMI", "E1(M_IMM8)")]
  [34; 43; 79; 87; 77; 85; 10; 11; 12; 13; 7; 9; 20; 19; 21; 22; 23; 24; 18; 16; 17; 8; 5; 4; 6; 3; 31; 49; 48; 0; 2; 29; 27; 55; 57; 68; 67; 66; 64; 65; 56; 53; 52; 54; 25; 83; 1; 75; 32; 72; 69; 62; 61; 59; 60; 70; 71; 40; 15; 63; 58; 76; 84; 28; 51; 50; 41; 30; 46; 37; 39; 80; 35; 44; 88; 73; 42; 74; 89; 45; 81; 36; 14; 82; 38; 47; 90; 26; 33; 78; 86].

(* src/table_cdp1802.cpp:221-244 TABLE_CDP1804, 246-269 INDEX_CDP1804 *)
Definition t_cdp1802_TABLE_CDP1804 : insn_table := mkIT [
  ("STPC", "E0()");
  ("DTC", "E0()");
  ("SPM2", "E0()");
  ("SCM2", "E0()");
  ("SPM1", "E0()");
  ("SCM1", "E0()");
  ("LDC", "E0()");
  ("STM", "E0()");
  ("GEC", "E0()");
  ("ETQ", "E0()");
  ("XIE", "E0()");
  ("XID", "E0()");
  ("CIE", "E0()");
  ("CID", "E0()");
  ("BCI", "E1(M_PAGE)");
  ("BXI", "E1(M_PAGE)");
  ("RLXA", "E1(M_REGN)");
  ("SCAL", "E2(M_REGN,M_ADDR)");
  ("SRET", "E1(M_REGN)");
  ("RSXD", "E1(M_REGN)");
  ("RNX", "E1(M_REGN)");
  ("RLDI", "E2(M_REGN,M_ADDR)")]
  [14; 15; 13; 12; 1; 9; 8; 6; 21; 16; 20; 19; 17; 5; 3; 4; 2; 18; 7; 0; 11; 10].

(* src/table_cdp1802.cpp:271-282 TABLE_CDP1804A, 284-295 INDEX_CDP1804A *)
Definition t_cdp1802_TABLE_CDP1804A : insn_table := mkIT [
  ("DBNZ", "E2(M_REGN,M_ADDR)");
  ("DADC", "E0()");
  ("DSAV", "E0()");
  ("DSMB", "E0()");
  ("DACI", "E1(M_IMM8)");
  ("DSBI", "E1(M_IMM8)");
  ("DADD", "E0()");
  ("DSM", "E0()");
  ("DADI", "E1(M_IMM8)");
  ("DSMI", "E1(M_IMM8)")]
  [4; 1; 6; 8; 0; 2; 5; 7; 3; 9].

(* src/table_f3850.cpp:33-110 TABLE_3850, 112-189 INDEX_3850 *)
Definition t_f3850_TABLE_3850 : insn_table := mkIT [
  ("LR", "E2(M_A,M_KU)");
  ("LR", "E2(M_A,M_KL)");
  ("LR", "E2(M_A,M_QU)");
  ("LR", "E2(M_A,M_QL)");
  ("LR", "E2(M_KU,M_A)");
  ("LR", "E2(M_KL,M_A)");
  ("LR", "E2(M_QU,M_A)");
  ("LR", "E2(M_QL,M_A)");
  ("LR", "E2(M_K,M_P)");
  ("LR", "E2(M_P,M_K)");
  ("LR", "E2(M_A,M_IS)");
  ("LR", "E2(M_IS,M_A)");
  ("PK", "E0()");
  ("LR", "E2(M_P0,M_Q)");
  ("LR", "E2(M_Q,M_DC)");
  ("LR", "E2(M_DC,M_Q)");
  ("LR", "E2(M_DC,M_H)");
  ("LR", "E2(M_H,M_DC)");
  ("SR", "E1(M_C1)");
  ("SL", "E1(M_C1)");
  ("SR", "E1(M_C4)");
  ("SL", "E1(M_C4)");
  ("LM", "E0()");
  ("ST", "E0()");
  ("COM", "E0()");
  ("LNK", "E0()");
  ("DI", "E0()");
  ("EI", "E0()");
  ("POP", "E0()");
  ("LR", "E2(M_W,M_J)");
  ("LR", "E2(M_J,M_W)");
  ("INC", "E0()");
  ("LI", "E1(M_IM8)");
  ("NI", "E1(M_IM8)");
  ("OI", "E1(M_IM8)");
  ("XI", "E1(M_IM8)");
  ("AI", "E1(M_IM8)");
  ("CI", "E1(M_IM8)");
  ("IN", "E1(M_IOA)");
  ("OUT", "E1(M_IOA)");
  ("PI", "E1(M_ADDR)");
  ("JMP", "E1(M_ADDR)");
  ("DCI", "E1(M_ADDR)");
  ("NOP", "E0()");
  ("XDC", "E0()");
  ("DS", "E1(M_REG)");
  ("LR", "E2(M_A,M_REG)");
  ("LR", "E2(M_REG,M_A)");
  ("LISU", "E1(M_IM3)");
  ("LISL", "E1(M_IM3)");
  ("CLR", "E0()");
  ("LIS", "E1(M_IM4)");
  ("BP", "E1(M_REL)");
  ("BC", "E1(M_REL)");
  ("BZ", "E1(M_REL)");
  ("AM", "E0()");
  ("AMD", "E0()");
  ("NM", "E0()");
  ("OM", "E0()");
  ("XM", "E0()");
  ("CM", "E0()");
  ("ADC", "E0()");
  ("BR7", "E1(M_REL)");
  ("BT", "E2(M_IM3,M_REL)");
  ("BR", "E1(M_REL)");
  ("BM", "E1(M_REL)");
  ("BNC", "E1(M_REL)");
  ("BNZ", "E1(M_REL)");
  ("BNO", "E1(M_REL)");
  ("BF", "E2(M_IM4,M_REL)");
  ("INS", "E1(M_IOS)");
  ("OUTS", "E1(M_IOS)");
  ("AS", "E1(M_REG)");
  ("ASD", "E1(M_REG)");
  ("XS", "E1(M_REG)");
  ("NS", "E1(M_REG)")]
  [61; 36; 55; 56; 72; 73; 53; 69; 65; 66; 68; 67; 52; 64; 62; 63; 54; 37; 50; 60; 24; 42; 26; 45; 27; 38; 31; 70; 41; 32; 51; 49; 48; 22; 25; 0; 1; 2; 3; 4; 5; 6; 7; 8; 9; 10; 11; 13; 14; 15; 16; 17; 29; 30; 46; 47; 33; 57; 43; 75; 34; 58; 39; 71; 40; 12; 28; 19; 21; 18; 20; 23; 44; 35; 59; 74].

(* src/table_i8048.cpp:215-220 TABLE_I8048, 222-227 INDEX_I8048 *)
Definition t_i8048_TABLE_I8048 : insn_table := mkIT [
  ("INS", "E2(M_A,M_BUS)");
  ("OUTL", "E2(M_BUS,M_A)");
  ("ANL", "E2(M_BUS,M_BIT8)");
  ("ORL", "E2(M_BUS,M_BIT8)")]
  [2; 0; 3; 1].

(* src/table_i8048.cpp:33-122 TABLE_I8039, 124-213 INDEX_I8039 *)
Definition t_i8048_TABLE_I8039 : insn_table := mkIT [
  ("ADD", "E2(M_A,M_R)");
  ("ADD", "E2(M_A,M_IR)");
  ("ADD", "E2(M_A,M_IMM8)");
  ("ADDC", "E2(M_A,M_R)");
  ("ADDC", "E2(M_A,M_IR)");
  ("ADDC", "E2(M_A,M_IMM8)");
  ("ANL", "E2(M_A,M_R)");
  ("ANL", "E2(M_A,M_IR)");
  ("ANL", "E2(M_A,M_BIT8)");
  ("ORL", "E2(M_A,M_R)");
  ("ORL", "E2(M_A,M_IR)");
  ("ORL", "E2(M_A,M_BIT8)");
  ("XRL", "E2(M_A,M_R)");
  ("XRL", "E2(M_A,M_IR)");
  ("XRL", "E2(M_A,M_BIT8)");
  ("INC", "E1(M_A)");
  ("DEC", "E1(M_A)");
  ("CLR", "E1(M_A)");
  ("CPL", "E1(M_A)");
  ("DA", "E1(M_A)");
  ("SWAP", "E1(M_A)");
  ("RL", "E1(M_A)");
  ("RLC", "E1(M_A)");
  ("RR", "E1(M_A)");
  ("RRC", "E1(M_A)");
  ("IN", "E2(M_A,M_P12)");
  ("OUTL", "E2(M_P12,M_A)");
  ("ANL", "E2(M_P12,M_BIT8)");
  ("ORL", "E2(M_P12,M_BIT8)");
  ("MOVD", "E2(M_A,M_PEXT)");
  ("MOVD", "E2(M_PEXT,M_A)");
  ("ANLD", "E2(M_PEXT,M_A)");
  ("ORLD", "E2(M_PEXT,M_A)");
  ("INC", "E1(M_R)");
  ("INC", "E1(M_IR)");
  ("DEC", "E1(M_R)");
  ("JMP", "E1(M_AD11)");
  ("JMPP", "E1(M_IA)");
  ("DJNZ", "E2(M_R,M_AD08)");
  ("JC", "E1(M_AD08)");
  ("JNC", "E1(M_AD08)");
  ("JZ", "E1(M_AD08)");
  ("JNZ", "E1(M_AD08)");
  ("JT0", "E1(M_AD08)");
  ("JNT0", "E1(M_AD08)");
  ("JT1", "E1(M_AD08)");
  ("JNT1", "E1(M_AD08)");
  ("JF0", "E1(M_AD08)");
  ("JF1", "E1(M_AD08)");
  ("JTF", "E1(M_AD08)");
  ("JNI", "E1(M_AD08)");
  ("JB", "E2(M_BITN,M_AD08)");
  ("CALL", "E1(M_AD11)");
  ("RET", "E0()");
  ("RETR", "E0()");
  ("CLR", "E1(M_C)");
  ("CPL", "E1(M_C)");
  ("CLR", "E1(M_F)");
  ("CPL", "E1(M_F)");
  ("MOV", "E2(M_A,M_R)");
  ("MOV", "E2(M_A,M_IR)");
  ("MOV", "E2(M_A,M_IMM8)");
  ("MOV", "E2(M_R,M_A)");
  ("MOV", "E2(M_IR,M_A)");
  ("MOV", "E2(M_R,M_IMM8)");
  ("MOV", "E2(M_IR,M_IMM8)");
  ("MOV", "E2(M_A,M_PSW)");
  ("MOV", "E2(M_PSW,M_A)");
  ("XCH", "E2(M_A,M_R)");
  ("XCH", "E2(M_A,M_IR)");
  ("XCHD", "E2(M_A,M_IR)");
  ("MOVX", "E2(M_IR,M_A)");
  ("MOVX", "E2(M_A,M_IR)");
  ("MOVP", "E2(M_A,M_IA)");
  ("MOVP3", "E2(M_A,M_IA)");
  ("MOV", "E2(M_A,M_T)");
  ("MOV", "E2(M_T,M_A)");
  ("STRT", "E1(M_T)");
  ("STRT", "E1(M_CNT)");
  ("STOP", "E1(M_TCNT)");
  ("EN", "E1(M_TCNTI)");
  ("DIS", "E1(M_TCNTI)");
  ("EN", "E1(M_I)");
  ("DIS", "E1(M_I)");
  ("SEL", "E1(M_RB)");
  ("SEL", "E1(M_MB)");
  ("ENT0", "E1(M_CLK)");
  ("NOP", "E0()")]
  [0; 1; 2; 3; 4; 5; 6; 7; 8; 27; 31; 52; 17; 55; 57; 18; 56; 58; 19; 16; 35; 81; 83; 38; 80; 82; 86; 25; 15; 33; 34; 51; 39; 47; 48; 36; 37; 40; 50; 44; 46; 42; 43; 45; 49; 41; 59; 60; 61; 62; 63; 64; 65; 66; 67; 75; 76; 29; 30; 73; 74; 71; 72; 87; 9; 10; 11; 28; 32; 26; 53; 54; 21; 22; 23; 24; 84; 85; 79; 77; 78; 20; 68; 69; 70; 12; 13; 14].

(* src/table_i8048.cpp:229-231 TABLE_I80C39, 233-235 INDEX_I80C39 *)
Definition t_i8048_TABLE_I80C39 : insn_table := mkIT [
  ("HALT", "E0()")]
  [0].

(* src/table_i8048.cpp:237-248 TABLE_MSM80C39, 250-261 INDEX_MSM80C39 *)
Definition t_i8048_TABLE_MSM80C39 : insn_table := mkIT [
  ("MOV", "E2(M_A,M_P1)");
  ("MOV", "E2(M_A,M_P2)");
  ("DEC", "E1(M_IR)");
  ("DJNZ", "E2(M_IR,M_AD08)");
  ("MOVP1", "E2(M_P,M_IR3)");
  ("MOV", "E2(M_P1,M_IR3)");
  ("HLTS", "E0()");
  ("FLT", "E0()");
  ("FLTT", "E0()");
  ("FRES", "E0()")]
  [2; 3; 7; 8; 9; 6; 0; 1; 5; 4].

(* src/table_i8051.cpp:34-146 TABLE_I8051, 148-260 INDEX_I8051 *)
Definition t_i8051_TABLE_I8051 : insn_table := mkIT [
  ("NOP", "E0()");
  ("AJMP", "E1(M_ADR11)");
  ("LJMP", "E1(M_ADR16)");
  ("RR", "E1(M_AREG)");
  ("INC", "E1(M_AREG)");
  ("INC", "E1(M_ADR8)");
  ("INC", "E1(M_IDIRR)");
  ("INC", "E1(M_RREG)");
  ("JBC", "E2(M_BITAD,M_REL)");
  ("ACALL", "E1(M_ADR11)");
  ("LCALL", "E1(M_ADR16)");
  ("RRC", "E1(M_AREG)");
  ("DEC", "E1(M_AREG)");
  ("DEC", "E1(M_ADR8)");
  ("DEC", "E1(M_IDIRR)");
  ("DEC", "E1(M_RREG)");
  ("JB", "E2(M_BITAD,M_REL)");
  ("RET", "E0()");
  ("RL", "E1(M_AREG)");
  ("ADD", "E2(M_AREG,M_IMM8)");
  ("ADD", "E2(M_AREG,M_ADR8)");
  ("ADD", "E2(M_AREG,M_IDIRR)");
  ("ADD", "E2(M_AREG,M_RREG)");
  ("JNB", "E2(M_BITAD,M_REL)");
  ("RETI", "E0()");
  ("RLC", "E1(M_AREG)");
  ("ADDC", "E2(M_AREG,M_IMM8)");
  ("ADDC", "E2(M_AREG,M_ADR8)");
  ("ADDC", "E2(M_AREG,M_IDIRR)");
  ("ADDC", "E2(M_AREG,M_RREG)");
  ("JC", "E1(M_REL)");
  ("ORL", "E2(M_ADR8,M_AREG)");
  ("ORL", "E2(M_ADR8,M_IMM8)");
  ("ORL", "E2(M_AREG,M_IMM8)");
  ("ORL", "E2(M_AREG,M_ADR8)");
  ("ORL", "E2(M_AREG,M_IDIRR)");
  ("ORL", "E2(M_AREG,M_RREG)");
  ("JNC", "E1(M_REL)");
  ("ANL", "E2(M_ADR8,M_AREG)");
  ("ANL", "E2(M_ADR8,M_IMM8)");
  ("ANL", "E2(M_AREG,M_IMM8)");
  ("ANL", "E2(M_AREG,M_ADR8)");
  ("ANL", "E2(M_AREG,M_IDIRR)");
  ("ANL", "E2(M_AREG,M_RREG)");
  ("JZ", "E1(M_REL)");
  ("XRL", "E2(M_ADR8,M_AREG)");
  ("XRL", "E2(M_ADR8,M_IMM8)");
  ("XRL", "E2(M_AREG,M_IMM8)");
  ("XRL", "E2(M_AREG,M_ADR8)");
  ("XRL", "E2(M_AREG,M_IDIRR)");
  ("XRL", "E2(M_AREG,M_RREG)");
  ("JNZ", "E1(M_REL)");
  ("ORL", "E2(M_CREG,M_BITAD)");
  ("JMP", "E1(M_INDXD)");
  ("MOV", "E2(M_AREG,M_IMM8)");
  ("MOV", "E2(M_ADR8,M_IMM8)");
  ("MOV", "E2(M_IDIRR,M_IMM8)");
  ("MOV", "E2(M_RREG,M_IMM8)");
  ("SJMP", "E1(M_REL)");
  ("ANL", "E2(M_CREG,M_BITAD)");
  ("MOVC", "E2(M_AREG,M_INDXP)");
  ("DIV", "E1(M_ABREG)");
  ("MOV", "E2(M_ADR8,M_ADR8)");
  ("MOV", "E2(M_ADR8,M_IDIRR)");
  ("MOV", "E2(M_ADR8,M_RREG)");
  ("MOV", "E2(M_DREG,M_IMM16)");
  ("MOV", "E2(M_BITAD,M_CREG)");
  ("MOVC", "E2(M_AREG,M_INDXD)");
  ("SUBB", "E2(M_AREG,M_IMM8)");
  ("SUBB", "E2(M_AREG,M_ADR8)");
  ("SUBB", "E2(M_AREG,M_IDIRR)");
  ("SUBB", "E2(M_AREG,M_RREG)");
  ("ORL", "E2(M_CREG,M_NOTAD)");
  ("MOV", "E2(M_CREG,M_BITAD)");
  ("INC", "E1(M_DREG)");
  ("MUL", "E1(M_ABREG)");
  ("MOV", "E2(M_IDIRR,M_ADR8)");
  ("MOV", "E2(M_RREG,M_ADR8)");
  ("ANL", "E2(M_CREG,M_NOTAD)");
  ("CPL", "E1(M_BITAD)");
  ("CPL", "E1(M_CREG)");
  ("CJNE", "E3(M_AREG,M_IMM8,M_REL)");
  ("CJNE", "E3(M_AREG,M_ADR8,M_REL)");
  ("CJNE", "E3(M_IDIRR,M_IMM8,M_REL)");
  ("CJNE", "E3(M_RREG,M_IMM8,M_REL)");
  ("PUSH", "E1(M_ADR8)");
  ("CLR", "E1(M_BITAD)");
  ("CLR", "E1(M_CREG)");
  ("SWAP", "E1(M_AREG)");
  ("XCH", "E2(M_AREG,M_ADR8)");
  ("XCH", "E2(M_AREG,M_IDIRR)");
  ("XCH", "E2(M_AREG,M_RREG)");
  ("POP", "E1(M_ADR8)");
  ("SETB", "E1(M_BITAD)");
  ("SETB", "E1(M_CREG)");
  ("DA", "E1(M_AREG)");
  ("DJNZ", "E2(M_ADR8,M_REL)");
  ("XCHD", "E2(M_AREG,M_IDIRR)");
  ("DJNZ", "E2(M_RREG,M_REL)");
  ("MOVX", "E2(M_AREG,M_IDIRD)");
  ("MOVX", "E2(M_AREG,M_IDIRR)");
  ("CLR", "E1(M_AREG)");
  ("MOV", "E2(M_AREG,M_ADR8)");
  ("MOV", "E2(M_AREG,M_IDIRR)");
  ("MOV", "E2(M_AREG,M_RREG)");
  ("MOVX", "E2(M_IDIRD,M_AREG)");
  ("MOVX", "E2(M_IDIRR,M_AREG)");
  ("CPL", "E1(M_AREG)");
  ("MOV", "E2(M_ADR8,M_AREG)");
  ("MOV", "E2(M_IDIRR,M_AREG)");
  ("MOV", "E2(M_RREG,M_AREG)")]
  [9; 19; 20; 21; 22; 26; 27; 28; 29; 1; 38; 39; 40; 41; 42; 43; 59; 78; 81; 82; 83; 84; 86; 87; 101; 79; 80; 107; 95; 12; 13; 14; 15; 61; 96; 98; 4; 5; 6; 7; 74; 16; 8; 30; 53; 23; 37; 51; 44; 10; 2; 54; 55; 56; 57; 62; 63; 64; 65; 66; 73; 76; 77; 102; 103; 104; 108; 109; 110; 60; 67; 99; 100; 105; 106; 75; 0; 31; 32; 33; 34; 35; 36; 52; 72; 92; 85; 17; 24; 18; 25; 3; 11; 93; 94; 58; 68; 69; 70; 71; 88; 89; 90; 91; 97; 45; 46; 47; 48; 49; 50].

(* src/table_i8080.cpp:35-114 TABLE_I8080, 116-195 INDEX_I8080 *)
Definition t_i8080_TABLE_I8080 : insn_table := mkIT [
  ("NOP", "E0()");
  ("LXI", "E2(M_PTR,M_IM16)");
  ("DAD", "E1(M_PTR)");
  ("STAX", "E1(M_IDX)");
  ("SHLD", "E1(M_ABS)");
  ("STA", "E1(M_ABS)");
  ("LDAX", "E1(M_IDX)");
  ("LHLD", "E1(M_ABS)");
  ("LDA", "E1(M_ABS)");
  ("INX", "E1(M_PTR)");
  ("DCX", "E1(M_PTR)");
  ("INR", "E1(M_DST)");
  ("DCR", "E1(M_DST)");
  ("MVI", "E2(M_DST,M_IM8)");
  ("RLC", "E0()");
  ("RRC", "E0()");
  ("RAL", "E0()");
  ("RAR", "E0()");
  ("DAA", "E0()");
  ("CMA", "E0()");
  ("STC", "E0()");
  ("CMC", "E0()");
  ("HLT", "E0()");
  ("MOV", "E2(M_DST,M_SRC)");
  ("ADD", "E1(M_SRC)");
  ("ADC", "E1(M_SRC)");
  ("SUB", "E1(M_SRC)");
  ("SBB", "E1(M_SRC)");
  ("ANA", "E1(M_SRC)");
  ("XRA", "E1(M_SRC)");
  ("ORA", "E1(M_SRC)");
  ("CMP", "E1(M_SRC)");
  ("RNZ", "E0()");
  ("RZ", "E0()");
  ("RNC", "E0()");
  ("RC", "E0()");
  ("RPO", "E0()");
  ("RPE", "E0()");
  ("RP", "E0()");
  ("RM", "E0()");
  ("POP", "E1(M_STK)");
  ("RET", "E0()");
  ("PCHL", "E0()");
  ("SPHL", "E0()");
  ("JNZ", "E1(M_ABS)");
  ("JZ", "E1(M_ABS)");
  ("JNC", "E1(M_ABS)");
  ("JC", "E1(M_ABS)");
  ("JPO", "E1(M_ABS)");
  ("JPE", "E1(M_ABS)");
  ("JP", "E1(M_ABS)");
  ("JM", "E1(M_ABS)");
  ("JMP", "E1(M_ABS)");
  ("OUT", "E1(M_IOA)");
  ("IN", "E1(M_IOA)");
  ("XTHL", "E0()");
  ("XCHG", "E0()");
  ("DI", "E0()");
  ("EI", "E0()");
  ("CNZ", "E1(M_ABS)");
  ("CZ", "E1(M_ABS)");
  ("CNC", "E1(M_ABS)");
  ("CC", "E1(M_ABS)");
  ("CPO", "E1(M_ABS)");
  ("CPE", "E1(M_ABS)");
  ("CP", "E1(M_ABS)");
  ("CM", "E1(M_ABS)");
  ("PUSH", "E1(M_STK)");
  ("CALL", "E1(M_ABS)");
  ("ADI", "E1(M_IM8)");
  ("ACI", "E1(M_IM8)");
  ("SUI", "E1(M_IM8)");
  ("SBI", "E1(M_IM8)");
  ("ANI", "E1(M_IM8)");
  ("XRI", "E1(M_IM8)");
  ("ORI", "E1(M_IM8)");
  ("CPI", "E1(M_IM8)");
  ("RST", "E1(M_VEC)")]
  [70; 25; 24; 69; 28; 73; 68; 62; 66; 19; 21; 31; 61; 59; 65; 64; 76; 63; 60; 18; 2; 12; 10; 57; 58; 22; 54; 11; 9; 47; 51; 52; 46; 44; 50; 49; 48; 45; 8; 6; 7; 1; 23; 13; 0; 30; 75; 53; 42; 40; 67; 16; 17; 35; 41; 14; 39; 34; 32; 38; 37; 36; 15; 77; 33; 27; 72; 4; 43; 5; 3; 20; 26; 71; 56; 29; 74; 55].

(* src/table_i8080.cpp:197-268 TABLE_Z8080, 270-341 INDEX_Z8080 *)
Definition t_i8080_TABLE_Z8080 : insn_table := mkIT [
  ("NOP", "E0()");
  ("LD", "E2(M_PTR,M_IM16)");
  ("ADD", "E2(R_HL,M_PTR)");
  ("LD", "E2(M_IDX,R_A)");
  ("LD", "E2(R_A,M_IDX)");
  ("LD", "E2(M_ABS,R_HL)");
  ("LD", "E2(R_HL,M_ABS)");
  ("LD", "E2(M_ABS,R_A)");
  ("LD", "E2(R_A,M_ABS)");
  ("INC", "E1(M_PTR)");
  ("DEC", "E1(M_PTR)");
  ("INC", "E1(M_DST)");
  ("DEC", "E1(M_DST)");
  ("LD", "E2(M_DST,M_IM8)");
  ("RLCA", "E0()");
  ("RRCA", "E0()");
  ("RLA", "E0()");
  ("RRA", "E0()");
  ("DAA", "E0()");
  ("CPL", "E0()");
  ("SCF", "E0()");
  ("CCF", "E0()");
  ("HALT", "E0()");
  ("LD", "U2(I_HL,I_HL)");
  ("LD", "E2(M_DST,M_SRC)");
  ("ADD", "E2(R_A,M_SRC)");
  ("ADC", "E2(R_A,M_SRC)");
  ("SUB", "E2(R_A,M_SRC)");
  ("SUB", "E1(M_SRC)");
  ("SBC", "E2(R_A,M_SRC)");
  ("AND", "E2(R_A,M_SRC)");
  ("AND", "E1(M_SRC)");
  ("XOR", "E2(R_A,M_SRC)");
  ("XOR", "E1(M_SRC)");
  ("OR", "E2(R_A,M_SRC)");
  ("OR", "E1(M_SRC)");
  ("CP", "E2(R_A,M_SRC)");
  ("CP", "E1(M_SRC)");
  ("RET", "E1(M_CC)");
  ("POP", "E1(M_STK)");
  ("RET", "E0()");
  ("LD", "E2(R_SP,R_HL)");
  ("JP", "E2(M_CC,M_IM16)");
  ("JP", "E1(M_IM16)");
  ("JP", "E1(I_HL)");
  ("OUT", "E2(M_IOA,R_A)");
  ("IN", "E2(R_A,M_IOA)");
  ("EX", "E2(I_SP,R_HL)");
  ("EX", "E2(R_HL,I_SP)");
  ("EX", "E2(R_DE,R_HL)");
  ("EX", "E2(R_HL,R_DE)");
  ("DI", "E0()");
  ("EI", "E0()");
  ("CALL", "E2(M_CC,M_IM16)");
  ("PUSH", "E1(M_STK)");
  ("CALL", "E1(M_IM16)");
  ("ADD", "E2(R_A,M_IM8)");
  ("ADC", "E2(R_A,M_IM8)");
  ("SUB", "E2(R_A,M_IM8)");
  ("SUB", "E1(M_IM8)");
  ("SBC", "E2(R_A,M_IM8)");
  ("AND", "E2(R_A,M_IM8)");
  ("AND", "E1(M_IM8)");
  ("XOR", "E2(R_A,M_IM8)");
  ("XOR", "E1(M_IM8)");
  ("OR", "E2(R_A,M_IM8)");
  ("OR", "E1(M_IM8)");
  ("CP", "E2(R_A,M_IM8)");
  ("CP", "E1(M_IM8)");
  ("RST", "E1(M_VEC)")]
  [26; 57; 2; 25; 56; 30; 31; 61; 62; 53; 55; 21; 36; 37; 67; 68; 19; 18; 10; 12; 51; 52; 47; 48; 49; 50; 22; 46; 9; 11; 42; 43; 44; 1; 3; 4; 5; 6; 7; 8; 13; 23; 24; 41; 0; 34; 35; 65; 66; 45; 39; 54; 38; 40; 16; 14; 17; 15; 69; 29; 60; 20; 27; 28; 58; 59; 32; 33; 63; 64].

(* src/table_i8080.cpp:343-346 TABLE_I8085, 348-351 INDEX_I8085 *)
Definition t_i8080_TABLE_I8085 : insn_table := mkIT [
  ("RIM", "E0()");
  ("SIM", "E0()")]
  [0; 1].

(* src/table_i8080.cpp:353-356 TABLE_Z8085, 358-361 INDEX_Z8085 *)
Definition t_i8080_TABLE_Z8085 : insn_table := mkIT [
  ("LD", "E2(R_A,R_IM)");
  ("LD", "E2(R_IM,R_A)")]
  [0; 1].

(* src/table_i8080.cpp:363-366 TABLE_V30EMU, 368-371 INDEX_V30EMU *)
Definition t_i8080_TABLE_V30EMU : insn_table := mkIT [
  ("CALLN", "E1(M_IM8)");
  ("RETEM", "E0()")]
  [0; 1].

(* src/table_i8086.cpp:45-252 TABLE_00, 254-461 INDEX_00 *)
Definition t_i8086_TABLE_00 : insn_table := mkIT [
  ("MOV", "E2(SZ_BYTE,M_AL,M_BDIR,P_NONE,P_OPR)");
  ("MOV", "E2(SZ_WORD,M_AX,M_WDIR,P_NONE,P_OPR)");
  ("MOV", "E2(SZ_BYTE,M_BDIR,M_AL,P_OPR,P_NONE)");
  ("MOV", "E2(SZ_WORD,M_WDIR,M_AX,P_OPR,P_NONE)");
  ("NOP", "E0(SZ_NONE)");
  ("XCHG", "E2(SZ_WORD,M_AX,M_WREG,P_NONE,P_OREG)");
  ("XCHG", "E2(SZ_WORD,M_WREG,M_AX,P_OREG,P_NONE)");
  ("ADD", "E2(SZ_BYTE,M_AL,M_IMM,P_NONE,P_OPR)");
  ("ADD", "E2(SZ_WORD,M_AX,M_IMM,P_NONE,P_OPR)");
  ("OR", "E2(SZ_BYTE,M_AL,M_IMM,P_NONE,P_OPR)");
  ("OR", "E2(SZ_WORD,M_AX,M_IMM,P_NONE,P_OPR)");
  ("ADD", "E2(SZ_BYTE,M_BREG,M_BMOD,P_REG,P_MOD)");
  ("ADD", "E2(SZ_BYTE,M_BMOD,M_BREG,P_MOD,P_REG)");
  ("ADD", "E2(SZ_WORD,M_WREG,M_WMOD,P_REG,P_MOD)");
  ("ADD", "E2(SZ_WORD,M_WMOD,M_WREG,P_MOD,P_REG)");
  ("PUSH", "E1(SZ_WORD,M_SREG,P_OSEG)");
  ("POP", "E1(SZ_WORD,M_CS,P_NONE)");
  ("POP", "E1(SZ_WORD,M_SREG,P_OSEG)");
  ("OR", "E2(SZ_BYTE,M_BREG,M_BMOD,P_REG,P_MOD)");
  ("OR", "E2(SZ_BYTE,M_BMOD,M_BREG,P_MOD,P_REG)");
  ("OR", "E2(SZ_WORD,M_WREG,M_WMOD,P_REG,P_MOD)");
  ("OR", "E2(SZ_WORD,M_WMOD,M_WREG,P_MOD,P_REG)");
  ("ADC", "E2(SZ_BYTE,M_BREG,M_BMOD,P_REG,P_MOD)");
  ("ADC", "E2(SZ_BYTE,M_BMOD,M_BREG,P_MOD,P_REG)");
  ("ADC", "E2(SZ_WORD,M_WREG,M_WMOD,P_REG,P_MOD)");
  ("ADC", "E2(SZ_WORD,M_WMOD,M_WREG,P_MOD,P_REG)");
  ("ADC", "E2(SZ_BYTE,M_AL,M_IMM,P_NONE,P_OPR)");
  ("ADC", "E2(SZ_WORD,M_AX,M_IMM,P_NONE,P_OPR)");
  ("SBB", "E2(SZ_BYTE,M_BREG,M_BMOD,P_REG,P_MOD)");
  ("SBB", "E2(SZ_BYTE,M_BMOD,M_BREG,P_MOD,P_REG)");
  ("SBB", "E2(SZ_WORD,M_WREG,M_WMOD,P_REG,P_MOD)");
  ("SBB", "E2(SZ_WORD,M_WMOD,M_WREG,P_MOD,P_REG)");
  ("SBB", "E2(SZ_BYTE,M_AL,M_IMM,P_NONE,P_OPR)");
  ("SBB", "E2(SZ_WORD,M_AX,M_IMM,P_NONE,P_OPR)");
  ("AND", "E2(SZ_BYTE,M_BREG,M_BMOD,P_REG,P_MOD)");
  ("AND", "E2(SZ_BYTE,M_BMOD,M_BREG,P_MOD,P_REG)");
  ("AND", "E2(SZ_WORD,M_WREG,M_WMOD,P_REG,P_MOD)");
  ("AND", "E2(SZ_WORD,M_WMOD,M_WREG,P_MOD,P_REG)");
  ("AND", "E2(SZ_BYTE,M_AL,M_IMM,P_NONE,P_OPR)");
  ("AND", "E2(SZ_WORD,M_AX,M_IMM,P_NONE,P_OPR)");
  ("SEGES", "E0(SZ_BYTE)");
  ("DAA", "E0(SZ_BYTE)");
  ("SUB", "E2(SZ_BYTE,M_BREG,M_BMOD,P_REG,P_MOD)");
  ("SUB", "E2(SZ_BYTE,M_BMOD,M_BREG,P_MOD,P_REG)");
  ("SUB", "E2(SZ_WORD,M_WREG,M_WMOD,P_REG,P_MOD)");
  ("SUB", "E2(SZ_WORD,M_WMOD,M_WREG,P_MOD,P_REG)");
  ("SUB", "E2(SZ_BYTE,M_AL,M_IMM,P_NONE,P_OPR)");
  ("SUB", "E2(SZ_WORD,M_AX,M_IMM,P_NONE,P_OPR)");
  ("SEGCS", "E0(SZ_BYTE)");
  ("DAS", "E0(SZ_BYTE)");
  ("XOR", "E2(SZ_BYTE,M_BREG,M_BMOD,P_REG,P_MOD)");
  ("XOR", "E2(SZ_BYTE,M_BMOD,M_BREG,P_MOD,P_REG)");
  ("XOR", "E2(SZ_WORD,M_WREG,M_WMOD,P_REG,P_MOD)");
  ("XOR", "E2(SZ_WORD,M_WMOD,M_WREG,P_MOD,P_REG)");
  ("XOR", "E2(SZ_BYTE,M_AL,M_IMM,P_NONE,P_OPR)");
  ("XOR", "E2(SZ_WORD,M_AX,M_IMM,P_NONE,P_OPR)");
  ("SEGSS", "E0(SZ_BYTE)");
  ("AAA", "E0(SZ_BYTE)");
  ("CMP", "E2(SZ_BYTE,M_BREG,M_BMOD,P_REG,P_MOD)");
  ("CMP", "E2(SZ_BYTE,M_BMOD,M_BREG,P_MOD,P_REG)");
  ("CMP", "E2(SZ_WORD,M_WREG,M_WMOD,P_REG,P_MOD)");
  ("CMP", "E2(SZ_WORD,M_WMOD,M_WREG,P_MOD,P_REG)");
  ("CMP", "E2(SZ_BYTE,M_AL,M_IMM,P_NONE,P_OPR)");
  ("CMP", "E2(SZ_WORD,M_AX,M_IMM,P_NONE,P_OPR)");
  ("SEGDS", "E0(SZ_BYTE)");
  ("AAS", "E0(SZ_BYTE)");
  ("INC", "E1(SZ_WORD,M_WREG,P_OREG)");
  ("DEC", "E1(SZ_WORD,M_WREG,P_OREG)");
  ("PUSH", "E1(SZ_WORD,M_WREG,P_OREG)");
  ("POP", "E1(SZ_WORD,M_WREG,P_OREG)");
  ("JO", "E1(SZ_NONE,M_REL8,P_OPR)");
  ("JNO", "E1(SZ_NONE,M_REL8,P_OPR)");
  ("JB", "E1(SZ_NONE,M_REL8,P_OPR)");
  ("JC", "E1(SZ_NONE,M_REL8,P_OPR)");
  ("JNAE", "E1(SZ_NONE,M_REL8,P_OPR)");
  ("JAE", "E1(SZ_NONE,M_REL8,P_OPR)");
  ("JNB", "E1(SZ_NONE,M_REL8,P_OPR)");
  ("JNC", "E1(SZ_NONE,M_REL8,P_OPR)");
  ("JE", "E1(SZ_NONE,M_REL8,P_OPR)");
  ("JZ", "E1(SZ_NONE,M_REL8,P_OPR)");
  ("JNE", "E1(SZ_NONE,M_REL8,P_OPR)");
  ("JNZ", "E1(SZ_NONE,M_REL8,P_OPR)");
  ("JBE", "E1(SZ_NONE,M_REL8,P_OPR)");
  ("JNA", "E1(SZ_NONE,M_REL8,P_OPR)");
  ("JA", "E1(SZ_NONE,M_REL8,P_OPR)");
  ("JNBE", "E1(SZ_NONE,M_REL8,P_OPR)");
  ("JS", "E1(SZ_NONE,M_REL8,P_OPR)");
  ("JNS", "E1(SZ_NONE,M_REL8,P_OPR)");
  ("JPE", "E1(SZ_NONE,M_REL8,P_OPR)");
  ("JP", "E1(SZ_NONE,M_REL8,P_OPR)");
  ("JPO", "E1(SZ_NONE,M_REL8,P_OPR)");
  ("JNP", "E1(SZ_NONE,M_REL8,P_OPR)");
  ("JL", "E1(SZ_NONE,M_REL8,P_OPR)");
  ("JNGE", "E1(SZ_NONE,M_REL8,P_OPR)");
  ("JGE", "E1(SZ_NONE,M_REL8,P_OPR)");
  ("JNL", "E1(SZ_NONE,M_REL8,P_OPR)");
  ("JLE", "E1(SZ_NONE,M_REL8,P_OPR)");
  ("JNG", "E1(SZ_NONE,M_REL8,P_OPR)");
  ("JG", "E1(SZ_NONE,M_REL8,P_OPR)");
  ("JNLE", "E1(SZ_NONE,M_REL8,P_OPR)");
  ("TEST", "E2(SZ_BYTE,M_BREG,M_BMOD,P_REG,P_MOD)");
  ("TEST", "E2(SZ_BYTE,M_BMOD,M_BREG,P_MOD,P_REG)");
  ("TEST", "E2(SZ_WORD,M_WREG,M_WMOD,P_REG,P_MOD)");
  ("TEST", "E2(SZ_WORD,M_WMOD,M_WREG,P_MOD,P_REG)");
  ("XCHG", "E2(SZ_BYTE,M_BREG,M_BMOD,P_REG,P_MOD)");
  ("XCHG", "E2(SZ_BYTE,M_BMOD,M_BREG,P_MOD,P_REG)");
  ("XCHG", "E2(SZ_WORD,M_WREG,M_WMOD,P_REG,P_MOD)");
  ("XCHG", "E2(SZ_WORD,M_WMOD,M_WREG,P_MOD,P_REG)");
  ("MOV", "E2(SZ_BYTE,M_BREG,M_BMOD,P_REG,P_MOD)");
  ("MOV", "E2(SZ_BYTE,M_BMOD,M_BREG,P_MOD,P_REG)");
  ("MOV", "E2(SZ_WORD,M_WREG,M_WMOD,P_REG,P_MOD)");
  ("MOV", "E2(SZ_WORD,M_WMOD,M_WREG,P_MOD,P_REG)");
  ("MOV", "E2(SZ_WORD,M_WMOD,M_SREG,P_MOD,P_REG)");
  ("LEA", "E2(SZ_WORD,M_WREG,M_BMEM,P_REG,P_MOD)");
  ("LEA", "E2(SZ_WORD,M_WREG,M_WMEM,P_REG,P_MOD)");
  ("MOV", "E2(SZ_WORD,M_SREG,M_WMOD,P_REG,P_MOD)");
  ("CBW", "E0(SZ_BYTE)");
  ("CWD", "E0(SZ_WORD)");
  ("CALLF", "E1(SZ_NONE,M_FAR,P_OPR)");
  ("WAIT", "E0(SZ_NONE)");
  ("PUSHF", "E0(SZ_WORD)");
  ("POPF", "E0(SZ_WORD)");
  ("SAHF", "E0(SZ_BYTE)");
  ("LAHF", "E0(SZ_BYTE)");
  ("MOVSB", "S0(SZ_BYTE)");
  ("MOVSW", "S0(SZ_WORD)");
  ("MOVSB", "S2(SZ_BYTE,M_BMEM,M_BMEM)");
  ("MOVSW", "S2(SZ_WORD,M_WMEM,M_WMEM)");
  ("MOVS", "S2(SZ_BYTE,M_BMEM,M_BMEM)");
  ("MOVS", "S2(SZ_WORD,M_WMEM,M_WMEM)");
  ("CMPSB", "S0(SZ_BYTE)");
  ("CMPSW", "S0(SZ_WORD)");
  ("CMPSB", "S2(SZ_BYTE,M_BMEM,M_BMEM)");
  ("CMPSW", "S2(SZ_WORD,M_WMEM,M_WMEM)");
  ("CMPS", "S2(SZ_BYTE,M_BMEM,M_BMEM)");
  ("CMPS", "S2(SZ_WORD,M_WMEM,M_WMEM)");
  ("TEST", "E2(SZ_BYTE,M_AL,M_IMM,P_NONE,P_OPR)");
  ("TEST", "E2(SZ_WORD,M_AX,M_IMM,P_NONE,P_OPR)");
  ("STOSB", "S0(SZ_BYTE)");
  ("STOSW", "S0(SZ_WORD)");
  ("STOSB", "S1(SZ_NONE,M_BMEM)");
  ("STOSW", "S1(SZ_NONE,M_WMEM)");
  ("STOS", "S1(SZ_BYTE,M_BMEM)");
  ("STOS", "S1(SZ_WORD,M_WMEM)");
  ("LODSB", "S0(SZ_BYTE)");
  ("LODSW", "S0(SZ_WORD)");
  ("LODSB", "S1(SZ_NONE,M_BMEM)");
  ("LODSW", "S1(SZ_NONE,M_WMEM)");
  ("LODS", "S1(SZ_BYTE,M_BMEM)");
  ("LODS", "S1(SZ_WORD,M_WMEM)");
  ("SCASB", "S0(SZ_BYTE)");
  ("SCASW", "S0(SZ_WORD)");
  ("SCASB", "S1(SZ_NONE,M_BMEM)");
  ("SCASW", "S1(SZ_NONE,M_WMEM)");
  ("SCAS", "S1(SZ_BYTE,M_BMEM)");
  ("SCAS", "S1(SZ_WORD,M_WMEM)");
  ("MOV", "E2(SZ_BYTE,M_BREG,M_IMM,P_OREG,P_OPR)");
  ("MOV", "E2(SZ_WORD,M_WREG,M_IMM,P_OREG,P_OPR)");
  ("RET", "E1(SZ_WORD,M_UI16,P_OPR)");
  ("RET", "E0(SZ_NONE)");
  ("LES", "E2(SZ_WORD,M_WREG,M_WMEM,P_REG,P_MOD)");
  ("LDS", "E2(SZ_WORD,M_WREG,M_WMEM,P_REG,P_MOD)");
  ("RETF", "E1(SZ_WORD,M_UI16,P_OPR)");
  ("RETF", "E0(SZ_NONE)");
  ("INT", "E1(SZ_NONE,M_VAL3,P_NONE)");
  ("INT", "E1(SZ_BYTE,M_IMM,P_OPR)");
  ("INTO", "E0(SZ_NONE)");
  ("IRET", "E0(SZ_NONE)");
  ("XLAT", "E0(SZ_NONE)");
  ("LOOPNE", "E1(SZ_NONE,M_REL8,P_OPR)");
  ("LOOPNZ", "E1(SZ_NONE,M_REL8,P_OPR)");
  ("LOOPE", "E1(SZ_NONE,M_REL8,P_OPR)");
  ("LOOPZ", "E1(SZ_NONE,M_REL8,P_OPR)");
  ("LOOP", "E1(SZ_NONE,M_REL8,P_OPR)");
  ("JCXZ", "E1(SZ_NONE,M_REL8,P_OPR)");
  ("IN", "E2(SZ_BYTE,M_AL,M_IOA,P_NONE,P_OPR)");
  ("IN", "E2(SZ_WORD,M_AX,M_IOA,P_NONE,P_OPR)");
  ("OUT", "E2(SZ_BYTE,M_IOA,M_AL,P_OPR,P_NONE)");
  ("OUT", "E2(SZ_WORD,M_IOA,M_AX,P_OPR,P_NONE)");
  ("CALL", "E1(SZ_NONE,M_REL,P_OPR)");
  ("JMP", "E1(SZ_NONE,M_REL8,P_OPR)");
  ("JMP", "E1(SZ_NONE,M_REL,P_OPR)");
  ("JMPF", "E1(SZ_NONE,M_FAR,P_OPR)");
  ("IN", "E2(SZ_BYTE,M_AL,M_DX,P_NONE,P_NONE)");
  ("IN", "E2(SZ_WORD,M_AX,M_DX,P_NONE,P_NONE)");
  ("OUT", "E2(SZ_BYTE,M_DX,M_AL,P_NONE,P_NONE)");
  ("OUT", "E2(SZ_WORD,M_DX,M_AX,P_NONE,P_NONE)");
  ("LOCK", "E0(SZ_NONE)");
  ("REPNE", "E1(SZ_NONE,M_ISTR,P_OPR)");
  ("REPNZ", "E1(SZ_NONE,M_ISTR,P_OPR)");
  ("REP", "E1(SZ_NONE,M_ISTR,P_OPR)");
  ("REPE", "E1(SZ_NONE,M_ISTR,P_OPR)");
  ("REPZ", "E1(SZ_NONE,M_ISTR,P_OPR)");
  ("REPNE", "E0(SZ_NONE)");
  ("REPNZ", "E0(SZ_NONE)");
  ("REP", "E0(SZ_NONE)");
  ("REPE", "E0(SZ_NONE)");
  ("REPZ", "E0(SZ_NONE)");
  ("HLT", "E0(SZ_NONE)");
  ("CMC", "E0(SZ_NONE)");
  ("CLC", "E0(SZ_NONE)");
  ("STC", "E0(SZ_NONE)");
  ("CLI", "E0(SZ_NONE)");
  ("STI", "E0(SZ_NONE)");
  ("CLD", "E0(SZ_NONE)");
  ("STD", "E0(SZ_NONE)")]
  [57; 65; 22; 23; 24; 25; 26; 27; 7; 8; 11; 12; 13; 14; 34; 35; 36; 37; 38; 39; 179; 118; 116; 200; 204; 202; 199; 58; 59; 60; 61; 62; 63; 134; 135; 130; 132; 131; 133; 117; 41; 49; 67; 198; 175; 176; 183; 184; 66; 164; 165; 166; 167; 84; 75; 72; 82; 73; 174; 78; 98; 94; 92; 96; 180; 181; 182; 83; 74; 76; 85; 77; 80; 97; 93; 95; 99; 71; 91; 87; 81; 70; 89; 88; 90; 86; 79; 123; 161; 113; 114; 160; 187; 148; 149; 144; 146; 145; 147; 173; 171; 169; 170; 172; 0; 1; 2; 3; 108; 109; 110; 111; 112; 115; 156; 157; 128; 129; 124; 126; 125; 127; 4; 9; 10; 18; 19; 20; 21; 177; 178; 185; 186; 16; 17; 69; 121; 15; 68; 120; 190; 195; 191; 196; 188; 193; 189; 194; 192; 197; 158; 159; 162; 163; 122; 28; 29; 30; 31; 32; 33; 154; 155; 150; 152; 151; 153; 48; 64; 40; 56; 201; 205; 203; 142; 143; 138; 140; 139; 141; 42; 43; 44; 45; 46; 47; 100; 101; 102; 103; 136; 137; 119; 5; 6; 104; 105; 106; 107; 168; 50; 51; 52; 53; 54; 55].

(* src/table_i8086.cpp:463-472 TABLE_80, 474-483 INDEX_8X *)
Definition t_i8086_TABLE_80 : insn_table := mkIT [
  ("ADD", "E2(SZ_BYTE,M_BMOD,M_IMM,P_OMOD,P_OPR)");
  ("OR", "E2(SZ_BYTE,M_BMOD,M_IMM,P_OMOD,P_OPR)");
  ("ADC", "E2(SZ_BYTE,M_BMOD,M_IMM,P_OMOD,P_OPR)");
  ("SBB", "E2(SZ_BYTE,M_BMOD,M_IMM,P_OMOD,P_OPR)");
  ("AND", "E2(SZ_BYTE,M_BMOD,M_IMM,P_OMOD,P_OPR)");
  ("SUB", "E2(SZ_BYTE,M_BMOD,M_IMM,P_OMOD,P_OPR)");
  ("XOR", "E2(SZ_BYTE,M_BMOD,M_IMM,P_OMOD,P_OPR)");
  ("CMP", "E2(SZ_BYTE,M_BMOD,M_IMM,P_OMOD,P_OPR)")]
  [2; 0; 4; 7; 1; 3; 5; 6].

(* src/table_i8086.cpp:496-505 TABLE_83, 474-483 INDEX_8X *)
Definition t_i8086_TABLE_83 : insn_table := mkIT [
  ("ADD", "E2(SZ_WORD,M_WMOD,M_IMM8,P_OMOD,P_OPR)");
  ("OR", "E2(SZ_WORD,M_WMOD,M_IMM8,P_OMOD,P_OPR)");
  ("ADC", "E2(SZ_WORD,M_WMOD,M_IMM8,P_OMOD,P_OPR)");
  ("SBB", "E2(SZ_WORD,M_WMOD,M_IMM8,P_OMOD,P_OPR)");
  ("AND", "E2(SZ_WORD,M_WMOD,M_IMM8,P_OMOD,P_OPR)");
  ("SUB", "E2(SZ_WORD,M_WMOD,M_IMM8,P_OMOD,P_OPR)");
  ("XOR", "E2(SZ_WORD,M_WMOD,M_IMM8,P_OMOD,P_OPR)");
  ("CMP", "E2(SZ_WORD,M_WMOD,M_IMM8,P_OMOD,P_OPR)")]
  [2; 0; 4; 7; 1; 3; 5; 6].

(* src/table_i8086.cpp:485-494 TABLE_81, 474-483 INDEX_8X *)
Definition t_i8086_TABLE_81 : insn_table := mkIT [
  ("ADD", "E2(SZ_WORD,M_WMOD,M_IMM,P_OMOD,P_OPR)");
  ("OR", "E2(SZ_WORD,M_WMOD,M_IMM,P_OMOD,P_OPR)");
  ("ADC", "E2(SZ_WORD,M_WMOD,M_IMM,P_OMOD,P_OPR)");
  ("SBB", "E2(SZ_WORD,M_WMOD,M_IMM,P_OMOD,P_OPR)");
  ("AND", "E2(SZ_WORD,M_WMOD,M_IMM,P_OMOD,P_OPR)");
  ("SUB", "E2(SZ_WORD,M_WMOD,M_IMM,P_OMOD,P_OPR)");
  ("XOR", "E2(SZ_WORD,M_WMOD,M_IMM,P_OMOD,P_OPR)");
  ("CMP", "E2(SZ_WORD,M_WMOD,M_IMM,P_OMOD,P_OPR)")]
  [2; 0; 4; 7; 1; 3; 5; 6].

(* src/table_i8086.cpp:507-509 TABLE_8F, 511-513 INDEX_8F *)
Definition t_i8086_TABLE_8F : insn_table := mkIT [
  ("POP", "E1(SZ_NONE,M_WMOD,P_OMOD)")]
  [0].

(* src/table_i8086.cpp:515-517 TABLE_C6, 519-521 INDEX_C6 *)
Definition t_i8086_TABLE_C6 : insn_table := mkIT [
  ("MOV", "E2(SZ_BYTE,M_BMOD,M_IMM,P_OMOD,P_OPR)")]
  [0].

(* src/table_i8086.cpp:523-525 TABLE_C7, 527-529 INDEX_C7 *)
Definition t_i8086_TABLE_C7 : insn_table := mkIT [
  ("MOV", "E2(SZ_WORD,M_WMOD,M_IMM,P_OMOD,P_OPR)")]
  [0].

(* src/table_i8086.cpp:531-540 TABLE_D0, 542-551 INDEX_DX *)
Definition t_i8086_TABLE_D0 : insn_table := mkIT [
  ("ROL", "E2(SZ_BYTE,M_BMOD,M_VAL1,P_OMOD,P_NONE)");
  ("ROR", "E2(SZ_BYTE,M_BMOD,M_VAL1,P_OMOD,P_NONE)");
  ("RCL", "E2(SZ_BYTE,M_BMOD,M_VAL1,P_OMOD,P_NONE)");
  ("RCR", "E2(SZ_BYTE,M_BMOD,M_VAL1,P_OMOD,P_NONE)");
  ("SHL", "E2(SZ_BYTE,M_BMOD,M_VAL1,P_OMOD,P_NONE)");
  ("SAL", "E2(SZ_BYTE,M_BMOD,M_VAL1,P_OMOD,P_NONE)");
  ("SHR", "E2(SZ_BYTE,M_BMOD,M_VAL1,P_OMOD,P_NONE)");
  ("SAR", "E2(SZ_BYTE,M_BMOD,M_VAL1,P_OMOD,P_NONE)")]
  [2; 3; 0; 1; 5; 7; 4; 6].

(* src/table_i8086.cpp:553-562 TABLE_D1, 542-551 INDEX_DX *)
Definition t_i8086_TABLE_D1 : insn_table := mkIT [
  ("ROL", "E2(SZ_WORD,M_WMOD,M_VAL1,P_OMOD,P_NONE)");
  ("ROR", "E2(SZ_WORD,M_WMOD,M_VAL1,P_OMOD,P_NONE)");
  ("RCL", "E2(SZ_WORD,M_WMOD,M_VAL1,P_OMOD,P_NONE)");
  ("RCR", "E2(SZ_WORD,M_WMOD,M_VAL1,P_OMOD,P_NONE)");
  ("SHL", "E2(SZ_WORD,M_WMOD,M_VAL1,P_OMOD,P_NONE)");
  ("SAL", "E2(SZ_WORD,M_WMOD,M_VAL1,P_OMOD,P_NONE)");
  ("SHR", "E2(SZ_WORD,M_WMOD,M_VAL1,P_OMOD,P_NONE)");
  ("SAR", "E2(SZ_WORD,M_WMOD,M_VAL1,P_OMOD,P_NONE)")]
  [2; 3; 0; 1; 5; 7; 4; 6].

(* src/table_i8086.cpp:564-573 TABLE_D2, 542-551 INDEX_DX *)
Definition t_i8086_TABLE_D2 : insn_table := mkIT [
  ("ROL", "E2(SZ_BYTE,M_BMOD,M_CL,P_OMOD,P_NONE)");
  ("ROR", "E2(SZ_BYTE,M_BMOD,M_CL,P_OMOD,P_NONE)");
  ("RCL", "E2(SZ_BYTE,M_BMOD,M_CL,P_OMOD,P_NONE)");
  ("RCR", "E2(SZ_BYTE,M_BMOD,M_CL,P_OMOD,P_NONE)");
  ("SHL", "E2(SZ_BYTE,M_BMOD,M_CL,P_OMOD,P_NONE)");
  ("SAL", "E2(SZ_BYTE,M_BMOD,M_CL,P_OMOD,P_NONE)");
  ("SHR", "E2(SZ_BYTE,M_BMOD,M_CL,P_OMOD,P_NONE)");
  ("SAR", "E2(SZ_BYTE,M_BMOD,M_CL,P_OMOD,P_NONE)")]
  [2; 3; 0; 1; 5; 7; 4; 6].

(* src/table_i8086.cpp:575-584 TABLE_D3, 542-551 INDEX_DX *)
Definition t_i8086_TABLE_D3 : insn_table := mkIT [
  ("ROL", "E2(SZ_WORD,M_WMOD,M_CL,P_OMOD,P_NONE)");
  ("ROR", "E2(SZ_WORD,M_WMOD,M_CL,P_OMOD,P_NONE)");
  ("RCL", "E2(SZ_WORD,M_WMOD,M_CL,P_OMOD,P_NONE)");
  ("RCR", "E2(SZ_WORD,M_WMOD,M_CL,P_OMOD,P_NONE)");
  ("SHL", "E2(SZ_WORD,M_WMOD,M_CL,P_OMOD,P_NONE)");
  ("SAL", "E2(SZ_WORD,M_WMOD,M_CL,P_OMOD,P_NONE)");
  ("SHR", "E2(SZ_WORD,M_WMOD,M_CL,P_OMOD,P_NONE)");
  ("SAR", "E2(SZ_WORD,M_WMOD,M_CL,P_OMOD,P_NONE)")]
  [2; 3; 0; 1; 5; 7; 4; 6].

(* src/table_i8086.cpp:586-588 TABLE_D4, 590-592 INDEX_D4 *)
Definition t_i8086_TABLE_D4 : insn_table := mkIT [
  ("AAM", "E0(SZ_BYTE)")]
  [0].

(* src/table_i8086.cpp:594-596 TABLE_D5, 598-600 INDEX_D5 *)
Definition t_i8086_TABLE_D5 : insn_table := mkIT [
  ("AAD", "E0(SZ_BYTE)")]
  [0].

(* src/table_i8086.cpp:602-610 TABLE_F6, 612-620 INDEX_FX *)
Definition t_i8086_TABLE_F6 : insn_table := mkIT [
  ("TEST", "E2(SZ_BYTE,M_BMOD,M_IMM,P_OMOD,P_OPR)");
  ("NOT", "E1(SZ_BYTE,M_BMOD,P_OMOD)");
  ("NEG", "E1(SZ_BYTE,M_BMOD,P_OMOD)");
  ("MUL", "E1(SZ_BYTE,M_BMOD,P_OMOD)");
  ("IMUL", "E1(SZ_BYTE,M_BMOD,P_OMOD)");
  ("DIV", "E1(SZ_BYTE,M_BMOD,P_OMOD)");
  ("IDIV", "E1(SZ_BYTE,M_BMOD,P_OMOD)")]
  [5; 6; 4; 3; 2; 1; 0].

(* src/table_i8086.cpp:622-630 TABLE_F7, 612-620 INDEX_FX *)
Definition t_i8086_TABLE_F7 : insn_table := mkIT [
  ("TEST", "E2(SZ_WORD,M_WMOD,M_IMM,P_OMOD,P_OPR)");
  ("NOT", "E1(SZ_WORD,M_WMOD,P_OMOD)");
  ("NEG", "E1(SZ_WORD,M_WMOD,P_OMOD)");
  ("MUL", "E1(SZ_WORD,M_WMOD,P_OMOD)");
  ("IMUL", "E1(SZ_WORD,M_WMOD,P_OMOD)");
  ("DIV", "E1(SZ_WORD,M_WMOD,P_OMOD)");
  ("IDIV", "E1(SZ_WORD,M_WMOD,P_OMOD)")]
  [5; 6; 4; 3; 2; 1; 0].

(* src/table_i8086.cpp:632-635 TABLE_FE, 637-640 INDEX_FE *)
Definition t_i8086_TABLE_FE : insn_table := mkIT [
  ("INC", "E1(SZ_BYTE,M_BMOD,P_OMOD)");
  ("DEC", "E1(SZ_BYTE,M_BMOD,P_OMOD)")]
  [1; 0].

(* src/table_i8086.cpp:642-650 TABLE_FF, 652-660 INDEX_FF *)
Definition t_i8086_TABLE_FF : insn_table := mkIT [
  ("INC", "E1(SZ_WORD,M_WMOD,P_OMOD)");
  ("DEC", "E1(SZ_WORD,M_WMOD,P_OMOD)");
  ("CALL", "E1(SZ_NONE,M_WMOD,P_OMOD)");
  ("CALLF", "E1(SZ_NONE,M_WMEM,P_OMOD)");
  ("JMP", "E1(SZ_NONE,M_WMOD,P_OMOD)");
  ("JMPF", "E1(SZ_NONE,M_WMEM,P_OMOD)");
  ("PUSH", "E1(SZ_NONE,M_WMOD,P_OMOD)")]
  [2; 3; 1; 0; 4; 5; 6].

(* src/table_i8086.cpp:664-688 TABLE_I80186, 690-714 INDEX_I80186 *)
Definition t_i8086_TABLE_I80186 : insn_table := mkIT [
  ("PUSHA", "E0(SZ_NONE)");
  ("POPA", "E0(SZ_NONE)");
  ("BOUND", "E2(SZ_WORD,M_WREG,M_WMEM,P_REG,P_MOD)");
  ("PUSH", "E1(SZ_BYTE,M_IMM8,P_OPR)");
  ("IMUL", "E3(SZ_WORD,M_WREG,M_WMOD,M_IMM8,P_REG,P_MOD,P_OPR)");
  ("IMUL", "E2(SZ_WORD,M_WREG,M_IMM8,P_MREG,P_OPR)");
  ("PUSH", "E1(SZ_WORD,M_IMM,P_OPR)");
  ("IMUL", "E3(SZ_WORD,M_WREG,M_WMOD,M_IMM,P_REG,P_MOD,P_OPR)");
  ("IMUL", "E2(SZ_WORD,M_WREG,M_IMM,P_MREG,P_OPR)");
  ("INSB", "S0(SZ_BYTE)");
  ("INSB", "S2(SZ_BYTE,M_MEM,M_DX)");
  ("INSW", "S0(SZ_WORD)");
  ("INSW", "S2(SZ_WORD,M_MEM,M_DX)");
  ("INS", "S2(SZ_BYTE,M_BMEM,M_DX)");
  ("INS", "S2(SZ_WORD,M_WMEM,M_DX)");
  ("OUTSB", "S0(SZ_BYTE)");
  ("OUTSB", "S2(SZ_BYTE,M_DX,M_BMEM)");
  ("OUTSW", "S0(SZ_WORD)");
  ("OUTSW", "S2(SZ_WORD,M_DX,M_WMEM)");
  ("OUTS", "S2(SZ_BYTE,M_DX,M_BMEM)");
  ("OUTS", "S2(SZ_WORD,M_DX,M_WMEM)");
  ("ENTER", "E2(SZ_NONE,M_UI16,M_UI8,P_OPR,P_OPR)");
  ("LEAVE", "E0(SZ_NONE)")]
  [2; 21; 4; 5; 7; 8; 13; 14; 9; 10; 11; 12; 22; 19; 20; 15; 16; 17; 18; 1; 3; 6; 0].

(* src/table_i8086.cpp:716-725 TABLE_C0, 727-736 INDEX_CX *)
Definition t_i8086_TABLE_C0 : insn_table := mkIT [
  ("ROL", "E2(SZ_BYTE,M_BMOD,M_BIT,P_OMOD,P_OPR)");
  ("ROR", "E2(SZ_BYTE,M_BMOD,M_BIT,P_OMOD,P_OPR)");
  ("RCL", "E2(SZ_BYTE,M_BMOD,M_BIT,P_OMOD,P_OPR)");
  ("RCR", "E2(SZ_BYTE,M_BMOD,M_BIT,P_OMOD,P_OPR)");
  ("SHL", "E2(SZ_BYTE,M_BMOD,M_BIT,P_OMOD,P_OPR)");
  ("SAL", "E2(SZ_BYTE,M_BMOD,M_BIT,P_OMOD,P_OPR)");
  ("SHR", "E2(SZ_BYTE,M_BMOD,M_BIT,P_OMOD,P_OPR)");
  ("SAR", "E2(SZ_BYTE,M_BMOD,M_BIT,P_OMOD,P_OPR)")]
  [2; 3; 0; 1; 5; 7; 4; 6].

(* src/table_i8086.cpp:738-747 TABLE_C1, 727-736 INDEX_CX *)
Definition t_i8086_TABLE_C1 : insn_table := mkIT [
  ("ROL", "E2(SZ_WORD,M_WMOD,M_BIT,P_OMOD,P_OPR)");
  ("ROR", "E2(SZ_WORD,M_WMOD,M_BIT,P_OMOD,P_OPR)");
  ("RCL", "E2(SZ_WORD,M_WMOD,M_BIT,P_OMOD,P_OPR)");
  ("RCR", "E2(SZ_WORD,M_WMOD,M_BIT,P_OMOD,P_OPR)");
  ("SHL", "E2(SZ_WORD,M_WMOD,M_BIT,P_OMOD,P_OPR)");
  ("SAL", "E2(SZ_WORD,M_WMOD,M_BIT,P_OMOD,P_OPR)");
  ("SHR", "E2(SZ_WORD,M_WMOD,M_BIT,P_OMOD,P_OPR)");
  ("SAR", "E2(SZ_WORD,M_WMOD,M_BIT,P_OMOD,P_OPR)")]
  [2; 3; 0; 1; 5; 7; 4; 6].

(* src/table_i8086.cpp:751-756 V30TABLE_00, 758-763 V30INDEX_00 *)
Definition t_i8086_V30TABLE_00 : insn_table := mkIT [
  ("REPNC", "E1(SZ_NONE,M_ISTR,P_OPR)");
  ("REPNC", "E0(SZ_NONE)");
  ("REPC", "E1(SZ_NONE,M_ISTR,P_OPR)");
  ("REPC", "E0(SZ_NONE)")]
  [2; 3; 0; 1].

(* src/table_i8086.cpp:765-791 V30TABLE_0F, 793-819 V30INDEX_0F *)
Definition t_i8086_V30TABLE_0F : insn_table := mkIT [
  ("BRKEM", "E1(SZ_BYTE,M_IMM,P_OPR)");
  ("ADD4S", "S0(SZ_BYTE)");
  ("ADD4S", "S2(SZ_BYTE,M_BMEM,M_BMEM)");
  ("CMP4S", "S0(SZ_BYTE)");
  ("CMP4S", "S2(SZ_BYTE,M_BMEM,M_BMEM)");
  ("SUB4S", "S0(SZ_BYTE)");
  ("SUB4S", "S2(SZ_BYTE,M_BMEM,M_BMEM)");
  ("ROL4", "E1(SZ_BYTE,M_BMOD,P_MOD)");
  ("ROR4", "E1(SZ_BYTE,M_BMOD,P_MOD)");
  ("INS", "E2(SZ_WORD,M_BREG,M_BREG,P_MOD,P_REG)");
  ("INS", "E2(SZ_WORD,M_BREG,M_BIT,P_MOD,P_OPR)");
  ("EXT", "E2(SZ_WORD,M_BREG,M_BREG,P_MOD,P_REG)");
  ("EXT", "E2(SZ_WORD,M_BREG,M_BIT,P_MOD,P_OPR)");
  ("CLR1", "E2(SZ_BYTE,M_BMOD,M_CL,P_MOD,P_NONE)");
  ("CLR1", "E2(SZ_WORD,M_WMOD,M_CL,P_MOD,P_NONE)");
  ("CLR1", "E2(SZ_BYTE,M_BMOD,M_BIT,P_MOD,P_OPR)");
  ("CLR1", "E2(SZ_WORD,M_WMOD,M_BIT,P_MOD,P_OPR)");
  ("SET1", "E2(SZ_BYTE,M_BMOD,M_CL,P_MOD,P_NONE)");
  ("SET1", "E2(SZ_WORD,M_WMOD,M_CL,P_MOD,P_NONE)");
  ("SET1", "E2(SZ_BYTE,M_BMOD,M_BIT,P_MOD,P_OPR)");
  ("SET1", "E2(SZ_WORD,M_WMOD,M_BIT,P_MOD,P_OPR)");
  ("NOT1", "E2(SZ_BYTE,M_BMOD,M_CL,P_MOD,P_NONE)");
  ("NOT1", "E2(SZ_WORD,M_WMOD,M_CL,P_MOD,P_NONE)");
  ("NOT1", "E2(SZ_BYTE,M_BMOD,M_BIT,P_MOD,P_OPR)");
  ("NOT1", "E2(SZ_WORD,M_WMOD,M_BIT,P_MOD,P_OPR)")]
  [1; 2; 0; 13; 14; 15; 16; 3; 4; 11; 12; 9; 10; 21; 22; 23; 24; 7; 8; 17; 18; 19; 20; 5; 6].

(* src/table_i8086.cpp:1092-1094 TABLE_FPU, 1096-1098 INDEX_FPU *)
Definition t_i8086_TABLE_FPU : insn_table := mkIT [
  ("FWAIT", "E0(SZ_NONE)")]
  [0].

(* src/table_i8086.cpp:822-839 TABLE_D8, 841-858 INDEX_D8 *)
Definition t_i8086_TABLE_D8 : insn_table := mkIT [
  ("FADD", "F2(SZ_NONE,M_ST0,M_STI,P_NONE,P_OREG)");
  ("FMUL", "F2(SZ_NONE,M_ST0,M_STI,P_NONE,P_OREG)");
  ("FCOM", "F1(SZ_NONE,M_STI,P_OREG)");
  ("FCOMP", "F1(SZ_NONE,M_STI,P_OREG)");
  ("FSUB", "F2(SZ_NONE,M_ST0,M_STI,P_NONE,P_OREG)");
  ("FSUBR", "F2(SZ_NONE,M_ST0,M_STI,P_NONE,P_OREG)");
  ("FDIV", "F2(SZ_NONE,M_ST0,M_STI,P_NONE,P_OREG)");
  ("FDIVR", "F2(SZ_NONE,M_ST0,M_STI,P_NONE,P_OREG)");
  ("FADD", "F1(SZ_DWORD,M_FMOD,P_OMOD)");
  ("FMUL", "F1(SZ_DWORD,M_FMOD,P_OMOD)");
  ("FCOM", "F1(SZ_DWORD,M_FMOD,P_OMOD)");
  ("FCOMP", "F1(SZ_DWORD,M_FMOD,P_OMOD)");
  ("FSUB", "F1(SZ_DWORD,M_FMOD,P_OMOD)");
  ("FSUBR", "F1(SZ_DWORD,M_FMOD,P_OMOD)");
  ("FDIV", "F1(SZ_DWORD,M_FMOD,P_OMOD)");
  ("FDIVR", "F1(SZ_DWORD,M_FMOD,P_OMOD)")]
  [0; 8; 2; 10; 3; 11; 6; 14; 7; 15; 1; 9; 4; 12; 5; 13].

(* src/table_i8086.cpp:860-894 TABLE_D9, 896-930 INDEX_D9 *)
Definition t_i8086_TABLE_D9 : insn_table := mkIT [
  ("FLD", "F1(SZ_NONE,M_STI,P_OREG)");
  ("FXCH", "F1(SZ_NONE,M_STI,P_OREG)");
  ("FNOP", "F0(SZ_NONE)");
  ("FCHS", "F0(SZ_NONE)");
  ("FABS", "F0(SZ_NONE)");
  ("FTST", "F0(SZ_NONE)");
  ("FXAM", "F0(SZ_NONE)");
  ("FLD1", "F0(SZ_NONE)");
  ("FLDL2T", "F0(SZ_NONE)");
  ("FLDL2E", "F0(SZ_NONE)");
  ("FLDPI", "F0(SZ_NONE)");
  ("FLDLG2", "F0(SZ_NONE)");
  ("FLDLN2", "F0(SZ_NONE)");
  ("FLDZ", "F0(SZ_NONE)");
  ("F2XM1", "F0(SZ_NONE)");
  ("FYL2X", "F0(SZ_NONE)");
  ("FPTAN", "F0(SZ_NONE)");
  ("FPATAN", "F0(SZ_NONE)");
  ("FXTRACT", "F0(SZ_NONE)");
  ("FDECSTP", "F0(SZ_NONE)");
  ("FINCSTP", "F0(SZ_NONE)");
  ("FPREM", "F0(SZ_NONE)");
  ("FYL2XP1", "F0(SZ_NONE)");
  ("FSQRT", "F0(SZ_NONE)");
  ("FRNDINT", "F0(SZ_NONE)");
  ("FSCALE", "F0(SZ_NONE)");
  ("FLD", "F1(SZ_DWORD,M_FMOD,P_OMOD)");
  ("FST", "F1(SZ_DWORD,M_FMOD,P_OMOD)");
  ("FSTP", "F1(SZ_DWORD,M_FMOD,P_OMOD)");
  ("FLDENV", "F1(SZ_NONE,M_WMOD,P_OMOD)");
  ("FLDCW", "F1(SZ_NONE,M_WMOD,P_OMOD)");
  ("FSTENV", "F1(SZ_NONE,M_WMOD,P_OMOD)");
  ("FSTCW", "F1(SZ_NONE,M_WMOD,P_OMOD)")]
  [14; 4; 3; 19; 20; 0; 26; 7; 30; 29; 9; 8; 11; 12; 10; 13; 2; 17; 21; 16; 24; 25; 23; 27; 32; 31; 28; 5; 6; 1; 18; 15; 22].

(* src/table_i8086.cpp:932-941 TABLE_DA, 943-952 INDEX_DA *)
Definition t_i8086_TABLE_DA : insn_table := mkIT [
  ("FIADD", "F1(SZ_DWORD,M_FMOD,P_OMOD)");
  ("FIMUL", "F1(SZ_DWORD,M_FMOD,P_OMOD)");
  ("FICOM", "F1(SZ_DWORD,M_FMOD,P_OMOD)");
  ("FICOMP", "F1(SZ_DWORD,M_FMOD,P_OMOD)");
  ("FISUB", "F1(SZ_DWORD,M_FMOD,P_OMOD)");
  ("FISUBR", "F1(SZ_DWORD,M_FMOD,P_OMOD)");
  ("FIDIV", "F1(SZ_DWORD,M_FMOD,P_OMOD)");
  ("FIDIVR", "F1(SZ_DWORD,M_FMOD,P_OMOD)")]
  [0; 2; 3; 6; 7; 1; 4; 5].

(* src/table_i8086.cpp:954-964 TABLE_DB, 966-976 INDEX_DB *)
Definition t_i8086_TABLE_DB : insn_table := mkIT [
  ("FENI", "F0(SZ_NONE)");
  ("FDISI", "F0(SZ_NONE)");
  ("FCLEX", "F0(SZ_NONE)");
  ("FINIT", "F0(SZ_NONE)");
  ("FILD", "F1(SZ_DWORD,M_FMOD,P_OMOD)");
  ("FIST", "F1(SZ_DWORD,M_FMOD,P_OMOD)");
  ("FISTP", "F1(SZ_DWORD,M_FMOD,P_OMOD)");
  ("FLD", "F1(SZ_TBYTE,M_FMOD,P_OMOD)");
  ("FSTP", "F1(SZ_TBYTE,M_FMOD,P_OMOD)")]
  [2; 1; 0; 4; 3; 5; 6; 7; 8].

(* src/table_i8086.cpp:978-993 TABLE_DC, 995-1010 INDEX_DC *)
Definition t_i8086_TABLE_DC : insn_table := mkIT [
  ("FADD", "F2(SZ_NONE,M_STI,M_ST0,P_OREG,P_NONE)");
  ("FMUL", "F2(SZ_NONE,M_STI,M_ST0,P_OREG,P_NONE)");
  ("FSUB", "F2(SZ_NONE,M_STI,M_ST0,P_OREG,P_NONE)");
  ("FSUBR", "F2(SZ_NONE,M_STI,M_ST0,P_OREG,P_NONE)");
  ("FDIV", "F2(SZ_NONE,M_STI,M_ST0,P_OREG,P_NONE)");
  ("FDIVR", "F2(SZ_NONE,M_STI,M_ST0,P_OREG,P_NONE)");
  ("FADD", "F1(SZ_QWORD,M_FMOD,P_OMOD)");
  ("FMUL", "F1(SZ_QWORD,M_FMOD,P_OMOD)");
  ("FCOM", "F1(SZ_QWORD,M_FMOD,P_OMOD)");
  ("FCOMP", "F1(SZ_QWORD,M_FMOD,P_OMOD)");
  ("FSUB", "F1(SZ_QWORD,M_FMOD,P_OMOD)");
  ("FSUBR", "F1(SZ_QWORD,M_FMOD,P_OMOD)");
  ("FDIV", "F1(SZ_QWORD,M_FMOD,P_OMOD)");
  ("FDIVR", "F1(SZ_QWORD,M_FMOD,P_OMOD)")]
  [0; 6; 8; 9; 4; 12; 5; 13; 1; 7; 2; 10; 3; 11].

(* src/table_i8086.cpp:1012-1022 TABLE_DD, 1024-1034 INDEX_DD *)
Definition t_i8086_TABLE_DD : insn_table := mkIT [
  ("FFREE", "F1(SZ_NONE,M_STI,P_OREG)");
  ("FST", "F1(SZ_NONE,M_STI,P_OREG)");
  ("FSTP", "F1(SZ_NONE,M_STI,P_OREG)");
  ("FLD", "F1(SZ_QWORD,M_FMOD,P_OMOD)");
  ("FST", "F1(SZ_QWORD,M_FMOD,P_OMOD)");
  ("FSTP", "F1(SZ_QWORD,M_FMOD,P_OMOD)");
  ("FRSTOR", "F1(SZ_NONE,M_WMOD,P_OMOD)");
  ("FSAVE", "F1(SZ_NONE,M_WMOD,P_OMOD)");
  ("FSTSW", "F1(SZ_NONE,M_WMOD,P_OMOD)")]
  [0; 3; 6; 7; 1; 4; 2; 5; 8].

(* src/table_i8086.cpp:1036-1052 TABLE_DE, 1054-1070 INDEX_DE *)
Definition t_i8086_TABLE_DE : insn_table := mkIT [
  ("FADDP", "F2(SZ_NONE,M_STI,M_ST0,P_OREG,P_NONE)");
  ("FMULP", "F2(SZ_NONE,M_STI,M_ST0,P_OREG,P_NONE)");
  ("FCOMPP", "F0(SZ_NONE)");
  ("FSUBRP", "F2(SZ_NONE,M_STI,M_ST0,P_OREG,P_NONE)");
  ("FSUBP", "F2(SZ_NONE,M_STI,M_ST0,P_OREG,P_NONE)");
  ("FDIVRP", "F2(SZ_NONE,M_STI,M_ST0,P_OREG,P_NONE)");
  ("FDIVP", "F2(SZ_NONE,M_STI,M_ST0,P_OREG,P_NONE)");
  ("FIADD", "F1(SZ_WORD,M_WMOD,P_OMOD)");
  ("FIMUL", "F1(SZ_WORD,M_WMOD,P_OMOD)");
  ("FICOM", "F1(SZ_WORD,M_WMOD,P_OMOD)");
  ("FICOMP", "F1(SZ_WORD,M_WMOD,P_OMOD)");
  ("FISUB", "F1(SZ_WORD,M_WMOD,P_OMOD)");
  ("FISUBR", "F1(SZ_WORD,M_WMOD,P_OMOD)");
  ("FIDIV", "F1(SZ_WORD,M_WMOD,P_OMOD)");
  ("FIDIVR", "F1(SZ_WORD,M_WMOD,P_OMOD)")]
  [0; 2; 6; 5; 7; 9; 10; 13; 14; 8; 11; 12; 1; 4; 3].

(* src/table_i8086.cpp:1072-1080 TABLE_DF, 1082-1090 INDEX_DF *)
Definition t_i8086_TABLE_DF : insn_table := mkIT [
  ("FILD", "F1(SZ_WORD,M_WMOD,P_OMOD)");
  ("FIST", "F1(SZ_WORD,M_WMOD,P_OMOD)");
  ("FISTP", "F1(SZ_WORD,M_WMOD,P_OMOD)");
  ("FBLD", "F1(SZ_TBYTE,M_FMOD,P_OMOD)");
  ("FILD", "F1(SZ_QWORD,M_FMOD,P_OMOD)");
  ("FBSTP", "F1(SZ_TBYTE,M_FMOD,P_OMOD)");
  ("FISTP", "F1(SZ_QWORD,M_FMOD,P_OMOD)")]
  [3; 5; 0; 4; 1; 2; 6].

(* src/table_i8096.cpp:37-135 TABLE_00, 137-235 INDEX_00 *)
Definition t_i8096_TABLE_00 : insn_table := mkIT [
  ("ADD", "E2(M_WREG,M_WAOP)");
  ("ADD", "E3(M_WREG,M_WREG,M_WAOP)");
  ("ADDB", "E2(M_BREG,M_BAOP)");
  ("ADDB", "E3(M_BREG,M_BREG,M_BAOP)");
  ("ADDC", "E2(M_WREG,M_WAOP)");
  ("ADDCB", "E2(M_BREG,M_BAOP)");
  ("AND", "E2(M_WREG,M_WAOP)");
  ("AND", "E3(M_WREG,M_WREG,M_WAOP)");
  ("ANDB", "E2(M_BREG,M_BAOP)");
  ("ANDB", "E3(M_BREG,M_BREG,M_BAOP)");
  ("BR", "E1(M_INDIR)");
  ("CLR", "E1(M_WREG)");
  ("CLRB", "E1(M_BREG)");
  ("CLRC", "E0()");
  ("CLRVT", "E0()");
  ("CMP", "E2(M_WREG,M_WAOP)");
  ("CMPB", "E2(M_BREG,M_BAOP)");
  ("DEC", "E1(M_WREG)");
  ("DECB", "E1(M_BREG)");
  ("DI", "E0()");
  ("DIVU", "E2(M_LREG,M_WAOP)");
  ("DIVUB", "E2(M_WREG,M_BAOP)");
  ("DJNZ", "E2(M_BREG,M_REL8)");
  ("EI", "E0()");
  ("EXT", "E1(M_LREG)");
  ("EXTB", "E1(M_WREG)");
  ("INC", "E1(M_WREG)");
  ("INCB", "E1(M_BREG)");
  ("JBC", "E3(M_BREG,M_BITNO,M_REL8)");
  ("JBS", "E3(M_BREG,M_BITNO,M_REL8)");
  ("JC", "E1(M_REL8)");
  ("JE", "E1(M_REL8)");
  ("JGE", "E1(M_REL8)");
  ("JGT", "E1(M_REL8)");
  ("JH", "E1(M_REL8)");
  ("JLE", "E1(M_REL8)");
  ("JLT", "E1(M_REL8)");
  ("JNC", "E1(M_REL8)");
  ("JNE", "E1(M_REL8)");
  ("JNH", "E1(M_REL8)");
  ("JNST", "E1(M_REL8)");
  ("JNV", "E1(M_REL8)");
  ("JNVT", "E1(M_REL8)");
  ("JST", "E1(M_REL8)");
  ("JV", "E1(M_REL8)");
  ("JVT", "E1(M_REL8)");
  ("LCALL", "E1(M_REL16)");
  ("LD", "E2(M_WREG,M_WAOP)");
  ("LDB", "E2(M_BREG,M_BAOP)");
  ("LDBSE", "E2(M_WREG,M_BAOP)");
  ("LDBZE", "E2(M_WREG,M_BAOP)");
  ("LJMP", "E1(M_REL16)");
  ("MULU", "E2(M_LREG,M_WAOP)");
  ("MULU", "E3(M_LREG,M_WREG,M_WAOP)");
  ("MULUB", "E2(M_WREG,M_BAOP)");
  ("MULUB", "E3(M_WREG,M_BREG,M_BAOP)");
  ("NEG", "E1(M_WREG)");
  ("NEGB", "E1(M_BREG)");
  ("NOP", "E0()");
  ("NORML", "E2(M_LREG,M_BREG)");
  ("NOT", "E1(M_WREG)");
  ("NOTB", "E1(M_BREG)");
  ("OR", "E2(M_WREG,M_WAOP)");
  ("ORB", "E2(M_BREG,M_BAOP)");
  ("POP", "U1(M_IMM16)");
  ("POP", "E1(M_WAOP)");
  ("POPF", "E0()");
  ("PUSH", "E1(M_WAOP)");
  ("PUSHF", "E0()");
  ("RET", "E0()");
  ("RST", "E0()");
  ("SCALL", "E1(M_REL11)");
  ("SETC", "E0()");
  ("SHL", "E2(M_WREG,M_COUNT)");
  ("SHLB", "E2(M_BREG,M_COUNT)");
  ("SHLL", "E2(M_LREG,M_COUNT)");
  ("SHR", "E2(M_WREG,M_COUNT)");
  ("SHRA", "E2(M_WREG,M_COUNT)");
  ("SHRAB", "E2(M_BREG,M_COUNT)");
  ("SHRAL", "E2(M_LREG,M_COUNT)");
  ("SHRB", "E2(M_BREG,M_COUNT)");
  ("SHRL", "E2(M_LREG,M_COUNT)");
  ("SJMP", "E1(M_REL11)");
  ("SKIP", "E1(M_BREG)");
  ("ST", "U2(M_WREG,M_IMM16)");
  ("ST", "E2(M_WREG,M_WAOP)");
  ("STB", "U2(M_BREG,M_IMM8)");
  ("STB", "E2(M_BREG,M_BAOP)");
  ("SUB", "E2(M_WREG,M_WAOP)");
  ("SUB", "E3(M_WREG,M_WREG,M_WAOP)");
  ("SUBB", "E2(M_BREG,M_BAOP)");
  ("SUBB", "E3(M_BREG,M_BREG,M_BAOP)");
  ("SUBC", "E2(M_WREG,M_WAOP)");
  ("SUBCB", "E2(M_BREG,M_BAOP)");
  ("TRAP", "E0()");
  ("XOR", "E2(M_WREG,M_WAOP)");
  ("XORB", "E2(M_BREG,M_BAOP)")]
  [0; 1; 2; 3; 4; 5; 6; 7; 8; 9; 10; 11; 12; 13; 14; 15; 16; 17; 18; 19; 20; 21; 22; 23; 24; 25; 26; 27; 28; 29; 30; 31; 32; 33; 34; 35; 36; 37; 38; 39; 40; 41; 42; 43; 44; 45; 46; 47; 48; 49; 50; 51; 52; 53; 54; 55; 56; 57; 58; 59; 60; 61; 62; 63; 64; 65; 66; 67; 68; 69; 70; 71; 72; 73; 74; 75; 76; 77; 78; 79; 80; 81; 82; 83; 84; 85; 86; 87; 88; 89; 90; 91; 92; 93; 94; 95; 96].

(* src/table_i8096.cpp:237-244 TABLE_FE, 246-253 INDEX_FE *)
Definition t_i8096_TABLE_FE : insn_table := mkIT [
  ("DIV", "E2(M_LREG,M_WAOP)");
  ("DIVB", "E2(M_WREG,M_BAOP)");
  ("MUL", "E2(M_LREG,M_WAOP)");
  ("MUL", "E3(M_LREG,M_WREG,M_WAOP)");
  ("MULB", "E2(M_WREG,M_BAOP)");
  ("MULB", "E3(M_WREG,M_BREG,M_BAOP)")]
  [0; 1; 2; 3; 4; 5].

(* src/table_ins8060.cpp:32-80 TABLE_INS8060, 82-130 INDEX_INS8060 *)
Definition t_ins8060_TABLE_INS8060 : insn_table := mkIT [
  ("HALT", "E0()");
  ("XAE", "E0()");
  ("CCL", "E0()");
  ("SCL", "E0()");
  ("DINT", "E0()");
  ("IEN", "E0()");
  ("CSA", "E0()");
  ("CAS", "E0()");
  ("NOP", "E0()");
  ("SIO", "E0()");
  ("SR", "E0()");
  ("SRL", "E0()");
  ("RR", "E0()");
  ("RRL", "E0()");
  ("XPAL", "E1(M_PNTR)");
  ("XPAH", "E1(M_PNTR)");
  ("XPPC", "E1(M_PNTR)");
  ("LDE", "E0()");
  ("ANE", "E0()");
  ("ORE", "E0()");
  ("XRE", "E0()");
  ("DAE", "E0()");
  ("ADE", "E0()");
  ("CAE", "E0()");
  ("DLY", "E1(M_IMM8)");
  ("JMP", "E1(M_REL8)");
  ("JP", "E1(M_REL8)");
  ("JZ", "E1(M_REL8)");
  ("JNZ", "E1(M_REL8)");
  ("ILD", "E1(M_DISP)");
  ("DLD", "E1(M_DISP)");
  ("LDI", "E1(M_IMM8)");
  ("LD", "E1(M_INDX)");
  ("ST", "E1(M_UNDEF)");
  ("ST", "E1(M_INDX)");
  ("ANI", "E1(M_IMM8)");
  ("AND", "E1(M_INDX)");
  ("ORI", "E1(M_IMM8)");
  ("OR", "E1(M_INDX)");
  ("XRI", "E1(M_IMM8)");
  ("XOR", "E1(M_INDX)");
  ("DAI", "E1(M_IMM8)");
  ("DAD", "E1(M_INDX)");
  ("ADI", "E1(M_IMM8)");
  ("ADD", "E1(M_INDX)");
  ("CAI", "E1(M_IMM8)");
  ("CAD", "E1(M_INDX)")]
  [44; 22; 43; 36; 18; 35; 46; 23; 45; 7; 2; 6; 42; 21; 41; 4; 30; 24; 0; 5; 29; 25; 28; 26; 27; 32; 17; 31; 8; 38; 19; 37; 12; 13; 3; 9; 10; 11; 33; 34; 1; 40; 15; 14; 16; 20; 39].

(* src/table_ins8070.cpp:38-109 TABLE_INS8070, 111-182 INDEX_INS8070 *)
Definition t_ins8070_TABLE_INS8070 : insn_table := mkIT [
  ("NOP", "E0()");
  ("XCH", "E2(M_AR,M_ER,SZ_BYTE)");
  ("XCH", "E2(M_ER,M_AR,SZ_BYTE)");
  ("LD", "E2(M_AR,M_SR,SZ_BYTE)");
  ("LD", "E2(M_SR,M_AR,SZ_BYTE)");
  ("PUSH", "E1(M_EA,SZ_WORD)");
  ("LD", "E2(M_TR,M_EA,SZ_WORD)");
  ("PUSH", "E1(M_AR,SZ_BYTE)");
  ("LD", "E2(M_EA,M_TR,SZ_WORD)");
  ("SR", "E1(M_EA,SZ_WORD)");
  ("DIV", "E2(M_EA,M_TR,SZ_WORD)");
  ("SL", "E1(M_AR,SZ_BYTE)");
  ("SL", "E1(M_EA,SZ_WORD)");
  ("CALL", "E1(M_VEC,SZ_NONE)");
  ("JSR", "X1(M_ADR)");
  ("PLI", "E2(M_P23,M_IMM,SZ_WORD)");
  ("JMP", "X1(M_ADR)");
  ("LD", "E2(M_PTR,M_IMM,SZ_WORD)");
  ("MPY", "E2(M_EA,M_TR,SZ_WORD)");
  ("BND", "X1(M_PCR)");
  ("SSM", "E1(M_P23,SZ_BYTE)");
  ("LD", "E2(M_EA,M_PTR,SZ_WORD)");
  ("POP", "E1(M_AR,SZ_BYTE)");
  ("AND", "E2(M_SR,M_IMM,SZ_BYTE)");
  ("POP", "E1(M_EA,SZ_WORD)");
  ("OR", "E2(M_SR,M_IMM,SZ_BYTE)");
  ("SR", "E1(M_AR,SZ_BYTE)");
  ("SRL", "E1(M_AR,SZ_BYTE)");
  ("RR", "E1(M_AR,SZ_BYTE)");
  ("RRL", "E1(M_AR,SZ_BYTE)");
  ("LD", "E2(M_AR,M_ER,SZ_BYTE)");
  ("LD", "E2(M_PTR,M_EA,SZ_WORD)");
  ("LD", "E2(M_ER,M_AR,SZ_BYTE)");
  ("XCH", "E2(M_EA,M_PTR,SZ_WORD)");
  ("XCH", "E2(M_PTR,M_EA,SZ_WORD)");
  ("AND", "E2(M_AR,M_ER,SZ_BYTE)");
  ("PUSH", "U1(M_SP)");
  ("PUSH", "E1(M_PTR,SZ_WORD)");
  ("OR", "E2(M_AR,M_ER,SZ_BYTE)");
  ("RET", "E0()");
  ("POP", "E1(M_P23,SZ_WORD)");
  ("XOR", "E2(M_AR,M_ER,SZ_BYTE)");
  ("BP", "X1(M_PCR)");
  ("BP", "X1(M_IDX)");
  ("BZ", "X1(M_PCR)");
  ("BZ", "X1(M_IDX)");
  ("ADD", "E2(M_AR,M_ER,SZ_BYTE)");
  ("BRA", "X1(M_PCR)");
  ("BRA", "X1(M_IDX)");
  ("SUB", "E2(M_AR,M_ER,SZ_BYTE)");
  ("BNZ", "X1(M_PCR)");
  ("BNZ", "X1(M_IDX)");
  ("LD", "E2(M_EA,M_GEN,SZ_WORD)");
  ("ST", "U2(M_EA,M_IMM)");
  ("ST", "E2(M_EA,M_GEN,SZ_WORD)");
  ("ILD", "U2(M_AR,M_IMM)");
  ("ILD", "E2(M_AR,M_GEN,SZ_BYTE)");
  ("DLD", "U2(M_AR,M_IMM)");
  ("DLD", "E2(M_AR,M_GEN,SZ_BYTE)");
  ("LD", "E2(M_TR,M_GEN,SZ_WORD)");
  ("ADD", "E2(M_EA,M_GEN,SZ_WORD)");
  ("SUB", "E2(M_EA,M_GEN,SZ_WORD)");
  ("LD", "E2(M_AR,M_GEN,SZ_BYTE)");
  ("ST", "U2(M_AR,M_IMM)");
  ("ST", "E2(M_AR,M_GEN,SZ_BYTE)");
  ("AND", "E2(M_AR,M_GEN,SZ_BYTE)");
  ("OR", "E2(M_AR,M_GEN,SZ_BYTE)");
  ("XOR", "E2(M_AR,M_GEN,SZ_BYTE)");
  ("ADD", "E2(M_AR,M_GEN,SZ_BYTE)");
  ("SUB", "E2(M_AR,M_GEN,SZ_BYTE)")]
  [46; 60; 68; 23; 35; 65; 19; 50; 51; 42; 43; 47; 48; 44; 45; 13; 10; 57; 58; 55; 56; 16; 14; 3; 4; 6; 8; 17; 21; 30; 31; 32; 52; 59; 62; 18; 0; 25; 38; 66; 15; 22; 24; 40; 5; 7; 36; 37; 39; 28; 29; 11; 12; 9; 26; 27; 20; 53; 54; 63; 64; 49; 61; 69; 1; 2; 33; 34; 41; 67].

(* src/table_mc6800.cpp:36-154 MC6800_TABLE, 156-274 MC6800_INDEX *)
Definition t_mc6800_MC6800_TABLE : insn_table := mkIT [
  ("NOP", "E0()");
  ("TAP", "E0()");
  ("TPA", "E0()");
  ("INX", "E0()");
  ("DEX", "E0()");
  ("CLV", "E0()");
  ("SEV", "E0()");
  ("CLC", "E0()");
  ("SEC", "E0()");
  ("CLI", "E0()");
  ("SEI", "E0()");
  ("SBA", "E0()");
  ("CBA", "E0()");
  ("TAB", "E0()");
  ("TBA", "E0()");
  ("DAA", "E0()");
  ("ABA", "E0()");
  ("BRA", "E1(M_REL)");
  ("BHI", "E1(M_REL)");
  ("BLS", "E1(M_REL)");
  ("BHS", "E1(M_REL)");
  ("BCC", "E1(M_REL)");
  ("BLO", "E1(M_REL)");
  ("BCS", "E1(M_REL)");
  ("BNE", "E1(M_REL)");
  ("BEQ", "E1(M_REL)");
  ("BVC", "E1(M_REL)");
  ("BVS", "E1(M_REL)");
  ("BPL", "E1(M_REL)");
  ("BMI", "E1(M_REL)");
  ("BGE", "E1(M_REL)");
  ("BLT", "E1(M_REL)");
  ("BGT", "E1(M_REL)");
  ("BLE", "E1(M_REL)");
  ("TSX", "E0()");
  ("INS", "E0()");
  ("PULA", "E0()");
  ("PULB", "E0()");
  ("DES", "E0()");
  ("TXS", "E0()");
  ("PSHA", "E0()");
  ("PSHB", "E0()");
  ("RTS", "E0()");
  ("RTI", "E0()");
  ("WAI", "E0()");
  ("SWI", "E0()");
  ("NEGA", "E0()");
  ("NEGB", "E0()");
  ("COMA", "E0()");
  ("COMB", "E0()");
  ("LSRA", "E0()");
  ("LSRB", "E0()");
  ("RORA", "E0()");
  ("RORB", "E0()");
  ("ASRA", "E0()");
  ("ASRB", "E0()");
  ("ASLA", "E0()");
  ("ASLB", "E0()");
  ("LSLA", "E0()");
  ("LSLB", "E0()");
  ("ROLA", "E0()");
  ("ROLB", "E0()");
  ("DECA", "E0()");
  ("DECB", "E0()");
  ("INCA", "E0()");
  ("INCB", "E0()");
  ("TSTA", "E0()");
  ("TSTB", "E0()");
  ("CLRA", "E0()");
  ("CLRB", "E0()");
  ("NEG", "E1(M_GMEM)");
  ("COM", "E1(M_GMEM)");
  ("LSR", "E1(M_GMEM)");
  ("ROR", "E1(M_GMEM)");
  ("ASR", "E1(M_GMEM)");
  ("ASL", "E1(M_GMEM)");
  ("LSL", "E1(M_GMEM)");
  ("ROL", "E1(M_GMEM)");
  ("DEC", "E1(M_GMEM)");
  ("INC", "E1(M_GMEM)");
  ("TST", "E1(M_GMEM)");
  ("JMP", "E1(M_GMEM)");
  ("CLR", "E1(M_GMEM)");
  ("SUBA", "E1(M_GN8)");
  ("SUBB", "E1(M_GN8)");
  ("CMPA", "E1(M_GN8)");
  ("CMPB", "E1(M_GN8)");
  ("SBCA", "E1(M_GN8)");
  ("SBCB", "E1(M_GN8)");
  ("ANDA", "E1(M_GN8)");
  ("ANDB", "E1(M_GN8)");
  ("BITA", "E1(M_GN8)");
  ("BITB", "E1(M_GN8)");
  ("LDAA", "E1(M_GN8)");
  ("LDAB", "E1(M_GN8)");
  ("STAA", "U1(M_IM8)");
  ("STAB", "U1(M_IM8)");
  ("STAA", "E1(M_GN8)");
  ("STAB", "E1(M_GN8)");
  ("EORA", "E1(M_GN8)");
  ("EORB", "E1(M_GN8)");
  ("ADCA", "E1(M_GN8)");
  ("ADCB", "E1(M_GN8)");
  ("ORAA", "E1(M_GN8)");
  ("ORAB", "E1(M_GN8)");
  ("ADDA", "E1(M_GN8)");
  ("ADDB", "E1(M_GN8)");
  ("CPX", "E1(M_GN16)");
  ("BSR", "E1(M_REL)");
  ("LDS", "E1(M_GN16)");
  ("STS", "U1(M_IM16)");
  ("STS", "E1(M_GN16)");
  ("JSR", "E1(M_IDX)");
  ("JSR", "E1(M_EXT)");
  ("LDX", "E1(M_GN16)");
  ("STX", "U1(M_IM16)");
  ("STX", "E1(M_GN16)")]
  [16; 101; 102; 105; 106; 89; 90; 75; 56; 57; 74; 54; 55; 21; 23; 25; 30; 32; 18; 20; 91; 92; 33; 22; 19; 31; 29; 24; 28; 17; 108; 26; 27; 12; 7; 9; 82; 68; 69; 5; 85; 86; 71; 48; 49; 107; 15; 78; 62; 63; 38; 4; 99; 100; 79; 64; 65; 35; 3; 81; 112; 113; 93; 94; 109; 114; 76; 58; 59; 72; 50; 51; 70; 46; 47; 0; 103; 104; 40; 41; 36; 37; 77; 60; 61; 73; 52; 53; 43; 42; 11; 87; 88; 8; 10; 6; 95; 97; 96; 98; 110; 111; 115; 116; 83; 84; 45; 13; 1; 14; 2; 80; 66; 67; 34; 39; 44].

(* src/table_mc6800.cpp:276-283 MB8861_TABLE, 285-292 MB8861_INDEX *)
Definition t_mc6800_MB8861_TABLE : insn_table := mkIT [
  ("NIM", "E2(M_IM8,M_IDX)");
  ("OIM", "E2(M_IM8,M_IDX)");
  ("XIM", "E2(M_IM8,M_IDX)");
  ("TMM", "E2(M_IM8,M_IDX)");
  ("ADX", "E1(M_IM8)");
  ("ADX", "E1(M_EXT)")]
  [4; 5; 0; 1; 3; 2].

(* src/table_mc6800.cpp:294-309 MC6801_TABLE, 311-326 MC6801_INDEX *)
Definition t_mc6800_MC6801_TABLE : insn_table := mkIT [
  ("LSRD", "E0()");
  ("ASLD", "E0()");
  ("LSLD", "E0()");
  ("BRN", "E1(M_REL)");
  ("PULX", "E0()");
  ("ABX", "E0()");
  ("PSHX", "E0()");
  ("MUL", "E0()");
  ("SUBD", "E1(M_GN16)");
  ("JSR", "E1(M_DIR)");
  ("ADDD", "E1(M_GN16)");
  ("LDD", "E1(M_GN16)");
  ("STD", "U1(M_IM16)");
  ("STD", "E1(M_GN16)")]
  [5; 10; 1; 3; 9; 11; 2; 0; 7; 6; 4; 12; 13; 8].

(* src/table_mc6800.cpp:328-347 HD6301_TABLE, 349-368 HD6301_INDEX *)
Definition t_mc6800_HD6301_TABLE : insn_table := mkIT [
  ("XGDX", "E0()");
  ("SLP", "E0()");
  ("AIM", "E2(M_BMM,M_IDX)");
  ("BCLR", "E2(M_BIT,M_IDX)");
  ("OIM", "E2(M_BMM,M_IDX)");
  ("BSET", "E2(M_BIT,M_IDX)");
  ("EIM", "E2(M_BMM,M_IDX)");
  ("BTGL", "E2(M_BIT,M_IDX)");
  ("TIM", "E2(M_BMM,M_IDX)");
  ("BTST", "E2(M_BIT,M_IDX)");
  ("AIM", "E2(M_BMM,M_DIR)");
  ("BCLR", "E2(M_BIT,M_DIR)");
  ("OIM", "E2(M_BMM,M_DIR)");
  ("BSET", "E2(M_BIT,M_DIR)");
  ("EIM", "E2(M_BMM,M_DIR)");
  ("BTGL", "E2(M_BIT,M_DIR)");
  ("TIM", "E2(M_BMM,M_DIR)");
  ("BTST", "E2(M_BIT,M_DIR)")]
  [2; 10; 3; 11; 5; 13; 7; 15; 9; 17; 6; 14; 4; 12; 1; 8; 16; 0].

(* src/table_mc6800.cpp:370-383 MC68HC11_P00, 385-398 MC68HC11_I00 *)
Definition t_mc6800_MC68HC11_P00 : insn_table := mkIT [
  ("IDIV", "E0()");
  ("FDIV", "E0()");
  ("BRSET", "E3(M_DIR,M_IM8,M_REL)");
  ("BRCLR", "E3(M_DIR,M_IM8,M_REL)");
  ("BSET", "E2(M_DIR,M_IM8)");
  ("BCLR", "E2(M_DIR,M_IM8)");
  ("BSET", "E2(M_IDX,M_IM8)");
  ("BCLR", "E2(M_IDX,M_IM8)");
  ("BRSET", "E3(M_IDX,M_IM8,M_REL)");
  ("BRCLR", "E3(M_IDX,M_IM8,M_REL)");
  ("XGDX", "E0()");
  ("STOP", "E0()")]
  [5; 7; 3; 9; 2; 8; 4; 6; 1; 0; 11; 10].

(* src/table_mc6800.cpp:400-466 MC68HC11_P18, 468-534 MC68HC11_I18 *)
Definition t_mc6800_MC68HC11_P18 : insn_table := mkIT [
  ("INY", "E0()");
  ("DEY", "E0()");
  ("BSET", "E2(M_IDY,M_IM8)");
  ("BCLR", "E2(M_IDY,M_IM8)");
  ("BRSET", "E3(M_IDY,M_IM8,M_REL)");
  ("BRCLR", "E3(M_IDY,M_IM8,M_REL)");
  ("TSY", "E0()");
  ("TYS", "E0()");
  ("PULY", "E0()");
  ("ABY", "E0()");
  ("PSHY", "E0()");
  ("NEG", "E1(M_IDY)");
  ("COM", "E1(M_IDY)");
  ("LSR", "E1(M_IDY)");
  ("ROR", "E1(M_IDY)");
  ("ASR", "E1(M_IDY)");
  ("ASL", "E1(M_IDY)");
  ("LSL", "E1(M_IDY)");
  ("ROL", "E1(M_IDY)");
  ("DEC", "E1(M_IDY)");
  ("INC", "E1(M_IDY)");
  ("TST", "E1(M_IDY)");
  ("JMP", "E1(M_IDY)");
  ("CLR", "E1(M_IDY)");
  ("CPY", "E1(M_IM16)");
  ("XGDY", "E0()");
  ("CPY", "E1(M_DIR)");
  ("SUBA", "E1(M_IDY)");
  ("SUBB", "E1(M_IDY)");
  ("CMPA", "E1(M_IDY)");
  ("CMPB", "E1(M_IDY)");
  ("SBCA", "E1(M_IDY)");
  ("SBCB", "E1(M_IDY)");
  ("SUBD", "E1(M_IDY)");
  ("ADDD", "E1(M_IDY)");
  ("ANDA", "E1(M_IDY)");
  ("ANDB", "E1(M_IDY)");
  ("BITA", "E1(M_IDY)");
  ("BITB", "E1(M_IDY)");
  ("LDAA", "E1(M_IDY)");
  ("LDAB", "E1(M_IDY)");
  ("STAA", "E1(M_IDY)");
  ("STAB", "E1(M_IDY)");
  ("EORA", "E1(M_IDY)");
  ("EORB", "E1(M_IDY)");
  ("ADCA", "E1(M_IDY)");
  ("ADCB", "E1(M_IDY)");
  ("ORAA", "E1(M_IDY)");
  ("ORAB", "E1(M_IDY)");
  ("ADDA", "E1(M_IDY)");
  ("ADDB", "E1(M_IDY)");
  ("CPY", "E1(M_IDY)");
  ("JSR", "E1(M_IDY)");
  ("LDS", "E1(M_IDY)");
  ("STS", "E1(M_IDY)");
  ("CPY", "E1(M_EXT)");
  ("LDY", "E1(M_IM16)");
  ("LDY", "E1(M_DIR)");
  ("STY", "E1(M_DIR)");
  ("LDD", "E1(M_IDY)");
  ("STD", "E1(M_IDY)");
  ("LDY", "E1(M_IDY)");
  ("STY", "E1(M_IDY)");
  ("LDY", "E1(M_EXT)");
  ("STY", "E1(M_EXT)")]
  [9; 45; 46; 49; 50; 34; 35; 36; 16; 15; 3; 37; 38; 5; 4; 2; 23; 29; 30; 12; 24; 26; 51; 55; 19; 1; 43; 44; 20; 0; 22; 52; 39; 40; 59; 53; 56; 57; 61; 63; 17; 13; 11; 47; 48; 10; 8; 18; 14; 31; 32; 41; 42; 60; 54; 58; 62; 64; 27; 28; 33; 21; 6; 7; 25].

(* src/table_mc6800.cpp:536-541 MC68HC11_P1A, 543-548 MC68HC11_I1A *)
Definition t_mc6800_MC68HC11_P1A : insn_table := mkIT [
  ("CPD", "E1(M_GN16)");
  ("CPY", "E1(M_IDX)");
  ("LDY", "E1(M_IDX)");
  ("STY", "E1(M_IDX)")]
  [0; 1; 2; 3].

(* src/table_mc6800.cpp:550-555 MC68HC11_PCD, 557-562 MC68HC11_ICD *)
Definition t_mc6800_MC68HC11_PCD : insn_table := mkIT [
  ("CPD", "E1(M_IDY)");
  ("CPX", "E1(M_IDY)");
  ("LDX", "E1(M_IDY)");
  ("STX", "E1(M_IDY)")]
  [0; 1; 2; 3].

(* src/table_mc68000.cpp:41-249 MC68000_TABLE, 251-459 MC68000_INDEX *)
Definition t_mc68000_MC68000_TABLE : insn_table := mkIT [
  ("ORI", "E2(ISZ_NONE,M_IMDAT,M_CCR,OP___,OP___,SZ_BYTE)");
  ("ORI", "E2(ISZ_NONE,M_IMDAT,M_SR,OP___,OP___,SZ_WORD)");
  ("ORI", "E2(ISZ_DATA,M_IMDAT,M_WDATA,OP___,OP_10,SZ_DATA)");
  ("ANDI", "E2(ISZ_NONE,M_IMDAT,M_CCR,OP___,OP___,SZ_BYTE)");
  ("ANDI", "E2(ISZ_NONE,M_IMDAT,M_SR,OP___,OP___,SZ_WORD)");
  ("ANDI", "E2(ISZ_DATA,M_IMDAT,M_WDATA,OP___,OP_10,SZ_DATA)");
  ("SUBI", "E2(ISZ_DATA,M_IMDAT,M_WDATA,OP___,OP_10,SZ_DATA)");
  ("ADDI", "E2(ISZ_DATA,M_IMDAT,M_WDATA,OP___,OP_10,SZ_DATA)");
  ("EORI", "E2(ISZ_NONE,M_IMDAT,M_CCR,OP___,OP___,SZ_BYTE)");
  ("EORI", "E2(ISZ_NONE,M_IMDAT,M_SR,OP___,OP___,SZ_WORD)");
  ("EORI", "E2(ISZ_DATA,M_IMDAT,M_WDATA,OP___,OP_10,SZ_DATA)");
  ("CMPI", "E2(ISZ_DATA,M_IMDAT,M_WDATA,OP___,OP_10,SZ_DATA)");
  ("BTST", "E2(ISZ_FIXD,M_IMBIT,M_DREG,OP___,OP__0,SZ_LONG)");
  ("BTST", "E2(ISZ_FIXD,M_IMBIT,M_RMEM,OP___,OP_10,SZ_BYTE)");
  ("BCHG", "E2(ISZ_FIXD,M_IMBIT,M_DREG,OP___,OP__0,SZ_LONG)");
  ("BCHG", "E2(ISZ_FIXD,M_IMBIT,M_WMEM,OP___,OP_10,SZ_BYTE)");
  ("BCLR", "E2(ISZ_FIXD,M_IMBIT,M_DREG,OP___,OP__0,SZ_LONG)");
  ("BCLR", "E2(ISZ_FIXD,M_IMBIT,M_WMEM,OP___,OP_10,SZ_BYTE)");
  ("BSET", "E2(ISZ_FIXD,M_IMBIT,M_DREG,OP___,OP__0,SZ_LONG)");
  ("BSET", "E2(ISZ_FIXD,M_IMBIT,M_WMEM,OP___,OP_10,SZ_BYTE)");
  ("MOVEP", "E2(ISZ_DATA,M_DISP,M_DREG,OP__0,OP__3,SZ_ADDR)");
  ("MOVEP", "E2(ISZ_DATA,M_DREG,M_DISP,OP__3,OP__0,SZ_ADDR)");
  ("BTST", "E2(ISZ_FIXD,M_DREG,M_DREG,OP__3,OP__0,SZ_LONG)");
  ("BTST", "E2(ISZ_FIXD,M_DREG,M_RMEM,OP__3,OP_10,SZ_BYTE)");
  ("BCHG", "E2(ISZ_FIXD,M_DREG,M_DREG,OP__3,OP__0,SZ_LONG)");
  ("BCHG", "E2(ISZ_FIXD,M_DREG,M_WMEM,OP__3,OP_10,SZ_BYTE)");
  ("BCLR", "E2(ISZ_FIXD,M_DREG,M_DREG,OP__3,OP__0,SZ_LONG)");
  ("BCLR", "E2(ISZ_FIXD,M_DREG,M_WMEM,OP__3,OP_10,SZ_BYTE)");
  ("BSET", "E2(ISZ_FIXD,M_DREG,M_DREG,OP__3,OP__0,SZ_LONG)");
  ("BSET", "E2(ISZ_FIXD,M_DREG,M_WMEM,OP__3,OP_10,SZ_BYTE)");
  ("MOVEA", "E2(ISZ_LONG,M_RADDR,M_AREG,OP_10,OP__3,SZ_LONG)");
  ("MOVEA", "E2(ISZ_WORD,M_RADDR,M_AREG,OP_10,OP__3,SZ_WORD)");
  ("MOVEA", "E2(ISZ_FIXD,M_RADDR,M_AREG,OP_10,OP__3,SZ_WORD)");
  ("MOVE", "E2(ISZ_FIXD,M_RDATA,M_CCR,OP_10,OP___,SZ_WORD)");
  ("MOVE", "E2(ISZ_FIXD,M_SR,M_WDATA,OP___,OP_10,SZ_WORD)");
  ("MOVE", "E2(ISZ_FIXD,M_RDATA,M_SR,OP_10,OP___,SZ_WORD)");
  ("MOVE", "E2(ISZ_BYTE,M_RDATA,M_WDATA,OP_10,OP_23,SZ_BYTE)");
  ("MOVE", "E2(ISZ_LONG,M_RADDR,M_WDATA,OP_10,OP_23,SZ_LONG)");
  ("MOVE", "E2(ISZ_WORD,M_RADDR,M_WDATA,OP_10,OP_23,SZ_WORD)");
  ("NEGX", "E1(ISZ_DATA,M_WDATA,OP_10,SZ_DATA)");
  ("CLR", "E1(ISZ_DATA,M_WDATA,OP_10,SZ_DATA)");
  ("NEG", "E1(ISZ_DATA,M_WDATA,OP_10,SZ_DATA)");
  ("NOT", "E1(ISZ_DATA,M_WDATA,OP_10,SZ_DATA)");
  ("EXT", "E1(ISZ_DATA,M_DREG,OP__0,SZ_ADDR)");
  ("NBCD", "E1(ISZ_NONE,M_WDATA,OP_10,SZ_BYTE)");
  ("SWAP", "E1(ISZ_NONE,M_DREG,OP__0,SZ_LONG)");
  ("PEA", "E1(ISZ_NONE,M_JADDR,OP_10,SZ_LONG)");
  ("ILLEGAL", "E0()");
  ("TAS", "E1(ISZ_NONE,M_WDATA,OP_10,SZ_BYTE)");
  ("TST", "E1(ISZ_DATA,M_WDATA,OP_10,SZ_DATA)");
  ("TRAP", "E1(ISZ_NONE,M_IMVEC,OP___,SZ_NONE)");
  ("LINK", "E2(ISZ_NONE,M_AREG,M_IMDSP,OP__0,OP___,SZ_WORD)");
  ("UNLK", "E1(ISZ_NONE,M_AREG,OP__0,SZ_NONE)");
  ("MOVE", "E2(ISZ_NONE,M_AREG,M_USP,OP__0,OP___,SZ_LONG)");
  ("MOVE", "E2(ISZ_NONE,M_USP,M_AREG,OP___,OP__0,SZ_LONG)");
  ("RESET", "E0()");
  ("NOP", "E0()");
  ("STOP", "E1(ISZ_NONE,M_IMDAT,OP___,SZ_WORD)");
  ("RTE", "E0()");
  ("RTS", "E0()");
  ("TRAPV", "E0()");
  ("RTR", "E0()");
  ("JSR", "E1(ISZ_NONE,M_JADDR,OP_10,SZ_WORD)");
  ("JMP", "E1(ISZ_NONE,M_JADDR,OP_10,SZ_WORD)");
  ("MOVEM", "E2(ISZ_DATA,M_MULT,M_DADDR,OP___,OP_10,SZ_ADDR)");
  ("MOVEM", "E2(ISZ_DATA,M_IADDR,M_MULT,OP_10,OP___,SZ_ADDR)");
  ("LEA", "E2(ISZ_NONE,M_JADDR,M_AREG,OP_10,OP__3,SZ_LONG)");
  ("CHK", "E2(ISZ_WORD,M_RDATA,M_DREG,OP_10,OP__3,SZ_WORD)");
  ("DBT", "E2(ISZ_NONE,M_DREG,M_REL16,OP__0,OP___,SZ_WORD)");
  ("DBRA", "E2(ISZ_NONE,M_DREG,M_REL16,OP__0,OP___,SZ_WORD)");
  ("DBF", "E2(ISZ_NONE,M_DREG,M_REL16,OP__0,OP___,SZ_WORD)");
  ("DBHI", "E2(ISZ_NONE,M_DREG,M_REL16,OP__0,OP___,SZ_WORD)");
  ("DBLS", "E2(ISZ_NONE,M_DREG,M_REL16,OP__0,OP___,SZ_WORD)");
  ("DBCC", "E2(ISZ_NONE,M_DREG,M_REL16,OP__0,OP___,SZ_WORD)");
  ("DBHS", "E2(ISZ_NONE,M_DREG,M_REL16,OP__0,OP___,SZ_WORD)");
  ("DBCS", "E2(ISZ_NONE,M_DREG,M_REL16,OP__0,OP___,SZ_WORD)");
  ("DBLO", "E2(ISZ_NONE,M_DREG,M_REL16,OP__0,OP___,SZ_WORD)");
  ("DBNE", "E2(ISZ_NONE,M_DREG,M_REL16,OP__0,OP___,SZ_WORD)");
  ("DBEQ", "E2(ISZ_NONE,M_DREG,M_REL16,OP__0,OP___,SZ_WORD)");
  ("DBVC", "E2(ISZ_NONE,M_DREG,M_REL16,OP__0,OP___,SZ_WORD)");
  ("DBVS", "E2(ISZ_NONE,M_DREG,M_REL16,OP__0,OP___,SZ_WORD)");
  ("DBPL", "E2(ISZ_NONE,M_DREG,M_REL16,OP__0,OP___,SZ_WORD)");
  ("DBMI", "E2(ISZ_NONE,M_DREG,M_REL16,OP__0,OP___,SZ_WORD)");
  ("DBGE", "E2(ISZ_NONE,M_DREG,M_REL16,OP__0,OP___,SZ_WORD)");
  ("DBLT", "E2(ISZ_NONE,M_DREG,M_REL16,OP__0,OP___,SZ_WORD)");
  ("DBGT", "E2(ISZ_NONE,M_DREG,M_REL16,OP__0,OP___,SZ_WORD)");
  ("DBLE", "E2(ISZ_NONE,M_DREG,M_REL16,OP__0,OP___,SZ_WORD)");
  ("ST", "E1(ISZ_NONE,M_WDATA,OP_10,SZ_BYTE)");
  ("SF", "E1(ISZ_NONE,M_WDATA,OP_10,SZ_BYTE)");
  ("SHI", "E1(ISZ_NONE,M_WDATA,OP_10,SZ_BYTE)");
  ("SLS", "E1(ISZ_NONE,M_WDATA,OP_10,SZ_BYTE)");
  ("SCC", "E1(ISZ_NONE,M_WDATA,OP_10,SZ_BYTE)");
  ("SHS", "E1(ISZ_NONE,M_WDATA,OP_10,SZ_BYTE)");
  ("SCS", "E1(ISZ_NONE,M_WDATA,OP_10,SZ_BYTE)");
  ("SLO", "E1(ISZ_NONE,M_WDATA,OP_10,SZ_BYTE)");
  ("SNE", "E1(ISZ_NONE,M_WDATA,OP_10,SZ_BYTE)");
  ("SEQ", "E1(ISZ_NONE,M_WDATA,OP_10,SZ_BYTE)");
  ("SVC", "E1(ISZ_NONE,M_WDATA,OP_10,SZ_BYTE)");
  ("SVS", "E1(ISZ_NONE,M_WDATA,OP_10,SZ_BYTE)");
  ("SPL", "E1(ISZ_NONE,M_WDATA,OP_10,SZ_BYTE)");
  ("SMI", "E1(ISZ_NONE,M_WDATA,OP_10,SZ_BYTE)");
  ("SGE", "E1(ISZ_NONE,M_WDATA,OP_10,SZ_BYTE)");
  ("SLT", "E1(ISZ_NONE,M_WDATA,OP_10,SZ_BYTE)");
  ("SGT", "E1(ISZ_NONE,M_WDATA,OP_10,SZ_BYTE)");
  ("SLE", "E1(ISZ_NONE,M_WDATA,OP_10,SZ_BYTE)");
  ("ADDQ", "E2(ISZ_DATA,M_IM3,M_WADDR,OP___,OP_10,SZ_DATA)");
  ("SUBQ", "E2(ISZ_DATA,M_IM3,M_WADDR,OP___,OP_10,SZ_DATA)");
  ("BRA", "E1(ISZ_NONE,M_REL8,OP___,SZ_BYTE)");
  ("BRA", "E1(ISZ_NONE,M_REL16,OP___,SZ_WORD)");
  ("BT", "E1(ISZ_NONE,M_REL8,OP___,SZ_BYTE)");
  ("BT", "E1(ISZ_NONE,M_REL16,OP___,SZ_WORD)");
  ("BSR", "E1(ISZ_NONE,M_REL8,OP___,SZ_BYTE)");
  ("BSR", "E1(ISZ_NONE,M_REL16,OP___,SZ_WORD)");
  ("BHI", "E1(ISZ_NONE,M_REL8,OP___,SZ_BYTE)");
  ("BHI", "E1(ISZ_NONE,M_REL16,OP___,SZ_WORD)");
  ("BLS", "E1(ISZ_NONE,M_REL8,OP___,SZ_BYTE)");
  ("BLS", "E1(ISZ_NONE,M_REL16,OP___,SZ_WORD)");
  ("BCC", "E1(ISZ_NONE,M_REL8,OP___,SZ_BYTE)");
  ("BCC", "E1(ISZ_NONE,M_REL16,OP___,SZ_WORD)");
  ("BHS", "E1(ISZ_NONE,M_REL8,OP___,SZ_BYTE)");
  ("BHS", "E1(ISZ_NONE,M_REL16,OP___,SZ_WORD)");
  ("BCS", "E1(ISZ_NONE,M_REL8,OP___,SZ_BYTE)");
  ("BCS", "E1(ISZ_NONE,M_REL16,OP___,SZ_WORD)");
  ("BLO", "E1(ISZ_NONE,M_REL8,OP___,SZ_BYTE)");
  ("BLO", "E1(ISZ_NONE,M_REL16,OP___,SZ_WORD)");
  ("BNE", "E1(ISZ_NONE,M_REL8,OP___,SZ_BYTE)");
  ("BNE", "E1(ISZ_NONE,M_REL16,OP___,SZ_WORD)");
  ("BEQ", "E1(ISZ_NONE,M_REL8,OP___,SZ_BYTE)");
  ("BEQ", "E1(ISZ_NONE,M_REL16,OP___,SZ_WORD)");
  ("BVC", "E1(ISZ_NONE,M_REL8,OP___,SZ_BYTE)");
  ("BVC", "E1(ISZ_NONE,M_REL16,OP___,SZ_WORD)");
  ("BVS", "E1(ISZ_NONE,M_REL8,OP___,SZ_BYTE)");
  ("BVS", "E1(ISZ_NONE,M_REL16,OP___,SZ_WORD)");
  ("BPL", "E1(ISZ_NONE,M_REL8,OP___,SZ_BYTE)");
  ("BPL", "E1(ISZ_NONE,M_REL16,OP___,SZ_WORD)");
  ("BMI", "E1(ISZ_NONE,M_REL8,OP___,SZ_BYTE)");
  ("BMI", "E1(ISZ_NONE,M_REL16,OP___,SZ_WORD)");
  ("BGE", "E1(ISZ_NONE,M_REL8,OP___,SZ_BYTE)");
  ("BGE", "E1(ISZ_NONE,M_REL16,OP___,SZ_WORD)");
  ("BLT", "E1(ISZ_NONE,M_REL8,OP___,SZ_BYTE)");
  ("BLT", "E1(ISZ_NONE,M_REL16,OP___,SZ_WORD)");
  ("BGT", "E1(ISZ_NONE,M_REL8,OP___,SZ_BYTE)");
  ("BGT", "E1(ISZ_NONE,M_REL16,OP___,SZ_WORD)");
  ("BLE", "E1(ISZ_NONE,M_REL8,OP___,SZ_BYTE)");
  ("BLE", "E1(ISZ_NONE,M_REL16,OP___,SZ_WORD)");
  ("MOVEQ", "E2(ISZ_NONE,M_IM8,M_DREG,OP___,OP__3,SZ_LONG)");
  ("DIVU", "E2(ISZ_DATA,M_RDATA,M_DREG,OP_10,OP__3,SZ_WORD)");
  ("DIVS", "E2(ISZ_DATA,M_RDATA,M_DREG,OP_10,OP__3,SZ_WORD)");
  ("OR", "E2(ISZ_DATA,M_RDATA,M_DREG,OP_10,OP__3,SZ_DATA)");
  ("SBCD", "E2(ISZ_NONE,M_DREG,M_DREG,OP__0,OP__3,SZ_BYTE)");
  ("SBCD", "E2(ISZ_NONE,M_PDEC,M_PDEC,OP__0,OP__3,SZ_BYTE)");
  ("OR", "E2(ISZ_DATA,M_DREG,M_WMEM,OP__3,OP_10,SZ_DATA)");
  ("SUBA", "E2(ISZ_DATA,M_RADDR,M_AREG,OP_10,OP__3,SZ_ADR8)");
  ("SUBX", "E2(ISZ_DATA,M_DREG,M_DREG,OP__0,OP__3,SZ_DATA)");
  ("SUBX", "E2(ISZ_DATA,M_PDEC,M_PDEC,OP__0,OP__3,SZ_DATA)");
  ("SUB", "E2(ISZ_DATA,M_RADDR,M_DREG,OP_10,OP__3,SZ_DATA)");
  ("SUB", "E2(ISZ_DATA,M_DREG,M_WMEM,OP__3,OP_10,SZ_DATA)");
  ("CMPA", "E2(ISZ_DATA,M_RADDR,M_AREG,OP_10,OP__3,SZ_ADR8)");
  ("CMP", "E2(ISZ_DATA,M_RADDR,M_DREG,OP_10,OP__3,SZ_DATA)");
  ("CMPM", "E2(ISZ_DATA,M_PINC,M_PINC,OP__0,OP__3,SZ_DATA)");
  ("EOR", "E2(ISZ_DATA,M_DREG,M_WDATA,OP__3,OP_10,SZ_DATA)");
  ("MULU", "E2(ISZ_DATA,M_RDATA,M_DREG,OP_10,OP__3,SZ_WORD)");
  ("MULS", "E2(ISZ_DATA,M_RDATA,M_DREG,OP_10,OP__3,SZ_WORD)");
  ("AND", "E2(ISZ_DATA,M_RDATA,M_DREG,OP_10,OP__3,SZ_DATA)");
  ("ABCD", "E2(ISZ_NONE,M_DREG,M_DREG,OP__0,OP__3,SZ_BYTE)");
  ("ABCD", "E2(ISZ_NONE,M_PDEC,M_PDEC,OP__0,OP__3,SZ_BYTE)");
  ("EXG", "E2(ISZ_NONE,M_DREG,M_DREG,OP__3,OP__0,SZ_LONG)");
  ("EXG", "E2(ISZ_NONE,M_AREG,M_AREG,OP__3,OP__0,SZ_LONG)");
  ("EXG", "E2(ISZ_NONE,M_DREG,M_AREG,OP__3,OP__0,SZ_LONG)");
  ("EXG", "E2(ISZ_NONE,M_AREG,M_DREG,OP__0,OP__3,SZ_LONG)");
  ("AND", "E2(ISZ_DATA,M_DREG,M_WMEM,OP__3,OP_10,SZ_DATA)");
  ("ADDA", "E2(ISZ_DATA,M_RADDR,M_AREG,OP_10,OP__3,SZ_ADR8)");
  ("ADDX", "E2(ISZ_DATA,M_DREG,M_DREG,OP__0,OP__3,SZ_DATA)");
  ("ADDX", "E2(ISZ_DATA,M_PDEC,M_PDEC,OP__0,OP__3,SZ_DATA)");
  ("ADD", "E2(ISZ_DATA,M_RADDR,M_DREG,OP_10,OP__3,SZ_DATA)");
  ("ADD", "E2(ISZ_DATA,M_DREG,M_WMEM,OP__3,OP_10,SZ_DATA)");
  ("ASR", "E1(ISZ_DATA,M_WMEM,OP_10,SZ_WORD)");
  ("ASL", "E1(ISZ_DATA,M_WMEM,OP_10,SZ_WORD)");
  ("LSR", "E1(ISZ_DATA,M_WMEM,OP_10,SZ_WORD)");
  ("LSL", "E1(ISZ_DATA,M_WMEM,OP_10,SZ_WORD)");
  ("ROXR", "E1(ISZ_DATA,M_WMEM,OP_10,SZ_WORD)");
  ("ROXL", "E1(ISZ_DATA,M_WMEM,OP_10,SZ_WORD)");
  ("ROR", "E1(ISZ_DATA,M_WMEM,OP_10,SZ_WORD)");
  ("ROL", "E1(ISZ_DATA,M_WMEM,OP_10,SZ_WORD)");
  ("ASR", "E2(ISZ_DATA,M_IM3,M_DREG,OP___,OP__0,SZ_DATA)");
  ("ASR", "E2(ISZ_DATA,M_DREG,M_DREG,OP__3,OP__0,SZ_DATA)");
  ("ASL", "E2(ISZ_DATA,M_IM3,M_DREG,OP___,OP__0,SZ_DATA)");
  ("ASL", "E2(ISZ_DATA,M_DREG,M_DREG,OP__3,OP__0,SZ_DATA)");
  ("LSR", "E2(ISZ_DATA,M_IM3,M_DREG,OP___,OP__0,SZ_DATA)");
  ("LSR", "E2(ISZ_DATA,M_DREG,M_DREG,OP__3,OP__0,SZ_DATA)");
  ("LSL", "E2(ISZ_DATA,M_IM3,M_DREG,OP___,OP__0,SZ_DATA)");
  ("LSL", "E2(ISZ_DATA,M_DREG,M_DREG,OP__3,OP__0,SZ_DATA)");
  ("ROXR", "E2(ISZ_DATA,M_IM3,M_DREG,OP___,OP__0,SZ_DATA)");
  ("ROXR", "E2(ISZ_DATA,M_DREG,M_DREG,OP__3,OP__0,SZ_DATA)");
  ("ROXL", "E2(ISZ_DATA,M_IM3,M_DREG,OP___,OP__0,SZ_DATA)");
  ("ROXL", "E2(ISZ_DATA,M_DREG,M_DREG,OP__3,OP__0,SZ_DATA)");
  ("ROR", "E2(ISZ_DATA,M_IM3,M_DREG,OP___,OP__0,SZ_DATA)");
  ("ROR", "E2(ISZ_DATA,M_DREG,M_DREG,OP__3,OP__0,SZ_DATA)");
  ("ROL", "E2(ISZ_DATA,M_IM3,M_DREG,OP___,OP__0,SZ_DATA)");
  ("ROL", "E2(ISZ_DATA,M_DREG,M_DREG,OP__3,OP__0,SZ_DATA)");
  ("MOVE", "A2(ISZ_LONG,M_RADDR,M_AREG,OP_10,OP__3,SZ_LONG)");
  ("MOVE", "A2(ISZ_WORD,M_RADDR,M_AREG,OP_10,OP__3,SZ_WORD)");
  ("SUB", "A2(ISZ_DATA,M_RADDR,M_AREG,OP_10,OP__3,SZ_ADR8)");
  ("SUBI", "A2(ISZ_DATA,M_IMDAT,M_AREG,OP___,OP__3,SZ_ADR8)");
  ("CMPI", "A2(ISZ_DATA,M_IMDAT,M_AREG,OP___,OP__3,SZ_ADR8)");
  ("ADD", "A2(ISZ_DATA,M_RADDR,M_AREG,OP_10,OP__3,SZ_ADR8)");
  ("ADDI", "A2(ISZ_DATA,M_IMDAT,M_AREG,OP___,OP__3,SZ_ADR8)")]
  [164; 165; 174; 175; 205; 171; 7; 206; 105; 172; 173; 163; 170; 3; 4; 5; 177; 186; 187; 176; 184; 185; 117; 118; 14; 15; 24; 25; 16; 17; 26; 27; 121; 122; 127; 128; 137; 138; 141; 142; 113; 114; 119; 120; 143; 144; 123; 124; 115; 116; 139; 140; 135; 136; 125; 126; 133; 134; 107; 108; 18; 19; 28; 29; 111; 112; 109; 110; 12; 13; 22; 23; 129; 130; 131; 132; 67; 40; 158; 157; 11; 204; 159; 73; 75; 78; 70; 83; 85; 71; 74; 86; 76; 72; 84; 82; 77; 81; 69; 68; 79; 80; 147; 146; 160; 8; 9; 10; 166; 167; 168; 169; 43; 47; 63; 62; 66; 51; 179; 190; 191; 178; 188; 189; 33; 34; 35; 36; 37; 38; 53; 54; 200; 201; 30; 31; 32; 64; 65; 20; 21; 145; 162; 161; 44; 41; 39; 56; 42; 148; 151; 0; 1; 2; 46; 55; 183; 198; 199; 182; 196; 197; 181; 194; 195; 180; 192; 193; 58; 61; 59; 149; 150; 91; 93; 96; 88; 101; 103; 89; 92; 104; 94; 90; 102; 100; 95; 99; 87; 57; 155; 156; 202; 152; 6; 203; 106; 153; 154; 97; 98; 45; 48; 50; 60; 49; 52].

(* src/table_mc68000.cpp:461-471 MC68010_TABLE, 473-483 MC68010_INDEX *)
Definition t_mc68000_MC68010_TABLE : insn_table := mkIT [
  ("RTD", "E1(ISZ_NONE,M_IMDAT,OP___,SZ_WORD)");
  ("MOVEC", "P2(ISZ_NONE,M_CREG,M_DREG,EX_RC,EX_RR,SZ_LONG,0x0000)");
  ("MOVEC", "P2(ISZ_NONE,M_CREG,M_AREG,EX_RC,EX_RR,SZ_LONG,0x8000)");
  ("MOVEC", "P2(ISZ_NONE,M_DREG,M_CREG,EX_RR,EX_RC,SZ_LONG,0x0000)");
  ("MOVEC", "P2(ISZ_NONE,M_AREG,M_CREG,EX_RR,EX_RC,SZ_LONG,0x8000)");
  ("MOVES", "P2(ISZ_DATA,M_WMEM,M_DREG,OP_10,EX_RR,SZ_DATA,0x0000)");
  ("MOVES", "P2(ISZ_DATA,M_WMEM,M_AREG,OP_10,EX_RR,SZ_DATA,0x8000)");
  ("MOVES", "P2(ISZ_DATA,M_DREG,M_WMEM,EX_RR,OP_10,SZ_DATA,0x0800)");
  ("MOVES", "P2(ISZ_DATA,M_AREG,M_WMEM,EX_RR,OP_10,SZ_DATA,0x8800)")]
  [1; 2; 3; 4; 5; 6; 7; 8; 0].

(* src/table_mc68000.cpp:487-619 MC68881_ARITH, 621-753 MC68881_ARITH_INDEX *)
Definition t_mc68000_MC68881_ARITH : insn_table := mkIT [
  ("FMOVE", "P2(ISZ_FIXD,M_FPREG,M_FPREG,EX_RX,EX_RY,SZ_XTND,0x0000)");
  ("FINT", "P2(ISZ_FIXD,M_FPREG,M_FPREG,EX_RX,EX_RY,SZ_XTND,0x0001)");
  ("FSINH", "P2(ISZ_FIXD,M_FPREG,M_FPREG,EX_RX,EX_RY,SZ_XTND,0x0002)");
  ("FINTRZ", "P2(ISZ_FIXD,M_FPREG,M_FPREG,EX_RX,EX_RY,SZ_XTND,0x0003)");
  ("FSQRT", "P2(ISZ_FIXD,M_FPREG,M_FPREG,EX_RX,EX_RY,SZ_XTND,0x0004)");
  ("FLOGNP1", "P2(ISZ_FIXD,M_FPREG,M_FPREG,EX_RX,EX_RY,SZ_XTND,0x0006)");
  ("FETOXM1", "P2(ISZ_FIXD,M_FPREG,M_FPREG,EX_RX,EX_RY,SZ_XTND,0x0008)");
  ("FTANH", "P2(ISZ_FIXD,M_FPREG,M_FPREG,EX_RX,EX_RY,SZ_XTND,0x0009)");
  ("FATAN", "P2(ISZ_FIXD,M_FPREG,M_FPREG,EX_RX,EX_RY,SZ_XTND,0x000A)");
  ("FASIN", "P2(ISZ_FIXD,M_FPREG,M_FPREG,EX_RX,EX_RY,SZ_XTND,0x000C)");
  ("FATANH", "P2(ISZ_FIXD,M_FPREG,M_FPREG,EX_RX,EX_RY,SZ_XTND,0x000D)");
  ("FSIN", "P2(ISZ_FIXD,M_FPREG,M_FPREG,EX_RX,EX_RY,SZ_XTND,0x000E)");
  ("FTAN", "P2(ISZ_FIXD,M_FPREG,M_FPREG,EX_RX,EX_RY,SZ_XTND,0x000F)");
  ("FETOX", "P2(ISZ_FIXD,M_FPREG,M_FPREG,EX_RX,EX_RY,SZ_XTND,0x0010)");
  ("FTWOTOX", "P2(ISZ_FIXD,M_FPREG,M_FPREG,EX_RX,EX_RY,SZ_XTND,0x0011)");
  ("FTENTOX", "P2(ISZ_FIXD,M_FPREG,M_FPREG,EX_RX,EX_RY,SZ_XTND,0x0012)");
  ("FLOGN", "P2(ISZ_FIXD,M_FPREG,M_FPREG,EX_RX,EX_RY,SZ_XTND,0x0014)");
  ("FLOG10", "P2(ISZ_FIXD,M_FPREG,M_FPREG,EX_RX,EX_RY,SZ_XTND,0x0015)");
  ("FLOG2", "P2(ISZ_FIXD,M_FPREG,M_FPREG,EX_RX,EX_RY,SZ_XTND,0x0016)");
  ("FABS", "P2(ISZ_FIXD,M_FPREG,M_FPREG,EX_RX,EX_RY,SZ_XTND,0x0018)");
  ("FCOSH", "P2(ISZ_FIXD,M_FPREG,M_FPREG,EX_RX,EX_RY,SZ_XTND,0x0019)");
  ("FNEG", "P2(ISZ_FIXD,M_FPREG,M_FPREG,EX_RX,EX_RY,SZ_XTND,0x001A)");
  ("FACOS", "P2(ISZ_FIXD,M_FPREG,M_FPREG,EX_RX,EX_RY,SZ_XTND,0x001C)");
  ("FCOS", "P2(ISZ_FIXD,M_FPREG,M_FPREG,EX_RX,EX_RY,SZ_XTND,0x001D)");
  ("FGETEXP", "P2(ISZ_FIXD,M_FPREG,M_FPREG,EX_RX,EX_RY,SZ_XTND,0x001E)");
  ("FGETMAN", "P2(ISZ_FIXD,M_FPREG,M_FPREG,EX_RX,EX_RY,SZ_XTND,0x001F)");
  ("FDIV", "P2(ISZ_FIXD,M_FPREG,M_FPREG,EX_RX,EX_RY,SZ_XTND,0x0020)");
  ("FMOD", "P2(ISZ_FIXD,M_FPREG,M_FPREG,EX_RX,EX_RY,SZ_XTND,0x0021)");
  ("FADD", "P2(ISZ_FIXD,M_FPREG,M_FPREG,EX_RX,EX_RY,SZ_XTND,0x0022)");
  ("FMUL", "P2(ISZ_FIXD,M_FPREG,M_FPREG,EX_RX,EX_RY,SZ_XTND,0x0023)");
  ("FSGLDIV", "P2(ISZ_FIXD,M_FPREG,M_FPREG,EX_RX,EX_RY,SZ_XTND,0x0024)");
  ("FREM", "P2(ISZ_FIXD,M_FPREG,M_FPREG,EX_RX,EX_RY,SZ_XTND,0x0025)");
  ("FSCALE", "P2(ISZ_FIXD,M_FPREG,M_FPREG,EX_RX,EX_RY,SZ_XTND,0x0026)");
  ("FSGLMUL", "P2(ISZ_FIXD,M_FPREG,M_FPREG,EX_RX,EX_RY,SZ_XTND,0x0027)");
  ("FSUB", "P2(ISZ_FIXD,M_FPREG,M_FPREG,EX_RX,EX_RY,SZ_XTND,0x0028)");
  ("FSINCOS", "P2(ISZ_FIXD,M_FPREG,M_FSICO,EX_RX,EX_SC,SZ_XTND,0x0030)");
  ("FCMP", "P2(ISZ_FIXD,M_FPREG,M_FPREG,EX_RX,EX_RY,SZ_XTND,0x0038)");
  ("FTST", "P1(ISZ_FIXD,M_FPREG,EX_RX,SZ_XTND,0x003A)");
  ("FMOVE", "P2(ISZ_FDAT,M_RDATA,M_FPREG,OP_10,EX_RY,SZ_FDAT,0x4000)");
  ("FINT", "P2(ISZ_FDAT,M_RDATA,M_FPREG,OP_10,EX_RY,SZ_FDAT,0x4001)");
  ("FSINH", "P2(ISZ_FDAT,M_RDATA,M_FPREG,OP_10,EX_RY,SZ_FDAT,0x4002)");
  ("FINTRZ", "P2(ISZ_FDAT,M_RDATA,M_FPREG,OP_10,EX_RY,SZ_FDAT,0x4003)");
  ("FSQRT", "P2(ISZ_FDAT,M_RDATA,M_FPREG,OP_10,EX_RY,SZ_FDAT,0x4004)");
  ("FLOGNP1", "P2(ISZ_FDAT,M_RDATA,M_FPREG,OP_10,EX_RY,SZ_FDAT,0x4006)");
  ("FETOXM1", "P2(ISZ_FDAT,M_RDATA,M_FPREG,OP_10,EX_RY,SZ_FDAT,0x4008)");
  ("FTANH", "P2(ISZ_FDAT,M_RDATA,M_FPREG,OP_10,EX_RY,SZ_FDAT,0x4009)");
  ("FATAN", "P2(ISZ_FDAT,M_RDATA,M_FPREG,OP_10,EX_RY,SZ_FDAT,0x400A)");
  ("FASIN", "P2(ISZ_FDAT,M_RDATA,M_FPREG,OP_10,EX_RY,SZ_FDAT,0x400C)");
  ("FATANH", "P2(ISZ_FDAT,M_RDATA,M_FPREG,OP_10,EX_RY,SZ_FDAT,0x400D)");
  ("FSIN", "P2(ISZ_FDAT,M_RDATA,M_FPREG,OP_10,EX_RY,SZ_FDAT,0x400E)");
  ("FTAN", "P2(ISZ_FDAT,M_RDATA,M_FPREG,OP_10,EX_RY,SZ_FDAT,0x400F)");
  ("FETOX", "P2(ISZ_FDAT,M_RDATA,M_FPREG,OP_10,EX_RY,SZ_FDAT,0x4010)");
  ("FTWOTOX", "P2(ISZ_FDAT,M_RDATA,M_FPREG,OP_10,EX_RY,SZ_FDAT,0x4011)");
  ("FTENTOX", "P2(ISZ_FDAT,M_RDATA,M_FPREG,OP_10,EX_RY,SZ_FDAT,0x4012)");
  ("FLOGN", "P2(ISZ_FDAT,M_RDATA,M_FPREG,OP_10,EX_RY,SZ_FDAT,0x4014)");
  ("FLOG10", "P2(ISZ_FDAT,M_RDATA,M_FPREG,OP_10,EX_RY,SZ_FDAT,0x4015)");
  ("FLOG2", "P2(ISZ_FDAT,M_RDATA,M_FPREG,OP_10,EX_RY,SZ_FDAT,0x4016)");
  ("FABS", "P2(ISZ_FDAT,M_RDATA,M_FPREG,OP_10,EX_RY,SZ_FDAT,0x4018)");
  ("FCOSH", "P2(ISZ_FDAT,M_RDATA,M_FPREG,OP_10,EX_RY,SZ_FDAT,0x4019)");
  ("FNEG", "P2(ISZ_FDAT,M_RDATA,M_FPREG,OP_10,EX_RY,SZ_FDAT,0x401A)");
  ("FACOS", "P2(ISZ_FDAT,M_RDATA,M_FPREG,OP_10,EX_RY,SZ_FDAT,0x401C)");
  ("FCOS", "P2(ISZ_FDAT,M_RDATA,M_FPREG,OP_10,EX_RY,SZ_FDAT,0x401D)");
  ("FGETEXP", "P2(ISZ_FDAT,M_RDATA,M_FPREG,OP_10,EX_RY,SZ_FDAT,0x401E)");
  ("FGETMAN", "P2(ISZ_FDAT,M_RDATA,M_FPREG,OP_10,EX_RY,SZ_FDAT,0x401F)");
  ("FDIV", "P2(ISZ_FDAT,M_RDATA,M_FPREG,OP_10,EX_RY,SZ_FDAT,0x4020)");
  ("FMOD", "P2(ISZ_FDAT,M_RDATA,M_FPREG,OP_10,EX_RY,SZ_FDAT,0x4021)");
  ("FADD", "P2(ISZ_FDAT,M_RDATA,M_FPREG,OP_10,EX_RY,SZ_FDAT,0x4022)");
  ("FMUL", "P2(ISZ_FDAT,M_RDATA,M_FPREG,OP_10,EX_RY,SZ_FDAT,0x4023)");
  ("FSGLDIV", "P2(ISZ_FDAT,M_RDATA,M_FPREG,OP_10,EX_RY,SZ_FDAT,0x4024)");
  ("FREM", "P2(ISZ_FDAT,M_RDATA,M_FPREG,OP_10,EX_RY,SZ_FDAT,0x4025)");
  ("FSCALE", "P2(ISZ_FDAT,M_RDATA,M_FPREG,OP_10,EX_RY,SZ_FDAT,0x4026)");
  ("FSGLMUL", "P2(ISZ_FDAT,M_RDATA,M_FPREG,OP_10,EX_RY,SZ_FDAT,0x4027)");
  ("FSUB", "P2(ISZ_FDAT,M_RDATA,M_FPREG,OP_10,EX_RY,SZ_FDAT,0x4028)");
  ("FSINCOS", "P2(ISZ_FDAT,M_RDATA,M_FSICO,OP_10,EX_SC,SZ_FDAT,0x4030)");
  ("FCMP", "P2(ISZ_FDAT,M_RDATA,M_FPREG,OP_10,EX_RY,SZ_FDAT,0x4038)");
  ("FTST", "P1(ISZ_FDAT,M_RDATA,OP_10,SZ_FDAT,0x403A)");
  ("FMOVE", "P2(ISZ_FIXD,M_FPREG,M_KFACT,EX_RY,EX_SK,SZ_PBCD,0x6C00)");
  ("FMOVE", "P2(ISZ_FIXD,M_FPREG,M_KDREG,EX_RY,EX_DK,SZ_PBCD,0x7C00)");
  ("FMOVE", "P2(ISZ_FDAT,M_FPREG,M_WDATA,EX_RY,OP_10,SZ_FDAT,0x6000)");
  ("FMOVE", "P2(ISZ_FIXD,M_RADDR,M_FPIAR,OP_10,OP___,SZ_LONG,0x8400)");
  ("FMOVE", "P2(ISZ_FIXD,M_RADDR,M_FPSR,OP_10,OP___,SZ_LONG,0x8800)");
  ("FMOVE", "P2(ISZ_FIXD,M_RADDR,M_FPCR,OP_10,OP___,SZ_LONG,0x9000)");
  ("FMOVEM", "P2(ISZ_FIXD,M_AREG,M_FPIAR,OP_10,OP___,SZ_LONG,0x8400)");
  ("FMOVEM", "P2(ISZ_FIXD,M_DREG,M_FPIAR,OP_10,OP___,SZ_LONG,0x8400)");
  ("FMOVEM", "P2(ISZ_FIXD,M_DREG,M_FPSR,OP_10,OP___,SZ_LONG,0x8800)");
  ("FMOVEM", "P2(ISZ_FIXD,M_DREG,M_FPCR,OP_10,OP___,SZ_LONG,0x9000)");
  ("FMOVEM", "P2(ISZ_FIXD,M_RADDR,M_FCMLT,OP_10,EX_RX,SZ_LONG,0x8000)");
  ("FMOVE", "P2(ISZ_FIXD,M_FPIAR,M_WADDR,OP___,OP_10,SZ_LONG,0xA400)");
  ("FMOVE", "P2(ISZ_FIXD,M_FPSR,M_WADDR,OP___,OP_10,SZ_LONG,0xA800)");
  ("FMOVE", "P2(ISZ_FIXD,M_FPCR,M_WADDR,OP___,OP_10,SZ_LONG,0xB000)");
  ("FMOVEM", "P2(ISZ_FIXD,M_FPIAR,M_AREG,OP___,OP_10,SZ_LONG,0xA400)");
  ("FMOVEM", "P2(ISZ_FIXD,M_FPIAR,M_DREG,OP___,OP_10,SZ_LONG,0xA400)");
  ("FMOVEM", "P2(ISZ_FIXD,M_FPSR,M_DREG,OP___,OP_10,SZ_LONG,0xA800)");
  ("FMOVEM", "P2(ISZ_FIXD,M_FPCR,M_DREG,OP___,OP_10,SZ_LONG,0xB000)");
  ("FMOVEM", "P2(ISZ_FIXD,M_FCMLT,M_WADDR,EX_RX,OP_10,SZ_LONG,0xA000)");
  ("FMOVEM", "P2(ISZ_FIXD,M_FPMLT,M_DADDR,EX_SL,OP_10,SZ_XTND,0xE000)");
  ("FMOVEM", "P2(ISZ_FIXD,M_DREG,M_DADDR,EX_DL,OP_10,SZ_XTND,0xE800)");
  ("FMOVEM", "P2(ISZ_FIXD,M_FPMLT,M_DADDR,EX_SL,OP_10,SZ_XTND,0xF000)");
  ("FMOVEM", "P2(ISZ_FIXD,M_DREG,M_DADDR,EX_DL,OP_10,SZ_XTND,0xF800)");
  ("FMOVEM", "P2(ISZ_FIXD,M_IADDR,M_FPMLT,OP_10,EX_SL,SZ_XTND,0xC000)");
  ("FMOVEM", "P2(ISZ_FIXD,M_IADDR,M_DREG,OP_10,EX_DL,SZ_XTND,0xC800)");
  ("FMOVEM", "P2(ISZ_FIXD,M_IADDR,M_FPMLT,OP_10,EX_SL,SZ_XTND,0xD000)");
  ("FMOVEM", "P2(ISZ_FIXD,M_IADDR,M_DREG,OP_10,EX_DL,SZ_XTND,0xD800)");
  ("FINT", "P2(ISZ_FIXD,M_FPREG,M_NONE,EX_RX,OP___,SZ_XTND,0x0001)");
  ("FSINH", "P2(ISZ_FIXD,M_FPREG,M_NONE,EX_RX,OP___,SZ_XTND,0x0002)");
  ("FINTRZ", "P2(ISZ_FIXD,M_FPREG,M_NONE,EX_RX,OP___,SZ_XTND,0x0003)");
  ("FSQRT", "P2(ISZ_FIXD,M_FPREG,M_NONE,EX_RX,OP___,SZ_XTND,0x0004)");
  ("FLOGNP1", "P2(ISZ_FIXD,M_FPREG,M_NONE,EX_RX,OP___,SZ_XTND,0x0006)");
  ("FETOXM1", "P2(ISZ_FIXD,M_FPREG,M_NONE,EX_RX,OP___,SZ_XTND,0x0008)");
  ("FTANH", "P2(ISZ_FIXD,M_FPREG,M_NONE,EX_RX,OP___,SZ_XTND,0x0009)");
  ("FATAN", "P2(ISZ_FIXD,M_FPREG,M_NONE,EX_RX,OP___,SZ_XTND,0x000A)");
  ("FASIN", "P2(ISZ_FIXD,M_FPREG,M_NONE,EX_RX,OP___,SZ_XTND,0x000C)");
  ("FATANH", "P2(ISZ_FIXD,M_FPREG,M_NONE,EX_RX,OP___,SZ_XTND,0x000D)");
  ("FSIN", "P2(ISZ_FIXD,M_FPREG,M_NONE,EX_RX,OP___,SZ_XTND,0x000E)");
  ("FTAN", "P2(ISZ_FIXD,M_FPREG,M_NONE,EX_RX,OP___,SZ_XTND,0x000F)");
  ("FETOX", "P2(ISZ_FIXD,M_FPREG,M_NONE,EX_RX,OP___,SZ_XTND,0x0010)");
  ("FTWOTOX", "P2(ISZ_FIXD,M_FPREG,M_NONE,EX_RX,OP___,SZ_XTND,0x0011)");
  ("FTENTOX", "P2(ISZ_FIXD,M_FPREG,M_NONE,EX_RX,OP___,SZ_XTND,0x0012)");
  ("FLOGN", "P2(ISZ_FIXD,M_FPREG,M_NONE,EX_RX,OP___,SZ_XTND,0x0014)");
  ("FLOG10", "P2(ISZ_FIXD,M_FPREG,M_NONE,EX_RX,OP___,SZ_XTND,0x0015)");
  ("FLOG2", "P2(ISZ_FIXD,M_FPREG,M_NONE,EX_RX,OP___,SZ_XTND,0x0016)");
  ("FABS", "P2(ISZ_FIXD,M_FPREG,M_NONE,EX_RX,OP___,SZ_XTND,0x0018)");
  ("FCOSH", "P2(ISZ_FIXD,M_FPREG,M_NONE,EX_RX,OP___,SZ_XTND,0x0019)");
  ("FNEG", "P2(ISZ_FIXD,M_FPREG,M_NONE,EX_RX,OP___,SZ_XTND,0x001A)");
  ("FACOS", "P2(ISZ_FIXD,M_FPREG,M_NONE,EX_RX,OP___,SZ_XTND,0x001C)");
  ("FCOS", "P2(ISZ_FIXD,M_FPREG,M_NONE,EX_RX,OP___,SZ_XTND,0x001D)");
  ("FGETEXP", "P2(ISZ_FIXD,M_FPREG,M_NONE,EX_RX,OP___,SZ_XTND,0x001E)");
  ("FGETMAN", "P2(ISZ_FIXD,M_FPREG,M_NONE,EX_RX,OP___,SZ_XTND,0x001F)");
  ("FMOVECR", "P2(ISZ_FIXD,M_IMROM,M_FPREG,EX_SK,EX_RY,SZ_XTND,0x5C00)");
  ("FSAVE", "E1(ISZ_NONE,M_DADDR,OP_10,SZ_NONE)");
  ("FRESTORE", "E1(ISZ_NONE,M_IADDR,OP_10,SZ_NONE)")]
  [19; 57; 121; 22; 60; 124; 28; 66; 9; 47; 111; 8; 46; 110; 10; 48; 112; 36; 74; 23; 61; 125; 20; 58; 122; 26; 64; 13; 51; 115; 6; 44; 108; 24; 62; 126; 25; 63; 127; 1; 39; 103; 3; 41; 105; 17; 55; 119; 18; 56; 120; 16; 54; 118; 5; 43; 107; 27; 65; 0; 38; 76; 77; 78; 79; 80; 81; 87; 88; 89; 128; 82; 83; 84; 85; 86; 90; 91; 92; 93; 94; 95; 96; 97; 98; 99; 100; 101; 102; 29; 67; 21; 59; 123; 31; 69; 130; 129; 32; 70; 30; 68; 33; 71; 11; 49; 113; 35; 73; 2; 40; 104; 4; 42; 106; 34; 72; 12; 50; 114; 7; 45; 109; 15; 53; 117; 37; 75; 14; 52; 116].

(* src/table_mc68000.cpp:755-852 MC68881_BRANCH, 854-951 MC68881_BRANCH_INDEX *)
Definition t_mc68000_MC68881_BRANCH : insn_table := mkIT [
  ("FBF", "E1(ISZ_NONE,M_REL32,OP___,SZ_LONG)");
  ("FBEQ", "E1(ISZ_NONE,M_REL32,OP___,SZ_LONG)");
  ("FBOGT", "E1(ISZ_NONE,M_REL32,OP___,SZ_LONG)");
  ("FBOGE", "E1(ISZ_NONE,M_REL32,OP___,SZ_LONG)");
  ("FBOLT", "E1(ISZ_NONE,M_REL32,OP___,SZ_LONG)");
  ("FBOLE", "E1(ISZ_NONE,M_REL32,OP___,SZ_LONG)");
  ("FBOGL", "E1(ISZ_NONE,M_REL32,OP___,SZ_LONG)");
  ("FBOR", "E1(ISZ_NONE,M_REL32,OP___,SZ_LONG)");
  ("FBUN", "E1(ISZ_NONE,M_REL32,OP___,SZ_LONG)");
  ("FBUEQ", "E1(ISZ_NONE,M_REL32,OP___,SZ_LONG)");
  ("FBUGT", "E1(ISZ_NONE,M_REL32,OP___,SZ_LONG)");
  ("FBUGE", "E1(ISZ_NONE,M_REL32,OP___,SZ_LONG)");
  ("FBULT", "E1(ISZ_NONE,M_REL32,OP___,SZ_LONG)");
  ("FBULE", "E1(ISZ_NONE,M_REL32,OP___,SZ_LONG)");
  ("FBNE", "E1(ISZ_NONE,M_REL32,OP___,SZ_LONG)");
  ("FBT", "E1(ISZ_NONE,M_REL32,OP___,SZ_LONG)");
  ("FBSF", "E1(ISZ_NONE,M_REL32,OP___,SZ_LONG)");
  ("FBSEQ", "E1(ISZ_NONE,M_REL32,OP___,SZ_LONG)");
  ("FBGT", "E1(ISZ_NONE,M_REL32,OP___,SZ_LONG)");
  ("FBGE", "E1(ISZ_NONE,M_REL32,OP___,SZ_LONG)");
  ("FBLT", "E1(ISZ_NONE,M_REL32,OP___,SZ_LONG)");
  ("FBLE", "E1(ISZ_NONE,M_REL32,OP___,SZ_LONG)");
  ("FBGL", "E1(ISZ_NONE,M_REL32,OP___,SZ_LONG)");
  ("FBGLE", "E1(ISZ_NONE,M_REL32,OP___,SZ_LONG)");
  ("FBNGLE", "E1(ISZ_NONE,M_REL32,OP___,SZ_LONG)");
  ("FBNGL", "E1(ISZ_NONE,M_REL32,OP___,SZ_LONG)");
  ("FBNLE", "E1(ISZ_NONE,M_REL32,OP___,SZ_LONG)");
  ("FBNLT", "E1(ISZ_NONE,M_REL32,OP___,SZ_LONG)");
  ("FBNGE", "E1(ISZ_NONE,M_REL32,OP___,SZ_LONG)");
  ("FBNGT", "E1(ISZ_NONE,M_REL32,OP___,SZ_LONG)");
  ("FBSNE", "E1(ISZ_NONE,M_REL32,OP___,SZ_LONG)");
  ("FBST", "E1(ISZ_NONE,M_REL32,OP___,SZ_LONG)");
  ("FBF", "E1(ISZ_NONE,M_REL16,OP___,SZ_WORD)");
  ("FBEQ", "E1(ISZ_NONE,M_REL16,OP___,SZ_WORD)");
  ("FBOGT", "E1(ISZ_NONE,M_REL16,OP___,SZ_WORD)");
  ("FBOGE", "E1(ISZ_NONE,M_REL16,OP___,SZ_WORD)");
  ("FBOLT", "E1(ISZ_NONE,M_REL16,OP___,SZ_WORD)");
  ("FBOLE", "E1(ISZ_NONE,M_REL16,OP___,SZ_WORD)");
  ("FBOGL", "E1(ISZ_NONE,M_REL16,OP___,SZ_WORD)");
  ("FBOR", "E1(ISZ_NONE,M_REL16,OP___,SZ_WORD)");
  ("FBUN", "E1(ISZ_NONE,M_REL16,OP___,SZ_WORD)");
  ("FBUEQ", "E1(ISZ_NONE,M_REL16,OP___,SZ_WORD)");
  ("FBUGT", "E1(ISZ_NONE,M_REL16,OP___,SZ_WORD)");
  ("FBUGE", "E1(ISZ_NONE,M_REL16,OP___,SZ_WORD)");
  ("FBULT", "E1(ISZ_NONE,M_REL16,OP___,SZ_WORD)");
  ("FBULE", "E1(ISZ_NONE,M_REL16,OP___,SZ_WORD)");
  ("FBNE", "E1(ISZ_NONE,M_REL16,OP___,SZ_WORD)");
  ("FBT", "E1(ISZ_NONE,M_REL16,OP___,SZ_WORD)");
  ("FBSF", "E1(ISZ_NONE,M_REL16,OP___,SZ_WORD)");
  ("FBSEQ", "E1(ISZ_NONE,M_REL16,OP___,SZ_WORD)");
  ("FBGT", "E1(ISZ_NONE,M_REL16,OP___,SZ_WORD)");
  ("FBGE", "E1(ISZ_NONE,M_REL16,OP___,SZ_WORD)");
  ("FBLT", "E1(ISZ_NONE,M_REL16,OP___,SZ_WORD)");
  ("FBLE", "E1(ISZ_NONE,M_REL16,OP___,SZ_WORD)");
  ("FBGL", "E1(ISZ_NONE,M_REL16,OP___,SZ_WORD)");
  ("FBGLE", "E1(ISZ_NONE,M_REL16,OP___,SZ_WORD)");
  ("FBNGLE", "E1(ISZ_NONE,M_REL16,OP___,SZ_WORD)");
  ("FBNGL", "E1(ISZ_NONE,M_REL16,OP___,SZ_WORD)");
  ("FBNLE", "E1(ISZ_NONE,M_REL16,OP___,SZ_WORD)");
  ("FBNLT", "E1(ISZ_NONE,M_REL16,OP___,SZ_WORD)");
  ("FBNGE", "E1(ISZ_NONE,M_REL16,OP___,SZ_WORD)");
  ("FBNGT", "E1(ISZ_NONE,M_REL16,OP___,SZ_WORD)");
  ("FBSNE", "E1(ISZ_NONE,M_REL16,OP___,SZ_WORD)");
  ("FBST", "E1(ISZ_NONE,M_REL16,OP___,SZ_WORD)");
  ("FDBF", "P2(ISZ_NONE,M_DREG,M_REL16,OP__0,OP___,SZ_WORD,0x0000)");
  ("FDBEQ", "P2(ISZ_NONE,M_DREG,M_REL16,OP__0,OP___,SZ_WORD,0x0001)");
  ("FDBOGT", "P2(ISZ_NONE,M_DREG,M_REL16,OP__0,OP___,SZ_WORD,0x0002)");
  ("FDBOGE", "P2(ISZ_NONE,M_DREG,M_REL16,OP__0,OP___,SZ_WORD,0x0003)");
  ("FDBOLT", "P2(ISZ_NONE,M_DREG,M_REL16,OP__0,OP___,SZ_WORD,0x0004)");
  ("FDBOLE", "P2(ISZ_NONE,M_DREG,M_REL16,OP__0,OP___,SZ_WORD,0x0005)");
  ("FDBOGL", "P2(ISZ_NONE,M_DREG,M_REL16,OP__0,OP___,SZ_WORD,0x0006)");
  ("FDBOR", "P2(ISZ_NONE,M_DREG,M_REL16,OP__0,OP___,SZ_WORD,0x0007)");
  ("FDBUN", "P2(ISZ_NONE,M_DREG,M_REL16,OP__0,OP___,SZ_WORD,0x0008)");
  ("FDBUEQ", "P2(ISZ_NONE,M_DREG,M_REL16,OP__0,OP___,SZ_WORD,0x0009)");
  ("FDBUGT", "P2(ISZ_NONE,M_DREG,M_REL16,OP__0,OP___,SZ_WORD,0x000A)");
  ("FDBUGE", "P2(ISZ_NONE,M_DREG,M_REL16,OP__0,OP___,SZ_WORD,0x000B)");
  ("FDBULT", "P2(ISZ_NONE,M_DREG,M_REL16,OP__0,OP___,SZ_WORD,0x000C)");
  ("FDBULE", "P2(ISZ_NONE,M_DREG,M_REL16,OP__0,OP___,SZ_WORD,0x000D)");
  ("FDBNE", "P2(ISZ_NONE,M_DREG,M_REL16,OP__0,OP___,SZ_WORD,0x000E)");
  ("FDBT", "P2(ISZ_NONE,M_DREG,M_REL16,OP__0,OP___,SZ_WORD,0x000F)");
  ("FDBSF", "P2(ISZ_NONE,M_DREG,M_REL16,OP__0,OP___,SZ_WORD,0x0010)");
  ("FDBSEQ", "P2(ISZ_NONE,M_DREG,M_REL16,OP__0,OP___,SZ_WORD,0x0011)");
  ("FDBGT", "P2(ISZ_NONE,M_DREG,M_REL16,OP__0,OP___,SZ_WORD,0x0012)");
  ("FDBGE", "P2(ISZ_NONE,M_DREG,M_REL16,OP__0,OP___,SZ_WORD,0x0013)");
  ("FDBLT", "P2(ISZ_NONE,M_DREG,M_REL16,OP__0,OP___,SZ_WORD,0x0014)");
  ("FDBLE", "P2(ISZ_NONE,M_DREG,M_REL16,OP__0,OP___,SZ_WORD,0x0015)");
  ("FDBGL", "P2(ISZ_NONE,M_DREG,M_REL16,OP__0,OP___,SZ_WORD,0x0016)");
  ("FDBGLE", "P2(ISZ_NONE,M_DREG,M_REL16,OP__0,OP___,SZ_WORD,0x0017)");
  ("FDBNGLE", "P2(ISZ_NONE,M_DREG,M_REL16,OP__0,OP___,SZ_WORD,0x0018)");
  ("FDBNGL", "P2(ISZ_NONE,M_DREG,M_REL16,OP__0,OP___,SZ_WORD,0x0019)");
  ("FDBNLE", "P2(ISZ_NONE,M_DREG,M_REL16,OP__0,OP___,SZ_WORD,0x001A)");
  ("FDBNLT", "P2(ISZ_NONE,M_DREG,M_REL16,OP__0,OP___,SZ_WORD,0x001B)");
  ("FDBNGE", "P2(ISZ_NONE,M_DREG,M_REL16,OP__0,OP___,SZ_WORD,0x001C)");
  ("FDBNGT", "P2(ISZ_NONE,M_DREG,M_REL16,OP__0,OP___,SZ_WORD,0x001D)");
  ("FDBSNE", "P2(ISZ_NONE,M_DREG,M_REL16,OP__0,OP___,SZ_WORD,0x001E)");
  ("FDBST", "P2(ISZ_NONE,M_DREG,M_REL16,OP__0,OP___,SZ_WORD,0x001F)")]
  [1; 33; 0; 32; 19; 51; 22; 54; 23; 55; 18; 50; 21; 53; 20; 52; 14; 46; 28; 60; 25; 57; 24; 56; 29; 61; 26; 58; 27; 59; 3; 35; 6; 38; 2; 34; 5; 37; 4; 36; 7; 39; 17; 49; 16; 48; 30; 62; 31; 63; 15; 47; 9; 41; 11; 43; 10; 42; 13; 45; 12; 44; 8; 40; 65; 64; 83; 86; 87; 82; 85; 84; 78; 92; 89; 88; 93; 90; 91; 67; 70; 66; 69; 68; 71; 81; 80; 94; 95; 79; 73; 75; 74; 77; 76; 72].

(* src/table_mc68000.cpp:953-1082 MC68881_TRAP, 1084-1213 MC68881_TRAP_INDEX *)
Definition t_mc68000_MC68881_TRAP : insn_table := mkIT [
  ("FSF", "P1(ISZ_NONE,M_WDATA,OP_10,SZ_BYTE,0x0000)");
  ("FSEQ", "P1(ISZ_NONE,M_WDATA,OP_10,SZ_BYTE,0x0001)");
  ("FSOGT", "P1(ISZ_NONE,M_WDATA,OP_10,SZ_BYTE,0x0002)");
  ("FSOGE", "P1(ISZ_NONE,M_WDATA,OP_10,SZ_BYTE,0x0003)");
  ("FSOLT", "P1(ISZ_NONE,M_WDATA,OP_10,SZ_BYTE,0x0004)");
  ("FSOLE", "P1(ISZ_NONE,M_WDATA,OP_10,SZ_BYTE,0x0005)");
  ("FSOGL", "P1(ISZ_NONE,M_WDATA,OP_10,SZ_BYTE,0x0006)");
  ("FSOR", "P1(ISZ_NONE,M_WDATA,OP_10,SZ_BYTE,0x0007)");
  ("FSUN", "P1(ISZ_NONE,M_WDATA,OP_10,SZ_BYTE,0x0008)");
  ("FSUEQ", "P1(ISZ_NONE,M_WDATA,OP_10,SZ_BYTE,0x0009)");
  ("FSUGT", "P1(ISZ_NONE,M_WDATA,OP_10,SZ_BYTE,0x000A)");
  ("FSUGE", "P1(ISZ_NONE,M_WDATA,OP_10,SZ_BYTE,0x000B)");
  ("FSULT", "P1(ISZ_NONE,M_WDATA,OP_10,SZ_BYTE,0x000C)");
  ("FSULE", "P1(ISZ_NONE,M_WDATA,OP_10,SZ_BYTE,0x000D)");
  ("FSNE", "P1(ISZ_NONE,M_WDATA,OP_10,SZ_BYTE,0x000E)");
  ("FST", "P1(ISZ_NONE,M_WDATA,OP_10,SZ_BYTE,0x000F)");
  ("FSSF", "P1(ISZ_NONE,M_WDATA,OP_10,SZ_BYTE,0x0010)");
  ("FSSEQ", "P1(ISZ_NONE,M_WDATA,OP_10,SZ_BYTE,0x0011)");
  ("FSGT", "P1(ISZ_NONE,M_WDATA,OP_10,SZ_BYTE,0x0012)");
  ("FSGE", "P1(ISZ_NONE,M_WDATA,OP_10,SZ_BYTE,0x0013)");
  ("FSLT", "P1(ISZ_NONE,M_WDATA,OP_10,SZ_BYTE,0x0014)");
  ("FSLE", "P1(ISZ_NONE,M_WDATA,OP_10,SZ_BYTE,0x0015)");
  ("FSGL", "P1(ISZ_NONE,M_WDATA,OP_10,SZ_BYTE,0x0016)");
  ("FSGLE", "P1(ISZ_NONE,M_WDATA,OP_10,SZ_BYTE,0x0017)");
  ("FSNGLE", "P1(ISZ_NONE,M_WDATA,OP_10,SZ_BYTE,0x0018)");
  ("FSNGL", "P1(ISZ_NONE,M_WDATA,OP_10,SZ_BYTE,0x0019)");
  ("FSNLE", "P1(ISZ_NONE,M_WDATA,OP_10,SZ_BYTE,0x001A)");
  ("FSNLT", "P1(ISZ_NONE,M_WDATA,OP_10,SZ_BYTE,0x001B)");
  ("FSNGE", "P1(ISZ_NONE,M_WDATA,OP_10,SZ_BYTE,0x001C)");
  ("FSNGT", "P1(ISZ_NONE,M_WDATA,OP_10,SZ_BYTE,0x001D)");
  ("FSSNE", "P1(ISZ_NONE,M_WDATA,OP_10,SZ_BYTE,0x001E)");
  ("FSST", "P1(ISZ_NONE,M_WDATA,OP_10,SZ_BYTE,0x001F)");
  ("FTRAPF", "P1(ISZ_FIXD,M_IMDAT,OP___,SZ_WORD,0x0000)");
  ("FTRAPEQ", "P1(ISZ_FIXD,M_IMDAT,OP___,SZ_WORD,0x0001)");
  ("FTRAPOGT", "P1(ISZ_FIXD,M_IMDAT,OP___,SZ_WORD,0x0002)");
  ("FTRAPOGE", "P1(ISZ_FIXD,M_IMDAT,OP___,SZ_WORD,0x0003)");
  ("FTRAPOLT", "P1(ISZ_FIXD,M_IMDAT,OP___,SZ_WORD,0x0004)");
  ("FTRAPOLE", "P1(ISZ_FIXD,M_IMDAT,OP___,SZ_WORD,0x0005)");
  ("FTRAPOGL", "P1(ISZ_FIXD,M_IMDAT,OP___,SZ_WORD,0x0006)");
  ("FTRAPOR", "P1(ISZ_FIXD,M_IMDAT,OP___,SZ_WORD,0x0007)");
  ("FTRAPUN", "P1(ISZ_FIXD,M_IMDAT,OP___,SZ_WORD,0x0008)");
  ("FTRAPUEQ", "P1(ISZ_FIXD,M_IMDAT,OP___,SZ_WORD,0x0009)");
  ("FTRAPUGT", "P1(ISZ_FIXD,M_IMDAT,OP___,SZ_WORD,0x000A)");
  ("FTRAPUGE", "P1(ISZ_FIXD,M_IMDAT,OP___,SZ_WORD,0x000B)");
  ("FTRAPULT", "P1(ISZ_FIXD,M_IMDAT,OP___,SZ_WORD,0x000C)");
  ("FTRAPULE", "P1(ISZ_FIXD,M_IMDAT,OP___,SZ_WORD,0x000D)");
  ("FTRAPNE", "P1(ISZ_FIXD,M_IMDAT,OP___,SZ_WORD,0x000E)");
  ("FTRAPT", "P1(ISZ_FIXD,M_IMDAT,OP___,SZ_WORD,0x000F)");
  ("FTRAPSF", "P1(ISZ_FIXD,M_IMDAT,OP___,SZ_WORD,0x0010)");
  ("FTRAPSEQ", "P1(ISZ_FIXD,M_IMDAT,OP___,SZ_WORD,0x0011)");
  ("FTRAPGT", "P1(ISZ_FIXD,M_IMDAT,OP___,SZ_WORD,0x0012)");
  ("FTRAPGE", "P1(ISZ_FIXD,M_IMDAT,OP___,SZ_WORD,0x0013)");
  ("FTRAPLT", "P1(ISZ_FIXD,M_IMDAT,OP___,SZ_WORD,0x0014)");
  ("FTRAPLE", "P1(ISZ_FIXD,M_IMDAT,OP___,SZ_WORD,0x0015)");
  ("FTRAPGL", "P1(ISZ_FIXD,M_IMDAT,OP___,SZ_WORD,0x0016)");
  ("FTRAPGLE", "P1(ISZ_FIXD,M_IMDAT,OP___,SZ_WORD,0x0017)");
  ("FTRAPNGLE", "P1(ISZ_FIXD,M_IMDAT,OP___,SZ_WORD,0x0018)");
  ("FTRAPNGL", "P1(ISZ_FIXD,M_IMDAT,OP___,SZ_WORD,0x0019)");
  ("FTRAPNLE", "P1(ISZ_FIXD,M_IMDAT,OP___,SZ_WORD,0x001A)");
  ("FTRAPNLT", "P1(ISZ_FIXD,M_IMDAT,OP___,SZ_WORD,0x001B)");
  ("FTRAPNGE", "P1(ISZ_FIXD,M_IMDAT,OP___,SZ_WORD,0x001C)");
  ("FTRAPNGT", "P1(ISZ_FIXD,M_IMDAT,OP___,SZ_WORD,0x001D)");
  ("FTRAPSNE", "P1(ISZ_FIXD,M_IMDAT,OP___,SZ_WORD,0x001E)");
  ("FTRAPST", "P1(ISZ_FIXD,M_IMDAT,OP___,SZ_WORD,0x001F)");
  ("FTRAPF", "P1(ISZ_FIXD,M_IMDAT,OP___,SZ_LONG,0x0000)");
  ("FTRAPEQ", "P1(ISZ_FIXD,M_IMDAT,OP___,SZ_LONG,0x0001)");
  ("FTRAPOGT", "P1(ISZ_FIXD,M_IMDAT,OP___,SZ_LONG,0x0002)");
  ("FTRAPOGE", "P1(ISZ_FIXD,M_IMDAT,OP___,SZ_LONG,0x0003)");
  ("FTRAPOLT", "P1(ISZ_FIXD,M_IMDAT,OP___,SZ_LONG,0x0004)");
  ("FTRAPOLE", "P1(ISZ_FIXD,M_IMDAT,OP___,SZ_LONG,0x0005)");
  ("FTRAPOGL", "P1(ISZ_FIXD,M_IMDAT,OP___,SZ_LONG,0x0006)");
  ("FTRAPOR", "P1(ISZ_FIXD,M_IMDAT,OP___,SZ_LONG,0x0007)");
  ("FTRAPUN", "P1(ISZ_FIXD,M_IMDAT,OP___,SZ_LONG,0x0008)");
  ("FTRAPUEQ", "P1(ISZ_FIXD,M_IMDAT,OP___,SZ_LONG,0x0009)");
  ("FTRAPUGT", "P1(ISZ_FIXD,M_IMDAT,OP___,SZ_LONG,0x000A)");
  ("FTRAPUGE", "P1(ISZ_FIXD,M_IMDAT,OP___,SZ_LONG,0x000B)");
  ("FTRAPULT", "P1(ISZ_FIXD,M_IMDAT,OP___,SZ_LONG,0x000C)");
  ("FTRAPULE", "P1(ISZ_FIXD,M_IMDAT,OP___,SZ_LONG,0x000D)");
  ("FTRAPNE", "P1(ISZ_FIXD,M_IMDAT,OP___,SZ_LONG,0x000E)");
  ("FTRAPT", "P1(ISZ_FIXD,M_IMDAT,OP___,SZ_LONG,0x000F)");
  ("FTRAPSF", "P1(ISZ_FIXD,M_IMDAT,OP___,SZ_LONG,0x0010)");
  ("FTRAPSEQ", "P1(ISZ_FIXD,M_IMDAT,OP___,SZ_LONG,0x0011)");
  ("FTRAPGT", "P1(ISZ_FIXD,M_IMDAT,OP___,SZ_LONG,0x0012)");
  ("FTRAPGE", "P1(ISZ_FIXD,M_IMDAT,OP___,SZ_LONG,0x0013)");
  ("FTRAPLT", "P1(ISZ_FIXD,M_IMDAT,OP___,SZ_LONG,0x0014)");
  ("FTRAPLE", "P1(ISZ_FIXD,M_IMDAT,OP___,SZ_LONG,0x0015)");
  ("FTRAPGL", "P1(ISZ_FIXD,M_IMDAT,OP___,SZ_LONG,0x0016)");
  ("FTRAPGLE", "P1(ISZ_FIXD,M_IMDAT,OP___,SZ_LONG,0x0017)");
  ("FTRAPNGLE", "P1(ISZ_FIXD,M_IMDAT,OP___,SZ_LONG,0x0018)");
  ("FTRAPNGL", "P1(ISZ_FIXD,M_IMDAT,OP___,SZ_LONG,0x0019)");
  ("FTRAPNLE", "P1(ISZ_FIXD,M_IMDAT,OP___,SZ_LONG,0x001A)");
  ("FTRAPNLT", "P1(ISZ_FIXD,M_IMDAT,OP___,SZ_LONG,0x001B)");
  ("FTRAPNGE", "P1(ISZ_FIXD,M_IMDAT,OP___,SZ_LONG,0x001C)");
  ("FTRAPNGT", "P1(ISZ_FIXD,M_IMDAT,OP___,SZ_LONG,0x001D)");
  ("FTRAPSNE", "P1(ISZ_FIXD,M_IMDAT,OP___,SZ_LONG,0x001E)");
  ("FTRAPST", "P1(ISZ_FIXD,M_IMDAT,OP___,SZ_LONG,0x001F)");
  ("FTRAPF", "P0(0x0000)");
  ("FTRAPEQ", "P0(0x0001)");
  ("FTRAPOGT", "P0(0x0002)");
  ("FTRAPOGE", "P0(0x0003)");
  ("FTRAPOLT", "P0(0x0004)");
  ("FTRAPOLE", "P0(0x0005)");
  ("FTRAPOGL", "P0(0x0006)");
  ("FTRAPOR", "P0(0x0007)");
  ("FTRAPUN", "P0(0x0008)");
  ("FTRAPUEQ", "P0(0x0009)");
  ("FTRAPUGT", "P0(0x000A)");
  ("FTRAPUGE", "P0(0x000B)");
  ("FTRAPULT", "P0(0x000C)");
  ("FTRAPULE", "P0(0x000D)");
  ("FTRAPNE", "P0(0x000E)");
  ("FTRAPT", "P0(0x000F)");
  ("FTRAPSF", "P0(0x0010)");
  ("FTRAPSEQ", "P0(0x0011)");
  ("FTRAPGT", "P0(0x0012)");
  ("FTRAPGE", "P0(0x0013)");
  ("FTRAPLT", "P0(0x0014)");
  ("FTRAPLE", "P0(0x0015)");
  ("FTRAPGL", "P0(0x0016)");
  ("FTRAPGLE", "P0(0x0017)");
  ("FTRAPNGLE", "P0(0x0018)");
  ("FTRAPNGL", "P0(0x0019)");
  ("FTRAPNLE", "P0(0x001A)");
  ("FTRAPNLT", "P0(0x001B)");
  ("FTRAPNGE", "P0(0x001C)");
  ("FTRAPNGT", "P0(0x001D)");
  ("FTRAPSNE", "P0(0x001E)");
  ("FTRAPST", "P0(0x001F)")]
  [1; 0; 19; 22; 23; 18; 21; 20; 14; 28; 25; 24; 29; 26; 27; 3; 6; 2; 5; 4; 7; 17; 16; 30; 31; 15; 9; 11; 10; 13; 12; 8; 33; 65; 97; 32; 64; 96; 51; 83; 115; 54; 86; 118; 55; 87; 119; 50; 82; 114; 53; 85; 117; 52; 84; 116; 46; 78; 110; 60; 92; 124; 57; 89; 121; 56; 88; 120; 61; 93; 125; 58; 90; 122; 59; 91; 123; 35; 67; 99; 38; 70; 102; 34; 66; 98; 37; 69; 101; 36; 68; 100; 39; 71; 103; 49; 81; 113; 48; 80; 112; 62; 94; 126; 63; 95; 127; 47; 79; 111; 41; 73; 105; 43; 75; 107; 42; 74; 106; 45; 77; 109; 44; 76; 108; 40; 72; 104].

(* src/table_mc6805.cpp:36-127 MC6805_TABLE, 129-220 MC6805_INDEX *)
Definition t_mc6805_MC6805_TABLE : insn_table := mkIT [
  ("BRA", "E1(M_REL)");
  ("BRN", "E1(M_REL)");
  ("BHI", "E1(M_REL)");
  ("BLS", "E1(M_REL)");
  ("BHS", "E1(M_REL)");
  ("BCC", "E1(M_REL)");
  ("BLO", "E1(M_REL)");
  ("BCS", "E1(M_REL)");
  ("BNE", "E1(M_REL)");
  ("BEQ", "E1(M_REL)");
  ("BHCC", "E1(M_REL)");
  ("BHCS", "E1(M_REL)");
  ("BPL", "E1(M_REL)");
  ("BMI", "E1(M_REL)");
  ("BMC", "E1(M_REL)");
  ("BMS", "E1(M_REL)");
  ("BIL", "E1(M_REL)");
  ("BIH", "E1(M_REL)");
  ("NEG", "E1(M_MEM)");
  ("COM", "E1(M_MEM)");
  ("LSR", "E1(M_MEM)");
  ("ROR", "E1(M_MEM)");
  ("ASR", "E1(M_MEM)");
  ("ASL", "E1(M_MEM)");
  ("LSL", "E1(M_MEM)");
  ("ROL", "E1(M_MEM)");
  ("DEC", "E1(M_MEM)");
  ("INC", "E1(M_MEM)");
  ("TST", "E1(M_MEM)");
  ("CLR", "E1(M_MEM)");
  ("NEGA", "E0()");
  ("COMA", "E0()");
  ("LSRA", "E0()");
  ("RORA", "E0()");
  ("ASRA", "E0()");
  ("ASLA", "E0()");
  ("LSLA", "E0()");
  ("ROLA", "E0()");
  ("DECA", "E0()");
  ("INCA", "E0()");
  ("TSTA", "E0()");
  ("CLRA", "E0()");
  ("NEGX", "E0()");
  ("COMX", "E0()");
  ("LSRX", "E0()");
  ("RORX", "E0()");
  ("ASRX", "E0()");
  ("ASLX", "E0()");
  ("LSLX", "E0()");
  ("ROLX", "E0()");
  ("DECX", "E0()");
  ("INCX", "E0()");
  ("TSTX", "E0()");
  ("CLRX", "E0()");
  ("SUB", "E1(M_GEN)");
  ("CMP", "E1(M_GEN)");
  ("SBC", "E1(M_GEN)");
  ("CPX", "E1(M_GEN)");
  ("AND", "E1(M_GEN)");
  ("BIT", "E1(M_GEN)");
  ("LDA", "E1(M_GEN)");
  ("STA", "U1(M_IMM)");
  ("STA", "E1(M_GEN)");
  ("EOR", "E1(M_GEN)");
  ("ADC", "E1(M_GEN)");
  ("ORA", "E1(M_GEN)");
  ("ADD", "E1(M_GEN)");
  ("JMP", "U1(M_IMM)");
  ("JMP", "E1(M_GEN)");
  ("LDX", "E1(M_GEN)");
  ("STX", "U1(M_IMM)");
  ("STX", "E1(M_GEN)");
  ("BSR", "E1(M_REL)");
  ("JSR", "U1(M_IMM)");
  ("JSR", "E1(M_GEN)");
  ("RTI", "E0()");
  ("RTS", "E0()");
  ("SWI", "E0()");
  ("TAX", "E0()");
  ("CLC", "E0()");
  ("SEC", "E0()");
  ("CLI", "E0()");
  ("SEI", "E0()");
  ("RSP", "E0()");
  ("NOP", "E0()");
  ("TXA", "E0()");
  ("BSET", "E2(M_BNO,M_DIR)");
  ("BCLR", "E2(M_BNO,M_DIR)");
  ("BRSET", "E3(M_BNO,M_DIR,M_REL)");
  ("BRCLR", "E3(M_BNO,M_DIR,M_REL)")]
  [64; 66; 58; 23; 35; 47; 22; 34; 46; 5; 87; 7; 9; 10; 11; 2; 4; 17; 16; 59; 6; 3; 14; 13; 15; 8; 12; 0; 89; 1; 88; 86; 72; 79; 81; 29; 41; 53; 55; 19; 31; 43; 57; 26; 38; 50; 63; 27; 39; 51; 67; 68; 73; 74; 60; 69; 24; 36; 48; 20; 32; 44; 18; 30; 42; 84; 65; 25; 37; 49; 21; 33; 45; 83; 75; 76; 56; 80; 82; 61; 62; 70; 71; 54; 77; 78; 28; 40; 52; 85].

(* src/table_mc6805.cpp:222-225 MC146805_TABLE, 227-230 MC146805_INDEX *)
Definition t_mc6805_MC146805_TABLE : insn_table := mkIT [
  ("STOP", "E0()");
  ("WAIT", "E0()")]
  [0; 1].

(* src/table_mc6805.cpp:232-234 MC68HC05_TABLE, 236-238 MC68HC05_INDEX *)
Definition t_mc6805_MC68HC05_TABLE : insn_table := mkIT [
  ("MUL", "E0()")]
  [0].

(* src/table_mc6809.cpp:35-153 MC6809_P00, 155-273 MC6809_I00 *)
Definition t_mc6809_MC6809_P00 : insn_table := mkIT [
  ("NEG", "E1(M_GMEM)");
  ("COM", "E1(M_GMEM)");
  ("LSR", "E1(M_GMEM)");
  ("ROR", "E1(M_GMEM)");
  ("ASR", "E1(M_GMEM)");
  ("ASL", "E1(M_GMEM)");
  ("LSL", "E1(M_GMEM)");
  ("ROL", "E1(M_GMEM)");
  ("DEC", "E1(M_GMEM)");
  ("INC", "E1(M_GMEM)");
  ("TST", "E1(M_GMEM)");
  ("JMP", "E1(M_GMEM)");
  ("CLR", "E1(M_GMEM)");
  ("NOP", "E0()");
  ("SYNC", "E0()");
  ("LBRA", "E1(M_LREL)");
  ("LBSR", "E1(M_LREL)");
  ("DAA", "E0()");
  ("ORCC", "E1(M_IM8)");
  ("ANDCC", "E1(M_IM8)");
  ("SEX", "E0()");
  ("EXG", "E1(M_PAIR)");
  ("TFR", "E1(M_PAIR)");
  ("BRA", "E1(M_REL)");
  ("BRN", "E1(M_REL)");
  ("BHI", "E1(M_REL)");
  ("BLS", "E1(M_REL)");
  ("BHS", "E1(M_REL)");
  ("BCC", "E1(M_REL)");
  ("BLO", "E1(M_REL)");
  ("BCS", "E1(M_REL)");
  ("BNE", "E1(M_REL)");
  ("BEQ", "E1(M_REL)");
  ("BVC", "E1(M_REL)");
  ("BVS", "E1(M_REL)");
  ("BPL", "E1(M_REL)");
  ("BMI", "E1(M_REL)");
  ("BGE", "E1(M_REL)");
  ("BLT", "E1(M_REL)");
  ("BGT", "E1(M_REL)");
  ("BLE", "E1(M_REL)");
  ("LEAX", "E1(M_IDX)");
  ("LEAY", "E1(M_IDX)");
  ("LEAS", "E1(M_IDX)");
  ("LEAU", "E1(M_IDX)");
  ("PSHS", "E1(M_LIST)");
  ("PULS", "E1(M_LIST)");
  ("PSHU", "E1(M_LIST)");
  ("PULU", "E1(M_LIST)");
  ("RTS", "E0()");
  ("ABX", "E0()");
  ("RTI", "E0()");
  ("CWAI", "E1(M_IM8)");
  ("MUL", "E0()");
  ("SWI", "E0()");
  ("NEGA", "E0()");
  ("COMA", "E0()");
  ("LSRA", "E0()");
  ("RORA", "E0()");
  ("ASRA", "E0()");
  ("ASLA", "E0()");
  ("LSLA", "E0()");
  ("ROLA", "E0()");
  ("DECA", "E0()");
  ("INCA", "E0()");
  ("TSTA", "E0()");
  ("CLRA", "E0()");
  ("NEGB", "E0()");
  ("COMB", "E0()");
  ("LSRB", "E0()");
  ("RORB", "E0()");
  ("ASRB", "E0()");
  ("ASLB", "E0()");
  ("LSLB", "E0()");
  ("ROLB", "E0()");
  ("DECB", "E0()");
  ("INCB", "E0()");
  ("TSTB", "E0()");
  ("CLRB", "E0()");
  ("SUBA", "E1(M_GEN8)");
  ("CMPA", "E1(M_GEN8)");
  ("SBCA", "E1(M_GEN8)");
  ("SUBD", "E1(M_GEN16)");
  ("ANDA", "E1(M_GEN8)");
  ("BITA", "E1(M_GEN8)");
  ("LDA", "E1(M_GEN8)");
  ("STA", "U1(M_IM8)");
  ("STA", "E1(M_GEN8)");
  ("EORA", "E1(M_GEN8)");
  ("ADCA", "E1(M_GEN8)");
  ("ORA", "E1(M_GEN8)");
  ("ADDA", "E1(M_GEN8)");
  ("CMPX", "E1(M_GEN16)");
  ("BSR", "E1(M_REL)");
  ("JSR", "E1(M_GEN16)");
  ("LDX", "E1(M_GEN16)");
  ("STX", "U1(M_IM32)");
  ("STX", "E1(M_GEN16)");
  ("SUBB", "E1(M_GEN8)");
  ("CMPB", "E1(M_GEN8)");
  ("SBCB", "E1(M_GEN8)");
  ("ADDD", "E1(M_GEN16)");
  ("ANDB", "E1(M_GEN8)");
  ("BITB", "E1(M_GEN8)");
  ("LDB", "E1(M_GEN8)");
  ("STB", "U1(M_IM8)");
  ("STB", "E1(M_GEN8)");
  ("EORB", "E1(M_GEN8)");
  ("ADCB", "E1(M_GEN8)");
  ("ORB", "E1(M_GEN8)");
  ("ADDB", "E1(M_GEN8)");
  ("LDD", "E1(M_GEN16)");
  ("STD", "U1(M_IM32)");
  ("STD", "E1(M_GEN16)");
  ("LDU", "E1(M_GEN16)");
  ("STU", "U1(M_IM32)");
  ("STU", "E1(M_GEN16)")]
  [50; 89; 108; 91; 110; 101; 83; 102; 19; 5; 60; 72; 4; 59; 71; 28; 30; 32; 37; 39; 25; 27; 84; 103; 40; 29; 26; 38; 36; 31; 35; 23; 24; 93; 33; 34; 12; 66; 78; 80; 99; 92; 1; 56; 68; 52; 17; 8; 63; 75; 88; 107; 21; 9; 64; 76; 11; 94; 15; 16; 85; 104; 111; 114; 95; 43; 44; 41; 42; 6; 61; 73; 2; 57; 69; 53; 0; 55; 67; 13; 90; 109; 18; 45; 47; 46; 48; 7; 62; 74; 3; 58; 70; 51; 49; 81; 100; 20; 86; 87; 105; 106; 112; 113; 115; 116; 96; 97; 79; 98; 82; 54; 14; 22; 10; 65; 77].

(* src/table_mc6809.cpp:275-302 MC6809_P10, 304-331 MC6809_I10 *)
Definition t_mc6809_MC6809_P10 : insn_table := mkIT [
  ("LBRN", "E1(M_LREL)");
  ("LBHI", "E1(M_LREL)");
  ("LBLS", "E1(M_LREL)");
  ("LBHS", "E1(M_LREL)");
  ("LBCC", "E1(M_LREL)");
  ("LBLO", "E1(M_LREL)");
  ("LBCS", "E1(M_LREL)");
  ("LBNE", "E1(M_LREL)");
  ("LBEQ", "E1(M_LREL)");
  ("LBVC", "E1(M_LREL)");
  ("LBVS", "E1(M_LREL)");
  ("LBPL", "E1(M_LREL)");
  ("LBMI", "E1(M_LREL)");
  ("LBGE", "E1(M_LREL)");
  ("LBLT", "E1(M_LREL)");
  ("LBGT", "E1(M_LREL)");
  ("LBLE", "E1(M_LREL)");
  ("SWI2", "E0()");
  ("CMPD", "E1(M_GEN16)");
  ("CMPY", "E1(M_GEN16)");
  ("LDY", "E1(M_GEN16)");
  ("STY", "U1(M_IM32)");
  ("STY", "E1(M_GEN16)");
  ("LDS", "E1(M_GEN16)");
  ("STS", "U1(M_IM32)");
  ("STS", "E1(M_GEN16)")]
  [18; 19; 4; 6; 8; 13; 15; 1; 3; 16; 5; 2; 14; 12; 7; 11; 0; 9; 10; 23; 20; 24; 25; 21; 22; 17].

(* src/table_mc6809.cpp:333-337 MC6809_P11, 339-343 MC6809_I11 *)
Definition t_mc6809_MC6809_P11 : insn_table := mkIT [
  ("SWI3", "E0()");
  ("CMPU", "E1(M_GEN16)");
  ("CMPS", "E1(M_GEN16)")]
  [2; 1; 0].

(* src/table_mc6809.cpp:345-352 HD6309_P00, 354-361 HD6309_I00 *)
Definition t_mc6809_HD6309_P00 : insn_table := mkIT [
  ("OIM", "E2(M_IM8,M_GMEM)");
  ("AIM", "E2(M_IM8,M_GMEM)");
  ("EIM", "E2(M_IM8,M_GMEM)");
  ("TIM", "E2(M_IM8,M_GMEM)");
  ("SEXW", "E0()");
  ("LDQ", "E1(M_IM32)")]
  [1; 2; 5; 0; 4; 3].

(* src/table_mc6809.cpp:363-412 HD6309_P10, 414-463 HD6309_I10 *)
Definition t_mc6809_HD6309_P10 : insn_table := mkIT [
  ("ADDR", "E1(M_PAIR)");
  ("ADCR", "E1(M_PAIR)");
  ("SUBR", "E1(M_PAIR)");
  ("SBCR", "E1(M_PAIR)");
  ("ANDR", "E1(M_PAIR)");
  ("ORR", "E1(M_PAIR)");
  ("EORR", "E1(M_PAIR)");
  ("CMPR", "E1(M_PAIR)");
  ("PSHSW", "E0()");
  ("PULSW", "E0()");
  ("PSHUW", "E0()");
  ("PULUW", "E0()");
  ("NEGD", "E0()");
  ("COMD", "E0()");
  ("LSRD", "E0()");
  ("RORD", "E0()");
  ("ASRD", "E0()");
  ("ASLD", "E0()");
  ("LSLD", "E0()");
  ("ROLD", "E0()");
  ("DECD", "E0()");
  ("INCD", "E0()");
  ("TSTD", "E0()");
  ("CLRD", "E0()");
  ("COMW", "E0()");
  ("LSRW", "E0()");
  ("RORW", "E0()");
  ("ROLW", "E0()");
  ("DECW", "E0()");
  ("INCW", "E0()");
  ("TSTW", "E0()");
  ("CLRW", "E0()");
  ("SUBW", "E1(M_GEN16)");
  ("CMPW", "E1(M_GEN16)");
  ("SBCD", "E1(M_GEN16)");
  ("ANDD", "E1(M_GEN16)");
  ("BITD", "E1(M_GEN16)");
  ("LDW", "E1(M_GEN16)");
  ("STW", "U1(M_IM32)");
  ("STW", "E1(M_GEN16)");
  ("EORD", "E1(M_GEN16)");
  ("ADCD", "E1(M_GEN16)");
  ("ORD", "E1(M_GEN16)");
  ("ADDW", "E1(M_GEN16)");
  ("LDQ", "U1(M_IM32)");
  ("LDQ", "E1(M_GEN16)");
  ("STQ", "U1(M_IM32)");
  ("STQ", "E1(M_GEN16)")]
  [41; 1; 0; 43; 35; 4; 17; 16; 36; 23; 31; 7; 33; 13; 24; 20; 28; 40; 6; 21; 29; 44; 45; 37; 18; 14; 25; 12; 42; 5; 8; 10; 9; 11; 19; 27; 15; 26; 34; 3; 46; 47; 38; 39; 2; 32; 22; 30].

(* src/table_mc6809.cpp:465-505 HD6309_P11, 507-547 HD6309_I11 *)
Definition t_mc6809_HD6309_P11 : insn_table := mkIT [
  ("BAND", "E2(M_RBIT,M_DBIT)");
  ("BIAND", "E2(M_RBIT,M_DBIT)");
  ("BOR", "E2(M_RBIT,M_DBIT)");
  ("BIOR", "E2(M_RBIT,M_DBIT)");
  ("BEOR", "E2(M_RBIT,M_DBIT)");
  ("BIEOR", "E2(M_RBIT,M_DBIT)");
  ("LDBT", "E2(M_RBIT,M_DBIT)");
  ("STBT", "E2(M_RBIT,M_DBIT)");
  ("TFM", "E2(M_RTFM,M_RTFM)");
  ("TFM", "E2(M_RTFM,M_RTFM)");
  ("TFM", "E2(M_RTFM,M_RTFM)");
  ("TFM", "E2(M_RTFM,M_RTFM)");
  ("BITMD", "E1(M_IM8)");
  ("LDMD", "E1(M_IM8)");
  ("COME", "E0()");
  ("DECE", "E0()");
  ("INCE", "E0()");
  ("TSTE", "E0()");
  ("CLRE", "E0()");
  ("COMF", "E0()");
  ("DECF", "E0()");
  ("INCF", "E0()");
  ("TSTF", "E0()");
  ("CLRF", "E0()");
  ("SUBE", "E1(M_GEN8)");
  ("CMPE", "E1(M_GEN8)");
  ("LDE", "E1(M_GEN8)");
  ("STE", "U1(M_IM8)");
  ("STE", "E1(M_GEN8)");
  ("ADDE", "E1(M_GEN8)");
  ("DIVD", "E1(M_GEN8)");
  ("DIVQ", "E1(M_GEN16)");
  ("MULD", "E1(M_GEN16)");
  ("SUBF", "E1(M_GEN8)");
  ("CMPF", "E1(M_GEN8)");
  ("LDF", "E1(M_GEN8)");
  ("STF", "U1(M_IM8)");
  ("STF", "E1(M_GEN8)");
  ("ADDF", "E1(M_GEN8)")]
  [29; 38; 0; 4; 1; 5; 3; 12; 2; 18; 23; 25; 34; 14; 19; 15; 20; 30; 31; 16; 21; 6; 26; 35; 13; 32; 7; 27; 28; 36; 37; 24; 33; 8; 9; 10; 11; 17; 22].

(* src/table_mn1610.cpp:35-41 TABLE_COMMON, 43-49 INDEX_COMMON *)
Definition t_mn1610_TABLE_COMMON : insn_table := mkIT [
  ("H", "E0()");
  ("RET", "E0()");
  ("PUSH", "E1(M_RD)");
  ("POP", "E1(M_RD)");
  ("LPSW", "E1(M_ILVL)")]
  [0; 4; 3; 2; 1].

(* src/table_mn1610.cpp:51-82 TABLE_MN1610, 84-115 INDEX_MN1610 *)
Definition t_mn1610_TABLE_MN1610 : insn_table := mkIT [
  ("MVI", "E2(M_RD,M_IM8)");
  ("WT", "E2(M_RD,M_IOA)");
  ("RD", "E2(M_RD,M_IOA)");
  ("SR", "E3(M_RD,M_EOP,M_SKIP)");
  ("SR", "E2(M_RD,M_SKIP)");
  ("SL", "E3(M_RD,M_EOP,M_SKIP)");
  ("SL", "E2(M_RD,M_SKIP)");
  ("TBIT", "E3(M_RD,M_BIT,M_SKIP)");
  ("RBIT", "E3(M_RD,M_BIT,M_SKIP)");
  ("SBIT", "E3(M_RD,M_BIT,M_SKIP)");
  ("SI", "E3(M_RD,M_IM4,M_SKIP)");
  ("AI", "E3(M_RD,M_IM4,M_SKIP)");
  ("CB", "E3(M_RD,M_RS,M_SKIP)");
  ("C", "E3(M_RD,M_RS,M_SKIP)");
  ("S", "E3(M_RD,M_RS,M_SKIP)");
  ("A", "E3(M_RD,M_RS,M_SKIP)");
  ("EOR", "E3(M_RD,M_RS,M_SKIP)");
  ("OR", "E3(M_RD,M_RS,M_SKIP)");
  ("LAD", "E3(M_RD,M_RS,M_SKIP)");
  ("AND", "E3(M_RD,M_RS,M_SKIP)");
  ("DSWP", "E3(M_RD,M_RS,M_SKIP)");
  ("BSWP", "E3(M_RD,M_RS,M_SKIP)");
  ("MVB", "E3(M_RD,M_RS,M_SKIP)");
  ("MV", "E3(M_RD,M_RS,M_SKIP)");
  ("DMS", "E1(M_GEN)");
  ("BAL", "E1(M_GEN)");
  ("ST", "E2(M_RDG,M_GEN)");
  ("IMS", "E1(M_GEN)");
  ("B", "E1(M_GEN)");
  ("L", "E2(M_RDG,M_GEN)")]
  [15; 11; 19; 28; 25; 21; 13; 12; 24; 20; 16; 27; 29; 18; 23; 22; 0; 17; 8; 2; 14; 9; 10; 5; 6; 3; 4; 26; 7; 1].

(* src/table_mn1610.cpp:117-191 TABLE_MN1613, 193-267 INDEX_MN1613 *)
Definition t_mn1610_TABLE_MN1613 : insn_table := mkIT [
  ("LB", "E2(M_RBW,M_ABS)");
  ("SETB", "E2(M_RS,M_RBW)");
  ("LS", "E2(M_RP,M_ABS)");
  ("SETS", "E2(M_RS,M_RP)");
  ("STB", "E2(M_RB,M_ABS)");
  ("CPYB", "E2(M_RS,M_RB)");
  ("STS", "E2(M_RP,M_ABS)");
  ("CPYS", "E2(M_RS,M_RP)");
  ("POPM", "E0()");
  ("TRST", "E3(M_RS,M_ABS,M_SKIP)");
  ("PSHM", "E0()");
  ("TSET", "E3(M_RS,M_ABS,M_SKIP)");
  ("FLT", "E3(M_DR0,M_R0,M_SKIP)");
  ("FIX", "E3(M_R0,M_DR0,M_SKIP)");
  ("NEG", "E3(M_RS,M_COP,M_SKIP)");
  ("NEG", "E2(M_RS,M_SKIP)");
  ("BD", "E1(M_ABS)");
  ("BALD", "E1(M_ABS)");
  ("BL", "E1(M_IABS)");
  ("BR", "E1(M_RI)");
  ("BALL", "E1(M_IABS)");
  ("BALR", "E1(M_RI)");
  ("LD", "E3(M_RSG,M_SB,M_ABS)");
  ("LD", "E2(M_RSG,M_ABS)");
  ("STD", "E3(M_RSG,M_SB,M_ABS)");
  ("STD", "E2(M_RSG,M_ABS)");
  ("WTR", "E2(M_RDG,M_RI)");
  ("RDR", "E2(M_RDG,M_RI)");
  ("LR", "E3(M_RDG,M_SB,M_RIAU)");
  ("LR", "E2(M_RDG,M_RIAU)");
  ("STR", "E3(M_RDG,M_SB,M_RIAU)");
  ("STR", "E2(M_RDG,M_RIAU)");
  ("RETL", "E0()");
  ("BLK", "E3(M_RI2,M_RI1,M_R0)");
  ("SRBT", "E2(M_R0,M_RS)");
  ("SETH", "E2(M_RS,M_RHW)");
  ("DEBP", "E2(M_RS,M_R0)");
  ("CPYH", "E2(M_RS,M_RHR)");
  ("SD", "E4(M_DR0,M_RI,M_COP,M_SKIP)");
  ("SD", "E3(M_DR0,M_RI,M_SKIP)");
  ("AD", "E4(M_DR0,M_RI,M_COP,M_SKIP)");
  ("AD", "E3(M_DR0,M_RI,M_SKIP)");
  ("DAS", "E4(M_R0,M_RI,M_COP,M_SKIP)");
  ("DAS", "E3(M_R0,M_RI,M_SKIP)");
  ("CBR", "E3(M_R0,M_RI,M_SKIP)");
  ("CWR", "E3(M_R0,M_RI,M_SKIP)");
  ("CBI", "E3(M_RD,M_IM8W,M_SKIP)");
  ("CWI", "E3(M_RD,M_IM16,M_SKIP)");
  ("DAA", "E4(M_R0,M_RI,M_COP,M_SKIP)");
  ("DAA", "E3(M_R0,M_RI,M_SKIP)");
  ("SWR", "E3(M_R0,M_RI,M_SKIP)");
  ("AWR", "E3(M_R0,M_RI,M_SKIP)");
  ("SWI", "E3(M_RD,M_IM16,M_SKIP)");
  ("AWI", "E3(M_RD,M_IM16,M_SKIP)");
  ("FD", "E3(M_DR0,M_RI,M_SKIP)");
  ("FM", "E3(M_DR0,M_RI,M_SKIP)");
  ("EORR", "E3(M_R0,M_RI,M_SKIP)");
  ("ORR", "E3(M_R0,M_RI,M_SKIP)");
  ("EORI", "E3(M_RD,M_IM16,M_SKIP)");
  ("ORI", "E3(M_RD,M_IM16,M_SKIP)");
  ("ANDR", "E3(M_R0,M_RI,M_SKIP)");
  ("LADR", "E3(M_R0,M_RI,M_SKIP)");
  ("FS", "E3(M_DR0,M_RI,M_SKIP)");
  ("FA", "E3(M_DR0,M_RI,M_SKIP)");
  ("LADI", "E3(M_RD,M_IM16,M_SKIP)");
  ("ANDI", "E3(M_RD,M_IM16,M_SKIP)");
  ("DSWR", "E3(M_R0,M_RI,M_SKIP)");
  ("BSWR", "E3(M_R0,M_RI,M_SKIP)");
  ("D", "E3(M_DR0,M_RI,M_SKIP)");
  ("MVBR", "E3(M_R0,M_RI,M_SKIP)");
  ("MVWR", "E3(M_R0,M_RI,M_SKIP)");
  ("M", "E3(M_DR0,M_RI,M_SKIP)");
  ("MVWI", "E3(M_RD,M_IM16,M_SKIP)")]
  [40; 41; 65; 60; 53; 51; 17; 20; 21; 16; 18; 33; 19; 67; 46; 44; 5; 37; 7; 47; 45; 68; 48; 49; 42; 43; 36; 66; 58; 56; 63; 54; 13; 12; 55; 62; 64; 61; 0; 22; 23; 28; 29; 2; 71; 69; 72; 70; 14; 15; 59; 57; 8; 10; 27; 32; 38; 39; 1; 35; 3; 34; 4; 24; 25; 30; 31; 6; 52; 50; 9; 11; 26].

(* src/table_mos6502.cpp:34-186 MOS6502_TABLE, 188-340 MOS6502_INDEX *)
Definition t_mos6502_MOS6502_TABLE : insn_table := mkIT [
  ("BRK", "E0()");
  ("RTI", "E0()");
  ("RTS", "E0()");
  ("NOP", "E0()");
  ("PHP", "E0()");
  ("PLP", "E0()");
  ("PHA", "E0()");
  ("PLA", "E0()");
  ("DEY", "E0()");
  ("INY", "E0()");
  ("DEX", "E0()");
  ("INX", "E0()");
  ("TYA", "E0()");
  ("TAY", "E0()");
  ("TXA", "E0()");
  ("TAX", "E0()");
  ("TXS", "E0()");
  ("TSX", "E0()");
  ("CLC", "E0()");
  ("SEC", "E0()");
  ("CLI", "E0()");
  ("SEI", "E0()");
  ("CLV", "E0()");
  ("CLD", "E0()");
  ("SED", "E0()");
  ("ASL", "E1(M_REGA)");
  ("ROL", "E1(M_REGA)");
  ("LSR", "E1(M_REGA)");
  ("ROR", "E1(M_REGA)");
  ("LDY", "E1(M_IMX)");
  ("LDX", "E1(M_IMX)");
  ("CPY", "E1(M_IMX)");
  ("CPX", "E1(M_IMX)");
  ("ORA", "E1(M_IMA)");
  ("AND", "E1(M_IMA)");
  ("EOR", "E1(M_IMA)");
  ("ADC", "E1(M_IMA)");
  ("LDA", "E1(M_IMA)");
  ("CMP", "E1(M_IMA)");
  ("SBC", "E1(M_IMA)");
  ("BIT", "E1(M_DPG)");
  ("ORA", "E1(M_DPG)");
  ("AND", "E1(M_DPG)");
  ("EOR", "E1(M_DPG)");
  ("ADC", "E1(M_DPG)");
  ("STA", "E1(M_DPG)");
  ("LDA", "E1(M_DPG)");
  ("CMP", "E1(M_DPG)");
  ("SBC", "E1(M_DPG)");
  ("STY", "E1(M_DPG)");
  ("LDY", "E1(M_DPG)");
  ("CPY", "E1(M_DPG)");
  ("STX", "E1(M_DPG)");
  ("LDX", "E1(M_DPG)");
  ("CPX", "E1(M_DPG)");
  ("DEC", "E1(M_DPG)");
  ("INC", "E1(M_DPG)");
  ("ASL", "E1(M_DPG)");
  ("ROL", "E1(M_DPG)");
  ("LSR", "E1(M_DPG)");
  ("ROR", "E1(M_DPG)");
  ("ORA", "E2(M_DPG,M_REGX)");
  ("AND", "E2(M_DPG,M_REGX)");
  ("EOR", "E2(M_DPG,M_REGX)");
  ("ADC", "E2(M_DPG,M_REGX)");
  ("STA", "E2(M_DPG,M_REGX)");
  ("LDA", "E2(M_DPG,M_REGX)");
  ("CMP", "E2(M_DPG,M_REGX)");
  ("SBC", "E2(M_DPG,M_REGX)");
  ("STY", "E2(M_DPG,M_REGX)");
  ("LDY", "E2(M_DPG,M_REGX)");
  ("STX", "E2(M_DPG,M_REGY)");
  ("LDX", "E2(M_DPG,M_REGY)");
  ("DEC", "E2(M_DPG,M_REGX)");
  ("INC", "E2(M_DPG,M_REGX)");
  ("ASL", "E2(M_DPG,M_REGX)");
  ("ROL", "E2(M_DPG,M_REGX)");
  ("LSR", "E2(M_DPG,M_REGX)");
  ("ROR", "E2(M_DPG,M_REGX)");
  ("BIT", "E1(M_ABS)");
  ("ORA", "E1(M_ABS)");
  ("AND", "E1(M_ABS)");
  ("EOR", "E1(M_ABS)");
  ("ADC", "E1(M_ABS)");
  ("STA", "E1(M_ABS)");
  ("LDA", "E1(M_ABS)");
  ("CMP", "E1(M_ABS)");
  ("SBC", "E1(M_ABS)");
  ("STY", "E1(M_ABS)");
  ("LDY", "E1(M_ABS)");
  ("CPY", "E1(M_ABS)");
  ("STX", "E1(M_ABS)");
  ("LDX", "E1(M_ABS)");
  ("CPX", "E1(M_ABS)");
  ("DEC", "E1(M_ABS)");
  ("INC", "E1(M_ABS)");
  ("ASL", "E1(M_ABS)");
  ("ROL", "E1(M_ABS)");
  ("LSR", "E1(M_ABS)");
  ("ROR", "E1(M_ABS)");
  ("JMP", "E1(M_ABS)");
  ("JSR", "E1(M_ABS)");
  ("ORA", "E2(M_ABS,M_REGX)");
  ("AND", "E2(M_ABS,M_REGX)");
  ("EOR", "E2(M_ABS,M_REGX)");
  ("ADC", "E2(M_ABS,M_REGX)");
  ("STA", "E2(M_ABS,M_REGX)");
  ("LDA", "E2(M_ABS,M_REGX)");
  ("CMP", "E2(M_ABS,M_REGX)");
  ("SBC", "E2(M_ABS,M_REGX)");
  ("ORA", "E2(M_ABS,M_REGY)");
  ("AND", "E2(M_ABS,M_REGY)");
  ("EOR", "E2(M_ABS,M_REGY)");
  ("ADC", "E2(M_ABS,M_REGY)");
  ("STA", "E2(M_ABS,M_REGY)");
  ("LDA", "E2(M_ABS,M_REGY)");
  ("CMP", "E2(M_ABS,M_REGY)");
  ("SBC", "E2(M_ABS,M_REGY)");
  ("LDY", "E2(M_ABS,M_REGX)");
  ("LDX", "E2(M_ABS,M_REGY)");
  ("DEC", "E2(M_ABS,M_REGX)");
  ("INC", "E2(M_ABS,M_REGX)");
  ("ASL", "E2(M_ABS,M_REGX)");
  ("ROL", "E2(M_ABS,M_REGX)");
  ("LSR", "E2(M_ABS,M_REGX)");
  ("ROR", "E2(M_ABS,M_REGX)");
  ("JMP", "E1(I_ABS)");
  ("ORA", "E2(I_DPG,I_REGX)");
  ("AND", "E2(I_DPG,I_REGX)");
  ("EOR", "E2(I_DPG,I_REGX)");
  ("ADC", "E2(I_DPG,I_REGX)");
  ("STA", "E2(I_DPG,I_REGX)");
  ("LDA", "E2(I_DPG,I_REGX)");
  ("CMP", "E2(I_DPG,I_REGX)");
  ("SBC", "E2(I_DPG,I_REGX)");
  ("ORA", "E2(I_DPG,M_REGY)");
  ("AND", "E2(I_DPG,M_REGY)");
  ("EOR", "E2(I_DPG,M_REGY)");
  ("ADC", "E2(I_DPG,M_REGY)");
  ("STA", "E2(I_DPG,M_REGY)");
  ("LDA", "E2(I_DPG,M_REGY)");
  ("CMP", "E2(I_DPG,M_REGY)");
  ("SBC", "E2(I_DPG,M_REGY)");
  ("BPL", "E1(M_REL)");
  ("BMI", "E1(M_REL)");
  ("BVC", "E1(M_REL)");
  ("BVS", "E1(M_REL)");
  ("BCC", "E1(M_REL)");
  ("BCS", "E1(M_REL)");
  ("BNE", "E1(M_REL)");
  ("BEQ", "E1(M_REL)")]
  [36; 44; 64; 83; 105; 113; 130; 138; 34; 42; 62; 81; 103; 111; 128; 136; 25; 57; 75; 96; 122; 147; 148; 150; 40; 79; 144; 149; 143; 0; 145; 146; 18; 23; 20; 22; 38; 47; 67; 86; 108; 116; 133; 141; 32; 54; 93; 31; 51; 90; 55; 73; 94; 120; 10; 8; 35; 43; 63; 82; 104; 112; 129; 137; 56; 74; 95; 121; 11; 9; 100; 126; 101; 37; 46; 66; 85; 107; 115; 132; 140; 30; 53; 72; 92; 119; 29; 50; 70; 89; 118; 27; 59; 77; 98; 124; 3; 33; 41; 61; 80; 102; 110; 127; 135; 6; 4; 7; 5; 26; 58; 76; 97; 123; 28; 60; 78; 99; 125; 1; 2; 39; 48; 68; 87; 109; 117; 134; 142; 19; 24; 21; 45; 65; 84; 106; 114; 131; 139; 52; 71; 91; 49; 69; 88; 15; 13; 17; 14; 16; 12].

(* src/table_mos6502.cpp:342-370 G65SC02_TABLE, 372-400 G65SC02_INDEX *)
Definition t_mos6502_G65SC02_TABLE : insn_table := mkIT [
  ("PHY", "E0()");
  ("PLY", "E0()");
  ("PHX", "E0()");
  ("PLX", "E0()");
  ("INC", "E1(M_REGA)");
  ("DEC", "E1(M_REGA)");
  ("BIT", "E1(M_IMA)");
  ("TSB", "E1(M_DPG)");
  ("TRB", "E1(M_DPG)");
  ("STZ", "E1(M_DPG)");
  ("BIT", "E2(M_DPG,M_REGX)");
  ("STZ", "E2(M_DPG,M_REGX)");
  ("TSB", "E1(M_ABS)");
  ("TRB", "E1(M_ABS)");
  ("STZ", "E1(M_ABS)");
  ("BIT", "E2(M_ABS,M_REGX)");
  ("STZ", "E2(M_ABS,M_REGX)");
  ("JMP", "E2(I_ABS,I_REGX)");
  ("ORA", "E1(I_DPG)");
  ("AND", "E1(I_DPG)");
  ("EOR", "E1(I_DPG)");
  ("ADC", "E1(I_DPG)");
  ("STA", "E1(I_DPG)");
  ("LDA", "E1(I_DPG)");
  ("CMP", "E1(I_DPG)");
  ("SBC", "E1(I_DPG)");
  ("BRA", "E1(M_REL)")]
  [21; 19; 6; 10; 15; 26; 24; 5; 20; 4; 17; 23; 18; 2; 0; 3; 1; 25; 22; 9; 11; 14; 16; 8; 13; 7; 12].

(* src/table_mos6502.cpp:402-435 R65C02_TABLE, 437-470 R65C02_INDEX *)
Definition t_mos6502_R65C02_TABLE : insn_table := mkIT [
  ("BBR0", "E2(M_DPG,M_REL)");
  ("BBR1", "E2(M_DPG,M_REL)");
  ("BBR2", "E2(M_DPG,M_REL)");
  ("BBR3", "E2(M_DPG,M_REL)");
  ("BBR4", "E2(M_DPG,M_REL)");
  ("BBR5", "E2(M_DPG,M_REL)");
  ("BBR6", "E2(M_DPG,M_REL)");
  ("BBR7", "E2(M_DPG,M_REL)");
  ("BBS0", "E2(M_DPG,M_REL)");
  ("BBS1", "E2(M_DPG,M_REL)");
  ("BBS2", "E2(M_DPG,M_REL)");
  ("BBS3", "E2(M_DPG,M_REL)");
  ("BBS4", "E2(M_DPG,M_REL)");
  ("BBS5", "E2(M_DPG,M_REL)");
  ("BBS6", "E2(M_DPG,M_REL)");
  ("BBS7", "E2(M_DPG,M_REL)");
  ("RMB0", "E1(M_DPG)");
  ("RMB1", "E1(M_DPG)");
  ("RMB2", "E1(M_DPG)");
  ("RMB3", "E1(M_DPG)");
  ("RMB4", "E1(M_DPG)");
  ("RMB5", "E1(M_DPG)");
  ("RMB6", "E1(M_DPG)");
  ("RMB7", "E1(M_DPG)");
  ("SMB0", "E1(M_DPG)");
  ("SMB1", "E1(M_DPG)");
  ("SMB2", "E1(M_DPG)");
  ("SMB3", "E1(M_DPG)");
  ("SMB4", "E1(M_DPG)");
  ("SMB5", "E1(M_DPG)");
  ("SMB6", "E1(M_DPG)");
  ("SMB7", "E1(M_DPG)")]
  [0; 1; 2; 3; 4; 5; 6; 7; 8; 9; 10; 11; 12; 13; 14; 15; 16; 17; 18; 19; 20; 21; 22; 23; 24; 25; 26; 27; 28; 29; 30; 31].

(* src/table_mos6502.cpp:472-475 W65C02S_TABLE, 477-480 W65C02S_INDEX *)
Definition t_mos6502_W65C02S_TABLE : insn_table := mkIT [
  ("WAI", "E0()");
  ("STP", "E0()")]
  [1; 0].

(* src/table_mos6502.cpp:482-576 W65C816_TABLE, 578-672 W65C816_INDEX *)
Definition t_mos6502_W65C816_TABLE : insn_table := mkIT [
  ("PHD", "E0()");
  ("TCS", "E0()");
  ("PLD", "E0()");
  ("TSC", "E0()");
  ("PHK", "E0()");
  ("TCD", "E0()");
  ("RTL", "E0()");
  ("TDC", "E0()");
  ("PHB", "E0()");
  ("TXY", "E0()");
  ("PLB", "E0()");
  ("TYX", "E0()");
  ("XBA", "E0()");
  ("XCE", "E0()");
  ("COP", "E1(M_IM8)");
  ("WDM", "E1(M_IM8)");
  ("REP", "E1(M_IM8)");
  ("SEP", "E1(M_IM8)");
  ("JMP", "E1(M_ABSL)");
  ("JMP", "E1(L_ABS)");
  ("JSR", "E2(I_ABS,I_REGX)");
  ("JSL", "E1(M_ABSL)");
  ("PER", "E1(M_LREL)");
  ("BRL", "E1(M_LREL)");
  ("PEI", "E1(I_DPG)");
  ("PEA", "E1(M_ABS)");
  ("MVP", "E2(M_BANK,M_BANK)");
  ("MVN", "E2(M_BANK,M_BANK)");
  ("ORA", "E2(M_DPG,M_REGS)");
  ("ORA", "E3(I_DPG,I_REGS,M_REGY)");
  ("ORA", "E1(L_DPG)");
  ("ORA", "E2(L_DPG,M_REGY)");
  ("ORA", "E1(M_ABSL)");
  ("ORA", "E2(M_ABSL,M_REGX)");
  ("AND", "E2(M_DPG,M_REGS)");
  ("AND", "E3(I_DPG,I_REGS,M_REGY)");
  ("AND", "E1(L_DPG)");
  ("AND", "E2(L_DPG,M_REGY)");
  ("AND", "E1(M_ABSL)");
  ("AND", "E2(M_ABSL,M_REGX)");
  ("EOR", "E2(M_DPG,M_REGS)");
  ("EOR", "E3(I_DPG,I_REGS,M_REGY)");
  ("EOR", "E1(L_DPG)");
  ("EOR", "E2(L_DPG,M_REGY)");
  ("EOR", "E1(M_ABSL)");
  ("EOR", "E2(M_ABSL,M_REGX)");
  ("ADC", "E2(M_DPG,M_REGS)");
  ("ADC", "E3(I_DPG,I_REGS,M_REGY)");
  ("ADC", "E1(L_DPG)");
  ("ADC", "E2(L_DPG,M_REGY)");
  ("ADC", "E1(M_ABSL)");
  ("ADC", "E2(M_ABSL,M_REGX)");
  ("STA", "E2(M_DPG,M_REGS)");
  ("STA", "E3(I_DPG,I_REGS,M_REGY)");
  ("STA", "E1(L_DPG)");
  ("STA", "E2(L_DPG,M_REGY)");
  ("STA", "E1(M_ABSL)");
  ("STA", "E2(M_ABSL,M_REGX)");
  ("LDA", "E2(M_DPG,M_REGS)");
  ("LDA", "E3(I_DPG,I_REGS,M_REGY)");
  ("LDA", "E1(L_DPG)");
  ("LDA", "E2(L_DPG,M_REGY)");
  ("LDA", "E1(M_ABSL)");
  ("LDA", "E2(M_ABSL,M_REGX)");
  ("CMP", "E2(M_DPG,M_REGS)");
  ("CMP", "E3(I_DPG,I_REGS,M_REGY)");
  ("CMP", "E1(L_DPG)");
  ("CMP", "E2(L_DPG,M_REGY)");
  ("CMP", "E1(M_ABSL)");
  ("CMP", "E2(M_ABSL,M_REGX)");
  ("SBC", "E2(M_DPG,M_REGS)");
  ("SBC", "E3(I_DPG,I_REGS,M_REGY)");
  ("SBC", "E1(L_DPG)");
  ("SBC", "E2(L_DPG,M_REGY)");
  ("SBC", "E1(M_ABSL)");
  ("SBC", "E2(M_ABSL,M_REGX)");
  ("JMPL", "E1(I_ABS)");
  ("ORAL", "E1(I_DPG)");
  ("ORAL", "E2(I_DPG,M_REGY)");
  ("ANDL", "E1(I_DPG)");
  ("ANDL", "E2(I_DPG,M_REGY)");
  ("EORL", "E1(I_DPG)");
  ("EORL", "E2(I_DPG,M_REGY)");
  ("ADCL", "E1(I_DPG)");
  ("ADCL", "E2(I_DPG,M_REGY)");
  ("STAL", "E1(I_DPG)");
  ("STAL", "E2(I_DPG,M_REGY)");
  ("LDAL", "E1(I_DPG)");
  ("LDAL", "E2(I_DPG,M_REGY)");
  ("CMPL", "E1(I_DPG)");
  ("CMPL", "E2(I_DPG,M_REGY)");
  ("SBCL", "E1(I_DPG)");
  ("SBCL", "E2(I_DPG,M_REGY)")]
  [46; 47; 48; 49; 50; 51; 83; 84; 34; 35; 36; 37; 38; 39; 79; 80; 23; 64; 65; 66; 67; 68; 69; 89; 90; 14; 40; 41; 42; 43; 44; 45; 81; 82; 18; 19; 76; 21; 20; 58; 59; 60; 61; 62; 63; 87; 88; 27; 26; 28; 29; 30; 31; 32; 33; 77; 78; 25; 24; 22; 8; 0; 4; 10; 2; 16; 6; 70; 71; 72; 73; 74; 75; 91; 92; 17; 52; 53; 54; 55; 56; 57; 85; 86; 5; 1; 7; 3; 9; 11; 15; 12; 13].

(* src/table_ns32000.cpp:44-60 FORMAT_0, 61-77 INDEX_0 *)
Definition t_ns32000_FORMAT_0 : insn_table := mkIT [
  ("BEQ", "E1(SZ_NONE,M_REL,P_DISP)");
  ("BNE", "E1(SZ_NONE,M_REL,P_DISP)");
  ("BCS", "E1(SZ_NONE,M_REL,P_DISP)");
  ("BCC", "E1(SZ_NONE,M_REL,P_DISP)");
  ("BHI", "E1(SZ_NONE,M_REL,P_DISP)");
  ("BLS", "E1(SZ_NONE,M_REL,P_DISP)");
  ("BGT", "E1(SZ_NONE,M_REL,P_DISP)");
  ("BLE", "E1(SZ_NONE,M_REL,P_DISP)");
  ("BFS", "E1(SZ_NONE,M_REL,P_DISP)");
  ("BFC", "E1(SZ_NONE,M_REL,P_DISP)");
  ("BLO", "E1(SZ_NONE,M_REL,P_DISP)");
  ("BHS", "E1(SZ_NONE,M_REL,P_DISP)");
  ("BLT", "E1(SZ_NONE,M_REL,P_DISP)");
  ("BGE", "E1(SZ_NONE,M_REL,P_DISP)");
  ("BR", "E1(SZ_NONE,M_REL,P_DISP)")]
  [3; 2; 0; 9; 8; 13; 6; 4; 11; 7; 10; 5; 12; 1; 14].

(* src/table_ns32000.cpp:80-97 FORMAT_1, 98-115 INDEX_1 *)
Definition t_ns32000_FORMAT_1 : insn_table := mkIT [
  ("BSR", "E1(SZ_NONE,M_REL,P_DISP)");
  ("RET", "E1(SZ_NONE,M_DISP,P_DISP)");
  ("CXP", "E1(SZ_NONE,M_DISP,P_DISP)");
  ("RXP", "E1(SZ_NONE,M_DISP,P_DISP)");
  ("RETT", "E1(SZ_NONE,M_DISP,P_DISP)");
  ("RETI", "E0()");
  ("SAVE", "E1(SZ_NONE,M_RLST,P_IMPL)");
  ("RESTORE", "E1(SZ_QUAD,M_RLST,P_IMPL)");
  ("ENTER", "E2(SZ_NONE,M_RLST,M_DISP,P_IMPL,P_DISP)");
  ("EXIT", "E1(SZ_QUAD,M_RLST,P_IMPL)");
  ("NOP", "E0()");
  ("WAIT", "E0()");
  ("DIA", "E0()");
  ("FLAG", "E0()");
  ("SVC", "E0()");
  ("BPT", "E0()")]
  [15; 0; 2; 12; 8; 9; 13; 10; 7; 1; 5; 4; 3; 6; 14; 11].

(* src/table_ns32000.cpp:118-153 FORMAT_4, 154-189 INDEX_4 *)
Definition t_ns32000_FORMAT_4 : insn_table := mkIT [
  ("ADDB", "E2(SZ_BYTE,M_GENR,M_GENW,P_GEN1,P_GEN2)");
  ("ADDW", "E2(SZ_WORD,M_GENR,M_GENW,P_GEN1,P_GEN2)");
  ("ADDD", "E2(SZ_QUAD,M_GENR,M_GENW,P_GEN1,P_GEN2)");
  ("CMPB", "E2(SZ_BYTE,M_GENR,M_GENR,P_GEN1,P_GEN2)");
  ("CMPW", "E2(SZ_WORD,M_GENR,M_GENR,P_GEN1,P_GEN2)");
  ("CMPD", "E2(SZ_QUAD,M_GENR,M_GENR,P_GEN1,P_GEN2)");
  ("BICB", "E2(SZ_BYTE,M_GENR,M_GENW,P_GEN1,P_GEN2)");
  ("BICW", "E2(SZ_WORD,M_GENR,M_GENW,P_GEN1,P_GEN2)");
  ("BICD", "E2(SZ_QUAD,M_GENR,M_GENW,P_GEN1,P_GEN2)");
  ("ADDCB", "E2(SZ_BYTE,M_GENR,M_GENW,P_GEN1,P_GEN2)");
  ("ADDCW", "E2(SZ_WORD,M_GENR,M_GENW,P_GEN1,P_GEN2)");
  ("ADDCD", "E2(SZ_QUAD,M_GENR,M_GENW,P_GEN1,P_GEN2)");
  ("MOVB", "E2(SZ_BYTE,M_GENR,M_GENW,P_GEN1,P_GEN2)");
  ("MOVW", "E2(SZ_WORD,M_GENR,M_GENW,P_GEN1,P_GEN2)");
  ("MOVD", "E2(SZ_QUAD,M_GENR,M_GENW,P_GEN1,P_GEN2)");
  ("ORB", "E2(SZ_BYTE,M_GENR,M_GENW,P_GEN1,P_GEN2)");
  ("ORW", "E2(SZ_WORD,M_GENR,M_GENW,P_GEN1,P_GEN2)");
  ("ORD", "E2(SZ_QUAD,M_GENR,M_GENW,P_GEN1,P_GEN2)");
  ("SUBB", "E2(SZ_BYTE,M_GENR,M_GENW,P_GEN1,P_GEN2)");
  ("SUBW", "E2(SZ_WORD,M_GENR,M_GENW,P_GEN1,P_GEN2)");
  ("SUBD", "E2(SZ_QUAD,M_GENR,M_GENW,P_GEN1,P_GEN2)");
  ("ADDR", "E2(SZ_QUAD,M_GENA,M_GENW,P_GEN1,P_GEN2)");
  ("ANDB", "E2(SZ_BYTE,M_GENR,M_GENW,P_GEN1,P_GEN2)");
  ("ANDW", "E2(SZ_WORD,M_GENR,M_GENW,P_GEN1,P_GEN2)");
  ("ANDD", "E2(SZ_QUAD,M_GENR,M_GENW,P_GEN1,P_GEN2)");
  ("SUBCB", "E2(SZ_BYTE,M_GENR,M_GENW,P_GEN1,P_GEN2)");
  ("SUBCW", "E2(SZ_WORD,M_GENR,M_GENW,P_GEN1,P_GEN2)");
  ("SUBCD", "E2(SZ_QUAD,M_GENR,M_GENW,P_GEN1,P_GEN2)");
  ("TBITB", "E2(SZ_BYTE,M_GENR,M_GENW,P_GEN1,P_GEN2)");
  ("TBITW", "E2(SZ_WORD,M_GENR,M_GENW,P_GEN1,P_GEN2)");
  ("TBITD", "E2(SZ_QUAD,M_GENR,M_GENW,P_GEN1,P_GEN2)");
  ("XORB", "E2(SZ_BYTE,M_GENR,M_GENW,P_GEN1,P_GEN2)");
  ("XORW", "E2(SZ_WORD,M_GENR,M_GENW,P_GEN1,P_GEN2)");
  ("XORD", "E2(SZ_QUAD,M_GENR,M_GENW,P_GEN1,P_GEN2)")]
  [0; 9; 11; 10; 2; 21; 1; 22; 24; 23; 6; 8; 7; 3; 5; 4; 12; 14; 13; 15; 17; 16; 18; 25; 27; 26; 20; 19; 28; 30; 29; 31; 33; 32].

(* src/table_ns32000.cpp:192-211 FORMAT_2_0, 267-286 INDEX_2_0 *)
Definition t_ns32000_FORMAT_2_0 : insn_table := mkIT [
  ("ADDQB", "E2(SZ_BYTE,M_INT4,M_GENW,P_SHORT,P_GEN1)");
  ("ADDQW", "E2(SZ_WORD,M_INT4,M_GENW,P_SHORT,P_GEN1)");
  ("ADDQD", "E2(SZ_QUAD,M_INT4,M_GENW,P_SHORT,P_GEN1)");
  ("CMPQB", "E2(SZ_BYTE,M_INT4,M_GENR,P_SHORT,P_GEN1)");
  ("CMPQW", "E2(SZ_WORD,M_INT4,M_GENR,P_SHORT,P_GEN1)");
  ("CMPQD", "E2(SZ_QUAD,M_INT4,M_GENR,P_SHORT,P_GEN1)");
  ("SPRB", "E2(SZ_BYTE,M_PREG,M_GENW,P_SHORT,P_GEN1)");
  ("SPRW", "E2(SZ_WORD,M_PREG,M_GENW,P_SHORT,P_GEN1)");
  ("SPRD", "E2(SZ_QUAD,M_PREG,M_GENW,P_SHORT,P_GEN1)");
  ("ACBB", "E3(SZ_BYTE,M_INT4,M_GENW,P_SHORT,P_GEN1,M_REL,P_DISP)");
  ("ACBW", "E3(SZ_WORD,M_INT4,M_GENW,P_SHORT,P_GEN1,M_REL,P_DISP)");
  ("ACBD", "E3(SZ_QUAD,M_INT4,M_GENW,P_SHORT,P_GEN1,M_REL,P_DISP)");
  ("MOVQB", "E2(SZ_BYTE,M_INT4,M_GENW,P_SHORT,P_GEN1)");
  ("MOVQW", "E2(SZ_WORD,M_INT4,M_GENW,P_SHORT,P_GEN1)");
  ("MOVQD", "E2(SZ_QUAD,M_INT4,M_GENW,P_SHORT,P_GEN1)");
  ("LPRB", "E2(SZ_BYTE,M_PREG,M_GENR,P_SHORT,P_GEN1)");
  ("LPRW", "E2(SZ_WORD,M_PREG,M_GENR,P_SHORT,P_GEN1)");
  ("LPRD", "E2(SZ_QUAD,M_PREG,M_GENR,P_SHORT,P_GEN1)")]
  [9; 11; 10; 0; 2; 1; 3; 5; 4; 15; 17; 16; 12; 14; 13; 6; 8; 7].

(* src/table_ns32000.cpp:213-221 FORMAT_2_1, 287-295 INDEX_2_1 *)
Definition t_ns32000_FORMAT_2_1 : insn_table := mkIT [
  ("SEQB", "E1(SZ_BYTE,M_GENW,P_GEN1)");
  ("SCSB", "E1(SZ_BYTE,M_GENW,P_GEN1)");
  ("SHIB", "E1(SZ_BYTE,M_GENW,P_GEN1)");
  ("SGTB", "E1(SZ_BYTE,M_GENW,P_GEN1)");
  ("SFSB", "E1(SZ_BYTE,M_GENW,P_GEN1)");
  ("SLOB", "E1(SZ_BYTE,M_GENW,P_GEN1)");
  ("SLTB", "E1(SZ_BYTE,M_GENW,P_GEN1)")]
  [1; 0; 4; 3; 2; 5; 6].

(* src/table_ns32000.cpp:222-230 FORMAT_2_2, 296-304 INDEX_2_2 *)
Definition t_ns32000_FORMAT_2_2 : insn_table := mkIT [
  ("SNEB", "E1(SZ_BYTE,M_GENW,P_GEN1)");
  ("SCCB", "E1(SZ_BYTE,M_GENW,P_GEN1)");
  ("SLSB", "E1(SZ_BYTE,M_GENW,P_GEN1)");
  ("SLEB", "E1(SZ_BYTE,M_GENW,P_GEN1)");
  ("SFCB", "E1(SZ_BYTE,M_GENW,P_GEN1)");
  ("SHSB", "E1(SZ_BYTE,M_GENW,P_GEN1)");
  ("SGEB", "E1(SZ_BYTE,M_GENW,P_GEN1)")]
  [1; 4; 6; 5; 3; 2; 0].

(* src/table_ns32000.cpp:231-239 FORMAT_2_3, 305-313 INDEX_2_3 *)
Definition t_ns32000_FORMAT_2_3 : insn_table := mkIT [
  ("SEQW", "E1(SZ_WORD,M_GENW,P_GEN1)");
  ("SCSW", "E1(SZ_WORD,M_GENW,P_GEN1)");
  ("SHIW", "E1(SZ_WORD,M_GENW,P_GEN1)");
  ("SGTW", "E1(SZ_WORD,M_GENW,P_GEN1)");
  ("SFSW", "E1(SZ_WORD,M_GENW,P_GEN1)");
  ("SLOW", "E1(SZ_WORD,M_GENW,P_GEN1)");
  ("SLTW", "E1(SZ_WORD,M_GENW,P_GEN1)")]
  [1; 0; 4; 3; 2; 5; 6].

(* src/table_ns32000.cpp:240-248 FORMAT_2_4, 314-322 INDEX_2_4 *)
Definition t_ns32000_FORMAT_2_4 : insn_table := mkIT [
  ("SNEW", "E1(SZ_WORD,M_GENW,P_GEN1)");
  ("SCCW", "E1(SZ_WORD,M_GENW,P_GEN1)");
  ("SLSW", "E1(SZ_WORD,M_GENW,P_GEN1)");
  ("SLEW", "E1(SZ_WORD,M_GENW,P_GEN1)");
  ("SFCW", "E1(SZ_WORD,M_GENW,P_GEN1)");
  ("SHSW", "E1(SZ_WORD,M_GENW,P_GEN1)");
  ("SGEW", "E1(SZ_WORD,M_GENW,P_GEN1)")]
  [1; 4; 6; 5; 3; 2; 0].

(* src/table_ns32000.cpp:249-257 FORMAT_2_5, 323-331 INDEX_2_5 *)
Definition t_ns32000_FORMAT_2_5 : insn_table := mkIT [
  ("SEQD", "E1(SZ_QUAD,M_GENW,P_GEN1)");
  ("SCSD", "E1(SZ_QUAD,M_GENW,P_GEN1)");
  ("SHID", "E1(SZ_QUAD,M_GENW,P_GEN1)");
  ("SGTD", "E1(SZ_QUAD,M_GENW,P_GEN1)");
  ("SFSD", "E1(SZ_QUAD,M_GENW,P_GEN1)");
  ("SLOD", "E1(SZ_QUAD,M_GENW,P_GEN1)");
  ("SLTD", "E1(SZ_QUAD,M_GENW,P_GEN1)")]
  [1; 0; 4; 3; 2; 5; 6].

(* src/table_ns32000.cpp:258-266 FORMAT_2_6, 332-340 INDEX_2_6 *)
Definition t_ns32000_FORMAT_2_6 : insn_table := mkIT [
  ("SNED", "E1(SZ_QUAD,M_GENW,P_GEN1)");
  ("SCCD", "E1(SZ_QUAD,M_GENW,P_GEN1)");
  ("SLSD", "E1(SZ_QUAD,M_GENW,P_GEN1)");
  ("SLED", "E1(SZ_QUAD,M_GENW,P_GEN1)");
  ("SFCD", "E1(SZ_QUAD,M_GENW,P_GEN1)");
  ("SHSD", "E1(SZ_QUAD,M_GENW,P_GEN1)");
  ("SGED", "E1(SZ_QUAD,M_GENW,P_GEN1)")]
  [1; 4; 6; 5; 3; 2; 0].

(* src/table_ns32000.cpp:343-348 FORMAT_3_1, 362-367 INDEX_3_1 *)
Definition t_ns32000_FORMAT_3_1 : insn_table := mkIT [
  ("BICPSRB", "E1(SZ_BYTE,M_GENR,P_GEN1)");
  ("BISPSRB", "E1(SZ_BYTE,M_GENR,P_GEN1)");
  ("ADJSPB", "E1(SZ_BYTE,M_GENR,P_GEN1)");
  ("CASEB", "E1(SZ_BYTE,M_GENR,P_GEN1)")]
  [2; 0; 1; 3].

(* src/table_ns32000.cpp:349-354 FORMAT_3_2, 368-373 INDEX_3_2 *)
Definition t_ns32000_FORMAT_3_2 : insn_table := mkIT [
  ("BICPSRW", "E1(SZ_WORD,M_GENR,P_GEN1)");
  ("BISPSRW", "E1(SZ_WORD,M_GENR,P_GEN1)");
  ("ADJSPW", "E1(SZ_WORD,M_GENR,P_GEN1)");
  ("CASEW", "E1(SZ_WORD,M_GENR,P_GEN1)")]
  [2; 0; 1; 3].

(* src/table_ns32000.cpp:355-361 FORMAT_3_3, 374-380 INDEX_3_3 *)
Definition t_ns32000_FORMAT_3_3 : insn_table := mkIT [
  ("CXPD", "E1(SZ_QUAD,M_GENA,P_GEN1)");
  ("JUMP", "E1(SZ_QUAD,M_GENA,P_GEN1)");
  ("ADJSPD", "E1(SZ_QUAD,M_GENR,P_GEN1)");
  ("JSR", "E1(SZ_QUAD,M_GENA,P_GEN1)");
  ("CASED", "E1(SZ_QUAD,M_GENR,P_GEN1)")]
  [2; 4; 0; 3; 1].

(* src/table_ns32000.cpp:383-385 FORMAT_5_0, 401-403 INDEX_5_0 *)
Definition t_ns32000_FORMAT_5_0 : insn_table := mkIT [
  ("SETCFG", "E2(SZ_NONE,M_CONF,M_ZERO,P_SHORT,P_GEN1)")]
  [0].

(* src/table_ns32000.cpp:387-400 FORMAT_5_1, 404-417 INDEX_5_1 *)
Definition t_ns32000_FORMAT_5_1 : insn_table := mkIT [
  ("MOVSB", "E2(SZ_BYTE,M_SOPT,M_ZERO,P_SHORT,P_GEN1)");
  ("MOVSW", "E2(SZ_WORD,M_SOPT,M_ZERO,P_SHORT,P_GEN1)");
  ("MOVSD", "E2(SZ_QUAD,M_SOPT,M_ZERO,P_SHORT,P_GEN1)");
  ("MOVST", "E2(SZ_BYTE,M_SOPT,M_ZERO,P_SHORT,P_GEN1)");
  ("CMPSB", "E2(SZ_BYTE,M_SOPT,M_ZERO,P_SHORT,P_GEN1)");
  ("CMPSW", "E2(SZ_WORD,M_SOPT,M_ZERO,P_SHORT,P_GEN1)");
  ("CMPSD", "E2(SZ_QUAD,M_SOPT,M_ZERO,P_SHORT,P_GEN1)");
  ("CMPST", "E2(SZ_BYTE,M_SOPT,M_ZERO,P_SHORT,P_GEN1)");
  ("SKPSB", "E2(SZ_BYTE,M_SOPT,M_ZERO,P_SHORT,P_GEN1)");
  ("SKPSW", "E2(SZ_WORD,M_SOPT,M_ZERO,P_SHORT,P_GEN1)");
  ("SKPSD", "E2(SZ_QUAD,M_SOPT,M_ZERO,P_SHORT,P_GEN1)");
  ("SKPST", "E2(SZ_BYTE,M_SOPT,M_ZERO,P_SHORT,P_GEN1)")]
  [4; 6; 7; 5; 0; 2; 3; 1; 8; 10; 11; 9].

(* src/table_ns32000.cpp:420-463 FORMAT_6, 464-507 INDEX_6 *)
Definition t_ns32000_FORMAT_6 : insn_table := mkIT [
  ("ROTB", "E2(SZ_BYTE,M_GENC,M_GENW,P_GEN1,P_GEN2)");
  ("ROTW", "E2(SZ_WORD,M_GENC,M_GENW,P_GEN1,P_GEN2)");
  ("ROTD", "E2(SZ_QUAD,M_GENC,M_GENW,P_GEN1,P_GEN2)");
  ("ASHB", "E2(SZ_BYTE,M_GENC,M_GENW,P_GEN1,P_GEN2)");
  ("ASHW", "E2(SZ_WORD,M_GENC,M_GENW,P_GEN1,P_GEN2)");
  ("ASHD", "E2(SZ_QUAD,M_GENC,M_GENW,P_GEN1,P_GEN2)");
  ("CBITB", "E2(SZ_BYTE,M_GENR,M_GENW,P_GEN1,P_GEN2)");
  ("CBITW", "E2(SZ_WORD,M_GENR,M_GENW,P_GEN1,P_GEN2)");
  ("CBITD", "E2(SZ_QUAD,M_GENR,M_GENW,P_GEN1,P_GEN2)");
  ("CBITIB", "E2(SZ_BYTE,M_GENR,M_GENW,P_GEN1,P_GEN2)");
  ("CBITIW", "E2(SZ_WORD,M_GENR,M_GENW,P_GEN1,P_GEN2)");
  ("CBITID", "E2(SZ_QUAD,M_GENR,M_GENW,P_GEN1,P_GEN2)");
  ("LSHB", "E2(SZ_BYTE,M_GENC,M_GENW,P_GEN1,P_GEN2)");
  ("LSHW", "E2(SZ_WORD,M_GENC,M_GENW,P_GEN1,P_GEN2)");
  ("LSHD", "E2(SZ_QUAD,M_GENC,M_GENW,P_GEN1,P_GEN2)");
  ("SBITB", "E2(SZ_BYTE,M_GENR,M_GENW,P_GEN1,P_GEN2)");
  ("SBITW", "E2(SZ_WORD,M_GENR,M_GENW,P_GEN1,P_GEN2)");
  ("SBITD", "E2(SZ_QUAD,M_GENR,M_GENW,P_GEN1,P_GEN2)");
  ("SBITIB", "E2(SZ_BYTE,M_GENR,M_GENW,P_GEN1,P_GEN2)");
  ("SBITIW", "E2(SZ_WORD,M_GENR,M_GENW,P_GEN1,P_GEN2)");
  ("SBITID", "E2(SZ_QUAD,M_GENR,M_GENW,P_GEN1,P_GEN2)");
  ("NEGB", "E2(SZ_BYTE,M_GENR,M_GENW,P_GEN1,P_GEN2)");
  ("NEGW", "E2(SZ_WORD,M_GENR,M_GENW,P_GEN1,P_GEN2)");
  ("NEGD", "E2(SZ_QUAD,M_GENR,M_GENW,P_GEN1,P_GEN2)");
  ("NOTB", "E2(SZ_BYTE,M_GENR,M_GENW,P_GEN1,P_GEN2)");
  ("NOTW", "E2(SZ_WORD,M_GENR,M_GENW,P_GEN1,P_GEN2)");
  ("NOTD", "E2(SZ_QUAD,M_GENR,M_GENW,P_GEN1,P_GEN2)");
  ("SUBPB", "E2(SZ_BYTE,M_GENR,M_GENW,P_GEN1,P_GEN2)");
  ("SUBPW", "E2(SZ_WORD,M_GENR,M_GENW,P_GEN1,P_GEN2)");
  ("SUBPD", "E2(SZ_QUAD,M_GENR,M_GENW,P_GEN1,P_GEN2)");
  ("ABSB", "E2(SZ_BYTE,M_GENR,M_GENW,P_GEN1,P_GEN2)");
  ("ABSW", "E2(SZ_WORD,M_GENR,M_GENW,P_GEN1,P_GEN2)");
  ("ABSD", "E2(SZ_QUAD,M_GENR,M_GENW,P_GEN1,P_GEN2)");
  ("COMB", "E2(SZ_BYTE,M_GENR,M_GENW,P_GEN1,P_GEN2)");
  ("COMW", "E2(SZ_WORD,M_GENR,M_GENW,P_GEN1,P_GEN2)");
  ("COMD", "E2(SZ_QUAD,M_GENR,M_GENW,P_GEN1,P_GEN2)");
  ("IBITB", "E2(SZ_BYTE,M_GENR,M_GENW,P_GEN1,P_GEN2)");
  ("IBITW", "E2(SZ_WORD,M_GENR,M_GENW,P_GEN1,P_GEN2)");
  ("IBITD", "E2(SZ_QUAD,M_GENR,M_GENW,P_GEN1,P_GEN2)");
  ("ADDPB", "E2(SZ_BYTE,M_GENR,M_GENW,P_GEN1,P_GEN2)");
  ("ADDPW", "E2(SZ_WORD,M_GENR,M_GENW,P_GEN1,P_GEN2)");
  ("ADDPD", "E2(SZ_QUAD,M_GENR,M_GENW,P_GEN1,P_GEN2)")]
  [30; 32; 31; 39; 41; 40; 3; 5; 4; 6; 8; 9; 11; 10; 7; 33; 35; 34; 36; 38; 37; 12; 14; 13; 21; 23; 22; 24; 26; 25; 0; 2; 1; 15; 17; 18; 20; 19; 16; 27; 29; 28].

(* src/table_ns32000.cpp:510-551 FORMAT_7, 552-592 INDEX_7 *)
Definition t_ns32000_FORMAT_7 : insn_table := mkIT [
  ("MOVMB", "E3(SZ_BYTE,M_GENA,M_GENA,P_GEN1,P_GEN2,M_LEN16,P_DISP)");
  ("MOVMW", "E3(SZ_WORD,M_GENA,M_GENA,P_GEN1,P_GEN2,M_LEN16,P_DISP)");
  ("MOVMD", "E3(SZ_QUAD,M_GENA,M_GENA,P_GEN1,P_GEN2,M_LEN16,P_DISP)");
  ("CMPMB", "E3(SZ_BYTE,M_GENA,M_GENA,P_GEN1,P_GEN2,M_LEN16,P_DISP)");
  ("CMPMW", "E3(SZ_WORD,M_GENA,M_GENA,P_GEN1,P_GEN2,M_LEN16,P_DISP)");
  ("CMPMD", "E3(SZ_QUAD,M_GENA,M_GENA,P_GEN1,P_GEN2,M_LEN16,P_DISP)");
  ("INSSB", "E4(SZ_BYTE,M_GENR,M_GENW,P_GEN1,P_GEN2,M_BFOFF,EM2_BFLEN,P_IMPL,EP2_IMPL)");
  ("INSSW", "E4(SZ_WORD,M_GENR,M_GENW,P_GEN1,P_GEN2,M_BFOFF,EM2_BFLEN,P_IMPL,EP2_IMPL)");
  ("INSSD", "E4(SZ_QUAD,M_GENR,M_GENW,P_GEN1,P_GEN2,M_BFOFF,EM2_BFLEN,P_IMPL,EP2_IMPL)");
  ("EXTSB", "E4(SZ_BYTE,M_GENW,M_GENW,P_GEN1,P_GEN2,M_BFOFF,EM2_BFLEN,P_IMPL,EP2_IMPL)");
  ("EXTSW", "E4(SZ_WORD,M_GENW,M_GENW,P_GEN1,P_GEN2,M_BFOFF,EM2_BFLEN,P_IMPL,EP2_IMPL)");
  ("EXTSD", "E4(SZ_QUAD,M_GENW,M_GENW,P_GEN1,P_GEN2,M_BFOFF,EM2_BFLEN,P_IMPL,EP2_IMPL)");
  ("MOVXBW", "E2(SZ_BYTE,M_GENR,M_GENW,P_GEN1,P_GEN2)");
  ("MOVXBD", "E2(SZ_BYTE,M_GENR,M_GENW,P_GEN1,P_GEN2)");
  ("MOVXWD", "E2(SZ_WORD,M_GENR,M_GENW,P_GEN1,P_GEN2)");
  ("MOVZBW", "E2(SZ_BYTE,M_GENR,M_GENW,P_GEN1,P_GEN2)");
  ("MOVZBD", "E2(SZ_BYTE,M_GENR,M_GENW,P_GEN1,P_GEN2)");
  ("MOVZWD", "E2(SZ_WORD,M_GENR,M_GENW,P_GEN1,P_GEN2)");
  ("MULB", "E2(SZ_BYTE,M_GENR,M_GENW,P_GEN1,P_GEN2)");
  ("MULW", "E2(SZ_WORD,M_GENR,M_GENW,P_GEN1,P_GEN2)");
  ("MULD", "E2(SZ_QUAD,M_GENR,M_GENW,P_GEN1,P_GEN2)");
  ("MEIB", "W2(SZ_BYTE,M_GENR,M_GENW,P_GEN1,P_GEN2,false,true)");
  ("MEIW", "W2(SZ_WORD,M_GENR,M_GENW,P_GEN1,P_GEN2,false,true)");
  ("MEID", "W2(SZ_QUAD,M_GENR,M_GENW,P_GEN1,P_GEN2,false,true)");
  ("DEIB", "W2(SZ_BYTE,M_GENR,M_GENW,P_GEN1,P_GEN2,false,true)");
  ("DEIW", "W2(SZ_WORD,M_GENR,M_GENW,P_GEN1,P_GEN2,false,true)");
  ("DEID", "W2(SZ_QUAD,M_GENR,M_GENW,P_GEN1,P_GEN2,false,true)");
  ("QUOB", "E2(SZ_BYTE,M_GENR,M_GENW,P_GEN1,P_GEN2)");
  ("QUOW", "E2(SZ_WORD,M_GENR,M_GENW,P_GEN1,P_GEN2)");
  ("QUOD", "E2(SZ_QUAD,M_GENR,M_GENW,P_GEN1,P_GEN2)");
  ("REMB", "E2(SZ_BYTE,M_GENR,M_GENW,P_GEN1,P_GEN2)");
  ("REMW", "E2(SZ_WORD,M_GENR,M_GENW,P_GEN1,P_GEN2)");
  ("REMD", "E2(SZ_QUAD,M_GENR,M_GENW,P_GEN1,P_GEN2)");
  ("MODB", "E2(SZ_BYTE,M_GENR,M_GENW,P_GEN1,P_GEN2)");
  ("MODW", "E2(SZ_WORD,M_GENR,M_GENW,P_GEN1,P_GEN2)");
  ("MODD", "E2(SZ_QUAD,M_GENR,M_GENW,P_GEN1,P_GEN2)");
  ("DIVB", "E2(SZ_BYTE,M_GENR,M_GENW,P_GEN1,P_GEN2)");
  ("DIVW", "E2(SZ_WORD,M_GENR,M_GENW,P_GEN1,P_GEN2)");
  ("DIVD", "E2(SZ_QUAD,M_GENR,M_GENW,P_GEN1,P_GEN2)")]
  [3; 5; 4; 24; 26; 25; 36; 38; 37; 9; 11; 10; 6; 8; 7; 21; 23; 22; 33; 35; 34; 0; 2; 1; 13; 12; 14; 16; 15; 17; 18; 20; 19; 27; 29; 28; 30; 32; 31].

(* src/table_ns32000.cpp:595-602 FORMAT_8_1, 621-628 INDEX_8_1 *)
Definition t_ns32000_FORMAT_8_1 : insn_table := mkIT [
  ("EXTB", "E4(SZ_BYTE,M_GREG,M_GENW,P_REG,P_GEN1,M_GENW,EM2_LEN32,P_GEN2,EP2_DISP)");
  ("EXTW", "E4(SZ_WORD,M_GREG,M_GENW,P_REG,P_GEN1,M_GENW,EM2_LEN32,P_GEN2,EP2_DISP)");
  ("EXTD", "E4(SZ_QUAD,M_GREG,M_GENW,P_REG,P_GEN1,M_GENW,EM2_LEN32,P_GEN2,EP2_DISP)");
  ("INDEXB", "E3(SZ_BYTE,M_GREG,M_GENR,P_REG,P_GEN1,M_GENR,P_GEN2)");
  ("INDEXW", "E3(SZ_WORD,M_GREG,M_GENR,P_REG,P_GEN1,M_GENR,P_GEN2)");
  ("INDEXD", "E3(SZ_QUAD,M_GREG,M_GENR,P_REG,P_GEN1,M_GENR,P_GEN2)")]
  [0; 2; 1; 3; 5; 4].

(* src/table_ns32000.cpp:603-605 FORMAT_8_2, 629-631 INDEX_8_2 *)
Definition t_ns32000_FORMAT_8_2 : insn_table := mkIT [
  ("CVTP", "E3(SZ_QUAD,M_GREG,M_GENA,P_REG,P_GEN1,M_GENW,P_GEN2)")]
  [0].

(* src/table_ns32000.cpp:606-610 FORMAT_8_2_1, 632-636 INDEX_8_2_1 *)
Definition t_ns32000_FORMAT_8_2_1 : insn_table := mkIT [
  ("FFSB", "E2(SZ_BYTE,M_GENR,M_GENW,P_GEN1,P_GEN2)");
  ("FFSW", "E2(SZ_WORD,M_GENR,M_GENW,P_GEN1,P_GEN2)");
  ("FFSD", "E2(SZ_QUAD,M_GENR,M_GENW,P_GEN1,P_GEN2)")]
  [0; 2; 1].

(* src/table_ns32000.cpp:611-615 FORMAT_8_3, 637-641 INDEX_8_3 *)
Definition t_ns32000_FORMAT_8_3 : insn_table := mkIT [
  ("INSB", "E4(SZ_BYTE,M_GREG,M_GENR,P_REG,P_GEN1,M_GENW,EM2_LEN32,P_GEN2,EP2_DISP)");
  ("INSW", "E4(SZ_WORD,M_GREG,M_GENR,P_REG,P_GEN1,M_GENW,EM2_LEN32,P_GEN2,EP2_DISP)");
  ("INSD", "E4(SZ_QUAD,M_GREG,M_GENR,P_REG,P_GEN1,M_GENW,EM2_LEN32,P_GEN2,EP2_DISP)")]
  [0; 2; 1].

(* src/table_ns32000.cpp:616-620 FORMAT_8_4, 642-646 INDEX_8_4 *)
Definition t_ns32000_FORMAT_8_4 : insn_table := mkIT [
  ("CHECKB", "E3(SZ_BYTE,M_GREG,M_GENA,P_REG,P_GEN1,M_GENR,P_GEN2)");
  ("CHECKW", "E3(SZ_WORD,M_GREG,M_GENA,P_REG,P_GEN1,M_GENR,P_GEN2)");
  ("CHECKD", "E3(SZ_QUAD,M_GREG,M_GENA,P_REG,P_GEN1,M_GENR,P_GEN2)")]
  [0; 2; 1].

(* src/table_ns32000.cpp:670-702 FORMAT_9_FPU, 703-732 INDEX_9_FPU *)
Definition t_ns32000_FORMAT_9_FPU : insn_table := mkIT [
  ("MOVBL", "W2(SZ_BYTE,M_GENR,M_FENW,P_GEN1,P_GEN2,false,true)");
  ("MOVWL", "W2(SZ_WORD,M_GENR,M_FENW,P_GEN1,P_GEN2,false,true)");
  ("MOVDL", "W2(SZ_QUAD,M_GENR,M_FENW,P_GEN1,P_GEN2,false,true)");
  ("MOVBF", "E2(SZ_BYTE,M_GENR,M_FENW,P_GEN1,P_GEN2)");
  ("MOVWF", "E2(SZ_WORD,M_GENR,M_FENW,P_GEN1,P_GEN2)");
  ("MOVDF", "E2(SZ_QUAD,M_GENR,M_FENW,P_GEN1,P_GEN2)");
  ("LFSR", "E2(SZ_QUAD,M_GENR,M_ZERO,P_GEN1,P_GEN2)");
  ("SFSR", "E2(SZ_QUAD,M_GENW,M_ZERO,P_GEN2,P_GEN1)");
  ("MOVLF", "W2(SZ_QUAD,M_FENR,M_FENW,P_GEN1,P_GEN2,true,false)");
  ("MOVFL", "W2(SZ_QUAD,M_FENR,M_FENW,P_GEN1,P_GEN2,false,true)");
  ("ROUNDLB", "E2(SZ_OCTA,M_FENR,M_GENW,P_GEN1,P_GEN2)");
  ("ROUNDLW", "E2(SZ_OCTA,M_FENR,M_GENW,P_GEN1,P_GEN2)");
  ("ROUNDLD", "E2(SZ_OCTA,M_FENR,M_GENW,P_GEN1,P_GEN2)");
  ("ROUNDFB", "E2(SZ_QUAD,M_FENR,M_GENW,P_GEN1,P_GEN2)");
  ("ROUNDFW", "E2(SZ_QUAD,M_FENR,M_GENW,P_GEN1,P_GEN2)");
  ("ROUNDFD", "E2(SZ_QUAD,M_FENR,M_GENW,P_GEN1,P_GEN2)");
  ("TRUNCLB", "E2(SZ_OCTA,M_FENR,M_GENW,P_GEN1,P_GEN2)");
  ("TRUNCLW", "E2(SZ_OCTA,M_FENR,M_GENW,P_GEN1,P_GEN2)");
  ("TRUNCLD", "E2(SZ_OCTA,M_FENR,M_GENW,P_GEN1,P_GEN2)");
  ("TRUNCFB", "E2(SZ_QUAD,M_FENR,M_GENW,P_GEN1,P_GEN2)");
  ("TRUNCFW", "E2(SZ_QUAD,M_FENR,M_GENW,P_GEN1,P_GEN2)");
  ("TRUNCFD", "E2(SZ_QUAD,M_FENR,M_GENW,P_GEN1,P_GEN2)");
  ("FLOORLB", "E2(SZ_OCTA,M_FENR,M_GENW,P_GEN1,P_GEN2)");
  ("FLOORLW", "E2(SZ_OCTA,M_FENR,M_GENW,P_GEN1,P_GEN2)");
  ("FLOORLD", "E2(SZ_OCTA,M_FENR,M_GENW,P_GEN1,P_GEN2)");
  ("FLOORFB", "E2(SZ_QUAD,M_FENR,M_GENW,P_GEN1,P_GEN2)");
  ("FLOORFW", "E2(SZ_QUAD,M_FENR,M_GENW,P_GEN1,P_GEN2)");
  ("FLOORFD", "E2(SZ_QUAD,M_FENR,M_GENW,P_GEN1,P_GEN2)")]
  [25; 27; 26; 22; 24; 23; 6; 3; 0; 5; 2; 9; 8; 4; 1; 13; 15; 14; 10; 12; 11; 7; 19; 21; 20; 16; 18; 17].

(* src/table_ns32000.cpp:735-752 FORMAT_11_FPU, 753-770 INDEX_11_FPU *)
Definition t_ns32000_FORMAT_11_FPU : insn_table := mkIT [
  ("ADDL", "E2(SZ_OCTA,M_FENR,M_FENW,P_GEN1,P_GEN2)");
  ("ADDF", "E2(SZ_QUAD,M_FENR,M_FENW,P_GEN1,P_GEN2)");
  ("MOVL", "E2(SZ_OCTA,M_FENR,M_FENW,P_GEN1,P_GEN2)");
  ("MOVF", "E2(SZ_QUAD,M_FENR,M_FENW,P_GEN1,P_GEN2)");
  ("CMPL", "E2(SZ_OCTA,M_FENR,M_FENR,P_GEN1,P_GEN2)");
  ("CMPF", "E2(SZ_QUAD,M_FENR,M_FENR,P_GEN1,P_GEN2)");
  ("SUBL", "E2(SZ_OCTA,M_FENR,M_FENW,P_GEN1,P_GEN2)");
  ("SUBF", "E2(SZ_QUAD,M_FENR,M_FENW,P_GEN1,P_GEN2)");
  ("NEGL", "E2(SZ_OCTA,M_FENR,M_FENW,P_GEN1,P_GEN2)");
  ("NEGF", "E2(SZ_QUAD,M_FENR,M_FENW,P_GEN1,P_GEN2)");
  ("DIVL", "E2(SZ_OCTA,M_FENR,M_FENW,P_GEN1,P_GEN2)");
  ("DIVF", "E2(SZ_QUAD,M_FENR,M_FENW,P_GEN1,P_GEN2)");
  ("MULL", "E2(SZ_OCTA,M_FENR,M_FENW,P_GEN1,P_GEN2)");
  ("MULF", "E2(SZ_QUAD,M_FENR,M_FENW,P_GEN1,P_GEN2)");
  ("ABSL", "E2(SZ_OCTA,M_FENR,M_FENW,P_GEN1,P_GEN2)");
  ("ABSF", "E2(SZ_QUAD,M_FENR,M_FENW,P_GEN1,P_GEN2)")]
  [15; 14; 1; 0; 5; 4; 11; 10; 3; 2; 13; 12; 9; 8; 7; 6].

(* src/table_ns32000.cpp:649-656 FORMAT_8_3_1_MMU, 657-664 INDEX_8_3_1_MMU *)
Definition t_ns32000_FORMAT_8_3_1_MMU : insn_table := mkIT [
  ("MOVSUB", "E2(SZ_BYTE,M_GENA,M_GENA,P_GEN1,P_GEN2)");
  ("MOVSUW", "E2(SZ_WORD,M_GENA,M_GENA,P_GEN1,P_GEN2)");
  ("MOVSUD", "E2(SZ_QUAD,M_GENA,M_GENA,P_GEN1,P_GEN2)");
  ("MOVUSB", "E2(SZ_BYTE,M_GENA,M_GENA,P_GEN1,P_GEN2)");
  ("MOVUSW", "E2(SZ_WORD,M_GENA,M_GENA,P_GEN1,P_GEN2)");
  ("MOVUSD", "E2(SZ_QUAD,M_GENA,M_GENA,P_GEN1,P_GEN2)")]
  [0; 2; 1; 3; 5; 4].

(* src/table_ns32000.cpp:776-779 FORMAT_14_1_MMU, 784-787 INDEX_14_1_MMU *)
Definition t_ns32000_FORMAT_14_1_MMU : insn_table := mkIT [
  ("RDVAL", "E2(SZ_QUAD,M_GENA,M_ZERO,P_GEN1,P_GEN2)");
  ("WRVAL", "E2(SZ_QUAD,M_GENA,M_ZERO,P_GEN1,P_GEN2)")]
  [0; 1].

(* src/table_ns32000.cpp:780-783 FORMAT_14_2_MMU, 788-791 INDEX_14_2_MMU *)
Definition t_ns32000_FORMAT_14_2_MMU : insn_table := mkIT [
  ("LMR", "E2(SZ_QUAD,M_MREG,M_GENR,P_SHORT,P_GEN1)");
  ("SMR", "E2(SZ_QUAD,M_MREG,M_GENW,P_SHORT,P_GEN1)")]
  [0; 1].

(* src/table_pdp11.cpp:34-120 TABLE_BASE, 122-206 INDEX_BASE *)
Definition t_pdp11_TABLE_BASE : insn_table := mkIT [
  ("MOV", "E2(SZ_WORD,M_GENS,P_7700,M_GEND,P_0077)");
  ("MOVB", "E2(SZ_BYTE,M_GENS,P_7700,M_GEND,P_0077)");
  ("CMP", "E2(SZ_WORD,M_GENS,P_7700,M_GENS,P_0077)");
  ("CMPB", "E2(SZ_BYTE,M_GENS,P_7700,M_GENS,P_0077)");
  ("BIT", "E2(SZ_WORD,M_GENS,P_7700,M_GEND,P_0077)");
  ("BITB", "E2(SZ_BYTE,M_GENS,P_7700,M_GEND,P_0077)");
  ("BIC", "E2(SZ_WORD,M_GENS,P_7700,M_GEND,P_0077)");
  ("BICB", "E2(SZ_BYTE,M_GENS,P_7700,M_GEND,P_0077)");
  ("BIS", "E2(SZ_WORD,M_GENS,P_7700,M_GEND,P_0077)");
  ("BISB", "E2(SZ_BYTE,M_GENS,P_7700,M_GEND,P_0077)");
  ("ADD", "E2(SZ_INTG,M_GENS,P_7700,M_GEND,P_0077)");
  ("SUB", "E2(SZ_INTG,M_GENS,P_7700,M_GEND,P_0077)");
  ("XOR", "E2(SZ_WORD,M_GENR,P_0700,M_GEND,P_0077)");
  ("JMP", "E1(SZ_WORD,M_GENA,P_0077)");
  ("SWAB", "E1(SZ_WORD,M_GEND,P_0077)");
  ("CLR", "E1(SZ_WORD,M_GEND,P_0077)");
  ("CLRB", "E1(SZ_BYTE,M_GEND,P_0077)");
  ("COM", "E1(SZ_WORD,M_GEND,P_0077)");
  ("COMB", "E1(SZ_BYTE,M_GEND,P_0077)");
  ("INC", "E1(SZ_WORD,M_GEND,P_0077)");
  ("INCB", "E1(SZ_BYTE,M_GEND,P_0077)");
  ("DEC", "E1(SZ_WORD,M_GEND,P_0077)");
  ("DECB", "E1(SZ_BYTE,M_GEND,P_0077)");
  ("NEG", "E1(SZ_WORD,M_GEND,P_0077)");
  ("NEGB", "E1(SZ_BYTE,M_GEND,P_0077)");
  ("ADC", "E1(SZ_WORD,M_GEND,P_0077)");
  ("ADCB", "E1(SZ_BYTE,M_GEND,P_0077)");
  ("SBC", "E1(SZ_WORD,M_GEND,P_0077)");
  ("SBCB", "E1(SZ_BYTE,M_GEND,P_0077)");
  ("TST", "E1(SZ_WORD,M_GENS,P_0077)");
  ("TSTB", "E1(SZ_BYTE,M_GENS,P_0077)");
  ("ROR", "E1(SZ_WORD,M_GEND,P_0077)");
  ("RORB", "E1(SZ_BYTE,M_GEND,P_0077)");
  ("ROL", "E1(SZ_WORD,M_GEND,P_0077)");
  ("ROLB", "E1(SZ_BYTE,M_GEND,P_0077)");
  ("ASR", "E1(SZ_WORD,M_GEND,P_0077)");
  ("ASRB", "E1(SZ_BYTE,M_GEND,P_0077)");
  ("ASL", "E1(SZ_WORD,M_GEND,P_0077)");
  ("ASLB", "E1(SZ_BYTE,M_GEND,P_0077)");
  ("MTPS", "E1(SZ_BYTE,M_GENS,P_0077)");
  ("SXT", "E1(SZ_WORD,M_GEND,P_0077)");
  ("MFPS", "E1(SZ_BYTE,M_GEND,P_0077)");
  ("BR", "E1(SZ_NONE,M_REL8,P_0377)");
  ("BNE", "E1(SZ_NONE,M_REL8,P_0377)");
  ("BEQ", "E1(SZ_NONE,M_REL8,P_0377)");
  ("BGE", "E1(SZ_NONE,M_REL8,P_0377)");
  ("BLT", "E1(SZ_NONE,M_REL8,P_0377)");
  ("BGT", "E1(SZ_NONE,M_REL8,P_0377)");
  ("BLE", "E1(SZ_NONE,M_REL8,P_0377)");
  ("BPL", "E1(SZ_NONE,M_REL8,P_0377)");
  ("BMI", "E1(SZ_NONE,M_REL8,P_0377)");
  ("BHI", "E1(SZ_NONE,M_REL8,P_0377)");
  ("BLOS", "E1(SZ_NONE,M_REL8,P_0377)");
  ("BVC", "E1(SZ_NONE,M_REL8,P_0377)");
  ("BVS", "E1(SZ_NONE,M_REL8,P_0377)");
  ("BCC", "E1(SZ_NONE,M_REL8,P_0377)");
  ("BCS", "E1(SZ_NONE,M_REL8,P_0377)");
  ("BHIS", "E1(SZ_NONE,M_REL8,P_0377)");
  ("BLO", "E1(SZ_NONE,M_REL8,P_0377)");
  ("SOB", "E2(SZ_NONE,M_GENR,P_0700,M_REL6,P_0077)");
  ("JSR", "E2(SZ_WORD,M_GENR,P_0700,M_GENA,P_0077)");
  ("RTS", "E1(SZ_NONE,M_GENR,P_0007)");
  ("EMT", "E1(SZ_NONE,M_IMM8,P_0377)");
  ("TRAP", "E1(SZ_NONE,M_IMM8,P_0377)");
  ("RTI", "E0(SZ_NONE)");
  ("BPT", "E0(SZ_NONE)");
  ("IOT", "E0(SZ_NONE)");
  ("RTT", "E0(SZ_NONE)");
  ("HALT", "E0(SZ_NONE)");
  ("WAIT", "E0(SZ_NONE)");
  ("RESET", "E0(SZ_NONE)");
  ("MFPT", "E0(SZ_NONE)");
  ("NOP", "E0(SZ_NONE)");
  ("CLC", "E0(SZ_NONE)");
  ("CLV", "E0(SZ_NONE)");
  ("CLZ", "E0(SZ_NONE)");
  ("CLN", "E0(SZ_NONE)");
  ("CCC", "E0(SZ_NONE)");
  ("SEC", "E0(SZ_NONE)");
  ("SEV", "E0(SZ_NONE)");
  ("SEZ", "E0(SZ_NONE)");
  ("SEN", "E0(SZ_NONE)");
  ("SCC", "E0(SZ_NONE)");
  ("NOP", "E0(SZ_NONE)")]
  [25; 26; 10; 37; 38; 35; 36; 55; 56; 44; 45; 47; 51; 57; 6; 7; 8; 9; 4; 5; 48; 58; 52; 46; 50; 43; 49; 65; 42; 53; 54; 77; 73; 76; 15; 16; 74; 75; 2; 3; 17; 18; 21; 22; 62; 68; 19; 20; 66; 13; 60; 41; 71; 0; 1; 39; 23; 24; 72; 70; 33; 34; 31; 32; 64; 61; 67; 27; 28; 82; 78; 81; 79; 80; 59; 11; 14; 40; 63; 29; 30; 69; 12].

(* src/table_pdp11.cpp:208-213 TABLE_EIS, 215-220 INDEX_EIS *)
Definition t_pdp11_TABLE_EIS : insn_table := mkIT [
  ("MUL", "E2(SZ_INTG,M_GENS,P_0077,M_GENR,P_0700)");
  ("DIV", "E2(SZ_INTG,M_GENS,P_0077,M_GENR,P_0700)");
  ("ASH", "E2(SZ_WORD,M_GENS,P_0077,M_GENR,P_0700)");
  ("ASHC", "E2(SZ_WORD,M_GENS,P_0077,M_GENR,P_0700)")]
  [2; 3; 1; 0].

(* src/table_pdp11.cpp:236-242 TABLE_J11, 244-250 INDEX_J11 *)
Definition t_pdp11_TABLE_J11 : insn_table := mkIT [
  ("MARK", "E1(SZ_NONE,M_IMM6,P_0077)");
  ("CSM", "E1(SZ_WORD,M_GENS,P_0077)");
  ("SPL", "E1(SZ_NONE,M_IMM3,P_0007)");
  ("TSTSET", "E1(SZ_WORD,M_GENA,P_0077)");
  ("WRTLCK", "E1(SZ_WORD,M_GENA,P_0077)")]
  [1; 0; 2; 3; 4].

(* src/table_pdp11.cpp:252-299 TABLE_FP11, 301-348 INDEX_FP11 *)
Definition t_pdp11_TABLE_FP11 : insn_table := mkIT [
  ("CFCC", "E0(SZ_NONE)");
  ("SETD", "E0(SZ_NONE)");
  ("SETF", "E0(SZ_NONE)");
  ("SETI", "E0(SZ_NONE)");
  ("SETL", "E0(SZ_NONE)");
  ("LDFPS", "E1(SZ_WORD,M_GENS,P_0077)");
  ("STFPS", "E1(SZ_WORD,M_GEND,P_0077)");
  ("STST", "E1(SZ_DWRD,M_GEND,P_0077)");
  ("LDEXP", "E2(SZ_WORD,M_GENS,P_0077,M_AC03,P_0300)");
  ("STEXP", "E2(SZ_WORD,M_AC03,P_0300,M_GEND,P_0077)");
  ("ABSD", "E1(SZ_DUBL,M_GENG,P_0077)");
  ("ADDD", "E2(SZ_DUBL,M_GENF,P_0077,M_AC03,P_0300)");
  ("CLRD", "E1(SZ_DUBL,M_GENG,P_0077)");
  ("CMPD", "E2(SZ_DUBL,M_GENF,P_0077,M_AC03,P_0300)");
  ("DIVD", "E2(SZ_DUBL,M_GENF,P_0077,M_AC03,P_0300)");
  ("LDCDF", "E2(SZ_DUBL,M_GENF,P_0077,M_AC03,P_0300)");
  ("LDCLD", "E2(SZ_LONG,M_GENS,P_0077,M_AC03,P_0300)");
  ("LDCID", "E2(SZ_INTG,M_GENS,P_0077,M_AC03,P_0300)");
  ("LDD", "E2(SZ_DUBL,M_GENF,P_0077,M_AC03,P_0300)");
  ("MODD", "E2(SZ_DUBL,M_GENF,P_0077,M_AC03,P_0300)");
  ("MULD", "E2(SZ_DUBL,M_GENF,P_0077,M_AC03,P_0300)");
  ("NEGD", "E1(SZ_DUBL,M_GENG,P_0077)");
  ("STCDF", "E2(SZ_FLOT,M_AC03,P_0300,M_GENG,P_0077)");
  ("STD", "E2(SZ_DUBL,M_AC03,P_0300,M_GENA,P_0077)");
  ("STCDL", "E2(SZ_LONG,M_AC03,P_0300,M_GEND,P_0077)");
  ("STCDI", "E2(SZ_INTG,M_AC03,P_0300,M_GEND,P_0077)");
  ("SUBD", "E2(SZ_DUBL,M_GENF,P_0077,M_AC03,P_0300)");
  ("TSTD", "E1(SZ_DUBL,M_GENF,P_0077)");
  ("ABSF", "E1(SZ_FLOT,M_GENG,P_0077)");
  ("ADDF", "E2(SZ_FLOT,M_GENF,P_0077,M_AC03,P_0300)");
  ("CLRF", "E1(SZ_FLOT,M_GENG,P_0077)");
  ("CMPF", "E2(SZ_FLOT,M_GENF,P_0077,M_AC03,P_0300)");
  ("DIVF", "E2(SZ_FLOT,M_GENF,P_0077,M_AC03,P_0300)");
  ("LDCFD", "E2(SZ_FLOT,M_GENF,P_0077,M_AC03,P_0300)");
  ("LDCLF", "E2(SZ_LONG,M_GENS,P_0077,M_AC03,P_0300)");
  ("LDCIF", "E2(SZ_INTG,M_GENS,P_0077,M_AC03,P_0300)");
  ("LDF", "E2(SZ_FLOT,M_GENF,P_0077,M_AC03,P_0300)");
  ("MODF", "E2(SZ_FLOT,M_GENF,P_0077,M_AC03,P_0300)");
  ("MULF", "E2(SZ_FLOT,M_GENF,P_0077,M_AC03,P_0300)");
  ("NEGF", "E1(SZ_FLOT,M_GENG,P_0077)");
  ("STCFD", "E2(SZ_DUBL,M_AC03,P_0300,M_GENG,P_0077)");
  ("STF", "E2(SZ_FLOT,M_AC03,P_0300,M_GENA,P_0077)");
  ("STCFL", "E2(SZ_LONG,M_AC03,P_0300,M_GEND,P_0077)");
  ("STCFI", "E2(SZ_INTG,M_AC03,P_0300,M_GEND,P_0077)");
  ("SUBF", "E2(SZ_FLOT,M_GENF,P_0077,M_AC03,P_0300)");
  ("TSTF", "E1(SZ_FLOT,M_GENF,P_0077)")]
  [10; 28; 11; 29; 0; 12; 30; 13; 31; 14; 32; 15; 33; 17; 35; 16; 34; 18; 8; 36; 5; 19; 37; 20; 38; 21; 39; 1; 2; 3; 4; 22; 25; 24; 40; 43; 42; 23; 9; 41; 6; 7; 26; 44; 27; 45].

(* src/table_pdp11.cpp:222-227 TABLE_MFPMTP, 229-234 INDEX_MFPMTP *)
Definition t_pdp11_TABLE_MFPMTP : insn_table := mkIT [
  ("MFPI", "E1(SZ_WORD,M_GENA,P_0077)");
  ("MFPD", "E1(SZ_WORD,M_GENA,P_0077)");
  ("MTPI", "E1(SZ_WORD,M_GENA,P_0077)");
  ("MTPD", "E1(SZ_WORD,M_GENA,P_0077)")]
  [1; 0; 3; 2].

(* src/table_pdp8.cpp:82-98 IM6100_GR1, 100-116 INDEX_IM6100_GR1 *)
Definition t_pdp8_IM6100_GR1 : insn_table := mkIT [
  ("NOP", "C(M_GR1,CLA|CLL|CMA|CML|IAC,R1|R2|R3)");
  ("GLK", "C(M_GR1,CLA|R1|R2|R3,0)");
  ("STL", "C(M_GR1,CLL|CML,0)");
  ("STA", "C(M_GR1,CLA|CMA,0)");
  ("CLA", "M(M_GR1,CLA,0)");
  ("CLL", "C(M_GR1,CLL,0)");
  ("CIA", "C(M_GR1,CMA|IAC,0)");
  ("CMA", "C(M_GR1,CMA,0)");
  ("CML", "C(M_GR1,CML,0)");
  ("BSW", "C(M_GR1,R1|R2|R3,0)");
  ("RAL", "C(M_GR1,R1|R2|R3,0)");
  ("RAR", "C(M_GR1,R1|R2|R3,0)");
  ("RTL", "C(M_GR1,R1|R2|R3,0)");
  ("RTR", "C(M_GR1,R1|R2|R3,0)");
  ("IAC", "C(M_GR1,IAC,0)")]
  [9; 6; 4; 5; 7; 8; 1; 14; 0; 10; 11; 12; 13; 3; 2].

(* src/table_pdp8.cpp:166-179 IM6100_GR2, 181-194 INDEX_IM6100_GR2 *)
Definition t_pdp8_IM6100_GR2 : insn_table := mkIT [
  ("NOP", "E(M_GR2,CLA|SMA|SZA|SNL|B08|OSR|HLT)");
  ("SKP", "E(M_GR2,SMA|SZA|SNL|B08)");
  ("SMA", "C(M_GR2,SMA,B08)");
  ("SPA", "C(M_GR2,SPA,B08)");
  ("SZA", "C(M_GR2,SZA,B08)");
  ("SNA", "C(M_GR2,SNA,B08)");
  ("SNL", "C(M_GR2,SNL,B08)");
  ("SZL", "C(M_GR2,SZL,B08)");
  ("LAS", "C(M_GR2,CLA|OSR,0)");
  ("CLA", "M(M_GR2,CLA,0)");
  ("OSR", "C(M_GR2,OSR,0)");
  ("HLT", "C(M_GR2,HLT,0)")]
  [9; 11; 8; 0; 10; 1; 2; 5; 6; 3; 4; 7].

(* src/table_pdp8.cpp:199-207 IM6100_GR3, 209-217 INDEX_IM6100_GR3 *)
Definition t_pdp8_IM6100_GR3 : insn_table := mkIT [
  ("NOP", "E(M_GR3,CLA|MQA|MQL)");
  ("ACL", "C(M_GR3,CLA|MQA,MQL)");
  ("CAM", "C(M_GR3,CLA|MQL,MQA)");
  ("CLA", "C(M_GR3,CLA,0)");
  ("SWP", "C(M_GR3,MQA|MQL,0)");
  ("MQA", "C(M_GR3,MQA,0)");
  ("MQL", "C(M_GR3,MQL,0)")]
  [1; 2; 3; 5; 6; 0; 4].

(* src/table_pdp8.cpp:219-229 IM6100_IOT, 231-241 INDEX_IM6100_IOT *)
Definition t_pdp8_IM6100_IOT : insn_table := mkIT [
  ("SKON", "E(M_CMP,00777)");
  ("ION", "E(M_CMP,00777)");
  ("IOF", "E(M_CMP,00777)");
  ("SRQ", "E(M_CMP,00777)");
  ("GTF", "E(M_CMP,00777)");
  ("RTF", "E(M_CMP,00777)");
  ("SGT", "E(M_CMP,00777)");
  ("CAF", "E(M_CMP,00777)");
  ("IOT", "E(M_IOT,0)")]
  [7; 4; 2; 1; 8; 5; 6; 0; 3].

(* src/table_pdp8.cpp:55-62 IM6100_MEM, 64-71 INDEX_IM6100_MEM *)
Definition t_pdp8_IM6100_MEM : insn_table := mkIT [
  ("AND", "E(M_MEM,0)");
  ("TAD", "E(M_MEM,0)");
  ("ISZ", "E(M_MEM,0)");
  ("DCA", "E(M_MEM,0)");
  ("JMS", "E(M_MEM,0)");
  ("JMP", "E(M_MEM,0)")]
  [0; 3; 2; 5; 4; 1].

(* src/table_pdp8.cpp:118-135 HD6120_GR1, 137-154 INDEX_HD6120_GR1 *)
Definition t_pdp8_HD6120_GR1 : insn_table := mkIT [
  ("NOP", "C(M_GR1,CLA|CLL|CMA|CML|IAC,R1|R2|R3)");
  ("GLK", "C(M_GR1,CLA|R1|R2|R3,0)");
  ("STL", "C(M_GR1,CLL|CML,0)");
  ("STA", "C(M_GR1,CLA|CMA,0)");
  ("CLA", "M(M_GR1,CLA,0)");
  ("CLL", "C(M_GR1,CLL,0)");
  ("CIA", "C(M_GR1,CMA|IAC,0)");
  ("CMA", "C(M_GR1,CMA,0)");
  ("CML", "C(M_GR1,CML,0)");
  ("BSW", "C(M_GR1,R1|R2|R3,0)");
  ("RAL", "C(M_GR1,R1|R2|R3,0)");
  ("RAR", "C(M_GR1,R1|R2|R3,0)");
  ("RTL", "C(M_GR1,R1|R2|R3,0)");
  ("RTR", "C(M_GR1,R1|R2|R3,0)");
  ("R3L", "C(M_GR1,R1|R2|R3,0)");
  ("IAC", "C(M_GR1,IAC,0)")]
  [9; 6; 4; 5; 7; 8; 1; 15; 0; 14; 10; 11; 12; 13; 3; 2].

(* src/table_pdp8.cpp:247-250 HD6120_MEX, 252-255 INDEX_HD6120_MEX *)
Definition t_pdp8_HD6120_MEX : insn_table := mkIT [
  ("CDF", "C(M_MEX,CDF,B09)");
  ("CIF", "C(M_MEX,CIF,B09)")]
  [0; 1].

(* src/table_pdp8.cpp:257-280 HD6120_I20, 282-305 INDEX_HD6120_I20 *)
Definition t_pdp8_HD6120_I20 : insn_table := mkIT [
  ("PPC1", "E(M_CMP,00073)");
  ("PPC2", "E(M_CMP,00073)");
  ("PAC1", "E(M_CMP,00073)");
  ("PAC2", "E(M_CMP,00073)");
  ("RTN1", "E(M_CMP,00073)");
  ("RTN2", "E(M_CMP,00073)");
  ("POP1", "E(M_CMP,00073)");
  ("POP2", "E(M_CMP,00073)");
  ("RSP1", "E(M_CMP,00073)");
  ("RSP2", "E(M_CMP,00073)");
  ("LSP1", "E(M_CMP,00073)");
  ("LSP2", "E(M_CMP,00073)");
  ("WSR", "E(M_CMP,00073)");
  ("GCF", "E(M_CMP,00073)");
  ("RDF", "E(M_CMP,00073)");
  ("RIF", "E(M_CMP,00073)");
  ("RIB", "E(M_CMP,00073)");
  ("RMF", "E(M_CMP,00073)");
  ("PR0", "E(M_CMP,00073)");
  ("PR1", "E(M_CMP,00073)");
  ("PR2", "E(M_CMP,00073)");
  ("PR3", "E(M_CMP,00073)")]
  [13; 10; 11; 2; 3; 6; 7; 0; 1; 18; 19; 20; 21; 14; 16; 15; 17; 8; 9; 4; 5; 12].

(* src/table_scn2650.cpp:33-118 TABLE_2650, 120-205 INDEX_2650 *)
Definition t_scn2650_TABLE_2650 : insn_table := mkIT [
  ("LODZ", "E1(M_R123)");
  ("LODI", "E2(M_REGN,M_IMM8)");
  ("LODR", "E2(M_REGN,M_REL7)");
  ("LODA", "E2(M_REG0,M_IX13)");
  ("LODA", "E2(M_REGN,M_AB13)");
  ("SPSU", "E0()");
  ("SPSL", "E0()");
  ("RETC", "E1(M_CCVN)");
  ("BCTR", "E2(M_CCVN,M_REL7)");
  ("BCTA", "E2(M_CCVN,M_AB15)");
  ("EORZ", "E1(M_REGN)");
  ("EORI", "E2(M_REGN,M_IMM8)");
  ("EORR", "E2(M_REGN,M_REL7)");
  ("EORA", "E2(M_REG0,M_IX13)");
  ("EORA", "E2(M_REGN,M_AB13)");
  ("REDC", "E1(M_REGN)");
  ("RETE", "E1(M_CCVN)");
  ("BSTR", "E2(M_CCVN,M_REL7)");
  ("BSTA", "E2(M_CCVN,M_AB15)");
  ("HALT", "E0()");
  ("ANDZ", "E1(M_R123)");
  ("ANDI", "E2(M_REGN,M_IMM8)");
  ("ANDR", "E2(M_REGN,M_REL7)");
  ("ANDA", "E2(M_REG0,M_IX13)");
  ("ANDA", "E2(M_REGN,M_AB13)");
  ("RRR", "E1(M_REGN)");
  ("REDE", "E2(M_REGN,M_IMM8)");
  ("BRNR", "E2(M_REGN,M_REL7)");
  ("BRNA", "E2(M_REGN,M_AB15)");
  ("LODZ", "E1(M_REG0)");
  ("IORZ", "E1(M_REGN)");
  ("IORI", "E2(M_REGN,M_IMM8)");
  ("IORR", "E2(M_REGN,M_REL7)");
  ("IORA", "E2(M_REG0,M_IX13)");
  ("IORA", "E2(M_REGN,M_AB13)");
  ("REDD", "E1(M_REGN)");
  ("CPSU", "E1(M_IMM8)");
  ("CPSL", "E1(M_IMM8)");
  ("PPSU", "E1(M_IMM8)");
  ("PPSL", "E1(M_IMM8)");
  ("BSNR", "E2(M_REGN,M_REL7)");
  ("BSNA", "E2(M_REGN,M_AB15)");
  ("ADDZ", "E1(M_REGN)");
  ("ADDI", "E2(M_REGN,M_IMM8)");
  ("ADDR", "E2(M_REGN,M_REL7)");
  ("ADDA", "E2(M_REG0,M_IX13)");
  ("ADDA", "E2(M_REGN,M_AB13)");
  ("LPSU", "E0()");
  ("LPSL", "E0()");
  ("DAR", "E1(M_REGN)");
  ("ZBRR", "E1(M_ABS7)");
  ("BCFR", "E2(M_C012,M_REL7)");
  ("BXA", "E1(M_IX15)");
  ("BCFA", "E2(M_C012,M_AB15)");
  ("SUBZ", "E1(M_REGN)");
  ("SUBI", "E2(M_REGN,M_IMM8)");
  ("SUBR", "E2(M_REGN,M_REL7)");
  ("SUBA", "E2(M_REG0,M_IX13)");
  ("SUBA", "E2(M_REGN,M_AB13)");
  ("WRTC", "E1(M_REGN)");
  ("TPSU", "E1(M_IMM8)");
  ("TPSL", "E1(M_IMM8)");
  ("ZBSR", "E1(M_ABS7)");
  ("BSFR", "E2(M_C012,M_REL7)");
  ("BSXA", "E1(M_IX15)");
  ("BSFA", "E2(M_C012,M_AB15)");
  ("NOP", "E0()");
  ("STRZ", "E1(M_R123)");
  ("STRR", "E2(M_REGN,M_REL7)");
  ("STRA", "E2(M_REG0,M_IX13)");
  ("STRA", "E2(M_REGN,M_AB13)");
  ("RRL", "E1(M_REGN)");
  ("WRTE", "E2(M_REGN,M_IMM8)");
  ("BIRR", "E2(M_REGN,M_REL7)");
  ("BIRA", "E2(M_REGN,M_AB15)");
  ("COMZ", "E1(M_REGN)");
  ("COMI", "E2(M_REGN,M_IMM8)");
  ("COMR", "E2(M_REGN,M_REL7)");
  ("COMA", "E2(M_REG0,M_IX13)");
  ("COMA", "E2(M_REGN,M_AB13)");
  ("WRTD", "E1(M_REGN)");
  ("TMI", "E2(M_REGN,M_IMM8)");
  ("BDRR", "E2(M_REGN,M_REL7)");
  ("BDRA", "E2(M_REGN,M_AB15)")]
  [45; 46; 43; 44; 42; 23; 24; 21; 22; 20; 53; 51; 9; 8; 83; 82; 74; 73; 28; 27; 65; 63; 41; 40; 18; 17; 64; 52; 78; 79; 76; 77; 75; 37; 36; 49; 13; 14; 11; 12; 10; 19; 33; 34; 31; 32; 30; 3; 4; 1; 2; 0; 29; 48; 47; 66; 39; 38; 15; 35; 26; 7; 16; 71; 25; 6; 5; 69; 70; 68; 67; 57; 58; 55; 56; 54; 81; 61; 60; 59; 80; 72; 50; 62].

(* src/table_tlcs90.cpp:34-131 TABLE_TLCS90, 133-230 INDEX_TLCS90 *)
Definition t_tlcs90_TABLE_TLCS90 : insn_table := mkIT [
  ("NOP", "E0()");
  ("HALT", "E0()");
  ("DI", "E0()");
  ("EI", "E0()");
  ("INCX", "E1(M_DIR)");
  ("EX", "E2(R_DE,R_HL)");
  ("EX", "E2(R_HL,R_DE)");
  ("EX", "E2(R_AF,R_AFP)");
  ("EXX", "E0()");
  ("DAA", "E1(R_A)");
  ("RCF", "E0()");
  ("SCF", "E0()");
  ("CCF", "E0()");
  ("DECX", "E1(M_DIR)");
  ("CPL", "E1(R_A)");
  ("NEG", "E1(R_A)");
  ("MUL", "E2(R_HL,M_IMM8)");
  ("DIV", "E2(R_HL,M_IMM8)");
  ("LDAR", "E2(R_HL,M_REL16)");
  ("ADD", "E2(M_REGIX,M_IMM16)");
  ("DJNZ", "E1(M_REL8)");
  ("DJNZ", "E2(R_BC,M_REL8)");
  ("JP", "E1(M_IMM16)");
  ("JRL", "E1(M_REL16)");
  ("CALL", "E1(M_IMM16)");
  ("CALR", "E1(M_REL16)");
  ("RET", "E0()");
  ("RETI", "E0()");
  ("LD", "E2(R_A,M_DIR)");
  ("LD", "E2(R_A,M_REG8)");
  ("LD", "E2(M_DIR,R_A)");
  ("LD", "E2(M_REG8,R_A)");
  ("LD", "E2(M_DIR,M_IMM8)");
  ("LD", "E2(M_REG8,M_IMM8)");
  ("LDW", "E2(M_DIR,M_IMM16)");
  ("LD", "E2(M_REG16,M_IMM16)");
  ("LD", "E2(R_HL,M_DIR)");
  ("LD", "E2(R_HL,M_REG16)");
  ("LD", "E2(M_DIR,R_HL)");
  ("LD", "E2(M_REG16,R_HL)");
  ("PUSH", "E1(M_STACK)");
  ("POP", "E1(M_STACK)");
  ("ADD", "E2(R_A,M_DIR)");
  ("ADC", "E2(R_A,M_DIR)");
  ("SUB", "E2(R_A,M_DIR)");
  ("SBC", "E2(R_A,M_DIR)");
  ("AND", "E2(R_A,M_DIR)");
  ("XOR", "E2(R_A,M_DIR)");
  ("OR", "E2(R_A,M_DIR)");
  ("CP", "E2(R_A,M_DIR)");
  ("ADD", "E2(R_A,M_IMM8)");
  ("ADC", "E2(R_A,M_IMM8)");
  ("SUB", "E2(R_A,M_IMM8)");
  ("SBC", "E2(R_A,M_IMM8)");
  ("AND", "E2(R_A,M_IMM8)");
  ("XOR", "E2(R_A,M_IMM8)");
  ("OR", "E2(R_A,M_IMM8)");
  ("CP", "E2(R_A,M_IMM8)");
  ("ADD", "E2(R_HL,M_DIR)");
  ("ADC", "E2(R_HL,M_DIR)");
  ("SUB", "E2(R_HL,M_DIR)");
  ("SBC", "E2(R_HL,M_DIR)");
  ("AND", "E2(R_HL,M_DIR)");
  ("XOR", "E2(R_HL,M_DIR)");
  ("OR", "E2(R_HL,M_DIR)");
  ("CP", "E2(R_HL,M_DIR)");
  ("ADD", "E2(R_HL,M_IMM16)");
  ("ADC", "E2(R_HL,M_IMM16)");
  ("SUB", "E2(R_HL,M_IMM16)");
  ("SBC", "E2(R_HL,M_IMM16)");
  ("AND", "E2(R_HL,M_IMM16)");
  ("XOR", "E2(R_HL,M_IMM16)");
  ("OR", "E2(R_HL,M_IMM16)");
  ("CP", "E2(R_HL,M_IMM16)");
  ("INC", "E1(M_DIR)");
  ("INC", "E1(M_REG8)");
  ("DEC", "E1(M_DIR)");
  ("DEC", "E1(M_REG8)");
  ("INCW", "E1(M_DIR)");
  ("INC", "E1(M_REG16)");
  ("DECW", "E1(M_DIR)");
  ("DEC", "E1(M_REG16)");
  ("RLCA", "E0()");
  ("RRCA", "E0()");
  ("RLA", "E0()");
  ("RRA", "E0()");
  ("SLAA", "E0()");
  ("SRAA", "E0()");
  ("SLLA", "E0()");
  ("SRLA", "E0()");
  ("BIT", "E2(M_BIT,M_DIR)");
  ("RES", "E2(M_BIT,M_DIR)");
  ("SET", "E2(M_BIT,M_DIR)");
  ("JR", "E1(M_REL8)");
  ("JR", "E2(M_CC,M_REL8)");
  ("SWI", "E0()")]
  [43; 51; 59; 67; 19; 42; 50; 58; 66; 46; 54; 62; 70; 90; 24; 25; 12; 49; 57; 65; 73; 14; 9; 76; 77; 81; 80; 13; 2; 17; 20; 21; 3; 5; 6; 7; 8; 1; 74; 75; 79; 78; 4; 22; 93; 94; 23; 28; 29; 30; 31; 32; 33; 35; 36; 37; 38; 39; 18; 34; 16; 15; 0; 48; 56; 64; 72; 41; 40; 10; 91; 26; 27; 84; 82; 85; 83; 45; 53; 61; 69; 11; 92; 86; 88; 87; 89; 44; 52; 60; 68; 95; 47; 55; 63; 71].

(* src/table_tlcs90.cpp:232-274 TABLE_SRC, 276-318 INDEX_SRC *)
Definition t_tlcs90_TABLE_SRC : insn_table := mkIT [
  ("RLD", "E1(M_DST)");
  ("RRD", "E1(M_DST)");
  ("MUL", "E2(R_HL,M_SRC)");
  ("DIV", "E2(R_HL,M_SRC)");
  ("ADD", "E2(M_REGIX,M_SRC)");
  ("TSET", "E2(M_BIT,M_SRC)");
  ("LD", "E2(M_REG8,M_SRC)");
  ("LD", "E2(M_REG16,M_SRC)");
  ("EX", "E2(M_DST,M_REG16)");
  ("EX", "E2(M_REG16,M_SRC)");
  ("ADD", "E2(R_A,M_SRC)");
  ("ADC", "E2(R_A,M_SRC)");
  ("SUB", "E2(R_A,M_SRC)");
  ("SBC", "E2(R_A,M_SRC)");
  ("AND", "E2(R_A,M_SRC)");
  ("XOR", "E2(R_A,M_SRC)");
  ("OR", "E2(R_A,M_SRC)");
  ("CP", "E2(R_A,M_SRC)");
  ("ADD", "E2(R_HL,M_SRC)");
  ("ADC", "E2(R_HL,M_SRC)");
  ("SUB", "E2(R_HL,M_SRC)");
  ("SBC", "E2(R_HL,M_SRC)");
  ("AND", "E2(R_HL,M_SRC)");
  ("XOR", "E2(R_HL,M_SRC)");
  ("OR", "E2(R_HL,M_SRC)");
  ("CP", "E2(R_HL,M_SRC)");
  ("INC", "E1(M_DST)");
  ("DEC", "E1(M_DST)");
  ("INCW", "E1(M_DST)");
  ("DECW", "E1(M_DST)");
  ("RLC", "E1(M_DST)");
  ("RRC", "E1(M_DST)");
  ("RL", "E1(M_DST)");
  ("RR", "E1(M_DST)");
  ("SLA", "E1(M_DST)");
  ("SRA", "E1(M_DST)");
  ("SLL", "E1(M_DST)");
  ("SRL", "E1(M_DST)");
  ("BIT", "E2(M_BIT,M_SRC)");
  ("RES", "E2(M_BIT,M_SRC)");
  ("SET", "E2(M_BIT,M_SRC)")]
  [11; 19; 4; 10; 18; 14; 22; 38; 17; 25; 27; 29; 3; 8; 9; 26; 28; 6; 7; 2; 16; 24; 39; 32; 30; 0; 33; 31; 1; 13; 21; 40; 34; 36; 35; 37; 12; 20; 5; 15; 23].

(* src/table_tlcs90.cpp:320-333 TABLE_DST, 335-348 INDEX_DST *)
Definition t_tlcs90_TABLE_DST : insn_table := mkIT [
  ("LD", "E2(M_DST,M_REG8)");
  ("LD", "E2(M_DST,M_IMM8)");
  ("LDW", "E2(M_DST,M_IMM16)");
  ("LD", "E2(M_DST,M_REG16)");
  ("ADD", "E2(M_DST,M_IMM8)");
  ("ADC", "E2(M_DST,M_IMM8)");
  ("SUB", "E2(M_DST,M_IMM8)");
  ("SBC", "E2(M_DST,M_IMM8)");
  ("AND", "E2(M_DST,M_IMM8)");
  ("XOR", "E2(M_DST,M_IMM8)");
  ("OR", "E2(M_DST,M_IMM8)");
  ("CP", "E2(M_DST,M_IMM8)")]
  [5; 4; 8; 11; 0; 1; 3; 2; 10; 7; 6; 9].

(* src/table_tlcs90.cpp:447-452 TABLE_JMP, 454-459 INDEX_JMP *)
Definition t_tlcs90_TABLE_JMP : insn_table := mkIT [
  ("JP", "E2(M_CC,M_SRC)");
  ("JP", "E1(M_DST)");
  ("CALL", "E2(M_CC,M_SRC)");
  ("CALL", "E1(M_DST)")]
  [2; 3; 0; 1].

(* src/table_tlcs90.cpp:350-392 TABLE_REG, 394-436 INDEX_REG *)
Definition t_tlcs90_TABLE_REG : insn_table := mkIT [
  ("MUL", "E2(R_HL,M_SRC)");
  ("DIV", "E2(R_HL,M_SRC)");
  ("TSET", "E2(M_BIT,M_SRC)");
  ("LD", "E2(M_REG8,M_SRC)");
  ("ADD", "E2(R_A,M_SRC)");
  ("ADC", "E2(R_A,M_SRC)");
  ("SUB", "E2(R_A,M_SRC)");
  ("SBC", "E2(R_A,M_SRC)");
  ("AND", "E2(R_A,M_SRC)");
  ("XOR", "E2(R_A,M_SRC)");
  ("OR", "E2(R_A,M_SRC)");
  ("CP", "E2(R_A,M_SRC)");
  ("ADD", "E2(M_DST,M_IMM8)");
  ("ADC", "E2(M_DST,M_IMM8)");
  ("SUB", "E2(M_DST,M_IMM8)");
  ("SBC", "E2(M_DST,M_IMM8)");
  ("AND", "E2(M_DST,M_IMM8)");
  ("XOR", "E2(M_DST,M_IMM8)");
  ("OR", "E2(M_DST,M_IMM8)");
  ("CP", "E2(M_DST,M_IMM8)");
  ("RLC", "E1(M_DST)");
  ("RRC", "E1(M_DST)");
  ("RL", "E1(M_DST)");
  ("RR", "E1(M_DST)");
  ("SLA", "E1(M_DST)");
  ("SRA", "E1(M_DST)");
  ("SLL", "E1(M_DST)");
  ("SRL", "E1(M_DST)");
  ("BIT", "E2(M_BIT,M_SRC)");
  ("RES", "E2(M_BIT,M_SRC)");
  ("SET", "E2(M_BIT,M_SRC)");
  ("ADD", "E2(M_REGIX,M_SRC16)");
  ("LD", "E2(M_REG16,M_SRC16)");
  ("ADD", "E2(R_HL,M_SRC16)");
  ("ADC", "E2(R_HL,M_SRC16)");
  ("SUB", "E2(R_HL,M_SRC16)");
  ("SBC", "E2(R_HL,M_SRC16)");
  ("AND", "E2(R_HL,M_SRC16)");
  ("XOR", "E2(R_HL,M_SRC16)");
  ("OR", "E2(R_HL,M_SRC16)");
  ("CP", "E2(R_HL,M_SRC16)")]
  [5; 13; 34; 4; 12; 31; 33; 8; 16; 37; 28; 11; 19; 40; 1; 3; 32; 0; 10; 18; 39; 29; 22; 20; 23; 21; 7; 15; 36; 30; 24; 26; 25; 27; 6; 14; 35; 2; 9; 17; 38].

(* src/table_tlcs90.cpp:438-440 TABLE_LDA, 443-445 INDEX_LDA *)
Definition t_tlcs90_TABLE_LDA : insn_table := mkIT [
  ("LDA", "E2(M_REG16,M_SRC)")]
  [0].

(* src/table_tlcs90.cpp:461-464 TABLE_COND, 466-469 INDEX_COND *)
Definition t_tlcs90_TABLE_COND : insn_table := mkIT [
  ("RET", "E0()");
  ("RET", "E1(M_CC)")]
  [0; 1].

(* src/table_tlcs90.cpp:471-480 TABLE_BLOCK, 482-491 INDEX_BLOCK *)
Definition t_tlcs90_TABLE_BLOCK : insn_table := mkIT [
  ("LDI", "E0()");
  ("LDIR", "E0()");
  ("LDD", "E0()");
  ("LDDR", "E0()");
  ("CPI", "E0()");
  ("CPIR", "E0()");
  ("CPD", "E0()");
  ("CPDR", "E0()")]
  [6; 7; 4; 5; 2; 3; 0; 1].

(* src/table_tms32010.cpp:34-95 TABLE_TMS32010, 97-158 INDEX_TMS32010 *)
Definition t_tms32010_TABLE_TMS32010 : insn_table := mkIT [
  ("ADD", "E3(M_MAM,M_LS4,M_NARP)");
  ("SUB", "E3(M_MAM,M_LS4,M_NARP)");
  ("LAC", "E3(M_MAM,M_LS4,M_NARP)");
  ("SAR", "E3(M_AR,M_MAM,M_NARP)");
  ("LAR", "E3(M_AR,M_MAM,M_NARP)");
  ("IN", "E3(M_MAM,M_PA,M_NARP)");
  ("OUT", "E3(M_MAM,M_PA,M_NARP)");
  ("SACL", "E3(M_MAM,M_LS0,M_NARP)");
  ("SACH", "E3(M_MAM,M_LS3,M_NARP)");
  ("ADDH", "E2(M_MAM,M_NARP)");
  ("ADDS", "E2(M_MAM,M_NARP)");
  ("SUBH", "E2(M_MAM,M_NARP)");
  ("SUBS", "E2(M_MAM,M_NARP)");
  ("SUBC", "E2(M_MAM,M_NARP)");
  ("ZALH", "E2(M_MAM,M_NARP)");
  ("ZALS", "E2(M_MAM,M_NARP)");
  ("TBLR", "E2(M_MAM,M_NARP)");
  ("LARP", "E1(M_ARK)");
  ("MAR", "E2(M_MAM,M_NARP)");
  ("DMOV", "E2(M_MAM,M_NARP)");
  ("LT", "E2(M_MAM,M_NARP)");
  ("LTD", "E2(M_MAM,M_NARP)");
  ("LTA", "E2(M_MAM,M_NARP)");
  ("MPY", "E2(M_MAM,M_NARP)");
  ("LDPK", "E1(M_DPK)");
  ("LDP", "E2(M_MAM,M_NARP)");
  ("LARK", "E2(M_AR,M_IM8)");
  ("XOR", "E2(M_MAM,M_NARP)");
  ("AND", "E2(M_MAM,M_NARP)");
  ("OR", "E2(M_MAM,M_NARP)");
  ("LST", "E2(M_MAM,M_NARP)");
  ("SST", "E2(M_MAM,M_NARP)");
  ("TBLW", "E2(M_MAM,M_NARP)");
  ("LACK", "E1(M_IM8)");
  ("NOP", "E0()");
  ("DINT", "E0()");
  ("EINT", "E0()");
  ("ABS", "E0()");
  ("ZAC", "E0()");
  ("ROVM", "E0()");
  ("SOVM", "E0()");
  ("CALA", "E0()");
  ("RET", "E0()");
  ("PAC", "E0()");
  ("APAC", "E0()");
  ("SPAC", "E0()");
  ("PUSH", "E0()");
  ("POP", "E0()");
  ("MPYK", "E1(M_IM13)");
  ("BANZ", "E1(M_PMA)");
  ("BV", "E1(M_PMA)");
  ("BIOZ", "E1(M_PMA)");
  ("CALL", "E1(M_PMA)");
  ("B", "E1(M_PMA)");
  ("BLZ", "E1(M_PMA)");
  ("BLEZ", "E1(M_PMA)");
  ("BGZ", "E1(M_PMA)");
  ("BGEZ", "E1(M_PMA)");
  ("BNZ", "E1(M_PMA)");
  ("BZ", "E1(M_PMA)")]
  [37; 0; 9; 10; 28; 44; 53; 49; 57; 56; 51; 55; 54; 58; 50; 59; 41; 52; 35; 19; 36; 5; 2; 33; 4; 26; 17; 25; 24; 30; 20; 22; 21; 18; 23; 48; 34; 29; 6; 43; 47; 46; 42; 39; 8; 7; 3; 40; 45; 31; 1; 13; 11; 12; 16; 32; 27; 38; 14; 15].

(* src/table_tms7000.cpp:34-246 TMS7000_TABLE, 248-460 TMS7000_INDEX *)
Definition t_tms7000_TMS7000_TABLE : insn_table := mkIT [
  ("NOP", "E0()");
  ("IDLE", "E0()");
  ("EINT", "E0()");
  ("DINT", "E0()");
  ("SETC", "E0()");
  ("POP", "E1(M_ST)");
  ("STSP", "E0()");
  ("RETS", "E0()");
  ("RETI", "E0()");
  ("LDSP", "E0()");
  ("PUSH", "E1(M_ST)");
  ("MOV", "E2(M_A,M_B)");
  ("MOV", "E2(M_B,M_A)");
  ("MOV", "E2(M_A,M_RN)");
  ("MOV", "E2(M_B,M_RN)");
  ("AND", "E2(M_B,M_A)");
  ("OR", "E2(M_B,M_A)");
  ("XOR", "E2(M_B,M_A)");
  ("BTJO", "E3(M_B,M_A,M_REL)");
  ("BTJZ", "E3(M_B,M_A,M_REL)");
  ("ADD", "E2(M_B,M_A)");
  ("ADC", "E2(M_B,M_A)");
  ("SUB", "E2(M_B,M_A)");
  ("SBB", "E2(M_B,M_A)");
  ("MPY", "E2(M_B,M_A)");
  ("CMP", "E2(M_B,M_A)");
  ("DAC", "E2(M_B,M_A)");
  ("DSB", "E2(M_B,M_A)");
  ("MOV", "E2(M_RN,M_A)");
  ("AND", "E2(M_RN,M_A)");
  ("OR", "E2(M_RN,M_A)");
  ("XOR", "E2(M_RN,M_A)");
  ("BTJO", "E3(M_RN,M_A,M_REL)");
  ("BTJZ", "E3(M_RN,M_A,M_REL)");
  ("ADD", "E2(M_RN,M_A)");
  ("ADC", "E2(M_RN,M_A)");
  ("SUB", "E2(M_RN,M_A)");
  ("SBB", "E2(M_RN,M_A)");
  ("MPY", "E2(M_RN,M_A)");
  ("CMP", "E2(M_RN,M_A)");
  ("DAC", "E2(M_RN,M_A)");
  ("DSB", "E2(M_RN,M_A)");
  ("MOV", "E2(M_IM8,M_A)");
  ("AND", "E2(M_IM8,M_A)");
  ("OR", "E2(M_IM8,M_A)");
  ("XOR", "E2(M_IM8,M_A)");
  ("BTJO", "E3(M_IM8,M_A,M_REL)");
  ("BTJZ", "E3(M_IM8,M_A,M_REL)");
  ("ADD", "E2(M_IM8,M_A)");
  ("ADC", "E2(M_IM8,M_A)");
  ("SUB", "E2(M_IM8,M_A)");
  ("SBB", "E2(M_IM8,M_A)");
  ("MPY", "E2(M_IM8,M_A)");
  ("CMP", "E2(M_IM8,M_A)");
  ("DAC", "E2(M_IM8,M_A)");
  ("DSB", "E2(M_IM8,M_A)");
  ("MOV", "E2(M_RN,M_B)");
  ("AND", "E2(M_RN,M_B)");
  ("OR", "E2(M_RN,M_B)");
  ("XOR", "E2(M_RN,M_B)");
  ("BTJO", "E3(M_RN,M_B,M_REL)");
  ("BTJZ", "E3(M_RN,M_B,M_REL)");
  ("ADD", "E2(M_RN,M_B)");
  ("ADC", "E2(M_RN,M_B)");
  ("SUB", "E2(M_RN,M_B)");
  ("SBB", "E2(M_RN,M_B)");
  ("MPY", "E2(M_RN,M_B)");
  ("CMP", "E2(M_RN,M_B)");
  ("DAC", "E2(M_RN,M_B)");
  ("DSB", "E2(M_RN,M_B)");
  ("MOV", "E2(M_RN,M_RN)");
  ("AND", "E2(M_RN,M_RN)");
  ("OR", "E2(M_RN,M_RN)");
  ("XOR", "E2(M_RN,M_RN)");
  ("BTJO", "E3(M_RN,M_RN,M_REL)");
  ("BTJZ", "E3(M_RN,M_RN,M_REL)");
  ("ADD", "E2(M_RN,M_RN)");
  ("ADC", "E2(M_RN,M_RN)");
  ("SUB", "E2(M_RN,M_RN)");
  ("SBB", "E2(M_RN,M_RN)");
  ("MPY", "E2(M_RN,M_RN)");
  ("CMP", "E2(M_RN,M_RN)");
  ("DAC", "E2(M_RN,M_RN)");
  ("DSB", "E2(M_RN,M_RN)");
  ("MOV", "E2(M_IM8,M_B)");
  ("AND", "E2(M_IM8,M_B)");
  ("OR", "E2(M_IM8,M_B)");
  ("XOR", "E2(M_IM8,M_B)");
  ("BTJO", "E3(M_IM8,M_B,M_REL)");
  ("BTJZ", "E3(M_IM8,M_B,M_REL)");
  ("ADD", "E2(M_IM8,M_B)");
  ("ADC", "E2(M_IM8,M_B)");
  ("SUB", "E2(M_IM8,M_B)");
  ("SBB", "E2(M_IM8,M_B)");
  ("MPY", "E2(M_IM8,M_B)");
  ("CMP", "E2(M_IM8,M_B)");
  ("DAC", "E2(M_IM8,M_B)");
  ("DSB", "E2(M_IM8,M_B)");
  ("MOV", "E2(M_IM8,M_RN)");
  ("AND", "E2(M_IM8,M_RN)");
  ("OR", "E2(M_IM8,M_RN)");
  ("XOR", "E2(M_IM8,M_RN)");
  ("BTJO", "E3(M_IM8,M_RN,M_REL)");
  ("BTJZ", "E3(M_IM8,M_RN,M_REL)");
  ("ADD", "E2(M_IM8,M_RN)");
  ("ADC", "E2(M_IM8,M_RN)");
  ("SUB", "E2(M_IM8,M_RN)");
  ("SBB", "E2(M_IM8,M_RN)");
  ("MPY", "E2(M_IM8,M_RN)");
  ("CMP", "E2(M_IM8,M_RN)");
  ("DAC", "E2(M_IM8,M_RN)");
  ("DSB", "E2(M_IM8,M_RN)");
  ("MOVP", "E2(M_PN,M_A)");
  ("MOVP", "E2(M_A,M_PN)");
  ("ANDP", "E2(M_A,M_PN)");
  ("ORP", "E2(M_A,M_PN)");
  ("XORP", "E2(M_A,M_PN)");
  ("BTJOP", "E3(M_A,M_PN,M_REL)");
  ("BTJZP", "E3(M_A,M_PN,M_REL)");
  ("MOVD", "E2(M_IM16,M_RN)");
  ("LDA", "E1(M_ABS)");
  ("STA", "E1(M_ABS)");
  ("BR", "E1(M_ABS)");
  ("CMPA", "E1(M_ABS)");
  ("CALL", "E1(M_ABS)");
  ("MOVP", "E2(M_PN,M_B)");
  ("MOVP", "E2(M_B,M_PN)");
  ("ANDP", "E2(M_B,M_PN)");
  ("ORP", "E2(M_B,M_PN)");
  ("XORP", "E2(M_B,M_PN)");
  ("BTJOP", "E3(M_B,M_PN,M_REL)");
  ("BTJZP", "E3(M_B,M_PN,M_REL)");
  ("MOVD", "E2(M_RN,M_RN)");
  ("LDA", "E1(M_IDIR)");
  ("STA", "E1(M_IDIR)");
  ("BR", "E1(M_IDIR)");
  ("CMPA", "E1(M_IDIR)");
  ("CALL", "E1(M_IDIR)");
  ("MOVP", "E2(M_IM8,M_PN)");
  ("ANDP", "E2(M_IM8,M_PN)");
  ("ORP", "E2(M_IM8,M_PN)");
  ("XORP", "E2(M_IM8,M_PN)");
  ("BTJOP", "E3(M_IM8,M_PN,M_REL)");
  ("BTJZP", "E3(M_IM8,M_PN,M_REL)");
  ("MOVD", "E2(M_BIMM,M_RN)");
  ("LDA", "E1(M_BIDX)");
  ("STA", "E1(M_BIDX)");
  ("BR", "E1(M_BIDX)");
  ("CMPA", "E1(M_BIDX)");
  ("CALL", "E1(M_BIDX)");
  ("TSTA", "E0()");
  ("CLRC", "E0()");
  ("DEC", "E1(M_A)");
  ("INC", "E1(M_A)");
  ("INV", "E1(M_A)");
  ("CLR", "E1(M_A)");
  ("XCHB", "E1(M_A)");
  ("SWAP", "E1(M_A)");
  ("PUSH", "E1(M_A)");
  ("POP", "E1(M_A)");
  ("DJNZ", "E2(M_A,M_REL)");
  ("DECD", "E1(M_A)");
  ("RR", "E1(M_A)");
  ("RRC", "E1(M_A)");
  ("RL", "E1(M_A)");
  ("RLC", "E1(M_A)");
  ("TSTB", "E0()");
  ("DEC", "E1(M_B)");
  ("INC", "E1(M_B)");
  ("INV", "E1(M_B)");
  ("CLR", "E1(M_B)");
  ("XCHB", "E1(M_B)");
  ("SWAP", "E1(M_B)");
  ("PUSH", "E1(M_B)");
  ("POP", "E1(M_B)");
  ("DJNZ", "E2(M_B,M_REL)");
  ("DECD", "E1(M_B)");
  ("RR", "E1(M_B)");
  ("RRC", "E1(M_B)");
  ("RL", "E1(M_B)");
  ("RLC", "E1(M_B)");
  ("DEC", "E1(M_RN)");
  ("INC", "E1(M_RN)");
  ("INV", "E1(M_RN)");
  ("CLR", "E1(M_RN)");
  ("XCHB", "E1(M_RN)");
  ("SWAP", "E1(M_RN)");
  ("PUSH", "E1(M_RN)");
  ("POP", "E1(M_RN)");
  ("DJNZ", "E2(M_RN,M_REL)");
  ("DECD", "E1(M_RN)");
  ("RR", "E1(M_RN)");
  ("RRC", "E1(M_RN)");
  ("RL", "E1(M_RN)");
  ("RLC", "E1(M_RN)");
  ("JMP", "E1(M_REL)");
  ("JN", "E1(M_REL)");
  ("JLT", "E1(M_REL)");
  ("JZ", "E1(M_REL)");
  ("JEQ", "E1(M_REL)");
  ("JC", "E1(M_REL)");
  ("JHS", "E1(M_REL)");
  ("JP", "E1(M_REL)");
  ("JGT", "E1(M_REL)");
  ("JPZ", "E1(M_REL)");
  ("JGE", "E1(M_REL)");
  ("JNZ", "E1(M_REL)");
  ("JNE", "E1(M_REL)");
  ("JNC", "E1(M_REL)");
  ("JL", "E1(M_REL)");
  ("TRAP", "E1(M_TRAP)")]
  [21; 35; 49; 63; 77; 91; 105; 20; 34; 48; 62; 76; 90; 104; 15; 29; 43; 57; 71; 85; 99; 114; 127; 139; 122; 135; 147; 18; 32; 46; 60; 74; 88; 102; 117; 130; 142; 19; 33; 47; 61; 75; 89; 103; 118; 131; 143; 124; 137; 149; 155; 170; 184; 151; 25; 39; 53; 67; 81; 95; 109; 123; 136; 148; 26; 40; 54; 68; 82; 96; 110; 152; 167; 181; 161; 176; 190; 3; 160; 175; 189; 27; 41; 55; 69; 83; 97; 111; 2; 1; 153; 168; 182; 154; 169; 183; 200; 199; 205; 203; 201; 209; 197; 195; 196; 208; 207; 206; 202; 204; 198; 120; 133; 145; 9; 11; 12; 13; 14; 28; 42; 56; 70; 84; 98; 119; 132; 144; 112; 113; 125; 126; 138; 24; 38; 52; 66; 80; 94; 108; 0; 16; 30; 44; 58; 72; 86; 100; 115; 128; 140; 5; 159; 174; 188; 10; 158; 173; 187; 8; 7; 164; 179; 193; 165; 180; 194; 162; 177; 191; 163; 178; 192; 23; 37; 51; 65; 79; 93; 107; 4; 121; 134; 146; 6; 22; 36; 50; 64; 78; 92; 106; 157; 172; 186; 210; 150; 166; 156; 171; 185; 17; 31; 45; 59; 73; 87; 101; 116; 129; 141].

(* src/table_tms9900.cpp:35-105 TABLE_TMS9900, 107-177 INDEX_TMS9900 *)
Definition t_tms9900_TABLE_TMS9900 : insn_table := mkIT [
  ("LI", "E2(M_REG,M_IMM)");
  ("AI", "E2(M_REG,M_IMM)");
  ("ANDI", "E2(M_REG,M_IMM)");
  ("ORI", "E2(M_REG,M_IMM)");
  ("CI", "E2(M_REG,M_IMM)");
  ("STWP", "E1(M_REG)");
  ("STST", "E1(M_REG)");
  ("LWPI", "E1(M_IMM)");
  ("LIMI", "E1(M_IMM)");
  ("IDLE", "E0()");
  ("RSET", "E0()");
  ("RTWP", "E0()");
  ("CKON", "E0()");
  ("CKOF", "E0()");
  ("LREX", "E0()");
  ("BLWP", "E1(M_SRC)");
  ("B", "E1(M_SRC)");
  ("X", "E1(M_SRC)");
  ("CLR", "E1(M_SRC)");
  ("NEG", "E1(M_SRC)");
  ("INV", "E1(M_SRC)");
  ("INC", "E1(M_SRC)");
  ("INCT", "E1(M_SRC)");
  ("DEC", "E1(M_SRC)");
  ("DECT", "E1(M_SRC)");
  ("BL", "E1(M_SRC)");
  ("SWPB", "E1(M_SRC)");
  ("SETO", "E1(M_SRC)");
  ("ABS", "E1(M_SRC)");
  ("SRA", "E2(M_REG,M_SCNT)");
  ("SRL", "E2(M_REG,M_SCNT)");
  ("SLA", "E2(M_REG,M_SCNT)");
  ("SRC", "E2(M_REG,M_SCNT)");
  ("JMP", "E1(M_REL)");
  ("JLT", "E1(M_REL)");
  ("JLE", "E1(M_REL)");
  ("JEQ", "E1(M_REL)");
  ("JHE", "E1(M_REL)");
  ("JGT", "E1(M_REL)");
  ("JNE", "E1(M_REL)");
  ("JNC", "E1(M_REL)");
  ("JOC", "E1(M_REL)");
  ("JNO", "E1(M_REL)");
  ("JL", "E1(M_REL)");
  ("JH", "E1(M_REL)");
  ("JOP", "E1(M_REL)");
  ("SBO", "E1(M_CRU)");
  ("SBZ", "E1(M_CRU)");
  ("TB", "E1(M_CRU)");
  ("COC", "E2(M_SRC,M_DREG)");
  ("CZC", "E2(M_SRC,M_DREG)");
  ("XOR", "E2(M_SRC,M_DREG)");
  ("XOP", "E2(M_SRC,M_XOP)");
  ("LDCR", "E2(M_SRC,M_CNT)");
  ("STCR", "E2(M_SRC,M_CNT)");
  ("MPY", "E2(M_SRC,M_DREG)");
  ("DIV", "E2(M_SRC,M_DREG)");
  ("SZC", "E2(M_SRC,M_DST)");
  ("SZCB", "B2(M_SRC,M_DST)");
  ("S", "E2(M_SRC,M_DST)");
  ("SB", "B2(M_SRC,M_DST)");
  ("C", "E2(M_SRC,M_DST)");
  ("CB", "B2(M_SRC,M_DST)");
  ("A", "E2(M_SRC,M_DST)");
  ("AB", "B2(M_SRC,M_DST)");
  ("MOV", "E2(M_SRC,M_DST)");
  ("MOVB", "B2(M_SRC,M_DST)");
  ("SOC", "E2(M_SRC,M_DST)");
  ("SOCB", "B2(M_SRC,M_DST)")]
  [63; 64; 28; 1; 2; 16; 25; 15; 61; 62; 4; 13; 12; 18; 49; 50; 23; 24; 56; 9; 21; 22; 20; 36; 38; 44; 37; 43; 35; 34; 33; 40; 39; 42; 41; 45; 53; 0; 8; 14; 7; 65; 66; 55; 19; 3; 10; 11; 59; 60; 46; 47; 27; 31; 67; 68; 29; 32; 30; 54; 6; 5; 26; 57; 58; 48; 17; 52; 51].

(* src/table_tms9900.cpp:179-184 TABLE_TMS9995, 186-191 INDEX_TMS9995 *)
Definition t_tms9900_TABLE_TMS9995 : insn_table := mkIT [
  ("LST", "E1(M_REG)");
  ("LWP", "E1(M_REG)");
  ("DIVS", "E1(M_SRC)");
  ("MPYS", "E1(M_SRC)")]
  [2; 0; 1; 3].

(* src/table_tms9900.cpp:193-209 TABLE_TMS99105, 211-223 INDEX_TMS99105 *)
Definition t_tms9900_TABLE_TMS99105 : insn_table := mkIT [
  ("SRAM", "E2(M_SRC2,M_CNT4)");
  ("SLAM", "E2(M_SRC2,M_CNT4)");
  ("SM", "E2(M_SRC2,M_DST4)");
  ("AM", "E2(M_SRC2,M_DST4)");
  ("BLSK", "E2(M_REG,M_IMM)");
  ("BIND", "E1(M_SRC)");
  ("TMB", "E2(M_SRC2,M_BIT0)");
  ("TCMB", "E2(M_SRC2,M_BIT0)");
  ("TSMB", "E2(M_SRC2,M_BIT0)");
  ("EVAD", "E1(M_SRC)");
  ("RTWP", "E1(M_RTWP)");
  ("RTWP", "E1(M_RTWP)");
  ("RTWP", "E1(M_RTWP)");
  ("RTWP", "E1(M_RTWP)")]
  [3; 5; 4; 9; 10; 1; 2; 0; 7; 6; 8].

(* src/table_tms9900.cpp:225-241 TABLE_TMS99110, 243-259 INDEX_TMS99110 *)
Definition t_tms9900_TABLE_TMS99110 : insn_table := mkIT [
  ("LDS", "E0()");
  ("LDD", "E0()");
  ("CRI", "E0()");
  ("NEGR", "E0()");
  ("CRE", "E0()");
  ("CER", "E0()");
  ("AR", "E1(M_SRC)");
  ("CIR", "E1(M_SRC)");
  ("SR", "E1(M_SRC)");
  ("MR", "E1(M_SRC)");
  ("DR", "E1(M_SRC)");
  ("LR", "E1(M_SRC)");
  ("STR", "E1(M_SRC)");
  ("CR", "E2(M_SRC2,M_DST0)");
  ("MM", "E2(M_SRC2,M_DST0)")]
  [6; 5; 7; 13; 4; 2; 10; 1; 0; 11; 14; 9; 3; 8; 12].

(* src/table_z8.cpp:246-273 TABLE_Z8, 275-302 INDEX_Z8 *)
Definition t_z8_TABLE_Z8 : insn_table := mkIT [
  ("SRP", "E1(PF_NONE,M_IM,OP_BYT1)");
  ("ADD", "E2(PF_NONE,M_IR,M_IM,OP_BYT1,OP_BYT2)");
  ("ADC", "E2(PF_NONE,M_IR,M_IM,OP_BYT1,OP_BYT2)");
  ("SUB", "E2(PF_NONE,M_IR,M_IM,OP_BYT1,OP_BYT2)");
  ("SBC", "E2(PF_NONE,M_IR,M_IM,OP_BYT1,OP_BYT2)");
  ("OR", "E2(PF_NONE,M_IR,M_IM,OP_BYT1,OP_BYT2)");
  ("AND", "E2(PF_NONE,M_IR,M_IM,OP_BYT1,OP_BYT2)");
  ("TCM", "E2(PF_NONE,M_IR,M_IM,OP_BYT1,OP_BYT2)");
  ("TM", "E2(PF_NONE,M_IR,M_IM,OP_BYT1,OP_BYT2)");
  ("CP", "E2(PF_NONE,M_IR,M_IM,OP_BYT1,OP_BYT2)");
  ("XOR", "E2(PF_NONE,M_IR,M_IM,OP_BYT1,OP_BYT2)");
  ("LD", "E2(PF_NONE,M_r,M_X,OP_B1HI,OP_BYT2)");
  ("LD", "E2(PF_NONE,M_X,M_r,OP_BYT2,OP_B1HI)");
  ("LD", "E2(PF_NONE,M_r,M_Ir,OP_B1HI,OP_B1LO)");
  ("LD", "E2(PF_NONE,M_IR,M_IM,OP_BYT1,OP_BYT2)");
  ("LD", "E2(PF_NONE,M_Ir,M_r,OP_B1HI,OP_B1LO)");
  ("LDE", "E2(PF_NONE,M_r,M_Irr,OP_B1HI,OP_B1LO)");
  ("LDE", "E2(PF_NONE,M_Irr,M_r,OP_B1LO,OP_B1HI)");
  ("LDEI", "E2(PF_NONE,M_Ir,M_Irr,OP_B1HI,OP_B1LO)");
  ("LDEI", "E2(PF_NONE,M_Irr,M_Ir,OP_B1LO,OP_B1HI)");
  ("LDC", "E2(PF_NONE,M_r,M_Irr,OP_B1HI,OP_B1LO)");
  ("LDC", "E2(PF_NONE,M_Irr,M_r,OP_B1LO,OP_B1HI)");
  ("LDCI", "E2(PF_NONE,M_Ir,M_Irr,OP_B1HI,OP_B1LO)");
  ("LDCI", "E2(PF_NONE,M_Irr,M_Ir,OP_B1LO,OP_B1HI)");
  ("CALL", "E1(PF_NONE,M_DA,OP_W1BE)");
  ("CALL", "E1(PF_NONE,M_IRR,OP_BYT1)")]
  [2; 1; 6; 24; 25; 9; 11; 12; 13; 14; 15; 20; 21; 22; 23; 16; 17; 18; 19; 5; 4; 0; 3; 7; 8; 10].

(* src/table_z8.cpp:36-139 TABLE_COMMON, 141-244 INDEX_COMMON *)
Definition t_z8_TABLE_COMMON : insn_table := mkIT [
  ("LD", "E2(PF_NONE,M_r,M_R,OP_CODE,OP_BYT1)");
  ("LD", "E2(PF_NONE,M_R,M_r,OP_BYT1,OP_CODE)");
  ("LD", "E2(PF_NONE,M_r,M_IM,OP_CODE,OP_BYT1)");
  ("LD", "E2(PF_NONE,M_R,M_R,OP_BYT2,OP_BYT1)");
  ("LD", "E2(PF_NONE,M_R,M_IR,OP_BYT2,OP_BYT1)");
  ("LD", "E2(PF_NONE,M_R,M_IM,OP_BYT1,OP_BYT2)");
  ("LD", "E2(PF_NONE,M_IR,M_R,OP_BYT2,OP_BYT1)");
  ("DJNZ", "E2(PF_NONE,M_r,M_RA,OP_CODE,OP_BYT1)");
  ("JR", "E1(PF_NONE,M_RA,OP_BYT1)");
  ("JR", "E2(PF_NONE,M_cc,M_RA,OP_CODE,OP_BYT1)");
  ("JP", "E1(PF_NONE,M_DA,OP_W1BE)");
  ("JP", "E2(PF_NONE,M_cc,M_DA,OP_CODE,OP_W1BE)");
  ("JP", "E1(PF_NONE,M_IRR,OP_BYT1)");
  ("ADD", "E2(PF_NONE,M_r,M_r,OP_B1HI,OP_B1LO)");
  ("ADD", "E2(PF_NONE,M_r,M_Ir,OP_B1HI,OP_B1LO)");
  ("ADD", "E2(PF_NONE,M_R,M_R,OP_BYT2,OP_BYT1)");
  ("ADD", "E2(PF_NONE,M_R,M_IR,OP_BYT2,OP_BYT1)");
  ("ADD", "E2(PF_NONE,M_R,M_IM,OP_BYT1,OP_BYT2)");
  ("ADC", "E2(PF_NONE,M_r,M_r,OP_B1HI,OP_B1LO)");
  ("ADC", "E2(PF_NONE,M_r,M_Ir,OP_B1HI,OP_B1LO)");
  ("ADC", "E2(PF_NONE,M_R,M_R,OP_BYT2,OP_BYT1)");
  ("ADC", "E2(PF_NONE,M_R,M_IR,OP_BYT2,OP_BYT1)");
  ("ADC", "E2(PF_NONE,M_R,M_IM,OP_BYT1,OP_BYT2)");
  ("SUB", "E2(PF_NONE,M_r,M_r,OP_B1HI,OP_B1LO)");
  ("SUB", "E2(PF_NONE,M_r,M_Ir,OP_B1HI,OP_B1LO)");
  ("SUB", "E2(PF_NONE,M_R,M_R,OP_BYT2,OP_BYT1)");
  ("SUB", "E2(PF_NONE,M_R,M_IR,OP_BYT2,OP_BYT1)");
  ("SUB", "E2(PF_NONE,M_R,M_IM,OP_BYT1,OP_BYT2)");
  ("SBC", "E2(PF_NONE,M_r,M_r,OP_B1HI,OP_B1LO)");
  ("SBC", "E2(PF_NONE,M_r,M_Ir,OP_B1HI,OP_B1LO)");
  ("SBC", "E2(PF_NONE,M_R,M_R,OP_BYT2,OP_BYT1)");
  ("SBC", "E2(PF_NONE,M_R,M_IR,OP_BYT2,OP_BYT1)");
  ("SBC", "E2(PF_NONE,M_R,M_IM,OP_BYT1,OP_BYT2)");
  ("OR", "E2(PF_NONE,M_r,M_r,OP_B1HI,OP_B1LO)");
  ("OR", "E2(PF_NONE,M_r,M_Ir,OP_B1HI,OP_B1LO)");
  ("OR", "E2(PF_NONE,M_R,M_R,OP_BYT2,OP_BYT1)");
  ("OR", "E2(PF_NONE,M_R,M_IR,OP_BYT2,OP_BYT1)");
  ("OR", "E2(PF_NONE,M_R,M_IM,OP_BYT1,OP_BYT2)");
  ("AND", "E2(PF_NONE,M_r,M_r,OP_B1HI,OP_B1LO)");
  ("AND", "E2(PF_NONE,M_r,M_Ir,OP_B1HI,OP_B1LO)");
  ("AND", "E2(PF_NONE,M_R,M_R,OP_BYT2,OP_BYT1)");
  ("AND", "E2(PF_NONE,M_R,M_IR,OP_BYT2,OP_BYT1)");
  ("AND", "E2(PF_NONE,M_R,M_IM,OP_BYT1,OP_BYT2)");
  ("TCM", "E2(PF_NONE,M_r,M_r,OP_B1HI,OP_B1LO)");
  ("TCM", "E2(PF_NONE,M_r,M_Ir,OP_B1HI,OP_B1LO)");
  ("TCM", "E2(PF_NONE,M_R,M_R,OP_BYT2,OP_BYT1)");
  ("TCM", "E2(PF_NONE,M_R,M_IR,OP_BYT2,OP_BYT1)");
  ("TCM", "E2(PF_NONE,M_R,M_IM,OP_BYT1,OP_BYT2)");
  ("TM", "E2(PF_NONE,M_r,M_r,OP_B1HI,OP_B1LO)");
  ("TM", "E2(PF_NONE,M_r,M_Ir,OP_B1HI,OP_B1LO)");
  ("TM", "E2(PF_NONE,M_R,M_R,OP_BYT2,OP_BYT1)");
  ("TM", "E2(PF_NONE,M_R,M_IR,OP_BYT2,OP_BYT1)");
  ("TM", "E2(PF_NONE,M_R,M_IM,OP_BYT1,OP_BYT2)");
  ("CP", "E2(PF_NONE,M_r,M_r,OP_B1HI,OP_B1LO)");
  ("CP", "E2(PF_NONE,M_r,M_Ir,OP_B1HI,OP_B1LO)");
  ("CP", "E2(PF_NONE,M_R,M_R,OP_BYT2,OP_BYT1)");
  ("CP", "E2(PF_NONE,M_R,M_IR,OP_BYT2,OP_BYT1)");
  ("CP", "E2(PF_NONE,M_R,M_IM,OP_BYT1,OP_BYT2)");
  ("XOR", "E2(PF_NONE,M_r,M_r,OP_B1HI,OP_B1LO)");
  ("XOR", "E2(PF_NONE,M_r,M_Ir,OP_B1HI,OP_B1LO)");
  ("XOR", "E2(PF_NONE,M_R,M_R,OP_BYT2,OP_BYT1)");
  ("XOR", "E2(PF_NONE,M_R,M_IR,OP_BYT2,OP_BYT1)");
  ("XOR", "E2(PF_NONE,M_R,M_IM,OP_BYT1,OP_BYT2)");
  ("DEC", "E1(PF_NONE,M_R,OP_BYT1)");
  ("DEC", "E1(PF_NONE,M_IR,OP_BYT1)");
  ("RLC", "E1(PF_NONE,M_R,OP_BYT1)");
  ("RLC", "E1(PF_NONE,M_IR,OP_BYT1)");
  ("INC", "E1(PF_NONE,M_r,OP_CODE)");
  ("INC", "E1(PF_NONE,M_R,OP_BYT1)");
  ("INC", "E1(PF_NONE,M_IR,OP_BYT1)");
  ("DA", "E1(PF_NONE,M_R,OP_BYT1)");
  ("DA", "E1(PF_NONE,M_IR,OP_BYT1)");
  ("POP", "E1(PF_NONE,M_R,OP_BYT1)");
  ("POP", "E1(PF_NONE,M_IR,OP_BYT1)");
  ("COM", "E1(PF_NONE,M_R,OP_BYT1)");
  ("COM", "E1(PF_NONE,M_IR,OP_BYT1)");
  ("PUSH", "E1(PF_NONE,M_R,OP_BYT1)");
  ("PUSH", "E1(PF_NONE,M_IR,OP_BYT1)");
  ("DECW", "E1(PF_NONE,M_RR,OP_BYT1)");
  ("DECW", "E1(PF_NONE,M_IR,OP_BYT1)");
  ("RL", "E1(PF_NONE,M_R,OP_BYT1)");
  ("RL", "E1(PF_NONE,M_IR,OP_BYT1)");
  ("INCW", "E1(PF_NONE,M_RR,OP_BYT1)");
  ("INCW", "E1(PF_NONE,M_IR,OP_BYT1)");
  ("CLR", "E1(PF_NONE,M_R,OP_BYT1)");
  ("CLR", "E1(PF_NONE,M_IR,OP_BYT1)");
  ("RRC", "E1(PF_NONE,M_R,OP_BYT1)");
  ("RRC", "E1(PF_NONE,M_IR,OP_BYT1)");
  ("SRA", "E1(PF_NONE,M_R,OP_BYT1)");
  ("SRA", "E1(PF_NONE,M_IR,OP_BYT1)");
  ("RR", "E1(PF_NONE,M_R,OP_BYT1)");
  ("RR", "E1(PF_NONE,M_IR,OP_BYT1)");
  ("SWAP", "E1(PF_NONE,M_R,OP_BYT1)");
  ("SWAP", "E1(PF_NONE,M_IR,OP_BYT1)");
  ("DI", "E0(PF_NONE)");
  ("EI", "E0(PF_NONE)");
  ("RET", "E0(PF_NONE)");
  ("IRET", "E0(PF_NONE)");
  ("RCF", "E0(PF_NONE)");
  ("SCF", "E0(PF_NONE)");
  ("CCF", "E0(PF_NONE)");
  ("NOP", "E0(PF_NONE)")]
  [18; 19; 20; 21; 22; 13; 14; 15; 16; 17; 38; 39; 40; 41; 42; 100; 84; 85; 74; 75; 53; 54; 55; 56; 57; 70; 71; 63; 64; 78; 79; 94; 7; 95; 67; 68; 69; 82; 83; 97; 10; 11; 12; 8; 9; 0; 1; 2; 3; 4; 5; 6; 101; 33; 34; 35; 36; 37; 72; 73; 76; 77; 98; 96; 80; 81; 65; 66; 90; 91; 86; 87; 28; 29; 30; 31; 32; 99; 88; 89; 23; 24; 25; 26; 27; 92; 93; 43; 44; 45; 46; 47; 48; 49; 50; 51; 52; 58; 59; 60; 61; 62].

(* src/table_z8.cpp:304-307 TABLE_Z86C, 309-312 INDEX_Z86C *)
Definition t_z8_TABLE_Z86C : insn_table := mkIT [
  ("STOP", "E0(PF_NONE)");
  ("HALT", "E0(PF_NONE)")]
  [1; 0].

(* src/table_z8.cpp:314-344 TABLE_SUPER8, 346-376 INDEX_SUPER8 *)
Definition t_z8_TABLE_SUPER8 : insn_table := mkIT [
  ("NEXT", "E0(PF_NONE)");
  ("ENTER", "E0(PF_NONE)");
  ("EXIT", "E0(PF_NONE)");
  ("WFI", "E0(PF_NONE)");
  ("SB0", "E0(PF_NONE)");
  ("SB1", "E0(PF_NONE)");
  ("CALL", "E1(PF_NONE,M_DA,OP_W1BE)");
  ("CALL", "E1(PF_NONE,M_IRR,OP_BYT1)");
  ("CALL", "E1(PF_NONE,M_IA,OP_BYT1)");
  ("LD", "E2(PF_NONE,M_r,M_X,OP_B1HI,OP_BYT2)");
  ("LD", "E2(PF_NONE,M_X,M_r,OP_BYT2,OP_B1HI)");
  ("LD", "E2(PF_NONE,M_r,M_Ir,OP_B1HI,OP_B1LO)");
  ("LD", "E2(PF_NONE,M_Ir,M_r,OP_B1HI,OP_B1LO)");
  ("LD", "E2(PF_NONE,M_IR,M_IM,OP_BYT1,OP_BYT2)");
  ("LDW", "E2(PF_NONE,M_RR,M_RR,OP_BYT2,OP_BYT1)");
  ("LDW", "E2(PF_NONE,M_RR,M_IR,OP_BYT2,OP_BYT1)");
  ("LDW", "E2(PF_NONE,M_RR,M_IML,OP_BYT1,OP_W2BE)");
  ("DIV", "E2(PF_NONE,M_RR,M_R,OP_BYT2,OP_BYT1)");
  ("DIV", "E2(PF_NONE,M_RR,M_IR,OP_BYT2,OP_BYT1)");
  ("DIV", "E2(PF_NONE,M_RR,M_IM,OP_BYT2,OP_BYT1)");
  ("MULT", "E2(PF_NONE,M_RR,M_R,OP_BYT2,OP_BYT1)");
  ("MULT", "E2(PF_NONE,M_RR,M_IR,OP_BYT2,OP_BYT1)");
  ("MULT", "E2(PF_NONE,M_RR,M_IM,OP_BYT2,OP_BYT1)");
  ("PUSHUD", "E2(PF_NONE,M_IR,M_R,OP_BYT1,OP_BYT2)");
  ("PUSHUI", "E2(PF_NONE,M_IR,M_R,OP_BYT1,OP_BYT2)");
  ("POPUD", "E2(PF_NONE,M_R,M_IR,OP_BYT2,OP_BYT1)");
  ("POPUI", "E2(PF_NONE,M_R,M_IR,OP_BYT2,OP_BYT1)");
  ("CPIJE", "E3(PF_NONE,M_r,M_Ir,M_RA,OP_B1LO,OP_B1HI,OP_BYT2)");
  ("CPIJNE", "E3(PF_NONE,M_r,M_Ir,M_RA,OP_B1LO,OP_B1HI,OP_BYT2)")]
  [6; 7; 8; 27; 28; 17; 18; 19; 1; 2; 9; 10; 11; 12; 13; 14; 15; 16; 20; 21; 22; 0; 25; 26; 23; 24; 4; 5; 3].

(* src/table_z8.cpp:378-420 TABLE_SUPER8_POST, 422-464 INDEX_SUPER8_POST *)
Definition t_z8_TABLE_SUPER8_POST : insn_table := mkIT [
  ("LDC", "E2(PF4_0,M_r,M_DA,OP_B1HI,OP_W2LE)");
  ("LDE", "E2(PF4_1,M_r,M_DA,OP_B1HI,OP_W2LE)");
  ("LDC", "E2(PF4_0,M_DA,M_r,OP_W2LE,OP_B1HI)");
  ("LDE", "E2(PF4_1,M_DA,M_r,OP_W2LE,OP_B1HI)");
  ("LDC", "E2(PF1_0,M_r,M_XS,OP_B1HI,OP_BYT2)");
  ("LDE", "E2(PF1_1,M_r,M_XS,OP_B1HI,OP_BYT2)");
  ("LDC", "E2(PF1_0,M_XS,M_r,OP_BYT2,OP_B1HI)");
  ("LDE", "E2(PF1_1,M_XS,M_r,OP_BYT2,OP_B1HI)");
  ("LDC", "E2(PF1_0,M_r,M_XL,OP_B1HI,OP_W2LE)");
  ("LDE", "E2(PF1_1,M_r,M_XL,OP_B1HI,OP_W2LE)");
  ("LDC", "E2(PF1_0,M_XL,M_r,OP_W2LE,OP_B1HI)");
  ("LDE", "E2(PF1_1,M_XL,M_r,OP_W2LE,OP_B1HI)");
  ("SRP", "E1(PF2_0,M_IM,OP_BYT1)");
  ("SRP0", "E1(PF2_2,M_IM,OP_BYT1)");
  ("SRP1", "E1(PF2_1,M_IM,OP_BYT1)");
  ("LDC", "E2(PF1_0,M_r,M_Irr,OP_B1HI,OP_B1LO)");
  ("LDE", "E2(PF1_1,M_r,M_Irr,OP_B1HI,OP_B1LO)");
  ("LDC", "E2(PF1_0,M_Irr,M_r,OP_B1LO,OP_B1HI)");
  ("LDE", "E2(PF1_1,M_Irr,M_r,OP_B1LO,OP_B1HI)");
  ("LDCD", "E2(PF1_0,M_r,M_Irr,OP_B1HI,OP_B1LO)");
  ("LDED", "E2(PF1_1,M_r,M_Irr,OP_B1HI,OP_B1LO)");
  ("LDCI", "E2(PF1_0,M_r,M_Irr,OP_B1HI,OP_B1LO)");
  ("LDEI", "E2(PF1_1,M_r,M_Irr,OP_B1HI,OP_B1LO)");
  ("LDCPD", "E2(PF1_0,M_Irr,M_r,OP_B1LO,OP_B1HI)");
  ("LDEPD", "E2(PF1_1,M_Irr,M_r,OP_B1LO,OP_B1HI)");
  ("LDCPI", "E2(PF1_0,M_Irr,M_r,OP_B1LO,OP_B1HI)");
  ("LDEPI", "E2(PF1_1,M_Irr,M_r,OP_B1LO,OP_B1HI)");
  ("BCP", "E3(PF1_0,M_r,M_R,M_IMb,OP_B1HI,OP_BYT2,OP_B1LO)");
  ("BITC", "E2(PF1_0,M_r,M_IMb,OP_B1HI,OP_B1LO)");
  ("BITR", "E2(PF1_0,M_r,M_IMb,OP_B1HI,OP_B1LO)");
  ("BITS", "E2(PF1_1,M_r,M_IMb,OP_B1HI,OP_B1LO)");
  ("BOR", "E3(PF1_0,M_r,M_R,M_IMb,OP_B1HI,OP_BYT2,OP_B1LO)");
  ("BOR", "E3(PF1_1,M_R,M_IMb,M_r,OP_BYT2,OP_B1LO,OP_B1HI)");
  ("BXOR", "E3(PF1_0,M_r,M_R,M_IMb,OP_B1HI,OP_BYT2,OP_B1LO)");
  ("BXOR", "E3(PF1_1,M_R,M_IMb,M_r,OP_BYT2,OP_B1LO,OP_B1HI)");
  ("LDB", "E3(PF1_0,M_r,M_R,M_IMb,OP_B1HI,OP_BYT2,OP_B1LO)");
  ("LDB", "E3(PF1_1,M_R,M_IMb,M_r,OP_BYT2,OP_B1LO,OP_B1HI)");
  ("BAND", "E3(PF1_0,M_r,M_R,M_IMb,OP_B1HI,OP_BYT2,OP_B1LO)");
  ("BAND", "E3(PF1_1,M_R,M_IMb,M_r,OP_BYT2,OP_B1LO,OP_B1HI)");
  ("BTJRF", "E3(PF1_0,M_RA,M_r,M_IMb,OP_BYT2,OP_B1HI,OP_B1LO)");
  ("BTJRT", "E3(PF1_1,M_RA,M_r,M_IMb,OP_BYT2,OP_B1HI,OP_B1LO)")]
  [37; 38; 27; 28; 29; 30; 31; 32; 39; 40; 33; 34; 35; 36; 0; 2; 4; 6; 8; 10; 15; 17; 19; 21; 23; 25; 1; 3; 5; 7; 9; 11; 16; 18; 20; 22; 24; 26; 12; 13; 14].

(* src/table_z80.cpp:36-107 TABLE_I8080, 109-180 INDEX_I8080 *)
Definition t_z80_TABLE_I8080 : insn_table := mkIT [
  ("NOP", "E0()");
  ("LD", "E2(M_R16,M_IM16)");
  ("ADD", "E2(R_HL,M_R16)");
  ("LD", "E2(I_PTR,R_A)");
  ("LD", "E2(R_A,I_PTR)");
  ("LD", "E2(M_ABS,R_HL)");
  ("LD", "E2(R_HL,M_ABS)");
  ("LD", "E2(M_ABS,R_A)");
  ("LD", "E2(R_A,M_ABS)");
  ("INC", "E1(M_R16)");
  ("DEC", "E1(M_R16)");
  ("INC", "E1(M_DST)");
  ("DEC", "E1(M_DST)");
  ("LD", "E2(M_DST,M_IM8)");
  ("RLCA", "E0()");
  ("RRCA", "E0()");
  ("RLA", "E0()");
  ("RRA", "E0()");
  ("DAA", "E0()");
  ("CPL", "E0()");
  ("SCF", "E0()");
  ("CCF", "E0()");
  ("HALT", "E0()");
  ("LD", "E2(M_DST,M_SR8)");
  ("LD", "E2(M_DR8,M_SRC)");
  ("ADD", "E2(R_A,M_SRC)");
  ("ADC", "E2(R_A,M_SRC)");
  ("SUB", "E2(R_A,M_SRC)");
  ("SUB", "E1(M_SRC)");
  ("SBC", "E2(R_A,M_SRC)");
  ("AND", "E2(R_A,M_SRC)");
  ("AND", "E1(M_SRC)");
  ("XOR", "E2(R_A,M_SRC)");
  ("XOR", "E1(M_SRC)");
  ("OR", "E2(R_A,M_SRC)");
  ("OR", "E1(M_SRC)");
  ("CP", "E2(R_A,M_SRC)");
  ("CP", "E1(M_SRC)");
  ("RET", "E1(M_CC8)");
  ("POP", "E1(M_STK)");
  ("RET", "E0()");
  ("LD", "E2(R_SP,R_HL)");
  ("JP", "E2(M_CC8,M_IM16)");
  ("JP", "E1(M_IM16)");
  ("JP", "E1(I_HL)");
  ("OUT", "E2(M_IOA,R_A)");
  ("IN", "E2(R_A,M_IOA)");
  ("EX", "E2(I_SP,R_HL)");
  ("EX", "E2(R_HL,I_SP)");
  ("EX", "E2(R_DE,R_HL)");
  ("EX", "E2(R_HL,R_DE)");
  ("DI", "E0()");
  ("EI", "E0()");
  ("CALL", "E2(M_CC8,M_IM16)");
  ("PUSH", "E1(M_STK)");
  ("CALL", "E1(M_IM16)");
  ("ADD", "E2(R_A,M_IM8)");
  ("ADC", "E2(R_A,M_IM8)");
  ("SUB", "E2(R_A,M_IM8)");
  ("SUB", "E1(M_IM8)");
  ("SBC", "E2(R_A,M_IM8)");
  ("AND", "E2(R_A,M_IM8)");
  ("AND", "E1(M_IM8)");
  ("XOR", "E2(R_A,M_IM8)");
  ("XOR", "E1(M_IM8)");
  ("OR", "E2(R_A,M_IM8)");
  ("OR", "E1(M_IM8)");
  ("CP", "E2(R_A,M_IM8)");
  ("CP", "E1(M_IM8)");
  ("RST", "E1(M_VEC)")]
  [26; 57; 2; 25; 56; 30; 31; 61; 62; 53; 55; 21; 36; 37; 67; 68; 19; 18; 10; 12; 51; 52; 47; 48; 49; 50; 22; 46; 9; 11; 42; 43; 44; 1; 3; 4; 5; 6; 7; 8; 13; 23; 24; 41; 0; 34; 35; 65; 66; 45; 39; 54; 38; 40; 16; 14; 17; 15; 69; 29; 60; 20; 27; 28; 58; 59; 32; 33; 63; 64].

(* src/table_z80.cpp:182-188 TABLE_Z80, 190-196 INDEX_Z80 *)
Definition t_z80_TABLE_Z80 : insn_table := mkIT [
  ("EX", "E2(R_AF,R_AFP)");
  ("DJNZ", "E1(M_REL)");
  ("JR", "E2(M_CC4,M_REL)");
  ("JR", "E1(M_REL)");
  ("EXX", "E0()")]
  [1; 0; 4; 2; 3].

(* src/table_z80.cpp:198-219 TABLE_CB, 221-242 INDEX_CB *)
Definition t_z80_TABLE_CB : insn_table := mkIT [
  ("RLC", "E1(M_SRC)");
  ("RRC", "E1(M_SRC)");
  ("RL", "E1(M_SRC)");
  ("RR", "E1(M_SRC)");
  ("SLA", "E1(M_SRC)");
  ("SRA", "E1(M_SRC)");
  ("SRL", "E1(M_SRC)");
  ("BIT", "E2(M_BIT,M_SRC)");
  ("RES", "E2(M_BIT,M_SRC)");
  ("SET", "E2(M_BIT,M_SRC)");
  ("RLC", "I1(M_IDX)");
  ("RRC", "I1(M_IDX)");
  ("RL", "I1(M_IDX)");
  ("RR", "I1(M_IDX)");
  ("SLA", "I1(M_IDX)");
  ("SRA", "I1(M_IDX)");
  ("SRL", "I1(M_IDX)");
  ("BIT", "I2(M_BIT,M_IDX)");
  ("RES", "I2(M_BIT,M_IDX)");
  ("SET", "I2(M_BIT,M_IDX)")]
  [7; 17; 8; 18; 2; 12; 0; 10; 3; 13; 1; 11; 9; 19; 4; 14; 5; 15; 6; 16].

(* src/table_z80.cpp:244-277 TABLE_ED, 279-312 INDEX_ED *)
Definition t_z80_TABLE_ED : insn_table := mkIT [
  ("IN", "E2(M_DR8,I_C)");
  ("OUT", "E2(I_C,M_DR8)");
  ("SBC", "E2(R_HL,M_R16)");
  ("ADC", "E2(R_HL,M_R16)");
  ("LD", "E2(M_ABS,M_NOHL)");
  ("LD", "E2(M_NOHL,M_ABS)");
  ("NEG", "E0()");
  ("RETN", "E0()");
  ("RETI", "E0()");
  ("IM", "E1(M_IMMD)");
  ("LD", "E2(R_I,R_A)");
  ("LD", "E2(R_R,R_A)");
  ("LD", "E2(R_A,R_I)");
  ("LD", "E2(R_A,R_R)");
  ("RRD", "E0()");
  ("RLD", "E0()");
  ("LDI", "E0()");
  ("LDD", "E0()");
  ("LDIR", "E0()");
  ("LDDR", "E0()");
  ("CPI", "E0()");
  ("CPD", "E0()");
  ("CPIR", "E0()");
  ("CPDR", "E0()");
  ("INI", "E0()");
  ("IND", "E0()");
  ("INIR", "E0()");
  ("INDR", "E0()");
  ("OUTI", "E0()");
  ("OUTD", "E0()");
  ("OTIR", "E0()");
  ("OTDR", "E0()")]
  [3; 21; 23; 20; 22; 9; 0; 25; 27; 24; 26; 4; 5; 10; 11; 12; 13; 17; 19; 16; 18; 6; 31; 30; 1; 29; 28; 8; 7; 15; 14; 2].

(* src/table_z80.cpp:314-345 TABLE_IX, 347-378 INDEX_IX *)
Definition t_z80_TABLE_IX : insn_table := mkIT [
  ("ADD", "E2(R_IDX,M_R16X)");
  ("LD", "E2(R_IDX,M_IM16)");
  ("LD", "E2(M_ABS,R_IDX)");
  ("LD", "E2(R_IDX,M_ABS)");
  ("INC", "E1(R_IDX)");
  ("DEC", "E1(R_IDX)");
  ("INC", "E1(M_IDX)");
  ("DEC", "E1(M_IDX)");
  ("LD", "E2(M_IDX,M_IM8)");
  ("LD", "E2(M_DR8,M_IDX)");
  ("LD", "E2(M_IDX,M_SR8)");
  ("ADD", "E2(R_A,M_IDX)");
  ("ADC", "E2(R_A,M_IDX)");
  ("SUB", "E2(R_A,M_IDX)");
  ("SUB", "E1(M_IDX)");
  ("SBC", "E2(R_A,M_IDX)");
  ("AND", "E2(R_A,M_IDX)");
  ("AND", "E1(M_IDX)");
  ("XOR", "E2(R_A,M_IDX)");
  ("XOR", "E1(M_IDX)");
  ("OR", "E2(R_A,M_IDX)");
  ("OR", "E1(M_IDX)");
  ("CP", "E2(R_A,M_IDX)");
  ("CP", "E1(M_IDX)");
  ("BIT", "E2(T_IXB,T_IXB)");
  ("POP", "E1(R_IDX)");
  ("JP", "E1(I_IDX)");
  ("LD", "E2(R_SP,R_IDX)");
  ("EX", "E2(I_SP,R_IDX)");
  ("PUSH", "E1(R_IDX)")]
  [12; 0; 11; 16; 17; 24; 22; 23; 5; 7; 28; 4; 6; 26; 1; 2; 3; 8; 9; 10; 27; 20; 21; 25; 29; 15; 13; 14; 18; 19].

(* src/table_z8000.cpp:42-275 TABLE_Z8000, 277-510 INDEX_Z8000 *)
Definition t_z8000_TABLE_Z8000 : insn_table := mkIT [
  ("LDB", "E2(CF_0FFF,SZ_BYTE,M_R,M_IM8,OP_C8,OP_C0)");
  ("CALR", "E1(CF_0FFF,SZ_NONE,M_RA12,OP_C0)");
  ("JR", "E2(CF_0FFF,SZ_NONE,M_CC,M_RA8,OP_C8,OP_C0)");
  ("JR", "E1(CF_00FF,SZ_NONE,M_RA8,OP_C0)");
  ("DBJNZ", "E2(CF_0F7F,SZ_BYTE,M_R,M_RA7,OP_C8,OP_C0)");
  ("DJNZ", "E2(CF_0F7F,SZ_WORD,M_R,M_RA7,OP_C8,OP_C0)");
  ("LDRB", "E2(CF_000F,SZ_BYTE,M_R,M_RA,OP_C0,OP_NO)");
  ("LDB", "E2(CF_00FF,SZ_BYTE,M_R,M_BA,OP_C0,OP_C4)");
  ("LDR", "E2(CF_000F,SZ_WORD,M_R,M_RA,OP_C0,OP_NO)");
  ("LD", "E2(CF_00FF,SZ_WORD,M_R,M_BA,OP_C0,OP_C4)");
  ("LDRB", "E2(CF_000F,SZ_BYTE,M_RA,M_R,OP_NO,OP_C0)");
  ("LDB", "E2(CF_00FF,SZ_BYTE,M_BA,M_R,OP_C4,OP_C0)");
  ("LDR", "E2(CF_000F,SZ_WORD,M_RA,M_R,OP_NO,OP_C0)");
  ("LD", "E2(CF_00FF,SZ_WORD,M_BA,M_R,OP_C4,OP_C0)");
  ("LDAR", "E2(CF_000F,SZ_ADDR,M_R,M_RA,OP_C0,OP_NO)");
  ("LDA", "E2(CF_00FF,SZ_ADDR,M_R,M_BA,OP_C0,OP_C4)");
  ("LDRL", "E2(CF_000F,SZ_QUAD,M_R,M_RA,OP_C0,OP_NO)");
  ("LDL", "E2(CF_00FF,SZ_QUAD,M_R,M_BA,OP_C0,OP_C4)");
  ("LDRL", "E2(CF_000F,SZ_QUAD,M_RA,M_R,OP_NO,OP_C0)");
  ("LDL", "E2(CF_00FF,SZ_QUAD,M_BA,M_R,OP_C4,OP_C0)");
  ("LDB", "X2(CF_00FF,SZ_BYTE,M_R,M_BX,OP_C0,OP_C4,PF_0X00)");
  ("LD", "X2(CF_00FF,SZ_WORD,M_R,M_BX,OP_C0,OP_C4,PF_0X00)");
  ("LDB", "X2(CF_00FF,SZ_BYTE,M_BX,M_R,OP_C4,OP_C0,PF_0X00)");
  ("LD", "X2(CF_00FF,SZ_WORD,M_BX,M_R,OP_C4,OP_C0,PF_0X00)");
  ("LDA", "X2(CF_00FF,SZ_ADDR,M_R,M_BX,OP_C0,OP_C4,PF_0X00)");
  ("LDL", "X2(CF_00FF,SZ_QUAD,M_R,M_BX,OP_C0,OP_C4,PF_0X00)");
  ("LDA", "E2(CF_00FF,SZ_ADDR,M_R,M_GENA,OP_C0,OP_C4)");
  ("LDL", "X2(CF_00FF,SZ_QUAD,M_BX,M_R,OP_C4,OP_C0,PF_0X00)");
  ("HALT", "E0(CF_0000)");
  ("IRET", "E0(CF_0000)");
  ("MSET", "E0(CF_0000)");
  ("MRES", "E0(CF_0000)");
  ("MBIT", "E0(CF_0000)");
  ("MREQ", "E1(CF_00F0,SZ_WORD,M_R,OP_C4)");
  ("DI", "E1(CF_0003,SZ_NONE,M_INTR,OP_C0)");
  ("EI", "E1(CF_0003,SZ_NONE,M_INTR,OP_C0)");
  ("LDCTL", "E2(CF_00F7,SZ_WORD,M_R,M_CTL,OP_C4,OP_C0)");
  ("LDCTL", "E2(CF_00F7,SZ_WORD,M_CTL,M_R,OP_C0,OP_C4)");
  ("SC", "E2(CF_00FF,SZ_NONE,M_IM8,M_NONE,OP_C0,OP_C0)");
  ("LDCTLB", "E2(CF_00F0,SZ_BYTE,M_R,M_CTL,OP_C4,OP_C0)");
  ("LDCTLB", "E2(CF_00F0,SZ_BYTE,M_CTL,M_R,OP_C0,OP_C4)");
  ("COMB", "E1(CF_C0F0,SZ_BYTE,M_GEND,OP_C4)");
  ("CPB", "E2(CF_C0F0,SZ_BYTE,M_GENA,M_IM,OP_C4,OP_NO)");
  ("NEGB", "E1(CF_C0F0,SZ_BYTE,M_GEND,OP_C4)");
  ("TESTB", "E1(CF_C0F0,SZ_BYTE,M_GEND,OP_C4)");
  ("LDB", "E2(CF_C0F0,SZ_BYTE,M_GENA,M_IM,OP_C4,OP_NO)");
  ("TSETB", "E1(CF_C0F0,SZ_BYTE,M_GEND,OP_C4)");
  ("CLRB", "E1(CF_C0F0,SZ_BYTE,M_GEND,OP_C4)");
  ("SETFLG", "E1(CF_00F0,SZ_NONE,M_FLAG,OP_C4)");
  ("RESFLG", "E1(CF_00F0,SZ_NONE,M_FLAG,OP_C4)");
  ("COMFLG", "E1(CF_00F0,SZ_NONE,M_FLAG,OP_C4)");
  ("NOP", "E0(CF_0000)");
  ("RET", "E1(CF_000F,SZ_NONE,M_CC,OP_C0)");
  ("TCCB", "E2(CF_00FF,SZ_BYTE,M_CC,M_R,OP_C0,OP_C4)");
  ("TCCB", "E1(CF_00F0,SZ_BYTE,M_R,OP_C4)");
  ("TCC", "E2(CF_00FF,SZ_WORD,M_CC,M_R,OP_C0,OP_C4)");
  ("TCC", "E1(CF_00F0,SZ_WORD,M_R,OP_C4)");
  ("DAB", "E1(CF_00F0,SZ_BYTE,M_R,OP_C4)");
  ("EXTSB", "E1(CF_00F0,SZ_BYTE,M_DBLR,OP_C4)");
  ("EXTSL", "E1(CF_00F0,SZ_QUAD,M_DBLR,OP_C4)");
  ("EXTS", "E1(CF_00F0,SZ_WORD,M_DBLR,OP_C4)");
  ("RLB", "E2(CF_00F2,SZ_BYTE,M_R,M_QCNT,OP_C4,OP_C0)");
  ("SLLB", "E2(CF_00F0,SZ_BYTE,M_R,M_SCNT,OP_C4,OP_NO)");
  ("SRLB", "E2(CF_00F0,SZ_BYTE,M_R,M_NCNT,OP_C4,OP_NO)");
  ("SDLB", "X2(CF_00F0,SZ_BYTE,M_R,M_WR,OP_C4,OP_P8,PF_0X00)");
  ("RRB", "E2(CF_00F2,SZ_BYTE,M_R,M_QCNT,OP_C4,OP_C0)");
  ("RLCB", "E2(CF_00F2,SZ_BYTE,M_R,M_QCNT,OP_C4,OP_C0)");
  ("SLAB", "E2(CF_00F0,SZ_BYTE,M_R,M_SCNT,OP_C4,OP_NO)");
  ("SRAB", "E2(CF_00F0,SZ_BYTE,M_R,M_NCNT,OP_C4,OP_NO)");
  ("SDAB", "X2(CF_00F0,SZ_BYTE,M_R,M_WR,OP_C4,OP_P8,PF_0X00)");
  ("RRCB", "E2(CF_00F2,SZ_BYTE,M_R,M_QCNT,OP_C4,OP_C0)");
  ("RL", "E2(CF_00F2,SZ_WORD,M_R,M_QCNT,OP_C4,OP_C0)");
  ("SLL", "E2(CF_00F0,SZ_WORD,M_R,M_SCNT,OP_C4,OP_NO)");
  ("SRL", "E2(CF_00F0,SZ_WORD,M_R,M_NCNT,OP_C4,OP_NO)");
  ("SDL", "X2(CF_00F0,SZ_WORD,M_R,M_WR,OP_C4,OP_P8,PF_0X00)");
  ("RR", "E2(CF_00F2,SZ_WORD,M_R,M_QCNT,OP_C4,OP_C0)");
  ("SLLL", "E2(CF_00F0,SZ_QUAD,M_R,M_SCNT,OP_C4,OP_NO)");
  ("SRLL", "E2(CF_00F0,SZ_QUAD,M_R,M_NCNT,OP_C4,OP_NO)");
  ("SDLL", "X2(CF_00F0,SZ_QUAD,M_R,M_WR,OP_C4,OP_P8,PF_0X00)");
  ("RLC", "E2(CF_00F2,SZ_WORD,M_R,M_QCNT,OP_C4,OP_C0)");
  ("SLA", "E2(CF_00F0,SZ_WORD,M_R,M_SCNT,OP_C4,OP_NO)");
  ("SRA", "E2(CF_00F0,SZ_WORD,M_R,M_NCNT,OP_C4,OP_NO)");
  ("SDA", "X2(CF_00F0,SZ_WORD,M_R,M_WR,OP_C4,OP_P8,PF_0X00)");
  ("RRC", "E2(CF_00F2,SZ_WORD,M_R,M_QCNT,OP_C4,OP_C0)");
  ("SLAL", "E2(CF_00F0,SZ_QUAD,M_R,M_SCNT,OP_C4,OP_NO)");
  ("SRAL", "E2(CF_00F0,SZ_QUAD,M_R,M_NCNT,OP_C4,OP_NO)");
  ("SDAL", "X2(CF_00F0,SZ_QUAD,M_R,M_WR,OP_C4,OP_P8,PF_0X00)");
  ("ADCB", "E2(CF_00FF,SZ_BYTE,M_R,M_R,OP_C0,OP_C4)");
  ("ADC", "E2(CF_00FF,SZ_WORD,M_R,M_R,OP_C0,OP_C4)");
  ("SBCB", "E2(CF_00FF,SZ_BYTE,M_R,M_R,OP_C0,OP_C4)");
  ("SBC", "E2(CF_00FF,SZ_WORD,M_R,M_R,OP_C0,OP_C4)");
  ("RRDB", "E2(CF_00FF,SZ_BYTE,M_R,M_R,OP_C0,OP_C4)");
  ("LDK", "E2(CF_00FF,SZ_WORD,M_R,M_BIT,OP_C4,OP_C0)");
  ("RLDB", "E2(CF_00FF,SZ_BYTE,M_R,M_R,OP_C0,OP_C4)");
  ("ADDB", "E2(CF_C0FF,SZ_BYTE,M_R,M_GENI,OP_C0,OP_C4)");
  ("ADD", "E2(CF_C0FF,SZ_WORD,M_R,M_GENI,OP_C0,OP_C4)");
  ("SUBB", "E2(CF_C0FF,SZ_BYTE,M_R,M_GENI,OP_C0,OP_C4)");
  ("SUB", "E2(CF_C0FF,SZ_WORD,M_R,M_GENI,OP_C0,OP_C4)");
  ("ORB", "E2(CF_C0FF,SZ_BYTE,M_R,M_GENI,OP_C0,OP_C4)");
  ("OR", "E2(CF_C0FF,SZ_WORD,M_R,M_GENI,OP_C0,OP_C4)");
  ("ANDB", "E2(CF_C0FF,SZ_BYTE,M_R,M_GENI,OP_C0,OP_C4)");
  ("AND", "E2(CF_C0FF,SZ_WORD,M_R,M_GENI,OP_C0,OP_C4)");
  ("XORB", "E2(CF_C0FF,SZ_BYTE,M_R,M_GENI,OP_C0,OP_C4)");
  ("XOR", "E2(CF_C0FF,SZ_WORD,M_R,M_GENI,OP_C0,OP_C4)");
  ("CPB", "E2(CF_C0FF,SZ_BYTE,M_R,M_GENI,OP_C0,OP_C4)");
  ("CP", "E2(CF_C0FF,SZ_WORD,M_R,M_GENI,OP_C0,OP_C4)");
  ("COM", "E1(CF_C0F0,SZ_WORD,M_GEND,OP_C4)");
  ("CP", "E2(CF_C0F0,SZ_WORD,M_GENA,M_IM,OP_C4,OP_NO)");
  ("NEG", "E1(CF_C0F0,SZ_WORD,M_GEND,OP_C4)");
  ("TEST", "E1(CF_C0F0,SZ_WORD,M_GEND,OP_C4)");
  ("LD", "E2(CF_C0F0,SZ_WORD,M_GENA,M_IM,OP_C4,OP_NO)");
  ("TSET", "E1(CF_C0F0,SZ_WORD,M_GEND,OP_C4)");
  ("CLR", "E1(CF_C0F0,SZ_WORD,M_GEND,OP_C4)");
  ("PUSH", "E2(CF_C0F0,SZ_WORD,M_IR,M_IM,OP_C4,OP_NO)");
  ("CPL", "E2(CF_C0FF,SZ_QUAD,M_R,M_GENI,OP_C0,OP_C4)");
  ("PUSHL", "E2(CF_C0FF,SZ_QUAD,M_IR,M_GEND,OP_C4,OP_C0)");
  ("SUBL", "E2(CF_C0FF,SZ_QUAD,M_R,M_GENI,OP_C0,OP_C4)");
  ("PUSH", "E2(CF_C0FF,SZ_WORD,M_IR,M_GEND,OP_C4,OP_C0)");
  ("LDL", "E2(CF_C0FF,SZ_QUAD,M_R,M_GENI,OP_C0,OP_C4)");
  ("POPL", "E2(CF_C0FF,SZ_QUAD,M_GEND,M_IR,OP_C0,OP_C4)");
  ("ADDL", "E2(CF_C0FF,SZ_QUAD,M_R,M_GENI,OP_C0,OP_C4)");
  ("POP", "E2(CF_C0FF,SZ_WORD,M_GEND,M_IR,OP_C0,OP_C4)");
  ("MULTL", "E2(CF_C0FF,SZ_QUAD,M_DBLR,M_GENI,OP_C0,OP_C4)");
  ("MULT", "E2(CF_C0FF,SZ_WORD,M_DBLR,M_GENI,OP_C0,OP_C4)");
  ("DIVL", "E2(CF_C0FF,SZ_QUAD,M_DBLR,M_GENI,OP_C0,OP_C4)");
  ("DIV", "E2(CF_C0FF,SZ_WORD,M_DBLR,M_GENI,OP_C0,OP_C4)");
  ("LDM", "X3(CF_C0F0,SZ_WORD,M_R,M_GENA,OP_P8,OP_C4,E1_CNT,PF_0X0X)");
  ("TESTL", "E1(CF_C0F0,SZ_QUAD,M_GEND,OP_C4)");
  ("LDM", "X3(CF_C0F0,SZ_WORD,M_GENA,M_R,OP_C4,OP_P8,E1_CNT,PF_0X0X)");
  ("LDL", "E2(CF_C0FF,SZ_QUAD,M_GENA,M_R,OP_C4,OP_C0)");
  ("JP", "E2(CF_C0FF,SZ_WORD,M_CC,M_GENA,OP_C0,OP_C4)");
  ("JP", "E1(CF_C0F0,SZ_WORD,M_GENA,OP_C4)");
  ("CALL", "E1(CF_C0FF,SZ_WORD,M_GENA,OP_C4)");
  ("LDB", "E2(CF_C0FF,SZ_BYTE,M_R,M_GENI,OP_C0,OP_C4)");
  ("LD", "E2(CF_C0FF,SZ_WORD,M_R,M_GENI,OP_C0,OP_C4)");
  ("RESB", "X2(CF_000F,SZ_BYTE,M_R,M_WR07,OP_P8,OP_C0,PF_0X00)");
  ("RESB", "E2(CF_X0FF,SZ_BYTE,M_GEND,M_BIT,OP_C4,OP_C0)");
  ("RES", "X2(CF_000F,SZ_WORD,M_R,M_R,OP_P8,OP_C0,PF_0X00)");
  ("RES", "E2(CF_X0FF,SZ_WORD,M_GEND,M_BIT,OP_C4,OP_C0)");
  ("SETB", "X2(CF_000F,SZ_BYTE,M_R,M_WR07,OP_P8,OP_C0,PF_0X00)");
  ("SETB", "E2(CF_X0FF,SZ_BYTE,M_GEND,M_BIT,OP_C4,OP_C0)");
  ("SET", "X2(CF_000F,SZ_WORD,M_R,M_R,OP_P8,OP_C0,PF_0X00)");
  ("SET", "E2(CF_X0FF,SZ_WORD,M_GEND,M_BIT,OP_C4,OP_C0)");
  ("BITB", "X2(CF_000F,SZ_BYTE,M_R,M_WR07,OP_P8,OP_C0,PF_0X00)");
  ("BITB", "E2(CF_X0FF,SZ_BYTE,M_GEND,M_BIT,OP_C4,OP_C0)");
  ("BIT", "X2(CF_000F,SZ_WORD,M_R,M_R,OP_P8,OP_C0,PF_0X00)");
  ("BIT", "E2(CF_X0FF,SZ_WORD,M_GEND,M_BIT,OP_C4,OP_C0)");
  ("INCB", "E2(CF_C0FF,SZ_BYTE,M_GEND,M_CNT,OP_C4,OP_C0)");
  ("INC", "E2(CF_C0FF,SZ_WORD,M_GEND,M_CNT,OP_C4,OP_C0)");
  ("DECB", "E2(CF_C0FF,SZ_BYTE,M_GEND,M_CNT,OP_C4,OP_C0)");
  ("DEC", "E2(CF_C0FF,SZ_WORD,M_GEND,M_CNT,OP_C4,OP_C0)");
  ("EXB", "E2(CF_C0FF,SZ_BYTE,M_R,M_GEND,OP_C0,OP_C4)");
  ("EX", "E2(CF_C0FF,SZ_WORD,M_R,M_GEND,OP_C0,OP_C4)");
  ("LDB", "E2(CF_C0FF,SZ_BYTE,M_GENA,M_R,OP_C4,OP_C0)");
  ("LD", "E2(CF_C0FF,SZ_WORD,M_GENA,M_R,OP_C4,OP_C0)");
  ("LDPS", "E1(CF_C0F0,SZ_WORD,M_GENA,OP_C4)");
  ("INB", "E2(CF_00F0,SZ_BYTE,M_R,M_IO,OP_C4,OP_NO)");
  ("SINB", "E2(CF_00F0,SZ_BYTE,M_R,M_IO,OP_C4,OP_NO)");
  ("OUTB", "E2(CF_00F0,SZ_BYTE,M_IO,M_R,OP_NO,OP_C4)");
  ("SOUTB", "E2(CF_00F0,SZ_BYTE,M_IO,M_R,OP_NO,OP_C4)");
  ("IN", "E2(CF_00F0,SZ_WORD,M_R,M_IO,OP_C4,OP_NO)");
  ("SIN", "E2(CF_00F0,SZ_WORD,M_R,M_IO,OP_C4,OP_NO)");
  ("OUT", "E2(CF_00F0,SZ_WORD,M_IO,M_R,OP_NO,OP_C4)");
  ("SOUT", "E2(CF_00F0,SZ_WORD,M_IO,M_R,OP_NO,OP_C4)");
  ("INB", "E2(CF_00FF,SZ_BYTE,M_R,M_IRIO,OP_C0,OP_C4)");
  ("IN", "E2(CF_00FF,SZ_WORD,M_R,M_IRIO,OP_C0,OP_C4)");
  ("OUTB", "E2(CF_00FF,SZ_BYTE,M_IRIO,M_R,OP_C4,OP_C0)");
  ("OUT", "E2(CF_00FF,SZ_WORD,M_IRIO,M_R,OP_C4,OP_C0)");
  ("INIRB", "X3(CF_00F0,SZ_BYTE,M_IR,M_IRIO,OP_P4,OP_C4,E1_WR,PF_0XX0)");
  ("INIB", "X3(CF_00F0,SZ_BYTE,M_IR,M_IRIO,OP_P4,OP_C4,E1_WR,PF_0XX8)");
  ("SINIRB", "X3(CF_00F0,SZ_BYTE,M_IR,M_IRIO,OP_P4,OP_C4,E1_WR,PF_0XX0)");
  ("SINIB", "X3(CF_00F0,SZ_BYTE,M_IR,M_IRIO,OP_P4,OP_C4,E1_WR,PF_0XX8)");
  ("OTIRB", "X3(CF_00F0,SZ_BYTE,M_IRIO,M_IR,OP_P4,OP_C4,E1_WR,PF_0XX0)");
  ("OUTIB", "X3(CF_00F0,SZ_BYTE,M_IRIO,M_IR,OP_P4,OP_C4,E1_WR,PF_0XX8)");
  ("SOTIRB", "X3(CF_00F0,SZ_BYTE,M_IRIO,M_IR,OP_P4,OP_C4,E1_WR,PF_0XX0)");
  ("SOUTIB", "X3(CF_00F0,SZ_BYTE,M_IRIO,M_IR,OP_P4,OP_C4,E1_WR,PF_0XX8)");
  ("INDRB", "X3(CF_00F0,SZ_BYTE,M_IR,M_IRIO,OP_P4,OP_C4,E1_WR,PF_0XX0)");
  ("INDB", "X3(CF_00F0,SZ_BYTE,M_IR,M_IRIO,OP_P4,OP_C4,E1_WR,PF_0XX8)");
  ("SINDRB", "X3(CF_00F0,SZ_BYTE,M_IR,M_IRIO,OP_P4,OP_C4,E1_WR,PF_0XX0)");
  ("SINDB", "X3(CF_00F0,SZ_BYTE,M_IR,M_IRIO,OP_P4,OP_C4,E1_WR,PF_0XX8)");
  ("OTDRB", "X3(CF_00F0,SZ_BYTE,M_IRIO,M_IR,OP_P4,OP_C4,E1_WR,PF_0XX0)");
  ("OUTDB", "X3(CF_00F0,SZ_BYTE,M_IRIO,M_IR,OP_P4,OP_C4,E1_WR,PF_0XX8)");
  ("SOTDRB", "X3(CF_00F0,SZ_BYTE,M_IRIO,M_IR,OP_P4,OP_C4,E1_WR,PF_0XX0)");
  ("SOUTDB", "X3(CF_00F0,SZ_BYTE,M_IRIO,M_IR,OP_P4,OP_C4,E1_WR,PF_0XX8)");
  ("INIR", "X3(CF_00F0,SZ_WORD,M_IR,M_IRIO,OP_P4,OP_C4,E1_WR,PF_0XX0)");
  ("INI", "X3(CF_00F0,SZ_WORD,M_IR,M_IRIO,OP_P4,OP_C4,E1_WR,PF_0XX8)");
  ("SINIR", "X3(CF_00F0,SZ_WORD,M_IR,M_IRIO,OP_P4,OP_C4,E1_WR,PF_0XX0)");
  ("SINI", "X3(CF_00F0,SZ_WORD,M_IR,M_IRIO,OP_P4,OP_C4,E1_WR,PF_0XX8)");
  ("OTIR", "X3(CF_00F0,SZ_WORD,M_IRIO,M_IR,OP_P4,OP_C4,E1_WR,PF_0XX0)");
  ("OUTI", "X3(CF_00F0,SZ_WORD,M_IRIO,M_IR,OP_P4,OP_C4,E1_WR,PF_0XX8)");
  ("SOTIR", "X3(CF_00F0,SZ_WORD,M_IRIO,M_IR,OP_P4,OP_C4,E1_WR,PF_0XX0)");
  ("SOUTI", "X3(CF_00F0,SZ_WORD,M_IRIO,M_IR,OP_P4,OP_C4,E1_WR,PF_0XX8)");
  ("INDR", "X3(CF_00F0,SZ_WORD,M_IR,M_IRIO,OP_P4,OP_C4,E1_WR,PF_0XX0)");
  ("IND", "X3(CF_00F0,SZ_WORD,M_IR,M_IRIO,OP_P4,OP_C4,E1_WR,PF_0XX8)");
  ("SINDR", "X3(CF_00F0,SZ_WORD,M_IR,M_IRIO,OP_P4,OP_C4,E1_WR,PF_0XX0)");
  ("SIND", "X3(CF_00F0,SZ_WORD,M_IR,M_IRIO,OP_P4,OP_C4,E1_WR,PF_0XX8)");
  ("OTDR", "X3(CF_00F0,SZ_WORD,M_IRIO,M_IR,OP_P4,OP_C4,E1_WR,PF_0XX0)");
  ("OUTD", "X3(CF_00F0,SZ_WORD,M_IRIO,M_IR,OP_P4,OP_C4,E1_WR,PF_0XX8)");
  ("SOTDR", "X3(CF_00F0,SZ_WORD,M_IRIO,M_IR,OP_P4,OP_C4,E1_WR,PF_0XX0)");
  ("SOUTD", "X3(CF_00F0,SZ_WORD,M_IRIO,M_IR,OP_P4,OP_C4,E1_WR,PF_0XX8)");
  ("TRIB", "X3(CF_00F0,SZ_BYTE,M_IR,M_IR,OP_C4,OP_P4,E1_WR,PF_0XX0)");
  ("TRTIB", "X3(CF_00F0,SZ_BYTE,M_IR,M_IR,OP_C4,OP_P4,E1_WR,PF_0XX0)");
  ("TRIRB", "X3(CF_00F0,SZ_BYTE,M_IR,M_IR,OP_C4,OP_P4,E1_WR,PF_0XX0)");
  ("TRTIRB", "X3(CF_00F0,SZ_BYTE,M_IR,M_IR,OP_C4,OP_P4,E1_WR,PF_0XXE)");
  ("TRDB", "X3(CF_00F0,SZ_BYTE,M_IR,M_IR,OP_C4,OP_P4,E1_WR,PF_0XX0)");
  ("TRTDB", "X3(CF_00F0,SZ_BYTE,M_IR,M_IR,OP_C4,OP_P4,E1_WR,PF_0XX0)");
  ("TRDRB", "X3(CF_00F0,SZ_BYTE,M_IR,M_IR,OP_C4,OP_P4,E1_WR,PF_0XX0)");
  ("TRTDRB", "X3(CF_00F0,SZ_BYTE,M_IR,M_IR,OP_C4,OP_P4,E1_WR,PF_0XXE)");
  ("CPIB", "X4(CF_00F0,SZ_BYTE,M_R,M_IR,OP_P4,OP_C4,E1_WR,E2_CC,PF_0XXX)");
  ("LDIRB", "X3(CF_00F0,SZ_BYTE,M_IR,M_IR,OP_P4,OP_C4,E1_WR,PF_0XX0)");
  ("LDIB", "X3(CF_00F0,SZ_BYTE,M_IR,M_IR,OP_P4,OP_C4,E1_WR,PF_0XX8)");
  ("CPSIB", "X4(CF_00F0,SZ_BYTE,M_IR,M_IR,OP_P4,OP_C4,E1_WR,E2_CC,PF_0XXX)");
  ("CPIRB", "X4(CF_00F0,SZ_BYTE,M_R,M_IR,OP_P4,OP_C4,E1_WR,E2_CC,PF_0XXX)");
  ("CPSIRB", "X4(CF_00F0,SZ_BYTE,M_IR,M_IR,OP_P4,OP_C4,E1_WR,E2_CC,PF_0XXX)");
  ("CPDB", "X4(CF_00F0,SZ_BYTE,M_R,M_IR,OP_P4,OP_C4,E1_WR,E2_CC,PF_0XXX)");
  ("LDDRB", "X3(CF_00F0,SZ_BYTE,M_IR,M_IR,OP_P4,OP_C4,E1_WR,PF_0XX0)");
  ("LDDB", "X3(CF_00F0,SZ_BYTE,M_IR,M_IR,OP_P4,OP_C4,E1_WR,PF_0XX8)");
  ("CPSDB", "X4(CF_00F0,SZ_BYTE,M_IR,M_IR,OP_P4,OP_C4,E1_WR,E2_CC,PF_0XXX)");
  ("CPDRB", "X4(CF_00F0,SZ_BYTE,M_R,M_IR,OP_P4,OP_C4,E1_WR,E2_CC,PF_0XXX)");
  ("CPSDRB", "X4(CF_00F0,SZ_BYTE,M_IR,M_IR,OP_P4,OP_C4,E1_WR,E2_CC,PF_0XXX)");
  ("CPI", "X4(CF_00F0,SZ_WORD,M_R,M_IR,OP_P4,OP_C4,E1_WR,E2_CC,PF_0XXX)");
  ("LDIR", "X3(CF_00F0,SZ_WORD,M_IR,M_IR,OP_P4,OP_C4,E1_WR,PF_0XX0)");
  ("LDI", "X3(CF_00F0,SZ_WORD,M_IR,M_IR,OP_P4,OP_C4,E1_WR,PF_0XX8)");
  ("CPSI", "X4(CF_00F0,SZ_WORD,M_IR,M_IR,OP_P4,OP_C4,E1_WR,E2_CC,PF_0XXX)");
  ("CPIR", "X4(CF_00F0,SZ_WORD,M_R,M_IR,OP_P4,OP_C4,E1_WR,E2_CC,PF_0XXX)");
  ("CPSIR", "X4(CF_00F0,SZ_WORD,M_IR,M_IR,OP_P4,OP_C4,E1_WR,E2_CC,PF_0XXX)");
  ("CPD", "X4(CF_00F0,SZ_WORD,M_R,M_IR,OP_P4,OP_C4,E1_WR,E2_CC,PF_0XXX)");
  ("LDDR", "X3(CF_00F0,SZ_WORD,M_IR,M_IR,OP_P4,OP_C4,E1_WR,PF_0XX0)");
  ("LDD", "X3(CF_00F0,SZ_WORD,M_IR,M_IR,OP_P4,OP_C4,E1_WR,PF_0XX8)");
  ("CPSD", "X4(CF_00F0,SZ_WORD,M_IR,M_IR,OP_P4,OP_C4,E1_WR,E2_CC,PF_0XXX)");
  ("CPDR", "X4(CF_00F0,SZ_WORD,M_R,M_IR,OP_P4,OP_C4,E1_WR,E2_CC,PF_0XXX)");
  ("CPSDR", "X4(CF_00F0,SZ_WORD,M_IR,M_IR,OP_P4,OP_C4,E1_WR,E2_CC,PF_0XXX)")]
  [88; 87; 95; 94; 120; 101; 100; 145; 146; 143; 144; 132; 1; 112; 47; 106; 41; 50; 105; 107; 42; 104; 226; 214; 230; 218; 220; 208; 224; 212; 114; 229; 217; 231; 219; 223; 211; 225; 213; 57; 4; 150; 149; 34; 125; 124; 5; 35; 152; 151; 60; 58; 59; 28; 160; 165; 156; 164; 148; 147; 193; 177; 192; 176; 185; 169; 184; 168; 29; 130; 131; 2; 3; 9; 13; 21; 23; 110; 134; 154; 15; 24; 26; 14; 0; 7; 11; 20; 22; 45; 133; 153; 36; 37; 39; 40; 228; 216; 227; 215; 222; 210; 221; 209; 92; 17; 19; 25; 27; 118; 129; 126; 128; 155; 8; 12; 6; 10; 16; 18; 32; 33; 31; 30; 123; 122; 108; 43; 51; 99; 98; 196; 180; 188; 172; 162; 167; 158; 166; 197; 181; 189; 173; 121; 119; 113; 117; 115; 137; 138; 135; 136; 49; 52; 71; 61; 79; 66; 93; 75; 65; 83; 70; 91; 90; 89; 38; 82; 69; 86; 74; 64; 78; 141; 142; 139; 140; 48; 161; 157; 195; 179; 194; 178; 187; 171; 186; 170; 80; 67; 84; 72; 62; 76; 198; 182; 190; 174; 163; 159; 199; 183; 191; 175; 81; 68; 85; 73; 63; 77; 97; 96; 116; 55; 56; 53; 54; 109; 44; 127; 204; 206; 200; 202; 205; 207; 201; 203; 111; 46; 103; 102].

(* src/reg_f3850.cpp:32-52 REG_ENTRIES *)
Definition r_f3850_REG_ENTRIES : name_table := [
  ("A", "REG_A");
  ("D", "REG_D");
  ("DC", "REG_DC");
  ("H", "REG_H");
  ("HL", "REG_HL");
  ("HU", "REG_HU");
  ("I", "REG_I");
  ("IS", "REG_IS");
  ("J", "REG_J");
  ("K", "REG_K");
  ("KL", "REG_KL");
  ("KU", "REG_KU");
  ("P", "REG_P");
  ("P0", "REG_P0");
  ("Q", "REG_Q");
  ("QL", "REG_QL");
  ("QU", "REG_QU");
  ("S", "REG_S");
  ("W", "REG_W")].

(* src/reg_i8048.cpp:32-64 REG_ENTRIES *)
Definition r_i8048_REG_ENTRIES : name_table := [
  ("A", "REG_A");
  ("BUS", "REG_BUS");
  ("C", "REG_C");
  ("CLK", "REG_CLK");
  ("CNT", "REG_CNT");
  ("F0", "REG_F0");
  ("F1", "REG_F1");
  ("I", "REG_I");
  ("MB0", "REG_MB0");
  ("MB1", "REG_MB1");
  ("P", "REG_P");
  ("P1", "REG_P1");
  ("P2", "REG_P2");
  ("P4", "REG_P4");
  ("P5", "REG_P5");
  ("P6", "REG_P6");
  ("P7", "REG_P7");
  ("PSW", "REG_PSW");
  ("R0", "REG_R0");
  ("R1", "REG_R1");
  ("R2", "REG_R2");
  ("R3", "REG_R3");
  ("R4", "REG_R4");
  ("R5", "REG_R5");
  ("R6", "REG_R6");
  ("R7", "REG_R7");
  ("RB0", "REG_RB0");
  ("RB1", "REG_RB1");
  ("T", "REG_T");
  ("TCNT", "REG_TCNT");
  ("TCNTI", "REG_TCNTI")].

(* src/reg_i8051.cpp:32-46 REG_ENTRIES *)
Definition r_i8051_REG_ENTRIES : name_table := [
  ("A", "REG_A");
  ("AB", "REG_AB");
  ("C", "REG_C");
  ("DPTR", "REG_DPTR");
  ("PC", "REG_PC");
  ("R0", "REG_R0");
  ("R1", "REG_R1");
  ("R2", "REG_R2");
  ("R3", "REG_R3");
  ("R4", "REG_R4");
  ("R5", "REG_R5");
  ("R6", "REG_R6");
  ("R7", "REG_R7")].

(* src/reg_i8080.cpp:32-43 INTEL_ENTRIES *)
Definition r_i8080_INTEL_ENTRIES : name_table := [
  ("A", "REG_A");
  ("B", "REG_B");
  ("C", "REG_C");
  ("D", "REG_D");
  ("E", "REG_E");
  ("H", "REG_H");
  ("L", "REG_L");
  ("M", "REG_M");
  ("PSW", "REG_PSW");
  ("SP", "REG_SP")].

(* src/reg_i8080.cpp:45-61 ZILOG_ENTRIES *)
Definition r_i8080_ZILOG_ENTRIES : name_table := [
  ("A", "REG_A");
  ("AF", "REG_AF");
  ("B", "REG_B");
  ("BC", "REG_BC");
  ("C", "REG_C");
  ("D", "REG_D");
  ("DE", "REG_DE");
  ("E", "REG_E");
  ("H", "REG_H");
  ("HL", "REG_HL");
  ("IM", "REG_IM");
  ("L", "REG_L");
  ("M", "REG_M");
  ("PSW", "REG_PSW");
  ("SP", "REG_SP")].

(* src/reg_i8080.cpp:63-72 CC_ENTRIES *)
Definition r_i8080_CC_ENTRIES : name_table := [
  ("C", "CC_C");
  ("M", "CC_M");
  ("NC", "CC_NC");
  ("NZ", "CC_NZ");
  ("P", "CC_P");
  ("PE", "CC_PE");
  ("PO", "CC_PO");
  ("Z", "CC_Z")].

(* src/reg_i8086.cpp:32-60 REG_ENTRIES *)
Definition r_i8086_REG_ENTRIES : name_table := [
  ("AH", "REG_AH");
  ("AL", "REG_AL");
  ("AX", "REG_AX");
  ("BH", "REG_BH");
  ("BL", "REG_BL");
  ("BP", "REG_BP");
  ("BX", "REG_BX");
  ("BYTE", "REG_BYTE");
  ("CH", "REG_CH");
  ("CL", "REG_CL");
  ("CS", "REG_CS");
  ("CX", "REG_CX");
  ("DH", "REG_DH");
  ("DI", "REG_DI");
  ("DL", "REG_DL");
  ("DS", "REG_DS");
  ("DWORD", "REG_DWORD");
  ("DX", "REG_DX");
  ("ES", "REG_ES");
  ("PTR", "REG_PTR");
  ("QWORD", "REG_QWORD");
  ("SI", "REG_SI");
  ("SP", "REG_SP");
  ("SS", "REG_SS");
  ("ST", "REG_ST");
  ("TBYTE", "REG_TBYTE");
  ("WORD", "REG_WORD")].

(* src/reg_ins8060.cpp:32-39 REG_ENTRIES *)
Definition r_ins8060_REG_ENTRIES : name_table := [
  ("E", "REG_E");
  ("P0", "REG_P0");
  ("P1", "REG_P1");
  ("P2", "REG_P2");
  ("P3", "REG_P3");
  ("PC", "REG_PC")].

(* src/reg_ins8070.cpp:32-42 REG_ENTRIES *)
Definition r_ins8070_REG_ENTRIES : name_table := [
  ("A", "REG_A");
  ("E", "REG_E");
  ("EA", "REG_EA");
  ("P2", "REG_P2");
  ("P3", "REG_P3");
  ("PC", "REG_PC");
  ("S", "REG_S");
  ("SP", "REG_SP");
  ("T", "REG_T")].

(* src/reg_mc68000.cpp:31-66 REG_ENTRIES *)
Definition r_mc68000_REG_ENTRIES : name_table := [
  ("A0", "REG_A0");
  ("A1", "REG_A1");
  ("A2", "REG_A2");
  ("A3", "REG_A3");
  ("A4", "REG_A4");
  ("A5", "REG_A5");
  ("A6", "REG_A6");
  ("A7", "REG_A7");
  ("CCR", "REG_CCR");
  ("D0", "REG_D0");
  ("D1", "REG_D1");
  ("D2", "REG_D2");
  ("D3", "REG_D3");
  ("D4", "REG_D4");
  ("D5", "REG_D5");
  ("D6", "REG_D6");
  ("D7", "REG_D7");
  ("DFC", "REG_DFC");
  ("FP0", "REG_FP0");
  ("FP1", "REG_FP1");
  ("FP2", "REG_FP2");
  ("FP3", "REG_FP3");
  ("FP4", "REG_FP4");
  ("FP5", "REG_FP5");
  ("FP6", "REG_FP6");
  ("FP7", "REG_FP7");
  ("FPCR", "REG_FPCR");
  ("FPIAR", "REG_FPIAR");
  ("FPSR", "REG_FPSR");
  ("PC", "REG_PC");
  ("SFC", "REG_SFC");
  ("SR", "REG_SR");
  ("USP", "REG_USP");
  ("VBR", "REG_VBR")].

(* src/reg_mc6809.cpp:32-50 REG_ENTRIES *)
Definition r_mc6809_REG_ENTRIES : name_table := [
  ("0", "REG_0");
  ("A", "REG_A");
  ("B", "REG_B");
  ("CC", "REG_CC");
  ("D", "REG_D");
  ("DP", "REG_DP");
  ("E", "REG_E");
  ("F", "REG_F");
  ("PC", "REG_PC");
  ("PCR", "REG_PCR");
  ("S", "REG_S");
  ("U", "REG_U");
  ("V", "REG_V");
  ("W", "REG_W");
  ("X", "REG_X");
  ("Y", "REG_Y");
  ("Z", "REG_Z")].

(* src/reg_mn1610.cpp:32-63 REG_ENTRIES *)
Definition r_mn1610_REG_ENTRIES : name_table := [
  ("CSBR", "REG_CSBR");
  ("DR0", "REG_DR0");
  ("IC", "REG_IC");
  ("ICB", "REG_ICB");
  ("IISR", "REG_IISR");
  ("NPP", "REG_NPP");
  ("OSR0", "REG_OSR0");
  ("OSR1", "REG_OSR1");
  ("OSR2", "REG_OSR2");
  ("OSR3", "REG_OSR3");
  ("R0", "REG_R0");
  ("R1", "REG_R1");
  ("R2", "REG_R2");
  ("R3", "REG_R3");
  ("R4", "REG_R4");
  ("SBRB", "REG_SBRB");
  ("SCR", "REG_SCR");
  ("SIR", "REG_SIR");
  ("SOR", "REG_SOR");
  ("SP", "REG_SP");
  ("SSBR", "REG_SSBR");
  ("SSR", "REG_SSR");
  ("STR", "REG_STR");
  ("TCR", "REG_TCR");
  ("TIR", "REG_TIR");
  ("TSR", "REG_TSR");
  ("TSR0", "REG_TSR0");
  ("TSR1", "REG_TSR1");
  ("X0", "REG_X0");
  ("X1", "REG_X1")].

(* src/reg_mn1610.cpp:65-87 CC_ENTRIES *)
Definition r_mn1610_CC_ENTRIES : name_table := [
  ("C", "CC_C");
  ("CE", "CC_CE");
  ("E", "CC_E");
  ("ENZ", "CC_ENZ");
  ("EZ", "CC_EZ");
  ("LM", "CC_LM");
  ("LMZ", "CC_LMZ");
  ("LP", "CC_LP");
  ("LPZ", "CC_LPZ");
  ("M", "CC_M");
  ("MZ", "CC_MZ");
  ("NE", "CC_NE");
  ("NZ", "CC_NZ");
  ("ONZ", "CC_ONZ");
  ("OZ", "CC_OZ");
  ("P", "CC_P");
  ("PZ", "CC_PZ");
  ("RE", "CC_RE");
  ("SE", "CC_SE");
  ("SKP", "CC_SKP");
  ("Z", "CC_Z")].

(* src/reg_mos6502.cpp:33-38 REG_ENTRIES *)
Definition r_mos6502_REG_ENTRIES : name_table := [
  ("A", "REG_A");
  ("S", "REG_S");
  ("X", "REG_X");
  ("Y", "REG_Y")].

(* src/reg_ns32000.cpp:32-55 REG_ENTRIES *)
Definition r_ns32000_REG_ENTRIES : name_table := [
  ("EXT", "REG_EXT");
  ("F0", "REG_F0");
  ("F1", "REG_F1");
  ("F2", "REG_F2");
  ("F3", "REG_F3");
  ("F4", "REG_F4");
  ("F5", "REG_F5");
  ("F6", "REG_F6");
  ("F7", "REG_F7");
  ("FP", "REG_FP");
  ("PC", "REG_PC");
  ("R0", "REG_R0");
  ("R1", "REG_R1");
  ("R2", "REG_R2");
  ("R3", "REG_R3");
  ("R4", "REG_R4");
  ("R5", "REG_R5");
  ("R6", "REG_R6");
  ("R7", "REG_R7");
  ("SB", "REG_SB");
  ("SP", "REG_SP");
  ("TOS", "REG_TOS")].

(* src/reg_ns32000.cpp:57-66 PREG_ENTRIES *)
Definition r_ns32000_PREG_ENTRIES : name_table := [
  ("FP", "PREG_FP");
  ("INTBASE", "PREG_INTBASE");
  ("MOD", "PREG_MOD");
  ("PSR", "PREG_PSR");
  ("SB", "PREG_SB");
  ("SP", "PREG_SP");
  ("UPSR", "PREG_UPSR");
  ("US", "PREG_UPSR")].

(* src/reg_ns32000.cpp:68-76 MREG_ENTRIES *)
Definition r_ns32000_MREG_ENTRIES : name_table := [
  ("BCNT", "MREG_BCNT");
  ("BPR0", "MREG_BPR0");
  ("BPR1", "MREG_BPR1");
  ("EIA", "MREG_EIA");
  ("MSR", "MREG_MSR");
  ("PTB0", "MREG_PTB0");
  ("PTB1", "MREG_PTB1")].

(* src/reg_ns32000.cpp:78-83 CONFIG_ENTRIES *)
Definition r_ns32000_CONFIG_ENTRIES : name_table := [
  ("C", "CONFIG_C");
  ("F", "CONFIG_F");
  ("I", "CONFIG_I");
  ("M", "CONFIG_M")].

(* src/reg_pdp11.cpp:32-49 REG_ENTRIES *)
Definition r_pdp11_REG_ENTRIES : name_table := [
  ("AC0", "REG_AC0");
  ("AC1", "REG_AC1");
  ("AC2", "REG_AC2");
  ("AC3", "REG_AC3");
  ("AC4", "REG_AC4");
  ("AC5", "REG_AC5");
  ("PC", "REG_PC");
  ("R0", "REG_R0");
  ("R1", "REG_R1");
  ("R2", "REG_R2");
  ("R3", "REG_R3");
  ("R4", "REG_R4");
  ("R5", "REG_R5");
  ("R6", "REG_SP");
  ("R7", "REG_PC");
  ("SP", "REG_SP")].

(* src/reg_scn2650.cpp:32-37 CC_ENTRIES *)
Definition r_scn2650_CC_ENTRIES : name_table := [
  ("EQ", "CC_EQ");
  ("GT", "CC_GT");
  ("LT", "CC_LT");
  ("UN", "CC_UN")].

(* src/reg_tlcs90.cpp:32-48 REG_ENTRIES *)
Definition r_tlcs90_REG_ENTRIES : name_table := [
  ("A", "REG_A");
  ("AF", "REG_AF");
  ("AF'", "REG_AFP");
  ("B", "REG_B");
  ("BC", "REG_BC");
  ("C", "REG_C");
  ("D", "REG_D");
  ("DE", "REG_DE");
  ("E", "REG_E");
  ("H", "REG_H");
  ("HL", "REG_HL");
  ("IX", "REG_IX");
  ("IY", "REG_IY");
  ("L", "REG_L");
  ("SP", "REG_SP")].

(* src/reg_tlcs90.cpp:50-74 CC_ENTRIES *)
Definition r_tlcs90_CC_ENTRIES : name_table := [
  ("C", "CC_C");
  ("EQ", "CC_EQ");
  ("F", "CC_F");
  ("GE", "CC_GE");
  ("GT", "CC_GT");
  ("LE", "CC_LE");
  ("LT", "CC_LT");
  ("M", "CC_M");
  ("MI", "CC_MI");
  ("NC", "CC_NC");
  ("NE", "CC_NE");
  ("NOV", "CC_NOV");
  ("NZ", "CC_NZ");
  ("OV", "CC_OV");
  ("P", "CC_P");
  ("PE", "CC_PE");
  ("PL", "CC_PL");
  ("PO", "CC_PO");
  ("UGE", "CC_UGE");
  ("UGT", "CC_UGT");
  ("ULE", "CC_ULE");
  ("ULT", "CC_ULT");
  ("Z", "CC_Z")].

(* src/reg_z8.cpp:32-52 CC_ENTRIES *)
Definition r_z8_CC_ENTRIES : name_table := [
  ("C", "CC_C");
  ("EQ", "CC_EQ");
  ("F", "CC_F");
  ("GE", "CC_GE");
  ("GT", "CC_GT");
  ("LE", "CC_LE");
  ("LT", "CC_LT");
  ("MI", "CC_MI");
  ("NC", "CC_NC");
  ("NE", "CC_NE");
  ("NOV", "CC_NOV");
  ("NZ", "CC_NZ");
  ("OV", "CC_OV");
  ("PL", "CC_PL");
  ("UGE", "CC_UGE");
  ("UGT", "CC_UGT");
  ("ULE", "CC_ULE");
  ("ULT", "CC_ULT");
  ("Z", "CC_Z")].

(* src/reg_z80.cpp:33-51 REG_ENTRIES *)
Definition r_z80_REG_ENTRIES : name_table := [
  ("A", "REG_A");
  ("AF", "REG_AF");
  ("AF'", "REG_AFP");
  ("B", "REG_B");
  ("BC", "REG_BC");
  ("C", "REG_C");
  ("D", "REG_D");
  ("DE", "REG_DE");
  ("E", "REG_E");
  ("H", "REG_H");
  ("HL", "REG_HL");
  ("I", "REG_I");
  ("IX", "REG_IX");
  ("IY", "REG_IY");
  ("L", "REG_L");
  ("R", "REG_R");
  ("SP", "REG_SP")].

(* src/reg_z80.cpp:53-62 CC_ENTRIES *)
Definition r_z80_CC_ENTRIES : name_table := [
  ("C", "CC_C");
  ("M", "CC_M");
  ("NC", "CC_NC");
  ("NZ", "CC_NZ");
  ("P", "CC_P");
  ("PE", "CC_PE");
  ("PO", "CC_PO");
  ("Z", "CC_Z")].

(* src/reg_z8000.cpp:32-42 CTL_ENTRIES *)
Definition r_z8000_CTL_ENTRIES : name_table := [
  ("FCW", "REG_FCW");
  ("FLAGS", "REG_FLAGS");
  ("NSP", "REG_NSP");
  ("NSPOFF", "REG_NSPOFF");
  ("NSPSEG", "REG_NSPSEG");
  ("PSAP", "REG_PSAP");
  ("PSAPOFF", "REG_PSAPOFF");
  ("PSAPSEG", "REG_PSAPSEG");
  ("REFRESH", "REG_REFRESH")].

(* src/reg_z8000.cpp:44-64 CC_ENTRIES *)
Definition r_z8000_CC_ENTRIES : name_table := [
  ("C", "CC_C");
  ("EQ", "CC_EQ");
  ("F", "CC_F");
  ("GE", "CC_GE");
  ("GT", "CC_GT");
  ("LE", "CC_LE");
  ("LT", "CC_LT");
  ("MI", "CC_MI");
  ("NC", "CC_NC");
  ("NE", "CC_NE");
  ("NOV", "CC_NOV");
  ("NZ", "CC_NZ");
  ("OV", "CC_OV");
  ("PL", "CC_PL");
  ("UGE", "CC_UGE");
  ("UGT", "CC_UGT");
  ("ULE", "CC_ULE");
  ("ULT", "CC_ULT");
  ("Z", "CC_Z")].

(* src/reg_z8000.cpp:66-72 FLAG_ENTRIES *)
Definition r_z8000_FLAG_ENTRIES : name_table := [
  ("C", "FLAG_C");
  ("P", "FLAG_P");
  ("S", "FLAG_S");
  ("V", "FLAG_V");
  ("Z", "FLAG_Z")].

(* src/asm_base.cpp:35-39 PSEUDOS *)
Definition d_base_PSEUDOS : name_table := [
  ("align", "&Assembler::alignOrigin");
  ("option", "&Assembler::setOption");
  ("ORG", "&Assembler::defineOrigin")].

(* src/asm_cdp1802.cpp:36-38 PSEUDOS *)
Definition d_cdp1802_PSEUDOS : name_table := [
  ("dc", "&Assembler::defineDataConstant,Assembler::DATA_BYTE_OR_WORD")].

(* src/asm_f3850.cpp:35-39 PSEUDOS *)
Definition d_f3850_PSEUDOS : name_table := [
  ("DA", "&Assembler::defineDataConstant,Assembler::DATA_WORD");
  ("dc", "&Assembler::defineDataConstant,Assembler::DATA_BYTE_OR_WORD");
  ("rs", "&Assembler::allocateSpaces,Assembler::DATA_BYTE")].

(* src/asm_i8048.cpp:32-36 PSEUDOS *)
Definition d_i8048_PSEUDOS : name_table := [
  ("db", "&Assembler::defineDataConstant,Assembler::DATA_BYTE");
  ("DS", "&Assembler::allocateSpaces,Assembler::DATA_BYTE");
  ("dw", "&Assembler::defineDataConstant,Assembler::DATA_WORD")].

(* src/asm_i8051.cpp:32-36 PSEUDOS *)
Definition d_i8051_PSEUDOS : name_table := [
  ("db", "&Assembler::defineDataConstant,Assembler::DATA_BYTE");
  ("DS", "&Assembler::allocateSpaces,Assembler::DATA_BYTE");
  ("dw", "&Assembler::defineDataConstant,Assembler::DATA_WORD")].

(* src/asm_i8080.cpp:32-40 PSEUDOS *)
Definition d_i8080_PSEUDOS : name_table := [
  ("db", "&Assembler::defineDataConstant,Assembler::DATA_BYTE");
  ("defb", "&Assembler::defineDataConstant,Assembler::DATA_BYTE");
  ("defm", "&Assembler::defineDataConstant,Assembler::DATA_BYTE");
  ("defs", "&Assembler::allocateSpaces,Assembler::DATA_BYTE");
  ("defw", "&Assembler::defineDataConstant,Assembler::DATA_WORD");
  ("DS", "&Assembler::allocateSpaces,Assembler::DATA_BYTE");
  ("dw", "&Assembler::defineDataConstant,Assembler::DATA_WORD")].

(* src/asm_i8086.cpp:43-50 PSEUDOS *)
Definition d_i8086_PSEUDOS : name_table := [
  ("db", "&Assembler::defineDataConstant,Assembler::DATA_BYTE");
  ("DS", "&Assembler::allocateSpaces,Assembler::DATA_BYTE");
  ("dw", "&Assembler::defineDataConstant,Assembler::DATA_WORD");
  ("RESB", "&Assembler::allocateSpaces,Assembler::DATA_BYTE");
  ("resd", "&Assembler::allocateSpaces,Assembler::DATA_LONG");
  ("resw", "&Assembler::allocateSpaces,Assembler::DATA_WORD")].

(* src/asm_i8096.cpp:33-40 PSEUDOS *)
Definition d_i8096_PSEUDOS : name_table := [
  ("dcb", "&Assembler::defineDataConstant,Assembler::DATA_BYTE");
  ("dcl", "&Assembler::defineDataConstant,Assembler::DATA_LONG");
  ("dcw", "&Assembler::defineDataConstant,Assembler::DATA_WORD");
  ("DSB", "&Assembler::allocateSpaces,Assembler::DATA_BYTE");
  ("dsl", "&Assembler::allocateSpaces,Assembler::DATA_LONG");
  ("dsw", "&Assembler::allocateSpaces,Assembler::DATA_WORD")].

(* src/asm_ins8060.cpp:32-37 PSEUDOS *)
Definition d_ins8060_PSEUDOS : name_table := [
  (".=", "&Assembler::defineOrigin");
  (".ascii", "&Assembler::defineDataConstant,Assembler::DATA_BYTE");
  (".byte", "&Assembler::defineDataConstant,Assembler::DATA_BYTE");
  (".dbyte", "&Assembler::defineDataConstant,Assembler::DATA_WORD")].

(* src/asm_ins8070.cpp:32-37 PSEUDOS *)
Definition d_ins8070_PSEUDOS : name_table := [
  (".=", "&Assembler::defineOrigin");
  (".ascii", "&Assembler::defineDataConstant,Assembler::DATA_BYTE");
  (".byte", "&Assembler::defineDataConstant,Assembler::DATA_BYTE");
  (".dbyte", "&Assembler::defineDataConstant,Assembler::DATA_WORD")].

(* src/asm_mc6800.cpp:33-38 PSEUDOS *)
Definition d_mc6800_PSEUDOS : name_table := [
  ("fcb", "&Assembler::defineDataConstant,Assembler::DATA_BYTE_NO_STRING");
  ("fcc", "&Assembler::defineString");
  ("fdb", "&Assembler::defineDataConstant,Assembler::DATA_WORD_NO_STRING");
  ("rmb", "&Assembler::allocateSpaces,Assembler::DATA_BYTE")].

(* src/asm_mc68000.cpp:48-64 PSEUDOS *)
Definition d_mc68000_PSEUDOS : name_table := [
  (".align", "&Assembler::alignOrigin");
  ("dc", "&Assembler::defineDataConstant,Assembler::DATA_WORD|Assembler::DATA_ALIGN2");
  ("dc.b", "&Assembler::defineDataConstant,Assembler::DATA_BYTE");
  ("dc.d", "&Assembler::defineDataConstant,Assembler::DATA_FLOAT64|Assembler::DATA_ALIGN2");
  ("dc.l", "&Assembler::defineDataConstant,Assembler::DATA_LONG|Assembler::DATA_ALIGN2");
  ("dc.s", "&Assembler::defineDataConstant,Assembler::DATA_FLOAT32|Assembler::DATA_ALIGN2");
  ("dc.w", "&Assembler::defineDataConstant,Assembler::DATA_WORD|Assembler::DATA_ALIGN2");
  ("DS", "&Assembler::allocateSpaces,Assembler::DATA_BYTE");
  ("ds.b", "&Assembler::allocateSpaces,Assembler::DATA_BYTE");
  ("ds.l", "&Assembler::allocateSpaces,Assembler::DATA_LONG|Assembler::DATA_ALIGN2");
  ("ds.w", "&Assembler::allocateSpaces,Assembler::DATA_WORD|Assembler::DATA_ALIGN2")].

(* src/asm_mc6805.cpp:36-41 PSEUDOS *)
Definition d_mc6805_PSEUDOS : name_table := [
  ("fcb", "&Assembler::defineDataConstant,Assembler::DATA_BYTE_NO_STRING");
  ("fcc", "&Assembler::defineString");
  ("fdb", "&Assembler::defineDataConstant,Assembler::DATA_WORD_NO_STRING");
  ("rmb", "&Assembler::allocateSpaces,Assembler::DATA_BYTE")].

(* src/asm_mc6809.cpp:34-39 PSEUDOS *)
Definition d_mc6809_PSEUDOS : name_table := [
  ("fcb", "&Assembler::defineDataConstant,Assembler::DATA_BYTE_NO_STRING");
  ("fcc", "&Assembler::defineString");
  ("fdb", "&Assembler::defineDataConstant,Assembler::DATA_WORD_NO_STRING");
  ("rmb", "&Assembler::allocateSpaces,Assembler::DATA_BYTE")].

(* src/asm_mn1610.cpp:34-37 PSEUDOS *)
Definition d_mn1610_PSEUDOS : name_table := [
  ("DS", "&Assembler::allocateSpaces,Assembler::DATA_WORD");
  ("loc", "&Assembler::defineOrigin")].

(* src/asm_mos6502.cpp:36-45 PSEUDOS *)
Definition d_mos6502_PSEUDOS : name_table := [
  ("*=", "&Assembler::defineOrigin");
  (".align", "&Assembler::alignOrigin");
  (".byte", "&Assembler::defineDataConstant,Assembler::DATA_BYTE");
  (".word", "&Assembler::defineDataConstant,Assembler::DATA_WORD");
  ("fcb", "&Assembler::defineDataConstant,Assembler::DATA_BYTE");
  ("fcc", "&Assembler::defineString");
  ("fdb", "&Assembler::defineDataConstant,Assembler::DATA_WORD_NO_STRING");
  ("rmb", "&Assembler::allocateSpaces,Assembler::DATA_BYTE")].

(* src/asm_ns32000.cpp:46-61 PSEUDOS *)
Definition d_ns32000_PSEUDOS : name_table := [
  (".align", "&Assembler::alignOrigin");
  (".ascii", "&Assembler::defineDataConstant,Assembler::DATA_BYTE");
  (".blkb", "&Assembler::allocateSpaces,Assembler::DATA_BYTE");
  (".blkd", "&Assembler::allocateSpaces,Assembler::DATA_LONG");
  (".blkw", "&Assembler::allocateSpaces,Assembler::DATA_WORD");
  (".byte", "&Assembler::defineDataConstant,Assembler::DATA_BYTE");
  (".double", "&Assembler::defineDataConstant,Assembler::DATA_LONG");
  (".float", "&Assembler::defineDataConstant,Assembler::DATA_FLOAT32");
  (".long", "&Assembler::defineDataConstant,Assembler::DATA_FLOAT64");
  (".org", "&Assembler::defineOrigin");
  (".space", "&Assembler::allocateSpaces,Assembler::DATA_BYTE");
  (".word", "&Assembler::defineDataConstant,Assembler::DATA_WORD")].

(* src/asm_pdp11.cpp:40-48 PSEUDOS *)
Definition d_pdp11_PSEUDOS : name_table := [
  (".=", "&Assembler::defineOrigin");
  (".blkb", "&Assembler::allocateSpaces,Assembler::DATA_BYTE");
  (".blkw", "&Assembler::allocateSpaces,Assembler::DATA_WORD | Assembler::DATA_ALIGN2");
  (".byte", "&Assembler::defineDataConstant,Assembler::DATA_BYTE_NO_STRING");
  (".EVEN", "&Assembler::alignOrigin,Assembler::ALIGN_EVEN");
  (".ODD", "&Assembler::alignOrigin,Assembler::ALIGN_ODD");
  (".word", "&Assembler::defineDataConstant,Assembler::DATA_WORD_NO_STRING | Assembler::DATA_ALIGN2")].

(* src/asm_pdp8.cpp:40-42 PSEUDOS *)
Definition d_pdp8_PSEUDOS : name_table := [
  ("*", "&Assembler::defineOrigin")].

(* src/asm_scn2650.cpp:36-41 PSEUDOS *)
Definition d_scn2650_PSEUDOS : name_table := [
  ("acon", "&Assembler::defineDataConstant,Assembler::DATA_WORD");
  ("alit", "&Assembler::defineDataConstant,Assembler::DATA_BYTE");
  ("data", "&Assembler::defineDataConstant,Assembler::DATA_BYTE");
  ("RES", "&Assembler::allocateSpaces,Assembler::DATA_BYTE")].

(* src/asm_tlcs90.cpp:32-37 PSEUDOS *)
Definition d_tlcs90_PSEUDOS : name_table := [
  ("db", "&Assembler::defineDataConstant,Assembler::DATA_BYTE");
  ("dl", "&Assembler::defineDataConstant,Assembler::DATA_LONG");
  ("DS", "&Assembler::allocateSpaces,Assembler::DATA_BYTE");
  ("dw", "&Assembler::defineDataConstant,Assembler::DATA_WORD")].

(* src/asm_tms32010.cpp:32-40 PSEUDOS *)
Definition d_tms32010_PSEUDOS : name_table := [
  (".align", "&Assembler::alignOrigin");
  (".byte", "&Assembler::defineDataConstant,Assembler::DATA_BYTE_IN_WORD");
  (".EVEN", "&Assembler::alignOrigin,Assembler::ALIGN_EVEN");
  (".long", "&Assembler::defineDataConstant,Assembler::DATA_LONG");
  (".org", "&Assembler::defineOrigin");
  (".string", "&Assembler::defineDataConstant,Assembler::DATA_WORD");
  (".word", "&Assembler::defineDataConstant,Assembler::DATA_WORD")].

(* src/asm_tms7000.cpp:33-40 PSEUDOS *)
Definition d_tms7000_PSEUDOS : name_table := [
  ("aorg", "&Assembler::defineOrigin");
  ("bss", "&Assembler::allocateSpaces,Assembler::DATA_BYTE");
  ("byte", "&Assembler::defineDataConstant,Assembler::DATA_BYTE");
  ("data", "&Assembler::defineDataConstant,Assembler::DATA_WORD");
  ("even", "&Assembler::alignOrigin,Assembler::ALIGN_EVEN");
  ("text", "&Assembler::defineDataConstant,Assembler::DATA_BYTE")].

(* src/asm_tms9900.cpp:33-40 PSEUDOS *)
Definition d_tms9900_PSEUDOS : name_table := [
  ("aorg", "&Assembler::defineOrigin");
  ("bss", "&Assembler::allocateSpaces,Assembler::DATA_BYTE");
  ("byte", "&Assembler::defineDataConstant,Assembler::DATA_BYTE");
  ("data", "&Assembler::defineDataConstant,Assembler::DATA_WORD|Assembler::DATA_ALIGN2");
  ("even", "&Assembler::alignOrigin,Assembler::ALIGN_EVEN");
  ("text", "&Assembler::defineDataConstant,Assembler::DATA_BYTE")].

(* src/asm_z8.cpp:40-45 PSEUDOS *)
Definition d_z8_PSEUDOS : name_table := [
  ("db", "&Assembler::defineDataConstant,Assembler::DATA_BYTE");
  ("dl", "&Assembler::defineDataConstant,Assembler::DATA_LONG");
  ("DS", "&Assembler::allocateSpaces,Assembler::DATA_BYTE");
  ("dw", "&Assembler::defineDataConstant,Assembler::DATA_WORD")].

(* src/asm_z80.cpp:32-41 PSEUDOS *)
Definition d_z80_PSEUDOS : name_table := [
  ("db", "&Assembler::defineDataConstant,Assembler::DATA_BYTE");
  ("defb", "&Assembler::defineDataConstant,Assembler::DATA_BYTE");
  ("defm", "&Assembler::defineDataConstant,Assembler::DATA_BYTE");
  ("defs", "&Assembler::allocateSpaces,Assembler::DATA_BYTE");
  ("defw", "&Assembler::defineDataConstant,Assembler::DATA_WORD");
  ("dl", "&Assembler::defineDataConstant,Assembler::DATA_LONG");
  ("DS", "&Assembler::allocateSpaces,Assembler::DATA_BYTE");
  ("dw", "&Assembler::defineDataConstant,Assembler::DATA_WORD")].

(* src/asm_z8000.cpp:39-44 PSEUDOS *)
Definition d_z8000_PSEUDOS : name_table := [
  ("byte", "&Assembler::defineDataConstant,Assembler::DATA_BYTE");
  ("long", "&Assembler::defineDataConstant,Assembler::DATA_LONG|Assembler::DATA_ALIGN2");
  ("string", "&Assembler::defineDataConstant,Assembler::DATA_BYTE");
  ("word", "&Assembler::defineDataConstant,Assembler::DATA_WORD|Assembler::DATA_ALIGN2")].

(* every pair of an instruction table and an index used by a page *)
Definition insn_tables : list insn_table := [t_cdp1802_TABLE_CDP1802; t_cdp1802_TABLE_CDP1804; t_cdp1802_TABLE_CDP1804A; t_f3850_TABLE_3850; t_i8048_TABLE_I8048; t_i8048_TABLE_I8039; t_i8048_TABLE_I80C39; t_i8048_TABLE_MSM80C39; t_i8051_TABLE_I8051; t_i8080_TABLE_I8080; t_i8080_TABLE_Z8080; t_i8080_TABLE_I8085; t_i8080_TABLE_Z8085; t_i8080_TABLE_V30EMU; t_i8086_TABLE_00; t_i8086_TABLE_80; t_i8086_TABLE_83; t_i8086_TABLE_81; t_i8086_TABLE_8F; t_i8086_TABLE_C6; t_i8086_TABLE_C7; t_i8086_TABLE_D0; t_i8086_TABLE_D1; t_i8086_TABLE_D2; t_i8086_TABLE_D3; t_i8086_TABLE_D4; t_i8086_TABLE_D5; t_i8086_TABLE_F6; t_i8086_TABLE_F7; t_i8086_TABLE_FE; t_i8086_TABLE_FF; t_i8086_TABLE_I80186; t_i8086_TABLE_C0; t_i8086_TABLE_C1; t_i8086_V30TABLE_00; t_i8086_V30TABLE_0F; t_i8086_TABLE_FPU; t_i8086_TABLE_D8; t_i8086_TABLE_D9; t_i8086_TABLE_DA; t_i8086_TABLE_DB; t_i8086_TABLE_DC; t_i8086_TABLE_DD; t_i8086_TABLE_DE; t_i8086_TABLE_DF; t_i8096_TABLE_00; t_i8096_TABLE_FE; t_ins8060_TABLE_INS8060; t_ins8070_TABLE_INS8070; t_mc6800_MC6800_TABLE; t_mc6800_MB8861_TABLE; t_mc6800_MC6801_TABLE; t_mc6800_HD6301_TABLE; t_mc6800_MC68HC11_P00; t_mc6800_MC68HC11_P18; t_mc6800_MC68HC11_P1A; t_mc6800_MC68HC11_PCD; t_mc68000_MC68000_TABLE; t_mc68000_MC68010_TABLE; t_mc68000_MC68881_ARITH; t_mc68000_MC68881_BRANCH; t_mc68000_MC68881_TRAP; t_mc6805_MC6805_TABLE; t_mc6805_MC146805_TABLE; t_mc6805_MC68HC05_TABLE; t_mc6809_MC6809_P00; t_mc6809_MC6809_P10; t_mc6809_MC6809_P11; t_mc6809_HD6309_P00; t_mc6809_HD6309_P10; t_mc6809_HD6309_P11; t_mn1610_TABLE_COMMON; t_mn1610_TABLE_MN1610; t_mn1610_TABLE_MN1613; t_mos6502_MOS6502_TABLE; t_mos6502_G65SC02_TABLE; t_mos6502_R65C02_TABLE; t_mos6502_W65C02S_TABLE; t_mos6502_W65C816_TABLE; t_ns32000_FORMAT_0; t_ns32000_FORMAT_1; t_ns32000_FORMAT_4; t_ns32000_FORMAT_2_0; t_ns32000_FORMAT_2_1; t_ns32000_FORMAT_2_2; t_ns32000_FORMAT_2_3; t_ns32000_FORMAT_2_4; t_ns32000_FORMAT_2_5; t_ns32000_FORMAT_2_6; t_ns32000_FORMAT_3_1; t_ns32000_FORMAT_3_2; t_ns32000_FORMAT_3_3; t_ns32000_FORMAT_5_0; t_ns32000_FORMAT_5_1; t_ns32000_FORMAT_6; t_ns32000_FORMAT_7; t_ns32000_FORMAT_8_1; t_ns32000_FORMAT_8_2; t_ns32000_FORMAT_8_2_1; t_ns32000_FORMAT_8_3; t_ns32000_FORMAT_8_4; t_ns32000_FORMAT_9_FPU; t_ns32000_FORMAT_11_FPU; t_ns32000_FORMAT_8_3_1_MMU; t_ns32000_FORMAT_14_1_MMU; t_ns32000_FORMAT_14_2_MMU; t_pdp11_TABLE_BASE; t_pdp11_TABLE_EIS; t_pdp11_TABLE_J11; t_pdp11_TABLE_FP11; t_pdp11_TABLE_MFPMTP; t_pdp8_IM6100_GR1; t_pdp8_IM6100_GR2; t_pdp8_IM6100_GR3; t_pdp8_IM6100_IOT; t_pdp8_IM6100_MEM; t_pdp8_HD6120_GR1; t_pdp8_HD6120_MEX; t_pdp8_HD6120_I20; t_scn2650_TABLE_2650; t_tlcs90_TABLE_TLCS90; t_tlcs90_TABLE_SRC; t_tlcs90_TABLE_DST; t_tlcs90_TABLE_JMP; t_tlcs90_TABLE_REG; t_tlcs90_TABLE_LDA; t_tlcs90_TABLE_COND; t_tlcs90_TABLE_BLOCK; t_tms32010_TABLE_TMS32010; t_tms7000_TMS7000_TABLE; t_tms9900_TABLE_TMS9900; t_tms9900_TABLE_TMS9995; t_tms9900_TABLE_TMS99105; t_tms9900_TABLE_TMS99110; t_z8_TABLE_Z8; t_z8_TABLE_COMMON; t_z8_TABLE_Z86C; t_z8_TABLE_SUPER8; t_z8_TABLE_SUPER8_POST; t_z80_TABLE_I8080; t_z80_TABLE_Z80; t_z80_TABLE_CB; t_z80_TABLE_ED; t_z80_TABLE_IX; t_z8000_TABLE_Z8000].
Definition register_tables : list name_table := [r_f3850_REG_ENTRIES; r_i8048_REG_ENTRIES; r_i8051_REG_ENTRIES; r_i8080_INTEL_ENTRIES; r_i8080_ZILOG_ENTRIES; r_i8080_CC_ENTRIES; r_i8086_REG_ENTRIES; r_ins8060_REG_ENTRIES; r_ins8070_REG_ENTRIES; r_mc68000_REG_ENTRIES; r_mc6809_REG_ENTRIES; r_mn1610_REG_ENTRIES; r_mn1610_CC_ENTRIES; r_mos6502_REG_ENTRIES; r_ns32000_REG_ENTRIES; r_ns32000_PREG_ENTRIES; r_ns32000_MREG_ENTRIES; r_ns32000_CONFIG_ENTRIES; r_pdp11_REG_ENTRIES; r_scn2650_CC_ENTRIES; r_tlcs90_REG_ENTRIES; r_tlcs90_CC_ENTRIES; r_z8_CC_ENTRIES; r_z80_REG_ENTRIES; r_z80_CC_ENTRIES; r_z8000_CTL_ENTRIES; r_z8000_CC_ENTRIES; r_z8000_FLAG_ENTRIES].
Definition directive_tables : list name_table := [d_base_PSEUDOS; d_cdp1802_PSEUDOS; d_f3850_PSEUDOS; d_i8048_PSEUDOS; d_i8051_PSEUDOS; d_i8080_PSEUDOS; d_i8086_PSEUDOS; d_i8096_PSEUDOS; d_ins8060_PSEUDOS; d_ins8070_PSEUDOS; d_mc6800_PSEUDOS; d_mc68000_PSEUDOS; d_mc6805_PSEUDOS; d_mc6809_PSEUDOS; d_mn1610_PSEUDOS; d_mos6502_PSEUDOS; d_ns32000_PSEUDOS; d_pdp11_PSEUDOS; d_pdp8_PSEUDOS; d_scn2650_PSEUDOS; d_tlcs90_PSEUDOS; d_tms32010_PSEUDOS; d_tms7000_PSEUDOS; d_tms9900_PSEUDOS; d_z8_PSEUDOS; d_z80_PSEUDOS; d_z8000_PSEUDOS].

(* the CPU, FPU and MMU rows: file and row, name, pages, directive tables in search order (asm_base.cpp:105-110) *)
Definition processors : list processor := [
  mkPr "cdp1802 CDP1802" "1802" [t_cdp1802_TABLE_CDP1802] [d_cdp1802_PSEUDOS; d_base_PSEUDOS] (* src/table_cdp1802.cpp:317-321 *);
  mkPr "cdp1802 CDP1804" "1804" [t_cdp1802_TABLE_CDP1802; t_cdp1802_TABLE_CDP1804] [d_cdp1802_PSEUDOS; d_base_PSEUDOS] (* src/table_cdp1802.cpp:317-321 *);
  mkPr "cdp1802 CDP1804A" "1804A" [t_cdp1802_TABLE_CDP1802; t_cdp1802_TABLE_CDP1804; t_cdp1802_TABLE_CDP1804A] [d_cdp1802_PSEUDOS; d_base_PSEUDOS] (* src/table_cdp1802.cpp:317-321 *);
  mkPr "f3850 F3850" "3850" [t_f3850_TABLE_3850] [d_f3850_PSEUDOS; d_base_PSEUDOS] (* src/table_f3850.cpp:201-203 *);
  mkPr "i8048 I8039" "8039" [t_i8048_TABLE_I8039] [d_i8048_PSEUDOS; d_base_PSEUDOS] (* src/table_i8048.cpp:275-282 *);
  mkPr "i8048 I80C39" "80C39" [t_i8048_TABLE_I8039; t_i8048_TABLE_I80C39] [d_i8048_PSEUDOS; d_base_PSEUDOS] (* src/table_i8048.cpp:275-282 *);
  mkPr "i8048 MSM80C39" "MSM80C39" [t_i8048_TABLE_I8039; t_i8048_TABLE_I80C39; t_i8048_TABLE_MSM80C39] [d_i8048_PSEUDOS; d_base_PSEUDOS] (* src/table_i8048.cpp:275-282 *);
  mkPr "i8048 I8048" "8048" [t_i8048_TABLE_I8048; t_i8048_TABLE_I8039] [d_i8048_PSEUDOS; d_base_PSEUDOS] (* src/table_i8048.cpp:275-282 *);
  mkPr "i8048 I80C48" "80C48" [t_i8048_TABLE_I8048; t_i8048_TABLE_I8039; t_i8048_TABLE_I80C39] [d_i8048_PSEUDOS; d_base_PSEUDOS] (* src/table_i8048.cpp:275-282 *);
  mkPr "i8048 MSM80C48" "MSM80C48" [t_i8048_TABLE_I8048; t_i8048_TABLE_I8039; t_i8048_TABLE_I80C39; t_i8048_TABLE_MSM80C39] [d_i8048_PSEUDOS; d_base_PSEUDOS] (* src/table_i8048.cpp:275-282 *);
  mkPr "i8051 I8051" "8051" [t_i8051_TABLE_I8051] [d_i8051_PSEUDOS; d_base_PSEUDOS] (* src/table_i8051.cpp:271-273 *);
  mkPr "i8080 I8080" "8080" [t_i8080_TABLE_I8080] [d_i8080_PSEUDOS; d_base_PSEUDOS] (* src/table_i8080.cpp:407-411 *);
  mkPr "i8080 I8085" "8085" [t_i8080_TABLE_I8080; t_i8080_TABLE_I8085] [d_i8080_PSEUDOS; d_base_PSEUDOS] (* src/table_i8080.cpp:407-411 *);
  mkPr "i8080 V30EMU" "V30EMU" [t_i8080_TABLE_I8080; t_i8080_TABLE_V30EMU] [d_i8080_PSEUDOS; d_base_PSEUDOS] (* src/table_i8080.cpp:407-411 *);
  mkPr "i8080 I8080" "8080" [t_i8080_TABLE_Z8080] [d_i8080_PSEUDOS; d_base_PSEUDOS] (* src/table_i8080.cpp:413-417 *);
  mkPr "i8080 I8085" "8085" [t_i8080_TABLE_Z8080; t_i8080_TABLE_Z8085] [d_i8080_PSEUDOS; d_base_PSEUDOS] (* src/table_i8080.cpp:413-417 *);
  mkPr "i8080 V30EMU" "V30EMU" [t_i8080_TABLE_Z8080; t_i8080_TABLE_V30EMU] [d_i8080_PSEUDOS; d_base_PSEUDOS] (* src/table_i8080.cpp:413-417 *);
  mkPr "i8086 I8086" "8086" [t_i8086_TABLE_00; t_i8086_TABLE_80; t_i8086_TABLE_83; t_i8086_TABLE_81; t_i8086_TABLE_8F; t_i8086_TABLE_C6; t_i8086_TABLE_C7; t_i8086_TABLE_D0; t_i8086_TABLE_D1; t_i8086_TABLE_D2; t_i8086_TABLE_D3; t_i8086_TABLE_D4; t_i8086_TABLE_D5; t_i8086_TABLE_F6; t_i8086_TABLE_F7; t_i8086_TABLE_FE; t_i8086_TABLE_FF] [d_i8086_PSEUDOS; d_base_PSEUDOS] (* src/table_i8086.cpp:1208-1212 *);
  mkPr "i8086 I80186" "80186" [t_i8086_TABLE_I80186; t_i8086_TABLE_D0; t_i8086_TABLE_D1; t_i8086_TABLE_C0; t_i8086_TABLE_C1; t_i8086_TABLE_00; t_i8086_TABLE_80; t_i8086_TABLE_83; t_i8086_TABLE_81; t_i8086_TABLE_8F; t_i8086_TABLE_C6; t_i8086_TABLE_C7; t_i8086_TABLE_D2; t_i8086_TABLE_D3; t_i8086_TABLE_D4; t_i8086_TABLE_D5; t_i8086_TABLE_F6; t_i8086_TABLE_F7; t_i8086_TABLE_FE; t_i8086_TABLE_FF] [d_i8086_PSEUDOS; d_base_PSEUDOS] (* src/table_i8086.cpp:1208-1212 *);
  mkPr "i8086 V30" "V30" [t_i8086_V30TABLE_00; t_i8086_V30TABLE_0F; t_i8086_TABLE_I80186; t_i8086_TABLE_D0; t_i8086_TABLE_D1; t_i8086_TABLE_C0; t_i8086_TABLE_C1; t_i8086_TABLE_00; t_i8086_TABLE_80; t_i8086_TABLE_83; t_i8086_TABLE_81; t_i8086_TABLE_8F; t_i8086_TABLE_C6; t_i8086_TABLE_C7; t_i8086_TABLE_D2; t_i8086_TABLE_D3; t_i8086_TABLE_D4; t_i8086_TABLE_D5; t_i8086_TABLE_F6; t_i8086_TABLE_F7; t_i8086_TABLE_FE; t_i8086_TABLE_FF] [d_i8086_PSEUDOS; d_base_PSEUDOS] (* src/table_i8086.cpp:1208-1212 *);
  mkPr "i8086 FPU_I8087" "8087" [t_i8086_TABLE_FPU; t_i8086_TABLE_D8; t_i8086_TABLE_D9; t_i8086_TABLE_DA; t_i8086_TABLE_DB; t_i8086_TABLE_DC; t_i8086_TABLE_DD; t_i8086_TABLE_DE; t_i8086_TABLE_DF] [d_i8086_PSEUDOS; d_base_PSEUDOS] (* src/table_i8086.cpp:1221-1224 *);
  mkPr "i8086 FPU_NONE" "none" [] [d_i8086_PSEUDOS; d_base_PSEUDOS] (* src/table_i8086.cpp:1221-1224 *);
  mkPr "i8096 I8096" "8096" [t_i8096_TABLE_00; t_i8096_TABLE_FE] [d_i8096_PSEUDOS; d_base_PSEUDOS] (* src/table_i8096.cpp:265-267 *);
  mkPr "ins8060 INS8060" "SC/MP" [t_ins8060_TABLE_INS8060] [d_ins8060_PSEUDOS; d_base_PSEUDOS] (* src/table_ins8060.cpp:141-143 *);
  mkPr "ins8070 INS8070" "8070" [t_ins8070_TABLE_INS8070] [d_ins8070_PSEUDOS; d_base_PSEUDOS] (* src/table_ins8070.cpp:193-195 *);
  mkPr "mc6800 MC6800" "6800" [t_mc6800_MC6800_TABLE] [d_mc6800_PSEUDOS; d_base_PSEUDOS] (* src/table_mc6800.cpp:598-604 *);
  mkPr "mc6800 MB8861" "MB8861" [t_mc6800_MC6800_TABLE; t_mc6800_MB8861_TABLE] [d_mc6800_PSEUDOS; d_base_PSEUDOS] (* src/table_mc6800.cpp:598-604 *);
  mkPr "mc6800 MC6801" "6801" [t_mc6800_MC6801_TABLE; t_mc6800_MC6800_TABLE] [d_mc6800_PSEUDOS; d_base_PSEUDOS] (* src/table_mc6800.cpp:598-604 *);
  mkPr "mc6800 HD6301" "6301" [t_mc6800_HD6301_TABLE; t_mc6800_MC6801_TABLE; t_mc6800_MC6800_TABLE] [d_mc6800_PSEUDOS; d_base_PSEUDOS] (* src/table_mc6800.cpp:598-604 *);
  mkPr "mc6800 MC68HC11" "6811" [t_mc6800_MC68HC11_P00; t_mc6800_MC6801_TABLE; t_mc6800_MC6800_TABLE; t_mc6800_MC68HC11_P18; t_mc6800_MC68HC11_P1A; t_mc6800_MC68HC11_PCD] [d_mc6800_PSEUDOS; d_base_PSEUDOS] (* src/table_mc6800.cpp:598-604 *);
  mkPr "mc68000 MC68000" "68000" [t_mc68000_MC68000_TABLE] [d_mc68000_PSEUDOS; d_base_PSEUDOS] (* src/table_mc68000.cpp:1252-1255 *);
  mkPr "mc68000 MC68010" "68010" [t_mc68000_MC68000_TABLE; t_mc68000_MC68010_TABLE] [d_mc68000_PSEUDOS; d_base_PSEUDOS] (* src/table_mc68000.cpp:1252-1255 *);
  mkPr "mc68000 FPU_MC68881" "68881" [t_mc68000_MC68881_ARITH; t_mc68000_MC68881_BRANCH; t_mc68000_MC68881_TRAP] [d_mc68000_PSEUDOS; d_base_PSEUDOS] (* src/table_mc68000.cpp:1264-1267 *);
  mkPr "mc68000 FPU_NONE" "none" [] [d_mc68000_PSEUDOS; d_base_PSEUDOS] (* src/table_mc68000.cpp:1264-1267 *);
  mkPr "mc6805 MC6805" "6805" [t_mc6805_MC6805_TABLE] [d_mc6805_PSEUDOS; d_base_PSEUDOS] (* src/table_mc6805.cpp:260-264 *);
  mkPr "mc6805 MC146805" "146805" [t_mc6805_MC6805_TABLE; t_mc6805_MC146805_TABLE] [d_mc6805_PSEUDOS; d_base_PSEUDOS] (* src/table_mc6805.cpp:260-264 *);
  mkPr "mc6805 MC68HC05" "68HC05" [t_mc6805_MC6805_TABLE; t_mc6805_MC146805_TABLE; t_mc6805_MC68HC05_TABLE] [d_mc6805_PSEUDOS; d_base_PSEUDOS] (* src/table_mc6805.cpp:260-264 *);
  mkPr "mc6809 MC6809" "6809" [t_mc6809_MC6809_P00; t_mc6809_MC6809_P10; t_mc6809_MC6809_P11] [d_mc6809_PSEUDOS; d_base_PSEUDOS] (* src/table_mc6809.cpp:639-642 *);
  mkPr "mc6809 HD6309" "6309" [t_mc6809_HD6309_P00; t_mc6809_MC6809_P00; t_mc6809_MC6809_P10; t_mc6809_MC6809_P11; t_mc6809_HD6309_P10; t_mc6809_HD6309_P11] [d_mc6809_PSEUDOS; d_base_PSEUDOS] (* src/table_mc6809.cpp:639-642 *);
  mkPr "mn1610 MN1610" "MN1610" [t_mn1610_TABLE_COMMON; t_mn1610_TABLE_MN1610] [d_mn1610_PSEUDOS; d_base_PSEUDOS] (* src/table_mn1610.cpp:285-289 *);
  mkPr "mn1610 MN1613" "MN1613" [t_mn1610_TABLE_COMMON; t_mn1610_TABLE_MN1613; t_mn1610_TABLE_MN1610] [d_mn1610_PSEUDOS; d_base_PSEUDOS] (* src/table_mn1610.cpp:285-289 *);
  mkPr "mn1610 MN1613A" "MN1613A" [t_mn1610_TABLE_COMMON; t_mn1610_TABLE_MN1613; t_mn1610_TABLE_MN1610] [d_mn1610_PSEUDOS; d_base_PSEUDOS] (* src/table_mn1610.cpp:285-289 *);
  mkPr "mos6502 MOS6502" "6502" [t_mos6502_MOS6502_TABLE] [d_mos6502_PSEUDOS; d_base_PSEUDOS] (* src/table_mos6502.cpp:704-710 *);
  mkPr "mos6502 G65SC02" "65SC02" [t_mos6502_MOS6502_TABLE; t_mos6502_G65SC02_TABLE] [d_mos6502_PSEUDOS; d_base_PSEUDOS] (* src/table_mos6502.cpp:704-710 *);
  mkPr "mos6502 R65C02" "65C02" [t_mos6502_MOS6502_TABLE; t_mos6502_G65SC02_TABLE; t_mos6502_R65C02_TABLE] [d_mos6502_PSEUDOS; d_base_PSEUDOS] (* src/table_mos6502.cpp:704-710 *);
  mkPr "mos6502 W65C02S" "W65C02S" [t_mos6502_MOS6502_TABLE; t_mos6502_G65SC02_TABLE; t_mos6502_R65C02_TABLE; t_mos6502_W65C02S_TABLE] [d_mos6502_PSEUDOS; d_base_PSEUDOS] (* src/table_mos6502.cpp:704-710 *);
  mkPr "mos6502 W65C816" "65816" [t_mos6502_MOS6502_TABLE; t_mos6502_G65SC02_TABLE; t_mos6502_W65C02S_TABLE; t_mos6502_W65C816_TABLE] [d_mos6502_PSEUDOS; d_base_PSEUDOS] (* src/table_mos6502.cpp:704-710 *);
  mkPr "ns32000 NS32032" "32032" [t_ns32000_FORMAT_0; t_ns32000_FORMAT_1; t_ns32000_FORMAT_4; t_ns32000_FORMAT_2_0; t_ns32000_FORMAT_2_1; t_ns32000_FORMAT_2_2; t_ns32000_FORMAT_2_3; t_ns32000_FORMAT_2_4; t_ns32000_FORMAT_2_5; t_ns32000_FORMAT_2_6; t_ns32000_FORMAT_3_1; t_ns32000_FORMAT_3_2; t_ns32000_FORMAT_3_3; t_ns32000_FORMAT_5_0; t_ns32000_FORMAT_5_1; t_ns32000_FORMAT_6; t_ns32000_FORMAT_7; t_ns32000_FORMAT_8_1; t_ns32000_FORMAT_8_2; t_ns32000_FORMAT_8_2_1; t_ns32000_FORMAT_8_3; t_ns32000_FORMAT_8_4] [d_ns32000_PSEUDOS; d_base_PSEUDOS] (* src/table_ns32000.cpp:897-899 *);
  mkPr "ns32000 FPU_NS32081" "NS32081" [t_ns32000_FORMAT_9_FPU; t_ns32000_FORMAT_11_FPU] [d_ns32000_PSEUDOS; d_base_PSEUDOS] (* src/table_ns32000.cpp:908-911 *);
  mkPr "ns32000 FPU_NONE" "none" [] [d_ns32000_PSEUDOS; d_base_PSEUDOS] (* src/table_ns32000.cpp:908-911 *);
  mkPr "ns32000 MMU_NS32082" "NS32082" [t_ns32000_FORMAT_8_3_1_MMU; t_ns32000_FORMAT_14_1_MMU; t_ns32000_FORMAT_14_2_MMU] [d_ns32000_PSEUDOS; d_base_PSEUDOS] (* src/table_ns32000.cpp:919-922 *);
  mkPr "ns32000 MMU_NONE" "none" [] [d_ns32000_PSEUDOS; d_base_PSEUDOS] (* src/table_ns32000.cpp:919-922 *);
  mkPr "pdp11 J11" "J11" [t_pdp11_TABLE_BASE; t_pdp11_TABLE_EIS; t_pdp11_TABLE_J11; t_pdp11_TABLE_FP11; t_pdp11_TABLE_MFPMTP] [d_pdp11_PSEUDOS; d_base_PSEUDOS] (* src/table_pdp11.cpp:368-371 *);
  mkPr "pdp11 T11" "T11" [t_pdp11_TABLE_BASE] [d_pdp11_PSEUDOS; d_base_PSEUDOS] (* src/table_pdp11.cpp:368-371 *);
  mkPr "pdp8 IM6100" "6100" [t_pdp8_IM6100_GR1; t_pdp8_IM6100_GR2; t_pdp8_IM6100_GR3; t_pdp8_IM6100_IOT; t_pdp8_IM6100_MEM] [d_pdp8_PSEUDOS; d_base_PSEUDOS] (* src/table_pdp8.cpp:388-391 *);
  mkPr "pdp8 HD6120" "6120" [t_pdp8_HD6120_GR1; t_pdp8_IM6100_GR1; t_pdp8_IM6100_GR2; t_pdp8_IM6100_GR3; t_pdp8_HD6120_MEX; t_pdp8_HD6120_I20; t_pdp8_IM6100_IOT; t_pdp8_IM6100_MEM] [d_pdp8_PSEUDOS; d_base_PSEUDOS] (* src/table_pdp8.cpp:388-391 *);
  mkPr "scn2650 SCN2650" "2650" [t_scn2650_TABLE_2650] [d_scn2650_PSEUDOS; d_base_PSEUDOS] (* src/table_scn2650.cpp:217-219 *);
  mkPr "tlcs90 TLCS90" "TLCS90" [t_tlcs90_TABLE_TLCS90; t_tlcs90_TABLE_SRC; t_tlcs90_TABLE_SRC; t_tlcs90_TABLE_SRC; t_tlcs90_TABLE_SRC; t_tlcs90_TABLE_SRC; t_tlcs90_TABLE_DST; t_tlcs90_TABLE_DST; t_tlcs90_TABLE_DST; t_tlcs90_TABLE_DST; t_tlcs90_TABLE_DST; t_tlcs90_TABLE_JMP; t_tlcs90_TABLE_JMP; t_tlcs90_TABLE_JMP; t_tlcs90_TABLE_JMP; t_tlcs90_TABLE_REG; t_tlcs90_TABLE_LDA; t_tlcs90_TABLE_LDA; t_tlcs90_TABLE_COND; t_tlcs90_TABLE_BLOCK] [d_tlcs90_PSEUDOS; d_base_PSEUDOS] (* src/table_tlcs90.cpp:565-567 *);
  mkPr "tms32010 TMS32010" "32010" [t_tms32010_TABLE_TMS32010] [d_tms32010_PSEUDOS; d_base_PSEUDOS] (* src/table_tms32010.cpp:169-172 *);
  mkPr "tms32010 TMS32015" "32015" [t_tms32010_TABLE_TMS32010] [d_tms32010_PSEUDOS; d_base_PSEUDOS] (* src/table_tms32010.cpp:169-172 *);
  mkPr "tms7000 TMS7000" "TMS7000" [t_tms7000_TMS7000_TABLE] [d_tms7000_PSEUDOS; d_base_PSEUDOS] (* src/table_tms7000.cpp:472-474 *);
  mkPr "tms9900 TMS9900" "9900" [t_tms9900_TABLE_TMS9900] [d_tms9900_PSEUDOS; d_base_PSEUDOS] (* src/table_tms9900.cpp:289-295 *);
  mkPr "tms9900 TMS9980" "9980" [t_tms9900_TABLE_TMS9900] [d_tms9900_PSEUDOS; d_base_PSEUDOS] (* src/table_tms9900.cpp:289-295 *);
  mkPr "tms9900 TMS9995" "9995" [t_tms9900_TABLE_TMS9900; t_tms9900_TABLE_TMS9995] [d_tms9900_PSEUDOS; d_base_PSEUDOS] (* src/table_tms9900.cpp:289-295 *);
  mkPr "tms9900 TMS99105" "99105" [t_tms9900_TABLE_TMS99105; t_tms9900_TABLE_TMS9900; t_tms9900_TABLE_TMS9995] [d_tms9900_PSEUDOS; d_base_PSEUDOS] (* src/table_tms9900.cpp:289-295 *);
  mkPr "tms9900 TMS99110" "99110" [t_tms9900_TABLE_TMS99105; t_tms9900_TABLE_TMS9900; t_tms9900_TABLE_TMS9995; t_tms9900_TABLE_TMS99110] [d_tms9900_PSEUDOS; d_base_PSEUDOS] (* src/table_tms9900.cpp:289-295 *);
  mkPr "z8 Z8" "Z8" [t_z8_TABLE_Z8; t_z8_TABLE_COMMON] [d_z8_PSEUDOS; d_base_PSEUDOS] (* src/table_z8.cpp:488-492 *);
  mkPr "z8 Z86C" "Z86C" [t_z8_TABLE_Z8; t_z8_TABLE_COMMON; t_z8_TABLE_Z86C] [d_z8_PSEUDOS; d_base_PSEUDOS] (* src/table_z8.cpp:488-492 *);
  mkPr "z8 SUPER8" "Z88" [t_z8_TABLE_SUPER8; t_z8_TABLE_SUPER8_POST; t_z8_TABLE_COMMON] [d_z8_PSEUDOS; d_base_PSEUDOS] (* src/table_z8.cpp:488-492 *);
  mkPr "z80 Z80" "Z80" [t_z80_TABLE_I8080; t_z80_TABLE_Z80; t_z80_TABLE_CB; t_z80_TABLE_ED; t_z80_TABLE_IX; t_z80_TABLE_IX] [d_z80_PSEUDOS; d_base_PSEUDOS] (* src/table_z80.cpp:394-396 *);
  mkPr "z8000 Z8001" "Z8001" [t_z8000_TABLE_Z8000] [d_z8000_PSEUDOS; d_base_PSEUDOS] (* src/table_z8000.cpp:521-524 *);
  mkPr "z8000 Z8002" "Z8002" [t_z8000_TABLE_Z8000] [d_z8000_PSEUDOS; d_base_PSEUDOS] (* src/table_z8000.cpp:521-524 *)].
