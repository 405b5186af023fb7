(** Opcode maps: the instructions without numbers, from the manuals of the manufacturers, as
    mnemonic, operands and code.  Nothing here comes from the tables of the program. *)
From Coq Require Import String ZArith List Bool.
From Verif Require Import M_Char M_Text.
Import ListNotations.
Open Scope string_scope.
Open Scope list_scope.
Local Open Scope Z_scope.

Definition row : Set := (string * string * list Z)%type.
(* the text in upper or lower case; the maps below are in upper case *)
Definition lower (c : Z) : Z := if (65 <=? c) && (c <=? 90) then c + 32 else c.
Definition cased (upper : bool) (s : string) : text := if upper then s2l s else map lower (s2l s).

(* for every name of the list and its number *)
Definition each (l : list string) (f : string -> Z -> list row) : list row :=
  concat (map (fun p => f (fst p) (Z.of_nat (snd p))) (combine l (seq 0 (length l)))).
(* mnemonics without operands and their opcodes *)
Definition plain (pre : list Z) (l : list (string * Z)) : list row := map (fun p => (fst p, "", pre ++ [snd p])) l.
Definition two (a b : string) : string := (a ++ ", " ++ b)%string.

(* ------------------------------------------------------------ Intel 8080, 8085 *)
Definition r8080 : list string := ["B"; "C"; "D"; "E"; "H"; "L"; "M"; "A"].
Definition map_8080 : list row :=
  plain [] [("NOP", 0x00); ("RLC", 0x07); ("RRC", 0x0F); ("RAL", 0x17); ("RAR", 0x1F); ("DAA", 0x27); ("CMA", 0x2F);
    ("STC", 0x37); ("CMC", 0x3F); ("HLT", 0x76); ("RET", 0xC9); ("XTHL", 0xE3); ("PCHL", 0xE9); ("XCHG", 0xEB);
    ("DI", 0xF3); ("SPHL", 0xF9); ("EI", 0xFB)] ++
  each ["RNZ"; "RZ"; "RNC"; "RC"; "RPO"; "RPE"; "RP"; "RM"] (fun n c => [(n, "", [0xC0 + 8 * c])]) ++
  each r8080 (fun d i => each r8080 (fun s j => if (i =? 6) && (j =? 6) then [] else [("MOV", two d s, [0x40 + 8 * i + j])])) ++
  each ["ADD"; "ADC"; "SUB"; "SBB"; "ANA"; "XRA"; "ORA"; "CMP"] (fun n i => each r8080 (fun s j => [(n, s, [0x80 + 8 * i + j])])) ++
  each r8080 (fun r i => [("INR", r, [0x04 + 8 * i]); ("DCR", r, [0x05 + 8 * i])]) ++
  each ["B"; "D"; "H"; "SP"] (fun r i => [("INX", r, [0x03 + 16 * i]); ("DAD", r, [0x09 + 16 * i]); ("DCX", r, [0x0B + 16 * i])]) ++
  each ["B"; "D"; "H"; "PSW"] (fun r i => [("POP", r, [0xC1 + 16 * i]); ("PUSH", r, [0xC5 + 16 * i])]) ++
  each ["B"; "D"] (fun r i => [("STAX", r, [0x02 + 16 * i]); ("LDAX", r, [0x0A + 16 * i])]).
Definition map_8085 : list row := map_8080 ++ plain [] [("RIM", 0x20); ("SIM", 0x30)].
(* the 8080 emulation of the V30 *)
Definition map_v30emu : list row := map_8080 ++ plain [0xED] [("RETEM", 0xFD)].

(* ------------------------------------------------------------ Zilog Z80 *)
Definition rz80 : list string := ["B"; "C"; "D"; "E"; "H"; "L"; "(HL)"; "A"].
Definition cz80 : list string := ["NZ"; "Z"; "NC"; "C"; "PO"; "PE"; "P"; "M"].
(* what the 8080 has too *)
Definition map_z8080 : list row :=
  plain [] [("NOP", 0x00); ("RLCA", 0x07); ("RRCA", 0x0F); ("RLA", 0x17); ("RRA", 0x1F); ("DAA", 0x27); ("CPL", 0x2F);
    ("SCF", 0x37); ("CCF", 0x3F); ("HALT", 0x76); ("RET", 0xC9); ("DI", 0xF3); ("EI", 0xFB)] ++
  [("EX", "(SP), HL", [0xE3]); ("JP", "(HL)", [0xE9]); ("EX", "DE, HL", [0xEB]); ("LD", "SP, HL", [0xF9])] ++
  each cz80 (fun c i => [("RET", c, [0xC0 + 8 * i])]) ++
  each rz80 (fun d i => each rz80 (fun s j => if (i =? 6) && (j =? 6) then [] else [("LD", two d s, [0x40 + 8 * i + j])])) ++
  (* the manual has SUB s, AND s, XOR s, OR s and CP s, with A understood *)
  each ["ADD"; "ADC"; "SUB"; "SBC"; "AND"; "XOR"; "OR"; "CP"] (fun n i => each rz80 (fun s j => [(n, two "A" s, [0x80 + 8 * i + j])])) ++
  each rz80 (fun r i => [("INC", r, [0x04 + 8 * i]); ("DEC", r, [0x05 + 8 * i])]) ++
  each ["BC"; "DE"; "HL"; "SP"] (fun r i => [("INC", r, [0x03 + 16 * i]); ("ADD", two "HL" r, [0x09 + 16 * i]); ("DEC", r, [0x0B + 16 * i])]) ++
  each ["BC"; "DE"; "HL"; "AF"] (fun r i => [("POP", r, [0xC1 + 16 * i]); ("PUSH", r, [0xC5 + 16 * i])]) ++
  [("LD", "(BC), A", [0x02]); ("LD", "A, (BC)", [0x0A]); ("LD", "(DE), A", [0x12]); ("LD", "A, (DE)", [0x1A])].
Definition index_rows (r : string) (p : Z) : list row :=
  each ["BC"; "DE"; r; "SP"] (fun s i => [("ADD", two r s, [p; 0x09 + 16 * i])]) ++
  [("INC", r, [p; 0x23]); ("DEC", r, [p; 0x2B]); ("POP", r, [p; 0xE1]); ("PUSH", r, [p; 0xE5]);
   ("EX", two "(SP)" r, [p; 0xE3]); ("JP", ("(" ++ r ++ ")")%string, [p; 0xE9]); ("LD", two "SP" r, [p; 0xF9])].
Definition map_z80 : list row :=
  map_z8080 ++ [("EX", "AF, AF'", [0x08]); ("EXX", "", [0xD9])] ++
  each ["RLC"; "RRC"; "RL"; "RR"; "SLA"; "SRA"] (fun n i => each rz80 (fun r j => [(n, r, [0xCB; 8 * i + j])])) ++
  each rz80 (fun r j => [("SRL", r, [0xCB; 0x38 + j])]) ++
  plain [0xED] [("NEG", 0x44); ("RETN", 0x45); ("RETI", 0x4D); ("RRD", 0x67); ("RLD", 0x6F);
    ("LDI", 0xA0); ("CPI", 0xA1); ("INI", 0xA2); ("OUTI", 0xA3); ("LDD", 0xA8); ("CPD", 0xA9); ("IND", 0xAA); ("OUTD", 0xAB);
    ("LDIR", 0xB0); ("CPIR", 0xB1); ("INIR", 0xB2); ("OTIR", 0xB3); ("LDDR", 0xB8); ("CPDR", 0xB9); ("INDR", 0xBA); ("OTDR", 0xBB)] ++
  [("IM", "0", [0xED; 0x46]); ("IM", "1", [0xED; 0x56]); ("IM", "2", [0xED; 0x5E])] ++
  [("LD", "I, A", [0xED; 0x47]); ("LD", "R, A", [0xED; 0x4F]); ("LD", "A, I", [0xED; 0x57]); ("LD", "A, R", [0xED; 0x5F])] ++
  each rz80 (fun r i => if i =? 6 then [] else [("IN", two r "(C)", [0xED; 0x40 + 8 * i]); ("OUT", two "(C)" r, [0xED; 0x41 + 8 * i])]) ++
  each ["BC"; "DE"; "HL"; "SP"] (fun r i => [("SBC", two "HL" r, [0xED; 0x42 + 16 * i]); ("ADC", two "HL" r, [0xED; 0x4A + 16 * i])]) ++
  index_rows "IX" 0xDD ++ index_rows "IY" 0xFD.

(* ------------------------------------------------------------ Motorola 6800 *)
Definition map_6800 : list row :=
  plain [] [("NOP", 0x01); ("TAP", 0x06); ("TPA", 0x07); ("INX", 0x08); ("DEX", 0x09); ("CLV", 0x0A); ("SEV", 0x0B); ("CLC", 0x0C);
    ("SEC", 0x0D); ("CLI", 0x0E); ("SEI", 0x0F); ("SBA", 0x10); ("CBA", 0x11); ("TAB", 0x16); ("TBA", 0x17); ("DAA", 0x19);
    ("ABA", 0x1B); ("TSX", 0x30); ("INS", 0x31); ("PULA", 0x32); ("PULB", 0x33); ("DES", 0x34); ("TXS", 0x35); ("PSHA", 0x36);
    ("PSHB", 0x37); ("RTS", 0x39); ("RTI", 0x3B); ("WAI", 0x3E); ("SWI", 0x3F)] ++
  concat (map (fun p => [((fst p ++ "A")%string, "", [0x40 + snd p]); ((fst p ++ "B")%string, "", [0x50 + snd p])])
    [("NEG", 0); ("COM", 3); ("LSR", 4); ("ROR", 6); ("ASR", 7); ("ASL", 8); ("ROL", 9); ("DEC", 10); ("INC", 12); ("TST", 13); ("CLR", 15)]).
Definition map_6801 : list row :=
  map_6800 ++ plain [] [("LSRD", 0x04); ("ASLD", 0x05); ("PULX", 0x38); ("ABX", 0x3A); ("PSHX", 0x3C); ("MUL", 0x3D)].
Definition map_6301 : list row := map_6801 ++ plain [] [("XGDX", 0x18); ("SLP", 0x1A)].
(* TEST, which is for the test mode of the processor only, is left out *)
Definition map_68hc11 : list row :=
  map_6801 ++ plain [] [("IDIV", 0x02); ("FDIV", 0x03); ("XGDX", 0x8F); ("STOP", 0xCF)] ++
  plain [0x18] [("INY", 0x08); ("DEY", 0x09); ("TSY", 0x30); ("TYS", 0x35); ("PULY", 0x38); ("ABY", 0x3A); ("PSHY", 0x3C); ("XGDY", 0x8F)].

(* ------------------------------------------------------------ MOS 6502 *)
Definition map_6502 : list row :=
  plain [] [("BRK", 0x00); ("PHP", 0x08); ("CLC", 0x18); ("PLP", 0x28); ("SEC", 0x38); ("RTI", 0x40); ("PHA", 0x48); ("CLI", 0x58);
    ("RTS", 0x60); ("PLA", 0x68); ("SEI", 0x78); ("DEY", 0x88); ("TXA", 0x8A); ("TYA", 0x98); ("TXS", 0x9A); ("TAY", 0xA8);
    ("TAX", 0xAA); ("CLV", 0xB8); ("TSX", 0xBA); ("INY", 0xC8); ("DEX", 0xCA); ("CLD", 0xD8); ("INX", 0xE8); ("NOP", 0xEA); ("SED", 0xF8)] ++
  [("ASL", "A", [0x0A]); ("ROL", "A", [0x2A]); ("LSR", "A", [0x4A]); ("ROR", "A", [0x6A])].
Definition map_65sc02 : list row :=
  map_6502 ++ plain [] [("PHY", 0x5A); ("PLY", 0x7A); ("PHX", 0xDA); ("PLX", 0xFA)] ++ [("INC", "A", [0x1A]); ("DEC", "A", [0x3A])].
Definition map_w65c02s : list row := map_65sc02 ++ plain [] [("WAI", 0xCB); ("STP", 0xDB)].
Definition map_65816 : list row :=
  map_w65c02s ++ plain [] [("PHD", 0x0B); ("TCS", 0x1B); ("PLD", 0x2B); ("TSC", 0x3B); ("PHK", 0x4B); ("TCD", 0x5B); ("RTL", 0x6B);
    ("TDC", 0x7B); ("PHB", 0x8B); ("TXY", 0x9B); ("PLB", 0xAB); ("TYX", 0xBB); ("XBA", 0xEB); ("XCE", 0xFB)].

(* ------------------------------------------------------------ Fairchild F8 *)
Definition map_f8 : list row :=
  plain [] [("PK", 0x0C); ("LM", 0x16); ("ST", 0x17); ("COM", 0x18); ("LNK", 0x19); ("DI", 0x1A); ("EI", 0x1B); ("POP", 0x1C); ("INC", 0x1F);
    ("NOP", 0x2B); ("XDC", 0x2C); ("CLR", 0x70); ("AM", 0x88); ("AMD", 0x89); ("NM", 0x8A); ("OM", 0x8B); ("XM", 0x8C); ("CM", 0x8D); ("ADC", 0x8E)] ++
  each ["KU"; "KL"; "QU"; "QL"] (fun r i => [("LR", two "A" r, [i]); ("LR", two r "A", [4 + i])]) ++
  [("LR", "K, P", [0x08]); ("LR", "P, K", [0x09]); ("LR", "A, IS", [0x0A]); ("LR", "IS, A", [0x0B]); ("LR", "P0, Q", [0x0D]); ("LR", "Q, DC", [0x0E]);
   ("LR", "DC, Q", [0x0F]); ("LR", "DC, H", [0x10]); ("LR", "H, DC", [0x11]); ("LR", "W, J", [0x1D]); ("LR", "J, W", [0x1E])] ++
  each ["S"; "I"; "D"] (fun r i => [("DS", r, [0x3C + i]); ("LR", two "A" r, [0x4C + i]); ("LR", two r "A", [0x5C + i]); ("AS", r, [0xCC + i]);
    ("ASD", r, [0xDC + i]); ("XS", r, [0xEC + i]); ("NS", r, [0xFC + i])]).

(* ------------------------------------------------------------ RCA CDP1802 *)
Definition r1802 : list string := ["R0"; "R1"; "R2"; "R3"; "R4"; "R5"; "R6"; "R7"; "R8"; "R9"; "R10"; "R11"; "R12"; "R13"; "R14"; "R15"].
Definition map_1802_names : list row :=
  plain [] [("IDL", 0x00); ("IRX", 0x60); ("RET", 0x70); ("DIS", 0x71); ("LDXA", 0x72); ("STXD", 0x73); ("ADC", 0x74); ("SDB", 0x75); ("SHRC", 0x76);
    ("SMB", 0x77); ("SAV", 0x78); ("MARK", 0x79); ("REQ", 0x7A); ("SEQ", 0x7B); ("SHLC", 0x7E); ("SKP", 0x38); ("NOP", 0xC4); ("LSNQ", 0xC5);
    ("LSNZ", 0xC6); ("LSNF", 0xC7); ("LSKP", 0xC8); ("LSIE", 0xCC); ("LSQ", 0xCD); ("LSZ", 0xCE); ("LSDF", 0xCF); ("LDX", 0xF0); ("OR", 0xF1);
    ("AND", 0xF2); ("XOR", 0xF3); ("ADD", 0xF4); ("SD", 0xF5); ("SHR", 0xF6); ("SM", 0xF7); ("SHL", 0xFE)].
Definition map_1804_names : list row :=
  map_1802_names ++ plain [0x68] [("STPC", 0x00); ("DTC", 0x01); ("SPM2", 0x02); ("SCM2", 0x03); ("SPM1", 0x04); ("SCM1", 0x05); ("LDC", 0x06); ("STM", 0x07);
    ("GEC", 0x08); ("ETQ", 0x09); ("XIE", 0x0A); ("XID", 0x0B); ("CIE", 0x0C); ("CID", 0x0D)].
Definition map_1804a_names : list row :=
  map_1804_names ++ plain [0x68] [("DADC", 0x74); ("DSAV", 0x76); ("DSMB", 0x77); ("DADD", 0xF4); ("DSM", 0xF7)].
(* with the names of the registers *)
Definition map_1802_registers : list row :=
  each r1802 (fun r i => (if i =? 0 then [] else [("LDN", r, [i])]) ++
    [("INC", r, [0x10 + i]); ("DEC", r, [0x20 + i]); ("LDA", r, [0x40 + i]); ("STR", r, [0x50 + i]); ("GLO", r, [0x80 + i]); ("GHI", r, [0x90 + i]);
     ("PLO", r, [0xA0 + i]); ("PHI", r, [0xB0 + i]); ("SEP", r, [0xD0 + i]); ("SEX", r, [0xE0 + i])]).
Definition map_1804_registers : list row :=
  map_1802_registers ++ each r1802 (fun r i => [("RLXA", r, [0x68; 0x60 + i]); ("SRET", r, [0x68; 0x90 + i]); ("RSXD", r, [0x68; 0xA0 + i]); ("RNX", r, [0x68; 0xB0 + i])]).

(* ------------------------------------------------------------ Texas Instruments TMS32010 *)
(* a word of the program memory is stored low byte first *)
Definition word_row (n ops : string) (w : Z) : row := (n, ops, [w mod 256; w / 256]).
(* indirect addressing, without and with the next register *)
Definition stays : list (string * Z) := [("*", 0x88); ("*-", 0x98); ("*+", 0xA8)].
Definition changes : list (string * Z) :=
  [("*, AR0", 0x80); ("*, AR1", 0x81); ("*-, AR0", 0x90); ("*-, AR1", 0x91); ("*+, AR0", 0xA0); ("*+, AR1", 0xA1)].
Definition map_32010 : list row :=
  map (fun p => word_row (fst p) "" (snd p)) [("NOP", 0x7F80); ("DINT", 0x7F81); ("EINT", 0x7F82); ("ABS", 0x7F88); ("ZAC", 0x7F89); ("ROVM", 0x7F8A);
    ("SOVM", 0x7F8B); ("CALA", 0x7F8C); ("RET", 0x7F8D); ("PAC", 0x7F8E); ("APAC", 0x7F8F); ("SPAC", 0x7F90); ("PUSH", 0x7F9C); ("POP", 0x7F9D)] ++
  concat (map (fun p => map (fun a => word_row (fst p) (fst a) (256 * snd p + snd a)) (stays ++ changes))
    [("ADDH", 0x60); ("ADDS", 0x61); ("SUBH", 0x62); ("SUBS", 0x63); ("SUBC", 0x64); ("ZALH", 0x65); ("ZALS", 0x66); ("TBLR", 0x67); ("DMOV", 0x69);
     ("LT", 0x6A); ("LTD", 0x6B); ("LTA", 0x6C); ("MPY", 0x6D); ("LDP", 0x6F); ("XOR", 0x78); ("AND", 0x79); ("OR", 0x7A); ("LST", 0x7B); ("SST", 0x7C); ("TBLW", 0x7D)]) ++
  concat (map (fun p => map (fun a => word_row (fst p) (fst a) (256 * snd p + snd a)) stays) [("ADD", 0x00); ("SUB", 0x10); ("LAC", 0x20); ("SACL", 0x50); ("SACH", 0x58)]) ++
  concat (map (fun p => each ["AR0"; "AR1"] (fun r i => map (fun a => word_row (fst p) (two r (fst a)) (256 * (snd p + i) + snd a)) (stays ++ changes))) [("SAR", 0x30); ("LAR", 0x38)]) ++
  concat (map (fun p => each ["PA0"; "PA1"; "PA2"; "PA3"; "PA4"; "PA5"; "PA6"; "PA7"] (fun r i =>
    map (fun a => word_row (fst p) (two (fst a) r) (256 * (snd p + i) + snd a)) stays)) [("IN", 0x40); ("OUT", 0x48)]) ++
  map (fun a => word_row "MAR" (fst a) (0x6800 + snd a)) stays ++
  [word_row "LARP" "AR0" 0x6880; word_row "LARP" "AR1" 0x6881].

(* ------------------------------------------------------------ Intel 8051 *)
Definition map_8051 : list row :=
  [("NOP", "", [0x00]); ("RR", "A", [0x03]); ("INC", "A", [0x04]); ("INC", "@R0", [0x06]);
   ("INC", "@R1", [0x07]); ("INC", "R0", [0x08]); ("INC", "R1", [0x09]); ("INC", "R2", [0x0A]);
   ("INC", "R3", [0x0B]); ("INC", "R4", [0x0C]); ("INC", "R5", [0x0D]); ("INC", "R6", [0x0E]);
   ("INC", "R7", [0x0F]); ("RRC", "A", [0x13]); ("DEC", "A", [0x14]); ("DEC", "@R0", [0x16]);
   ("DEC", "@R1", [0x17]); ("DEC", "R0", [0x18]); ("DEC", "R1", [0x19]); ("DEC", "R2", [0x1A]);
   ("DEC", "R3", [0x1B]); ("DEC", "R4", [0x1C]); ("DEC", "R5", [0x1D]); ("DEC", "R6", [0x1E]);
   ("DEC", "R7", [0x1F]); ("RET", "", [0x22]); ("RL", "A", [0x23]); ("ADD", "A, @R0", [0x26]);
   ("ADD", "A, @R1", [0x27]); ("ADD", "A, R0", [0x28]); ("ADD", "A, R1", [0x29]); ("ADD", "A, R2", [0x2A]);
   ("ADD", "A, R3", [0x2B]); ("ADD", "A, R4", [0x2C]); ("ADD", "A, R5", [0x2D]); ("ADD", "A, R6", [0x2E]);
   ("ADD", "A, R7", [0x2F]); ("RETI", "", [0x32]); ("RLC", "A", [0x33]); ("ADDC", "A, @R0", [0x36]);
   ("ADDC", "A, @R1", [0x37]); ("ADDC", "A, R0", [0x38]); ("ADDC", "A, R1", [0x39]); ("ADDC", "A, R2", [0x3A]);
   ("ADDC", "A, R3", [0x3B]); ("ADDC", "A, R4", [0x3C]); ("ADDC", "A, R5", [0x3D]); ("ADDC", "A, R6", [0x3E]);
   ("ADDC", "A, R7", [0x3F]); ("ORL", "A, @R0", [0x46]); ("ORL", "A, @R1", [0x47]); ("ORL", "A, R0", [0x48]);
   ("ORL", "A, R1", [0x49]); ("ORL", "A, R2", [0x4A]); ("ORL", "A, R3", [0x4B]); ("ORL", "A, R4", [0x4C]);
   ("ORL", "A, R5", [0x4D]); ("ORL", "A, R6", [0x4E]); ("ORL", "A, R7", [0x4F]); ("ANL", "A, @R0", [0x56]);
   ("ANL", "A, @R1", [0x57]); ("ANL", "A, R0", [0x58]); ("ANL", "A, R1", [0x59]); ("ANL", "A, R2", [0x5A]);
   ("ANL", "A, R3", [0x5B]); ("ANL", "A, R4", [0x5C]); ("ANL", "A, R5", [0x5D]); ("ANL", "A, R6", [0x5E]);
   ("ANL", "A, R7", [0x5F]); ("XRL", "A, @R0", [0x66]); ("XRL", "A, @R1", [0x67]); ("XRL", "A, R0", [0x68]);
   ("XRL", "A, R1", [0x69]); ("XRL", "A, R2", [0x6A]); ("XRL", "A, R3", [0x6B]); ("XRL", "A, R4", [0x6C]);
   ("XRL", "A, R5", [0x6D]); ("XRL", "A, R6", [0x6E]); ("XRL", "A, R7", [0x6F]); ("JMP", "@A+DPTR", [0x73]);
   ("MOVC", "A, @A+PC", [0x83]); ("DIV", "AB", [0x84]); ("MOVC", "A, @A+DPTR", [0x93]); ("SUBB", "A, @R0", [0x96]);
   ("SUBB", "A, @R1", [0x97]); ("SUBB", "A, R0", [0x98]); ("SUBB", "A, R1", [0x99]); ("SUBB", "A, R2", [0x9A]);
   ("SUBB", "A, R3", [0x9B]); ("SUBB", "A, R4", [0x9C]); ("SUBB", "A, R5", [0x9D]); ("SUBB", "A, R6", [0x9E]);
   ("SUBB", "A, R7", [0x9F]); ("INC", "DPTR", [0xA3]); ("MUL", "AB", [0xA4]); ("CPL", "C", [0xB3]);
   ("CLR", "C", [0xC3]); ("SWAP", "A", [0xC4]); ("XCH", "A, @R0", [0xC6]); ("XCH", "A, @R1", [0xC7]);
   ("XCH", "A, R0", [0xC8]); ("XCH", "A, R1", [0xC9]); ("XCH", "A, R2", [0xCA]); ("XCH", "A, R3", [0xCB]);
   ("XCH", "A, R4", [0xCC]); ("XCH", "A, R5", [0xCD]); ("XCH", "A, R6", [0xCE]); ("XCH", "A, R7", [0xCF]);
   ("SETB", "C", [0xD3]); ("DA", "A", [0xD4]); ("XCHD", "A, @R0", [0xD6]); ("XCHD", "A, @R1", [0xD7]);
   ("MOVX", "A, @DPTR", [0xE0]); ("MOVX", "A, @R0", [0xE2]); ("MOVX", "A, @R1", [0xE3]); ("CLR", "A", [0xE4]);
   ("MOV", "A, @R0", [0xE6]); ("MOV", "A, @R1", [0xE7]); ("MOV", "A, R0", [0xE8]); ("MOV", "A, R1", [0xE9]);
   ("MOV", "A, R2", [0xEA]); ("MOV", "A, R3", [0xEB]); ("MOV", "A, R4", [0xEC]); ("MOV", "A, R5", [0xED]);
   ("MOV", "A, R6", [0xEE]); ("MOV", "A, R7", [0xEF]); ("MOVX", "@DPTR, A", [0xF0]); ("MOVX", "@R0, A", [0xF2]);
   ("MOVX", "@R1, A", [0xF3]); ("CPL", "A", [0xF4]); ("MOV", "@R0, A", [0xF6]); ("MOV", "@R1, A", [0xF7]);
   ("MOV", "R0, A", [0xF8]); ("MOV", "R1, A", [0xF9]); ("MOV", "R2, A", [0xFA]); ("MOV", "R3, A", [0xFB]);
   ("MOV", "R4, A", [0xFC]); ("MOV", "R5, A", [0xFD]); ("MOV", "R6, A", [0xFE]); ("MOV", "R7, A", [0xFF])].

(* ------------------------------------------------------------ Intel 8048 *)
Definition r8048 : list string := ["R0"; "R1"; "R2"; "R3"; "R4"; "R5"; "R6"; "R7"].
Definition map_8039 : list row :=
  plain [] [("NOP", 0x00); ("RET", 0x83); ("RETR", 0x93)] ++
  map (fun p => (fst p, "A", [snd p])) [("DEC", 0x07); ("INC", 0x17); ("CLR", 0x27); ("CPL", 0x37); ("SWAP", 0x47); ("DA", 0x57); ("RRC", 0x67); ("RR", 0x77); ("RL", 0xE7); ("RLC", 0xF7)] ++
  [("CLR", "C", [0x97]); ("CPL", "C", [0xA7]); ("CLR", "F0", [0x85]); ("CPL", "F0", [0x95]); ("CLR", "F1", [0xA5]); ("CPL", "F1", [0xB5]);
   ("EN", "I", [0x05]); ("DIS", "I", [0x15]); ("EN", "TCNTI", [0x25]); ("DIS", "TCNTI", [0x35]); ("STRT", "CNT", [0x45]); ("STRT", "T", [0x55]); ("STOP", "TCNT", [0x65]); ("ENT0", "CLK", [0x75]);
   ("SEL", "RB0", [0xC5]); ("SEL", "RB1", [0xD5]); ("SEL", "MB0", [0xE5]); ("SEL", "MB1", [0xF5]);
   ("IN", "A, P1", [0x09]); ("IN", "A, P2", [0x0A]); ("OUTL", "P1, A", [0x39]); ("OUTL", "P2, A", [0x3A]);
   ("MOV", "A, T", [0x42]); ("MOV", "T, A", [0x62]); ("MOV", "A, PSW", [0xC7]); ("MOV", "PSW, A", [0xD7]);
   ("MOVP", "A, @A", [0xA3]); ("MOVP3", "A, @A", [0xE3]); ("JMPP", "@A", [0xB3])] ++
  each r8048 (fun r i => map (fun p => (fst p, two "A" r, [snd p + i])) [("XCH", 0x28); ("ORL", 0x48); ("ANL", 0x58); ("ADD", 0x68); ("ADDC", 0x78); ("XRL", 0xD8); ("MOV", 0xF8)] ++
    [("INC", r, [0x18 + i]); ("DEC", r, [0xC8 + i]); ("MOV", two r "A", [0xA8 + i])]) ++
  each ["@R0"; "@R1"] (fun r i => map (fun p => (fst p, two "A" r, [snd p + i])) [("XCH", 0x20); ("XCHD", 0x30); ("ORL", 0x40); ("ANL", 0x50); ("ADD", 0x60); ("ADDC", 0x70); ("MOVX", 0x80); ("XRL", 0xD0); ("MOV", 0xF0)] ++
    [("INC", r, [0x10 + i]); ("MOVX", two r "A", [0x90 + i]); ("MOV", two r "A", [0xA0 + i])]) ++
  each ["P4"; "P5"; "P6"; "P7"] (fun p i => [("MOVD", two "A" p, [0x0C + i]); ("MOVD", two p "A", [0x3C + i]); ("ORLD", two p "A", [0x8C + i]); ("ANLD", two p "A", [0x9C + i])]).
(* with the BUS as a port *)
Definition map_8048 : list row := map_8039 ++ [("OUTL", "BUS, A", [0x02]); ("INS", "A, BUS", [0x08])].
(* the CMOS ones *)
Definition map_halt : list row := plain [] [("HALT", 0x01)].
(* those of OKI *)
Definition map_oki : list row := plain [] [("HLTS", 0x82); ("FLT", 0xA2); ("FLTT", 0xC2); ("FRES", 0xE2)] ++
  [("MOV", "A, P1", [0x63]); ("MOV", "A, P2", [0x73]); ("DEC", "@R0", [0xC0]); ("DEC", "@R1", [0xC1]); ("MOVP1", "P, @R3", [0xC3]); ("MOV", "P1, @R3", [0xF3])].
