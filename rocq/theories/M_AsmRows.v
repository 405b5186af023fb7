(** Model of what the assemblers of the processor families configure for the directives: syntax,
    address width, address unit, byte order, the directives they take themselves and their directive
    tables (src/config_*.h, src/asm_*.cpp). One row for each variant of the configuration.
    Simplification: the 6805's width is that of the default option (pc-bits 0); the PDP-8 and the
    PDP-11 are left out. *)
From Coq Require Import String ZArith List Bool.
From Verif Require Import M_Char M_Value M_Text M_Insn M_Config M_Operators M_Parsers M_Expr M_Directive M_Table M_Asm T_Tables.
Import ListNotations.
Open Scope string_scope.
Open Scope list_scope.
Local Open Scope Z_scope.

Record assembler := mkAs {
  as_name : string;
  as_pl : plugins;             (* ValueParser::Plugins of the constructor *)
  as_aw : Z;                   (* addressWidth() *)
  as_unit : Z;                 (* addressUnit() *)
  as_big : bool;               (* endian() *)
  as_specials : list text;     (* the names tried by the own processPseudo *)
  as_table : name_table        (* PSEUDO_TABLE *)
}.
Definition assemblers : list assembler := [
  (* config_cdp1802.h:31, asm_cdp1802.cpp:36-71 *)
  mkAs "cdp1802" pl_cdp1802 16 1 true [] d_cdp1802_PSEUDOS;
  (* config_f3850.h:29, asm_f3850.cpp:35-60 *)
  mkAs "f3850" pl_f3850 16 1 true [] d_f3850_PSEUDOS;
  (* config_i8048.h:36, asm_i8048.cpp:32-56 *)
  mkAs "i8048" pl_intel 12 1 true [] d_i8048_PSEUDOS;
  (* config_i8051.h:29, asm_i8051.cpp:32-52 *)
  mkAs "i8051" pl_intel 16 1 true [] d_i8051_PSEUDOS;
  (* config_i8080.h:31, asm_i8080.cpp:32-66, 249-256 *)
  mkAs "i8080" pl_i8080 16 1 false [s2l "Z80SYNTAX"] d_i8080_PSEUDOS;
  (* config_i8086.h:47, asm_i8086.cpp:43-76, 731-745 *)
  mkAs "i8086" pl_i8086 20 1 false [s2l "FPU"; s2l "dd"; s2l "dq"; s2l "dt"] d_i8086_PSEUDOS;
  (* config_i8096.h:29, asm_i8096.cpp:33-55 *)
  mkAs "i8096" pl_intel 16 1 false [] d_i8096_PSEUDOS;
  (* config_ins8060.h:29, asm_ins8060.cpp:32-53, 170-174 *)
  mkAs "ins8060" pl_ins8060 16 1 false [s2l ".addr"] d_ins8060_PSEUDOS;
  (* config_ins8070.h:29, asm_ins8070.cpp:32-53, 235-239 *)
  mkAs "ins8070" pl_ins8070 16 1 false [s2l ".addr"] d_ins8070_PSEUDOS;
  (* config_mc6800.h:34, asm_mc6800.cpp:33-58 *)
  mkAs "mc6800" pl_motorola 16 1 true [] d_mc6800_PSEUDOS;
  (* config_mc68000.h:47, asm_mc68000.cpp:48-90, 941-955 *)
  mkAs "mc68000" pl_mc68000 24 1 true [s2l "FPU"; s2l "dc.x"; s2l "dc.p"] d_mc68000_PSEUDOS;
  (* config_mc6805.h:31, asm_mc6805.cpp:36-72 *)
  mkAs "mc6805" pl_motorola 13 1 true [] d_mc6805_PSEUDOS;
  (* config_mc6809.h:30, asm_mc6809.cpp:34-60, 579-586 *)
  mkAs "mc6809" pl_motorola 16 1 true [s2l "setdp"] d_mc6809_PSEUDOS;
  (* config_mn1610.h:31-36, asm_mn1610.cpp:34-62, 393-398: MN1610, then MN1613 *)
  mkAs "mn1610" pl_mn1610 16 2 true [s2l "dc"] d_mn1610_PSEUDOS;
  mkAs "mn1613" pl_mn1610 18 2 true [s2l "dc"] d_mn1610_PSEUDOS;
  (* config_mos6502.h:33-40, asm_mos6502.cpp:36-76, 320-331: 6502, then 65816 *)
  mkAs "mos6502" pl_mos6502 16 1 false [s2l "longa"; s2l "longi"] d_mos6502_PSEUDOS;
  mkAs "w65816" pl_mos6502 24 1 false [s2l "longa"; s2l "longi"] d_mos6502_PSEUDOS;
  (* config_ns32000.h:55, asm_ns32000.cpp:46-92, 697-708 *)
  mkAs "ns32000" pl_ns32000 24 1 false [s2l "FPU"; s2l "PMMU"] d_ns32000_PSEUDOS;
  (* config_scn2650.h:29, asm_scn2650.cpp:36-66 *)
  mkAs "scn2650" pl_scn2650 15 1 true [] d_scn2650_PSEUDOS;
  (* config_tlcs90.h:29, asm_tlcs90.cpp:32-53 *)
  mkAs "tlcs90" pl_intel 16 1 false [] d_tlcs90_PSEUDOS;
  (* config_tms32010.h:31, asm_tms32010.cpp:32-64 *)
  mkAs "tms32010" pl_tms32010 12 2 false [] d_tms32010_PSEUDOS;
  (* config_tms7000.h:30, asm_tms7000.cpp:33-60 *)
  mkAs "tms7000" pl_texas 16 1 true [] d_tms7000_PSEUDOS;
  (* config_tms9900.h:33-38, asm_tms9900.cpp:33-56, 275-280: TMS9900, then TMS9980 *)
  mkAs "tms9900" pl_texas 16 1 true [s2l "SINGLE"] d_tms9900_PSEUDOS;
  mkAs "tms9980" pl_texas 14 1 true [s2l "SINGLE"] d_tms9900_PSEUDOS;
  (* config_z8.h:31, asm_z8.cpp:40-66, 219-236: Z8, then Super8 *)
  mkAs "z8" pl_z8 16 1 true [s2l "setrp"] d_z8_PSEUDOS;
  mkAs "super8" pl_z8 16 1 true [s2l "setrp"; s2l "setrp0"; s2l "setrp1"] d_z8_PSEUDOS;
  (* config_z80.h:29, asm_z80.cpp:32-61 *)
  mkAs "z80" pl_z80 16 1 false [] d_z80_PSEUDOS;
  (* config_z8000.h:30-37, asm_z8000.cpp:39-66: Z8001, then Z8002 *)
  mkAs "z8001" pl_z8000 23 1 true [] d_z8000_PSEUDOS;
  mkAs "z8002" pl_z8000 16 1 true [] d_z8000_PSEUDOS].

(* asm_base.cpp:45-62: the assembler with the default radix *)
Definition as_asm (p : assembler) (symbol : text -> option value) (function : text -> option functor) : asm :=
  mkA (as_pl p) symbol function 10 (as_aw p) (as_unit p) (as_big p).
(* asm_base.cpp:105-110 processPseudo: the processor's table before the common one (35-43) *)
Definition as_tables (p : assembler) : list name_table := [as_table p; d_base_PSEUDOS].
