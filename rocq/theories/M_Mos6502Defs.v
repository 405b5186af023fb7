(** Enumerators and table macros of the 6502 family: src/config_mos6502.h, src/reg_mos6502.h,
    src/entry_mos6502.h, src/table_mos6502.cpp. *)
From Coq Require Import String ZArith List Bool.
From Verif Require Import M_Char M_Table.
Import ListNotations.
Local Open Scope Z_scope.

(* config_mos6502.h:25-31 CpuType *)
Definition MOS6502 : Z := 0.
Definition G65SC02 : Z := 1.
Definition R65C02 : Z := 2.
Definition W65C02S : Z := 3.
Definition W65C816 : Z := 4.

(* reg_mos6502.h:28-34 RegName *)
Definition REG_UNDEF : Z := 0.
Definition REG_A : Z := 65.
Definition REG_X : Z := 88.
Definition REG_Y : Z := 89.
Definition REG_S : Z := 83.

(* entry_mos6502.h:39-64 AddrMode *)
Definition M_NONE : Z := 0.
Definition I_FLAG : Z := 16.
Definition L_FLAG : Z := 32.
Definition M_REGA : Z := 1.
Definition M_REGX : Z := 2.
Definition I_REGX : Z := 18.
Definition M_REGY : Z := 3.
Definition M_REGS : Z := 4.
Definition I_REGS : Z := 20.
Definition M_IMA : Z := 5.
Definition M_IMX : Z := 6.
Definition M_IM8 : Z := 7.
Definition M_ABS : Z := 8.
Definition I_ABS : Z := 24.
Definition L_ABS : Z := 40.
Definition M_ABSL : Z := 9.
Definition M_DPG : Z := 10.
Definition I_DPG : Z := 26.
Definition L_DPG : Z := 42.
Definition M_REL : Z := 11.
Definition M_LREL : Z := 12.
Definition M_BANK : Z := 13.

(* entry_mos6502.h:86-114 Entry; the modes are read back from 6, 5 and 4 bits of the flags *)
Record entry := mkE { e_opc : Z; e_name : string; e_m1 : Z; e_m2 : Z; e_m3 : Z }.
Definition entry_name (e : entry) : text := s2l (e_name e).
(* a page: its table and index *)
Definition epage := page unit entry.
(* table_mos6502.cpp:26-31, entry_mos6502.h:90-101 Flags *)
Definition E3 (opc : Z) (name : string) (m1 m2 m3 : Z) :=
  let attr := Z.lor (Z.lor (Z.shiftl m1 0) (Z.shiftl m2 6)) (Z.shiftl m3 12) in
  mkE opc name (Z.land attr 0x3F) (Z.land (Z.shiftr attr 6) 0x1F) (Z.land (Z.shiftr attr 12) 0xF).
Definition E2 (opc : Z) (name : string) (m1 m2 : Z) := E3 opc name m1 m2 M_NONE.
Definition E1 (opc : Z) (name : string) (m1 : Z) := E2 opc name m1 M_NONE.
Definition E0 (opc : Z) (name : string) := E1 opc name M_NONE.
(* entry_mos6502.h:107-110 baseMode, indirectFlags, indirect, longIndirect *)
Definition baseMode (m : Z) : Z := Z.land m 0xF.
Definition indirectFlags (m : Z) : Z := Z.land m 0xF0.
Definition indirect (m : Z) : bool := negb (Z.land m I_FLAG =? 0).
Definition longIndirect (m : Z) : bool := negb (Z.land m L_FLAG =? 0).
(* table_mos6502.h:32-33 *)
Definition WDM : Z := 0x42.
Definition JSL : Z := 0x22.
