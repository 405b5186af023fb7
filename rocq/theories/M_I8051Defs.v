(** Enumerators and table macros of the 8051: src/config_i8051.h, src/reg_i8051.h,
    src/entry_i8051.h, src/table_i8051.cpp. *)
From Coq Require Import String ZArith List Bool.
From Verif Require Import M_Char M_Table.
Import ListNotations.
Local Open Scope Z_scope.

(* config_i8051.h:25-27 CpuType *)
Definition I8051 : Z := 0.

(* reg_i8051.h:28-46 RegName *)
Definition REG_UNDEF : Z := -1.
Definition REG_R0 : Z := 0.
Definition REG_R1 : Z := 1.
Definition REG_R2 : Z := 2.
Definition REG_R3 : Z := 3.
Definition REG_R4 : Z := 4.
Definition REG_R5 : Z := 5.
Definition REG_R6 : Z := 6.
Definition REG_R7 : Z := 7.
Definition REG_A : Z := 8.
Definition REG_AB : Z := 9.
Definition REG_C : Z := 10.
Definition REG_PC : Z := 11.
Definition REG_DPTR : Z := 12.

(* entry_i8051.h:28-47 AddrMode *)
Definition M_NONE : Z := 0.
Definition M_REL : Z := 1.
Definition M_AREG : Z := 2.
Definition M_RREG : Z := 3.
Definition M_CREG : Z := 4.
Definition M_DREG : Z := 5.
Definition M_ABREG : Z := 6.
Definition M_ADR8 : Z := 7.
Definition M_ADR11 : Z := 8.
Definition M_ADR16 : Z := 9.
Definition M_BITAD : Z := 10.
Definition M_NOTAD : Z := 11.
Definition M_IMM8 : Z := 12.
Definition M_IMM16 : Z := 13.
Definition M_IDIRR : Z := 14.
Definition M_IDIRD : Z := 15.
Definition M_INDXD : Z := 16.
Definition M_INDXP : Z := 17.

(* entry_i8051.h:49-80 Entry; the modes are five-bit fields and none exceeds 17 *)
Record entry := mkE { e_opc : Z; e_name : string; e_m1 : Z; e_m2 : Z; e_m3 : Z }.
Definition entry_name (e : entry) : text := s2l (e_name e).
(* table_i8051.cpp:263 EntryPage: a table and its index *)
Definition epage := page unit entry.
(* table_i8051.cpp:27-31 *)
Definition E3 (opc : Z) (name : string) (m1 m2 m3 : Z) := mkE opc name m1 m2 m3.
Definition E2 (opc : Z) (name : string) (m1 m2 : Z) := E3 opc name m1 m2 M_NONE.
Definition E1 (opc : Z) (name : string) (m1 : Z) := E2 opc name m1 M_NONE.
Definition E0 (opc : Z) (name : string) := E1 opc name M_NONE.
