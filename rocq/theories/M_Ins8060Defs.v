(** Enumerators and table macros of the SC/MP: src/config_ins8060.h, src/reg_ins8060.h,
    src/entry_ins8060.h, src/table_ins8060.cpp. *)
From Coq Require Import String ZArith List Bool.
From Verif Require Import M_Char M_Table.
Import ListNotations.
Local Open Scope Z_scope.

(* config_ins8060.h:25-27 CpuType *)
Definition INS8060 : Z := 0.

(* reg_ins8060.h:28-38 RegName *)
Definition REG_UNDEF : Z := -1.
Definition REG_PC : Z := 0.
Definition REG_P1 : Z := 1.
Definition REG_P2 : Z := 2.
Definition REG_P3 : Z := 3.
Definition REG_P0 : Z := 0 + 4.
Definition REG_E : Z := 1 + 4.

(* entry_ins8060.h:28-36 AddrMode *)
Definition M_NONE : Z := 0.
Definition M_PNTR : Z := 1.
Definition M_IMM8 : Z := 2.
Definition M_REL8 : Z := 3.
Definition M_DISP : Z := 4.
Definition M_INDX : Z := 5.
Definition M_UNDEF : Z := 6.

(* entry_ins8060.h:38-59 Entry *)
Record entry := mkE { e_opc : Z; e_name : string; e_mode : Z }.
Definition entry_name (e : entry) : text := s2l (e_name e).
(* table_ins8060.cpp:133 EntryPage: a table and its index *)
Definition epage := page unit entry.
(* table_ins8060.cpp:27-29 *)
Definition E1 (opc : Z) (name : string) (mode : Z) := mkE opc name mode.
Definition E0 (opc : Z) (name : string) := E1 opc name M_NONE.
