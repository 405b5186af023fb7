(** Enumerators and table macros of the 6800 family: src/config_mc6800.h, src/reg_mc6800.h,
    src/entry_mc6800.h, src/table_mc6800.cpp. *)
From Coq Require Import String ZArith List Bool.
From Verif Require Import M_Char M_Table.
Import ListNotations.
Local Open Scope Z_scope.

(* config_mc6800.h:25-31 CpuType *)
Definition MC6800 : Z := 0.
Definition MB8861 : Z := 1.
Definition MC6801 : Z := 2.
Definition HD6301 : Z := 3.
Definition MC68HC11 : Z := 4.

(* reg_mc6800.h:28-33 RegName *)
Definition REG_UNDEF : Z := 0.
Definition REG_X : Z := 88.
Definition REG_Y : Z := 89.

(* entry_mc6800.h:28-45 AddrMode *)
Definition M_NONE : Z := 0.
Definition M_DIR : Z := 1.
Definition M_EXT : Z := 2.
Definition M_IDX : Z := 3.
Definition M_REL : Z := 4.
Definition M_IM8 : Z := 5.
Definition M_IM16 : Z := 6.
Definition M_GN8 : Z := 7.
Definition M_GN16 : Z := 8.
Definition M_GMEM : Z := 9.
Definition M_BMM : Z := 10.
Definition M_BIT : Z := 11.
Definition M_IDY : Z := 12.

(* entry_mc6800.h:47-85 Entry; [e_undef]: the undef bit of the flags *)
Record entry := mkE { e_opc : Z; e_name : string; e_m1 : Z; e_m2 : Z; e_m3 : Z; e_undef : bool }.
Definition entry_name (e : entry) : text := s2l (e_name e).
(* a page: its prefix, table and index *)
Definition epage := page Z entry.
(* table_mc6800.cpp:27-33 *)
Definition E3 (opc : Z) (name : string) (m1 m2 m3 : Z) := mkE opc name m1 m2 m3 false.
Definition E2 (opc : Z) (name : string) (m1 m2 : Z) := E3 opc name m1 m2 M_NONE.
Definition E1 (opc : Z) (name : string) (m1 : Z) := E2 opc name m1 M_NONE.
Definition E0 (opc : Z) (name : string) := E1 opc name M_NONE.
Definition U1 (opc : Z) (name : string) (m1 : Z) := mkE opc name m1 M_NONE M_NONE true.
