(** Enumerators and table macros of the CDP1802 family: src/config_cdp1802.h, src/reg_cdp1802.h,
    src/entry_cdp1802.h, src/table_cdp1802.cpp. *)
From Coq Require Import String ZArith List Bool.
From Verif Require Import M_Char M_Table.
Import ListNotations.
Local Open Scope Z_scope.

(* config_cdp1802.h:25-29 CpuType *)
Definition CDP1802 : Z := 0.
Definition CDP1804 : Z := 1.
Definition CDP1804A : Z := 2.

(* entry_cdp1802.h:28-38 AddrMode *)
Definition M_NONE : Z := 0.
Definition M_REGN : Z := 1.
Definition M_REG1 : Z := 2.
Definition M_IMM8 : Z := 3.
Definition M_PAGE : Z := 4.
Definition M_ADDR : Z := 5.
Definition M_SHRT : Z := 6.
Definition M_LONG : Z := 7.
Definition M_IOAD : Z := 8.

(* entry_cdp1802.h:40-66 Entry; the modes are read back from 4 bits of the flags *)
Record entry := mkE { e_opc : Z; e_name : string; e_m1 : Z; e_m2 : Z }.
Definition entry_name (e : entry) : text := s2l (e_name e).
(* a page: its prefix, table and index *)
Definition epage := page Z entry.
(* table_cdp1802.cpp:27-30, entry_cdp1802.h:44-47 Flags *)
Definition E2 (opc : Z) (name : string) (m1 m2 : Z) :=
  let attr := Z.lor (Z.shiftl m1 0) (Z.shiftl m2 4) mod 2^8 in
  mkE opc name (Z.land attr 0xF) (Z.land (Z.shiftr attr 4) 0xF).
Definition E1 (opc : Z) (name : string) (m1 : Z) := E2 opc name m1 M_NONE.
Definition E0 (opc : Z) (name : string) := E1 opc name M_NONE.
