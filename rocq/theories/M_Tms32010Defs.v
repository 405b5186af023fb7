(** Enumerators and table macros of the TMS32010 family: src/config_tms32010.h, src/reg_tms32010.h,
    src/entry_tms32010.h, src/table_tms32010.cpp. *)
From Coq Require Import String ZArith List Bool.
From Verif Require Import M_Char M_Table.
Import ListNotations.
Local Open Scope Z_scope.

(* config_tms32010.h:25-28 CpuType *)
Definition TMS32010 : Z := 0.
Definition TMS32015 : Z := 1.

(* entry_tms32010.h:28-47 AddrMode *)
Definition M_NONE : Z := 0.
Definition M_LS0 : Z := 1.
Definition M_DPK : Z := 2.
Definition M_ARK : Z := 3.
Definition M_AR : Z := 4.
Definition M_NARP : Z := 5.
Definition M_LS3 : Z := 6.
Definition M_IM3 : Z := 7.
Definition M_PA : Z := 8.
Definition M_LS4 : Z := 9.
Definition M_IM8 : Z := 10.
Definition M_MAM : Z := 11.
Definition M_PMA : Z := 12.
Definition M_IM13 : Z := 13.
Definition M_ARP : Z := 14.
Definition M_INC : Z := 15.
Definition M_DEC : Z := 16.

(* entry_tms32010.h:49-79 Entry; the modes are read back from 5 bits of the flags *)
Record entry := mkE { e_opc : Z; e_name : string; e_m1 : Z; e_m2 : Z; e_m3 : Z }.
Definition entry_name (e : entry) : text := s2l (e_name e).
(* a page: its table and index *)
Definition epage := page unit entry.
(* table_tms32010.cpp:27-31, entry_tms32010.h:53-67 Flags *)
Definition E3 (opc : Z) (name : string) (m1 m2 m3 : Z) :=
  let attr := Z.lor (Z.lor (Z.shiftl m1 0) (Z.shiftl m2 5)) (Z.shiftl m3 10) mod 2^16 in
  mkE opc name (Z.land attr 0x1F) (Z.land (Z.shiftr attr 5) 0x1F) (Z.land (Z.shiftr attr 10) 0x1F).
Definition E2 (opc : Z) (name : string) (m1 m2 : Z) := E3 opc name m1 m2 M_NONE.
Definition E1 (opc : Z) (name : string) (m1 : Z) := E2 opc name m1 M_NONE.
Definition E0 (opc : Z) (name : string) := E1 opc name M_NONE.
