(** Enumerators and table macros of the F8: src/config_f3850.h, src/reg_f3850.h,
    src/entry_f3850.h, src/table_f3850.cpp. *)
From Coq Require Import String ZArith List Bool.
From Verif Require Import M_Char M_Table.
Import ListNotations.
Local Open Scope Z_scope.

(* config_f3850.h:25-27 CpuType *)
Definition F3850 : Z := 0.

(* reg_f3850.h:28-50 RegName *)
Definition REG_UNDEF : Z := -1.
Definition REG_A : Z := 1.
Definition REG_W : Z := 2.
Definition REG_IS : Z := 3.
Definition REG_KU : Z := 4.
Definition REG_KL : Z := 5.
Definition REG_QU : Z := 6.
Definition REG_QL : Z := 7.
Definition REG_DC : Z := 8.
Definition REG_P : Z := 9.
Definition REG_P0 : Z := 10.
Definition REG_H : Z := 11.
Definition REG_K : Z := 12.
Definition REG_Q : Z := 13.
Definition REG_alias : Z := 16.
Definition REG_J : Z := 9 + 16.
Definition REG_HU : Z := 10 + 16.
Definition REG_HL : Z := 11 + 16.
Definition REG_S : Z := 12 + 16.
Definition REG_I : Z := 13 + 16.
Definition REG_D : Z := 14 + 16.

(* entry_f3850.h:28-54 AddrMode *)
Definition M_NONE : Z := 0.
Definition M_A : Z := REG_A.
Definition M_W : Z := REG_W.
Definition M_IS : Z := REG_IS.
Definition M_KU : Z := REG_KU.
Definition M_KL : Z := REG_KL.
Definition M_QU : Z := REG_QU.
Definition M_QL : Z := REG_QL.
Definition M_H : Z := REG_H.
Definition M_K : Z := REG_K.
Definition M_Q : Z := REG_Q.
Definition M_P : Z := REG_P.
Definition M_P0 : Z := REG_P0.
Definition M_DC : Z := REG_DC.
Definition M_J : Z := 14.
Definition M_REG : Z := 15.
Definition M_C1 : Z := 16.
Definition M_C4 : Z := 17.
Definition M_IM3 : Z := 18.
Definition M_IM4 : Z := 19.
Definition M_IM8 : Z := 20.
Definition M_ADDR : Z := 21.
Definition M_REL : Z := 22.
Definition M_IOS : Z := 23.
Definition M_IOA : Z := 24.

(* entry_f3850.h:56-84 Entry *)
Record entry := mkE { e_opc : Z; e_name : string; e_m1 : Z; e_m2 : Z }.
Definition entry_name (e : entry) : text := s2l (e_name e).
(* table_f3850.cpp:193 EntryPage: a table and its index *)
Definition epage := page unit entry.
(* table_f3850.cpp:27-30 *)
Definition E2 (opc : Z) (name : string) (m1 m2 : Z) := mkE opc name m1 m2.
Definition E1 (opc : Z) (name : string) (m1 : Z) := E2 opc name m1 M_NONE.
Definition E0 (opc : Z) (name : string) := E1 opc name M_NONE.
