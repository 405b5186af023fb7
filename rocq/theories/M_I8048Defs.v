(** Enumerators and table macros of the 8048 family: src/config_i8048.h, src/reg_i8048.h,
    src/entry_i8048.h, src/table_i8048.cpp. *)
From Coq Require Import String ZArith List Bool.
From Verif Require Import M_Char M_Table.
Import ListNotations.
Local Open Scope Z_scope.

(* config_i8048.h:27-34 CpuType *)
Definition I8048 : Z := 0.
Definition I8039 : Z := 1.
Definition I80C48 : Z := 2.
Definition I80C39 : Z := 3.
Definition MSM80C48 : Z := 4.
Definition MSM80C39 : Z := 5.

(* reg_i8048.h:28-66 RegName *)
Definition REG_UNDEF : Z := -1.
Definition REG_R0 : Z := 0.
Definition REG_R1 : Z := 1.
Definition REG_R2 : Z := 2.
Definition REG_R3 : Z := 3.
Definition REG_R4 : Z := 4.
Definition REG_R5 : Z := 5.
Definition REG_R6 : Z := 6.
Definition REG_R7 : Z := 7.
Definition REG_BUS : Z := 8.
Definition REG_P1 : Z := 9.
Definition REG_P2 : Z := 10.
Definition REG_P4 : Z := 12.
Definition REG_P5 : Z := 13.
Definition REG_P6 : Z := 14.
Definition REG_P7 : Z := 15.
Definition REG_A : Z := 16.
Definition REG_PSW : Z := 17.
Definition REG_P : Z := 18.
Definition REG_F0 : Z := 24.
Definition REG_F1 : Z := 25.
Definition REG_C : Z := 26.
Definition REG_I : Z := 27.
Definition REG_RB0 : Z := 28.
Definition REG_RB1 : Z := 29.
Definition REG_MB0 : Z := 30.
Definition REG_MB1 : Z := 31.
Definition REG_T : Z := 32.
Definition REG_CLK : Z := 33.
Definition REG_CNT : Z := 34.
Definition REG_TCNT : Z := 35.
Definition REG_TCNTI : Z := 36.

(* entry_i8048.h:28-58 AddrMode *)
Definition M_NONE : Z := 0.
Definition M_A : Z := 1.
Definition M_R : Z := 2.
Definition M_IR : Z := 3.
Definition M_IMM8 : Z := 4.
Definition M_BIT8 : Z := 5.
Definition M_BITN : Z := 6.
Definition M_BUS : Z := 7.
Definition M_P12 : Z := 8.
Definition M_PEXT : Z := 9.
Definition M_AD11 : Z := 10.
Definition M_AD08 : Z := 11.
Definition M_IA : Z := 12.
Definition M_PSW : Z := 13.
Definition M_C : Z := 14.
Definition M_I : Z := 15.
Definition M_F : Z := 16.
Definition M_RB : Z := 17.
Definition M_MB : Z := 18.
Definition M_T : Z := 19.
Definition M_CNT : Z := 20.
Definition M_TCNT : Z := 21.
Definition M_TCNTI : Z := 22.
Definition M_CLK : Z := 23.
Definition M_IR3 : Z := 24.
Definition M_P : Z := 25.
Definition M_P1 : Z := 26.
Definition M_P2 : Z := 27.

(* entry_i8048.h:60-86 Entry; the modes are five-bit fields and none exceeds 27 *)
Record entry := mkE { e_opc : Z; e_name : string; e_dst : Z; e_src : Z }.
Definition entry_name (e : entry) : text := s2l (e_name e).
(* table_i8048.cpp:264 EntryPage: a table and its index *)
Definition epage := page unit entry.
(* table_i8048.cpp:27-30 *)
Definition E2 (opc : Z) (name : string) (dst src : Z) := mkE opc name dst src.
Definition E1 (opc : Z) (name : string) (dst : Z) := E2 opc name dst M_NONE.
Definition E0 (opc : Z) (name : string) := E1 opc name M_NONE.
