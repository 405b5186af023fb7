(** Enumerators and table macros of the 8080 family: src/config_i8080.h, src/reg_i8080.h,
    src/entry_i8080.h, src/table_i8080.cpp. *)
From Coq Require Import String ZArith List Bool.
From Verif Require Import M_Char M_Table.
Import ListNotations.
Local Open Scope Z_scope.

(* config_i8080.h:25-29 CpuType *)
Definition I8080 : Z := 0.
Definition I8085 : Z := 1.
Definition V30EMU : Z := 2.

(* reg_i8080.h:28-49 RegName *)
Definition REG_UNDEF : Z := -1.
Definition REG_B : Z := 0.
Definition REG_C : Z := 1.
Definition REG_D : Z := 2.
Definition REG_E : Z := 3.
Definition REG_H : Z := 4.
Definition REG_L : Z := 5.
Definition REG_M : Z := 6.
Definition REG_A : Z := 7.
Definition REG_BC : Z := 8.
Definition REG_DE : Z := 9.
Definition REG_HL : Z := 10.
Definition REG_SP : Z := 11.
Definition REG_PSW : Z := 12.
Definition REG_AF : Z := 13.
Definition REG_IM : Z := 14.
(* reg_i8080.h:51-61 CcName *)
Definition CC_UNDEF : Z := -1.
Definition CC_NZ : Z := 0.
Definition CC_Z : Z := 1.
Definition CC_NC : Z := 2.
Definition CC_C : Z := 3.
Definition CC_PO : Z := 4.
Definition CC_PE : Z := 5.
Definition CC_P : Z := 6.
Definition CC_M : Z := 7.

(* entry_i8080.h:29-57 AddrMode *)
Definition M_NONE : Z := 0.
Definition M_IM8 : Z := 1.
Definition M_IM16 : Z := 2.
Definition M_ABS : Z := 3.
Definition M_IOA : Z := 4.
Definition M_PTR : Z := 5.
Definition M_STK : Z := 6.
Definition M_IDX : Z := 7.
Definition M_SRC : Z := 8.
Definition M_DST : Z := 9.
Definition M_VEC : Z := 10.
Definition M_CC : Z := 11.
Definition R_BASE : Z := 12.
Definition R_C : Z := R_BASE + REG_C.
Definition R_H : Z := R_BASE + REG_H.
Definition R_A : Z := R_BASE + REG_A.
Definition R_BC : Z := R_BASE + REG_BC.
Definition R_DE : Z := R_BASE + REG_DE.
Definition R_HL : Z := R_BASE + REG_HL.
Definition R_SP : Z := R_BASE + REG_SP.
Definition R_AF : Z := R_BASE + REG_AF.
Definition R_IM : Z := R_BASE + REG_IM.
Definition I_BASE : Z := R_BASE + 16.
Definition I_C : Z := I_BASE + REG_C.
Definition I_HL : Z := I_BASE + REG_HL.
Definition I_SP : Z := I_BASE + REG_SP.

(* entry_i8080.h:59-91 Entry; [e_undef]: the undef bit of the flags *)
Record entry := mkE { e_opc : Z; e_name : string; e_dst : Z; e_src : Z; e_undef : bool }.
Definition entry_name (e : entry) : text := s2l (e_name e).
(* a page: its prefix, table and index *)
Definition epage := page Z entry.
(* table_i8080.cpp:27-32 *)
Definition E2 (opc : Z) (name : string) (dst src : Z) := mkE opc name dst src false.
Definition E1 (opc : Z) (name : string) (dst : Z) := E2 opc name dst M_NONE.
Definition E0 (opc : Z) (name : string) := E1 opc name M_NONE.
Definition U2 (opc : Z) (name : string) (dst src : Z) := mkE opc name dst src true.
