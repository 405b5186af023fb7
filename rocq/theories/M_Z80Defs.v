(** Enumerators and table macros of the Z80: src/config_z80.h, src/reg_z80.h, src/entry_z80.h,
    src/table_z80.h, src/table_z80.cpp. *)
From Coq Require Import String ZArith List Bool.
From Verif Require Import M_Char M_Table.
Import ListNotations.
Local Open Scope Z_scope.

(* config_z80.h:25-27 CpuType *)
Definition Z80 : Z := 0.

(* reg_z80.h:28-53 RegName *)
Definition REG_UNDEF : Z := -1.
Definition REG_BC : Z := 0.
Definition REG_DE : Z := 1.
Definition REG_HL : Z := 2.
Definition REG_SP : Z := 3.
Definition REG_IX : Z := 4.
Definition REG_IY : Z := 5.
Definition REG_AF : Z := 6.
Definition REG_AFP : Z := 7.
Definition REG_B : Z := 8.
Definition REG_C : Z := 9.
Definition REG_D : Z := 10.
Definition REG_E : Z := 11.
Definition REG_H : Z := 12.
Definition REG_L : Z := 13.
Definition REG_A : Z := 15.
Definition REG_I : Z := 16.
Definition REG_R : Z := 17.
(* reg_z80.h:55-65 CcName *)
Definition CC_UNDEF : Z := -1.
Definition CC_NZ : Z := 0.
Definition CC_Z : Z := 1.
Definition CC_NC : Z := 2.
Definition CC_C : Z := 3.
Definition CC_PO : Z := 4.
Definition CC_PE : Z := 5.
Definition CC_P : Z := 6.
Definition CC_M : Z := 7.

(* table_z80.h:35-36 *)
Definition PREFIX_IX : Z := 0xDD.
Definition PREFIX_IY : Z := 0xFD.

(* entry_z80.h:29-69 AddrMode *)
Definition M_NONE : Z := 0.
Definition M_IM8 : Z := 1.
Definition M_IM16 : Z := 2.
Definition M_ABS : Z := 3.
Definition M_IOA : Z := 4.
Definition M_REL : Z := 5.
Definition M_IDX : Z := 6.
Definition M_CC4 : Z := 7.
Definition M_CC8 : Z := 8.
Definition M_R16 : Z := 9.
Definition M_NOHL : Z := 10.
Definition M_R16X : Z := 11.
Definition M_STK : Z := 12.
Definition M_SRC : Z := 13.
Definition M_DST : Z := 14.
Definition M_SR8 : Z := 15.
Definition M_DR8 : Z := 16.
Definition M_VEC : Z := 17.
Definition M_BIT : Z := 18.
Definition M_IMMD : Z := 19.
Definition T_IXB : Z := 20.
Definition I_PTR : Z := 21.
Definition I_IDX : Z := 22.
Definition R_IDX : Z := 26.
Definition R_BASE : Z := 27.
Definition R_BC : Z := R_BASE + REG_BC.
Definition R_DE : Z := R_BASE + REG_DE.
Definition R_HL : Z := R_BASE + REG_HL.
Definition R_SP : Z := R_BASE + REG_SP.
Definition R_AF : Z := R_BASE + REG_AF.
Definition R_I : Z := R_BASE + REG_I.
Definition R_R : Z := R_BASE + REG_R.
Definition R_AFP : Z := R_BASE + REG_AFP.
Definition R_C : Z := R_BASE + REG_C.
Definition R_A : Z := R_BASE + REG_A.
Definition I_BASE : Z := R_BASE + 18.
Definition I_HL : Z := I_BASE + REG_HL.
Definition I_SP : Z := I_BASE + REG_SP.
Definition I_C : Z := I_BASE + REG_C.

(* entry_z80.h:71-113 Entry; [e_ixbit]: the indexBit bit of the flags *)
Record entry := mkE { e_opc : Z; e_name : string; e_dst : Z; e_src : Z; e_ixbit : bool }.
Definition entry_name (e : entry) : text := s2l (e_name e).
(* a page: its prefix, table and index *)
Definition epage := page Z entry.
(* table_z80.cpp:27-33 *)
Definition E2 (opc : Z) (name : string) (dst src : Z) := mkE opc name dst src false.
Definition E1 (opc : Z) (name : string) (dst : Z) := E2 opc name dst M_NONE.
Definition E0 (opc : Z) (name : string) := E1 opc name M_NONE.
Definition I2 (opc : Z) (name : string) (dst src : Z) := mkE opc name dst src true.
Definition I1 (opc : Z) (name : string) (dst : Z) := I2 opc name dst M_NONE.
