(** C83: the SC/MP disassembler names exactly the codes of the manual. *)
From Coq Require Import String ZArith List Bool Lia.
From Verif Require Import M_Char M_Error M_Value M_Text M_StrBuffer M_Format M_Insn M_Config M_Operators
  M_Table M_Dis M_Ins8060Defs T_Ins8060 M_Ins8060 S_Ins8060 P_Insn P_DefIns8060.
Import ListNotations.
Open Scope list_scope.
Local Open Scope Z_scope.

(* A decoding shows a mnemonic exactly when the first byte is one the manual defines: in every
   notation, with any symbol table, whatever follows the byte and whether or not the operand is
   accepted. *)
Theorem C83_names : forall uh uc oc rel cs ih cur symtab o m addr size r,
  let d := ins8060_dis uh uc oc rel cs ih cur symtab in
  0 <= o < 256 -> 0 <= addr < 65536 -> ins8060_decode d (o :: m) addr size = Val r ->
  (r_name r <> [] <-> ~ In [o] undef_scmp).
Proof.
  intros uh uc oc rel cs ih cur symtab o m addr size r d B A D.
  exact (shown_name d o m addr size r eq_refl B A D).
Qed.
Print Assumptions C83_names.
(* 0x90 is shown as JMP, 0xCC has no name *)
Example C83_names_case :
  (exists r, ins8060_decode (ins8060_dis true true false false false false 36 None) [0x90; 0xFE] 0x1000 128 = Val r /\
     r_name r = [74; 77; 80]) /\ ~ In [0x90] undef_scmp /\
  (exists r, ins8060_decode (ins8060_dis true true false false false false 36 None) [0xCC; 1] 0x1000 128 = Val r /\ r_name r = []).
Proof.
  split; [eexists; split; vm_compute; reflexivity|]. split.
  - rewrite <- undefb_in. vm_compute. discriminate.
  - eexists; split; vm_compute; reflexivity.
Qed.
