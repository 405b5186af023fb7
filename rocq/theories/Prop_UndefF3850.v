(** C78: codes that the manuals of the F8 leave undefined. *)
From Coq Require Import String ZArith List Bool Lia.
From Verif Require Import M_Char M_Error M_Value M_Text M_StrBuffer M_Format M_Number M_Insn M_Config M_Operators
  M_Parsers M_Expr M_Directive M_Table M_Asm M_Dis M_F3850Defs T_F3850 M_F3850 S_Cpu S_Undef P_CpuMap P_Undef.
Import ListNotations.
Open Scope string_scope.
Open Scope list_scope.
Local Open Scope Z_scope.

(* A code that is undefined is reported as unknown, and nothing after it is taken, at every address,
   with whatever follows in memory, and with every option. *)
Theorem C78_f3850_undefined : forall  code uh uc oc rel cs ih cur symtab m addr size,
  let d := f3850_dis uh uc oc rel cs ih cur symtab in
   In code undef_f8 -> 0 <= addr < 65536 ->
  exists r, f3850_decode d  (code ++ m) addr size = Val r /\ i_err (r_insn r) = UNKNOWN_INSTRUCTION /\ i_code (r_insn r) = code.
Proof.
  intros  code uh uc oc rel cs ih cur symtab m addr size d  IN AR.
  assert (SH : forallb (refuses d (f3850_decodeImpl d ) addr size m) undef_f8 = true).
  { clear - d.  vm_compute; reflexivity. }
  refine (refused d (f3850_decodeImpl d ) addr size m code undef_f8 _ _ SH IN);  cbn; lia.
Qed.
Print Assumptions C78_f3850_undefined.
Example C78_f3850_case : exists r, f3850_decode (f3850_dis true true false false false false 36 None) [0x2E; 1; 2] 0x1000 128 = Val r /\ i_err (r_insn r) = UNKNOWN_INSTRUCTION /\ i_code (r_insn r) = [0x2E].
Proof. eexists. split; [vm_compute; reflexivity|]. split; reflexivity. Qed.
