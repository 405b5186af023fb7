(** C78: codes that the manuals of the TMS32010 family leave undefined. *)
From Coq Require Import String ZArith List Bool Lia.
From Verif Require Import M_Char M_Error M_Value M_Text M_StrBuffer M_Format M_Number M_Insn M_Config M_Operators
  M_Parsers M_Expr M_Directive M_Table M_Asm M_Dis M_Tms32010Defs T_Tms32010 M_Tms32010 S_Cpu S_Undef P_CpuMap P_Undef.
Import ListNotations.
Open Scope string_scope.
Open Scope list_scope.
Local Open Scope Z_scope.

(* A code that is undefined is reported as unknown, and nothing after it is taken, at every address,
   with whatever follows in memory, and with every option. *)
Theorem C78_tms32010_undefined : forall ty code uh uc oc rel cs ih cur symtab m addr size,
  let d := tms32010_dis uh uc oc rel cs ih cur symtab in
  In ty [TMS32010; TMS32015] -> In code undef_32010 -> 0 <= addr < 4096 ->
  exists r, tms32010_decode d ty (code ++ m) addr size = Val r /\ i_err (r_insn r) = UNKNOWN_INSTRUCTION /\ i_code (r_insn r) = code.
Proof.
  intros ty code uh uc oc rel cs ih cur symtab m addr size d MA IN AR.
  assert (SH : forallb (refuses d (tms32010_decodeImpl d ty) addr size m) undef_32010 = true).
  { clear - MA. destruct MA as [MA|[MA|[]]]; subst ty; vm_compute; reflexivity. }
  refine (refused d (tms32010_decodeImpl d ty) addr size m code undef_32010 _ _ SH IN);  cbn; lia.
Qed.
Print Assumptions C78_tms32010_undefined.
Example C78_tms32010_case : exists r, tms32010_decode (tms32010_dis true true false false false false 36 None) TMS32010 [0x83; 0x7F; 1; 2] 0x100 128 = Val r /\ i_err (r_insn r) = UNKNOWN_INSTRUCTION /\ i_code (r_insn r) = [0x83; 0x7F].
Proof. eexists. split; [vm_compute; reflexivity|]. split; reflexivity. Qed.
