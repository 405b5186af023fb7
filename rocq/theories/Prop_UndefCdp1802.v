(** C78: codes that the manuals of the CDP1802 family leave undefined. *)
From Coq Require Import String ZArith List Bool Lia.
From Verif Require Import M_Char M_Error M_Value M_Text M_StrBuffer M_Format M_Number M_Insn M_Config M_Operators
  M_Parsers M_Expr M_Directive M_Table M_Asm M_Dis M_Cdp1802Defs T_Cdp1802 M_Cdp1802 S_Cpu S_Undef P_CpuMap P_Undef.
Import ListNotations.
Open Scope string_scope.
Open Scope list_scope.
Local Open Scope Z_scope.

(* A code that is undefined is reported as unknown, and nothing after it is taken, at every address,
   with whatever follows in memory, and with every option. *)
Theorem C78_cdp1802_undefined : forall ty codes useReg code uh uc oc rel cs ih cur symtab m addr size,
  let d := cdp1802_dis uh uc oc rel cs ih cur symtab in
  In (ty, codes) [(CDP1802, undef_1802); (CDP1804, undef_1804); (CDP1804A, undef_1804a)] -> In code codes -> 0 <= addr < 65536 ->
  exists r, cdp1802_decode d ty useReg (code ++ m) addr size = Val r /\ i_err (r_insn r) = UNKNOWN_INSTRUCTION /\ i_code (r_insn r) = code.
Proof.
  intros ty codes useReg code uh uc oc rel cs ih cur symtab m addr size d MA IN AR.
  assert (SH : forallb (refuses d (cdp1802_decodeImpl d ty useReg) addr size m) codes = true).
  { clear - MA. destruct MA as [MA|[MA|[MA|[]]]]; injection MA as <- <-; destruct useReg; vm_compute; reflexivity. }
  refine (refused d (cdp1802_decodeImpl d ty useReg) addr size m code codes _ _ SH IN);  cbn; lia.
Qed.
Print Assumptions C78_cdp1802_undefined.
Example C78_cdp1802_case : exists r, cdp1802_decode (cdp1802_dis true true false false false false 42 None) CDP1804 true [0x68; 0x74; 1; 2] 0x1000 128 = Val r /\ i_err (r_insn r) = UNKNOWN_INSTRUCTION /\ i_code (r_insn r) = [0x68; 0x74].
Proof. eexists. split; [vm_compute; reflexivity|]. split; reflexivity. Qed.
