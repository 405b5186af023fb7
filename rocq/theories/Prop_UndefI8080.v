(** C78: codes that the manuals of the 8080, the 8085 and the V30 leave undefined. *)
From Coq Require Import String ZArith List Bool Lia.
From Verif Require Import M_Char M_Error M_Value M_Text M_StrBuffer M_Format M_Number M_Insn M_Config M_Operators
  M_Parsers M_Expr M_Directive M_Table M_Asm M_Dis M_I8080Defs T_I8080 M_I8080 S_Cpu S_Undef P_CpuMap P_Undef.
Import ListNotations.
Open Scope string_scope.
Open Scope list_scope.
Local Open Scope Z_scope.

(* A code that is undefined is reported as unknown, and nothing after it is taken, at every address,
   with whatever follows in memory, and with every option. *)
Theorem C78_i8080_undefined : forall ty zilog codes code uh uc oc rel cs ih cur symtab m addr size,
  let d := i8080_dis uh uc oc rel cs ih cur symtab in
  In (ty, codes) [(I8080, undef_8080); (I8085, undef_8085); (V30EMU, undef_v30)] -> In code codes -> 0 <= addr < 65536 ->
  exists r, i8080_decode d ty zilog (code ++ m) addr size = Val r /\ i_err (r_insn r) = UNKNOWN_INSTRUCTION /\ i_code (r_insn r) = code.
Proof.
  intros ty zilog codes code uh uc oc rel cs ih cur symtab m addr size d MA IN AR.
  assert (SH : forallb (refuses d (i8080_decodeImpl d ty zilog) addr size m) codes = true).
  { clear - MA. destruct MA as [MA|[MA|[MA|[]]]]; injection MA as <- <-; destruct zilog; vm_compute; reflexivity. }
  refine (refused d (i8080_decodeImpl d ty zilog) addr size m code codes _ _ SH IN);  cbn; lia.
Qed.
Print Assumptions C78_i8080_undefined.
Example C78_i8080_case : exists r, i8080_decode (i8080_dis true true false false false false 36 None) V30EMU false [0xED; 0x44; 1; 2] 0x1000 128 = Val r /\ i_err (r_insn r) = UNKNOWN_INSTRUCTION /\ i_code (r_insn r) = [0xED; 0x44].
Proof. eexists. split; [vm_compute; reflexivity|]. split; reflexivity. Qed.
