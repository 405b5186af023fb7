(** C78: codes that the manuals of the 8048 family leave undefined. *)
From Coq Require Import String ZArith List Bool Lia.
From Verif Require Import M_Char M_Error M_Value M_Text M_StrBuffer M_Format M_Number M_Insn M_Config M_Operators
  M_Parsers M_Expr M_Directive M_Table M_Asm M_Dis M_I8048Defs T_I8048 M_I8048 S_Cpu S_Undef P_CpuMap P_Undef.
Import ListNotations.
Open Scope string_scope.
Open Scope list_scope.
Local Open Scope Z_scope.

(* A code that is undefined is reported as unknown, and nothing after it is taken, at every address,
   with whatever follows in memory, and with every option. *)
Theorem C78_i8048_undefined : forall ty codes code uh uc oc rel cs ih cur symtab m addr size,
  let d := i8048_dis uh uc oc rel cs ih cur symtab in
  In (ty, codes) [(I8048, 0x01 :: undef_cmos_48); (I8039, 0x01 :: undef_cmos_48 ++ undef_bus); (I80C48, undef_cmos_48); (I80C39, undef_cmos_48 ++ undef_bus);
    (MSM80C48, undef_oki_48); (MSM80C39, undef_oki_48 ++ undef_bus)] -> In code (after [] codes) -> 0 <= addr < 4096 ->
  exists r, i8048_decode d ty (code ++ m) addr size = Val r /\ i_err (r_insn r) = UNKNOWN_INSTRUCTION /\ i_code (r_insn r) = code.
Proof.
  intros ty codes code uh uc oc rel cs ih cur symtab m addr size d MA IN AR.
  assert (SH : forallb (refuses d (i8048_decodeImpl d ty) addr size m) (after [] codes) = true).
  { clear - MA. destruct MA as [MA|[MA|[MA|[MA|[MA|[MA|[]]]]]]]; injection MA as <- <-; vm_compute; reflexivity. }
  refine (refused d (i8048_decodeImpl d ty) addr size m code (after [] codes) _ _ SH IN);  cbn; lia.
Qed.
Print Assumptions C78_i8048_undefined.
Example C78_i8048_case : exists r, i8048_decode (i8048_dis true true false false false false 36 None) I80C39 [0x63; 1; 2] 0x100 128 = Val r /\ i_err (r_insn r) = UNKNOWN_INSTRUCTION /\ i_code (r_insn r) = [0x63].
Proof. eexists. split; [vm_compute; reflexivity|]. split; reflexivity. Qed.
