(** C78: codes that the manuals of the 6800 family leave undefined. *)
From Coq Require Import String ZArith List Bool Lia.
From Verif Require Import M_Char M_Error M_Value M_Text M_StrBuffer M_Format M_Number M_Insn M_Config M_Operators
  M_Parsers M_Expr M_Directive M_Table M_Asm M_Dis M_Mc6800Defs T_Mc6800 M_Mc6800 S_Cpu S_Undef P_CpuMap P_Undef.
Import ListNotations.
Open Scope string_scope.
Open Scope list_scope.
Local Open Scope Z_scope.

(* A code that is undefined is reported as unknown, and nothing after it is taken, at every address,
   with whatever follows in memory, and with every option. *)
Theorem C78_mc6800_undefined : forall ty codes code uh uc oc rel cs ih cur symtab m addr size,
  let d := mc6800_dis uh uc oc rel cs ih cur symtab in
  In (ty, codes) [(MC6800, undef_6800); (MC6801, undef_6801); (HD6301, undef_6301); (MC68HC11, undef_hc11)] -> In code codes -> 0 <= addr < 65536 ->
  exists r, mc6800_decode d ty (code ++ m) addr size = Val r /\ i_err (r_insn r) = UNKNOWN_INSTRUCTION /\ i_code (r_insn r) = code.
Proof.
  intros ty codes code uh uc oc rel cs ih cur symtab m addr size d MA IN AR.
  assert (SH : forallb (refuses d (mc6800_decodeImpl d ty) addr size m) codes = true).
  { clear - MA. destruct MA as [MA|[MA|[MA|[MA|[]]]]]; injection MA as <- <-; vm_compute; reflexivity. }
  refine (refused d (mc6800_decodeImpl d ty) addr size m code codes _ _ SH IN);  cbn; lia.
Qed.
Print Assumptions C78_mc6800_undefined.
Example C78_mc6800_case : exists r, mc6800_decode (mc6800_dis true true false false false false 42 None) MC68HC11 [0x18; 0x41; 1; 2] 0x1000 128 = Val r /\ i_err (r_insn r) = UNKNOWN_INSTRUCTION /\ i_code (r_insn r) = [0x18; 0x41].
Proof. eexists. split; [vm_compute; reflexivity|]. split; reflexivity. Qed.
