(** C78: codes that the manuals of the 6502 family leave undefined. *)
From Coq Require Import String ZArith List Bool Lia.
From Verif Require Import M_Char M_Error M_Value M_Text M_StrBuffer M_Format M_Number M_Insn M_Config M_Operators
  M_Parsers M_Expr M_Directive M_Table M_Asm M_Dis M_Mos6502Defs T_Mos6502 M_Mos6502 S_Cpu S_Undef P_CpuMap P_Undef.
Import ListNotations.
Open Scope string_scope.
Open Scope list_scope.
Local Open Scope Z_scope.

(* A code that is undefined is reported as unknown, and nothing after it is taken, at every address,
   with whatever follows in memory, and with every option. *)
Theorem C78_mos6502_undefined : forall ty codes o code uh uc oc rel cs ih cur symtab m addr size,
  let d := mos6502_dis ty uh uc oc rel cs ih cur symtab in
  In (ty, codes) [(MOS6502, undef_6502); (G65SC02, undef_65sc02); (R65C02, undef_65c02); (W65C02S, undef_65c02s)] -> In code codes -> 0 <= addr < 65536 ->
  exists r, mos6502_decode d ty o (code ++ m) addr size = Val r /\ i_err (r_insn r) = UNKNOWN_INSTRUCTION /\ i_code (r_insn r) = code.
Proof.
  intros ty codes o code uh uc oc rel cs ih cur symtab m addr size d MA IN AR.
  assert (SH : forallb (refuses d (mos6502_decodeImpl d ty o) addr size m) codes = true).
  { clear - MA. destruct MA as [MA|[MA|[MA|[MA|[]]]]]; injection MA as <- <-; vm_compute; reflexivity. }
  refine (refused d (mos6502_decodeImpl d ty o) addr size m code codes _ _ SH IN); cbn in MA; destruct MA as [MA|[MA|[MA|[MA|[]]]]]; injection MA as <- _; cbn; lia.
Qed.
Print Assumptions C78_mos6502_undefined.
Example C78_mos6502_case : exists r, mos6502_decode (mos6502_dis W65C02S true true false false false false 42 None) W65C02S (mkOpt false false false) [0x5C; 1; 2] 0x1000 128 = Val r /\ i_err (r_insn r) = UNKNOWN_INSTRUCTION /\ i_code (r_insn r) = [0x5C].
Proof. eexists. split; [vm_compute; reflexivity|]. split; reflexivity. Qed.
