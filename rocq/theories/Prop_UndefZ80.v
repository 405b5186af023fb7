(** C78: codes that the manuals of the Z80 leave undefined. *)
From Coq Require Import String ZArith List Bool Lia.
From Verif Require Import M_Char M_Error M_Value M_Text M_StrBuffer M_Format M_Number M_Insn M_Config M_Operators
  M_Parsers M_Expr M_Directive M_Table M_Asm M_Dis M_Z80Defs T_Z80 M_Z80 S_Cpu S_Undef P_CpuMap P_Undef.
Import ListNotations.
Open Scope string_scope.
Open Scope list_scope.
Local Open Scope Z_scope.

(* A code that is undefined is reported as unknown, and nothing after it is taken, at every address,
   with whatever follows in memory, and with every option. *)
Theorem C78_z80_undefined : forall  code uh uc oc rel cs ih cur symtab m addr size,
  let d := z80_dis uh uc oc rel cs ih cur symtab in
   In code undef_z80 -> 0 <= addr < 65536 ->
  exists r, z80_decode d  (code ++ m) addr size = Val r /\ i_err (r_insn r) = UNKNOWN_INSTRUCTION /\ i_code (r_insn r) = code.
Proof.
  intros  code uh uc oc rel cs ih cur symtab m addr size d  IN AR.
  assert (SH : forallb (refuses d (z80_decodeImpl d ) addr size m) undef_z80 = true).
  { clear - d.  vm_compute; reflexivity. }
  refine (refused d (z80_decodeImpl d ) addr size m code undef_z80 _ _ SH IN);  cbn; lia.
Qed.
Print Assumptions C78_z80_undefined.
Example C78_z80_case : exists r, z80_decode (z80_dis true true false false false false 36 None) [0xDD; 0x24; 1; 2] 0x1000 128 = Val r /\ i_err (r_insn r) = UNKNOWN_INSTRUCTION /\ i_code (r_insn r) = [0xDD; 0x24].
Proof. eexists. split; [vm_compute; reflexivity|]. split; reflexivity. Qed.
(* after DD CB or FD CB, the displacement is taken, too *)
Theorem C78_z80_undefined_bit : forall prefix disp c uh uc oc rel cs ih cur symtab m addr size,
  let d := z80_dis uh uc oc rel cs ih cur symtab in
  In prefix [0xDD; 0xFD] -> In c undef_bit -> 0 <= addr < 65536 ->
  exists r, z80_decode d ([prefix; 0xCB; disp; c] ++ m) addr size = Val r /\ i_err (r_insn r) = UNKNOWN_INSTRUCTION /\ length (i_code (r_insn r)) = 4%nat.
Proof.
  intros prefix disp c uh uc oc rel cs ih cur symtab m addr size d PR IN AR.
  assert (SH : forallb (fun c => refuses4 d (z80_decodeImpl d) addr size ([prefix; 0xCB; disp; c] ++ m)) undef_bit = true).
  { clear - PR. destruct PR as [<-|[<-|[]]]; vm_compute; reflexivity. }
  rewrite forallb_forall in SH. refine (refused4 d (z80_decodeImpl d) addr size _ _ _ (SH c IN)); cbn; lia.
Qed.
Print Assumptions C78_z80_undefined_bit.
Example C78_z80_undefined_bit_case : exists r, z80_decode (z80_dis true true false false false false 36 None) [0xDD; 0xCB; 5; 0x36; 9] 0 128 = Val r /\ i_err (r_insn r) = UNKNOWN_INSTRUCTION /\ i_code (r_insn r) = [0xDD; 0xCB; 5; 0x36].
Proof. eexists. split; [vm_compute; reflexivity|]. split; reflexivity. Qed.
(* the converse is false: ED 6B, which the manual gives for LD HL,(nn), is refused as well *)
Theorem C78_z80_defined_refuted : exists r, z80_decode (z80_dis true true false false false false 36 None) [0xED; 0x6B; 0x34; 0x12] 0 128 = Val r /\ i_err (r_insn r) = UNKNOWN_INSTRUCTION.
Proof. eexists. split; [vm_compute; reflexivity|]. reflexivity. Qed.
Print Assumptions C78_z80_defined_refuted.
