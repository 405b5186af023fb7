(** C81, the first line: the statement that names the processor. *)
From Coq Require Import String ZArith List Bool.
From Verif Require Import M_Char M_Error M_Text M_Parsers M_Expr M_AsmDriver M_AsmRows M_DisDriver M_DisCpus M_CpuName S_Table S_DisLines S_AsmDriver S_CpuSwitch
  P_CpuLine.
From Verif Require M_Cdp1802Defs.
Import ListNotations.
Open Scope string_scope.
Open Scope list_scope.
Local Open Scope Z_scope.

(* Whatever assembler is current when the disassembly is assembled, in whichever directive syntax: the first
   line of the disassembly is a CPU statement for it, whose operand is the name of the processor, and the
   driver goes to the family of the disassembler for it ([C53_cpu_switches]; which processor of the family
   is [C82_disassembly]). *)
Theorem C81_cpu : forall name o p ps, disassembler name o -> In p assemblers ->
  In ps [motorola_pseudos; intel_pseudos; mostek_pseudos; z8_pseudos; zilog_pseudos; rca_pseudos; national_pseudos; fairchild_pseudos; dec_pseudos] ->
  exists w ty, pseudo_of (as_pl p) ps (cpu_line o) = Some (P_CPU, w) /\ first_word w w /\ same_name w (do_cpu o) /\
    choose commander w = Some (if String.eqb name "w65816" then "mos6502" else name, ty).
Proof. exact cpu_read. Qed.
Print Assumptions C81_cpu.

Definition ex_1804 : dops := dis_1802 M_Cdp1802Defs.CDP1804A false true false false false false false 42 (fun _ => []).
Example C81_cpu_case :
  disassembler "cdp1802" ex_1804 /\ cpu_line ex_1804 = s2l "      cpu   1804a" /\
  pseudo_of (as_pl (nth 9 assemblers (mkAs "" pl_default 0 0 true [] []))) motorola_pseudos (cpu_line ex_1804) = Some (P_CPU, s2l "1804a") /\
  choose commander (s2l "1804a") = Some ("cdp1802", "CDP1804A").
Proof. split; [constructor|]. repeat split; vm_compute; reflexivity. Qed.
