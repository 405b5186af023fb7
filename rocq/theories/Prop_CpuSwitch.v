(** C53: the statement CPU chooses the assembler of the lines that follow. *)
From Coq Require Import String ZArith List Bool.
From Verif Require Import M_Char M_Error M_Value M_Text M_Insn M_Config M_Operators M_Parsers M_Expr M_BinMemory M_Symbols M_Sources
  M_AsmDriver M_AsmI8080 M_AsmMc6800 M_I8080Defs M_Mc6800Defs S_AsmDriver S_CpuSwitch P_DriverProps P_CpuSwitch.
Import ListNotations.
Open Scope string_scope.
Open Scope list_scope.
Local Open Scope Z_scope.

(* After [CPU name] the current assembler is the first one to know that processor, set to it; only
   the radix of the listing is taken over from the one before.  The other assemblers keep their
   state, and nothing is generated. *)
Theorem C53_cpu_switches : forall O (v : env O) line p e p' o operand name n o', let f := e_ops v in
  pass_line v line p = Val (e, p') -> current (ps_drv p) = Some o ->
  pseudo_of (op_pl f o) (op_pseudos f o) line = Some (P_CPU, operand) -> first_word name operand ->
  first_to_know f name (dr_objs (ps_drv p)) n o' ->
  let before := if Nat.eqb n (dr_cur (ps_drv p)) then o' else o in
  current (ps_drv p') = Some (op_setListRadix f (op_listRadix f before) o') /\ dr_cur (ps_drv p') = n /\
  (forall m, m <> n -> nth_error (dr_objs (ps_drv p')) m = nth_error (dr_objs (ps_drv p)) m) /\ no_code p p'.
Proof. intros O v line p e p' o operand name n o'. exact (cpu_switches v line p e p' o operand name n o'). Qed.
Print Assumptions C53_cpu_switches.

(* A processor nobody knows is reported, and everything stays as it was. *)
Theorem C53_unknown_cpu : forall O (v : env O) line p e p' o operand name, let f := e_ops v in
  pass_line v line p = Val (e, p') -> current (ps_drv p) = Some o ->
  pseudo_of (op_pl f o) (op_pseudos f o) line = Some (P_CPU, operand) -> first_word name operand ->
  nobody_knows f name (dr_objs (ps_drv p)) ->
  dr_objs (ps_drv p') = dr_objs (ps_drv p) /\ current (ps_drv p') = Some o /\ no_code p p' /\
  exists t, ps_items p' = t :: ps_items p /\ it_err t = UNSUPPORTED_CPU.
Proof. intros O v line p e p' o operand name. exact (cpu_unknown v line p e p' o operand name). Qed.
Print Assumptions C53_unknown_cpu.

(* Any other line leaves the choice, and the assemblers that are not current, alone. *)
Theorem C53_other_lines : forall O (v : env O) line p e p' o, let f := e_ops v in
  pass_line v line p = Val (e, p') -> current (ps_drv p) = Some o ->
  (forall operand, pseudo_of (op_pl f o) (op_pseudos f o) line <> Some (P_CPU, operand)) ->
  dr_cur (ps_drv p') = dr_cur (ps_drv p) /\
  forall m, m <> dr_cur (ps_drv p) -> nth_error (dr_objs (ps_drv p')) m = nth_error (dr_objs (ps_drv p)) m.
Proof. intros O v line p e p' o. exact (pass_other v line p e p' o). Qed.
Print Assumptions C53_other_lines.

(* What a line with an instruction or directive generates is what the current assembler makes of
   it at the current location, with the symbols known after the line's label. *)
Theorem C53_current_encodes : forall O (v : env O) line p e p' o scan, let f := e_ops v in
  pass_line v line p = Val (e, p') -> current (ps_drv p) = Some o -> In (op_pl f o) S_Expr.all_families ->
  statement (op_pl f o) line = Some scan -> pseudo_of (op_pl f o) (op_pseudos f o) line = None ->
  exists i' loc' o' t, let st := dr_store (ps_drv p') in let a := ps_origin p in
    op_encode f o (symbols_of st) (functions_of (e_depth v) st a 0) a scan (i_reset a 0 (ps_insn p)) = Val (i', loc', o') /\
    current (ps_drv p') = Some o' /\ dr_cur (ps_drv p') = dr_cur (ps_drv p) /\
    ps_items p' = t :: ps_items p /\ it_addr t = i_addr i' /\ it_bytes t = i_code i'.
Proof. intros O v line p e p' o scan. exact (pass_insn v line p e p' o scan). Qed.
Print Assumptions C53_current_encodes.

(* the hypotheses on a driver with the 6800 and the 8080 assembler *)
Example C53_case :
  (exists p, run_asm 10 20 5 ops_both (only [" CPU 8085"; " RIM"; " CPU MC6801"; "TOP: ABX"; " CPU 8080"; " RIM"; " JMP TOP"]) None a_asm both = Val (R_done 1 p) /\
    map (fun t => (it_err t, it_bytes t)) (rev (ps_items p)) =
    [(OK, []); (OK, [0x20]); (OK, []); (OK, [0x3A]); (OK, []); (UNKNOWN_INSTRUCTION, []); (OK, [0xC3; 1; 0])] /\
    dr_cur (ps_drv p) = 1%nat) /\
  first_to_know ops_both (s2l "8085") both 1 (inr (mk8080 I8085 false 16 false)) /\
  first_to_know ops_both (s2l "MC6801") both 0 (inl (mk6800 MC6801 16 false)) /\ nobody_knows ops_both (s2l "Z80") both /\
  first_word (s2l "8085") (s2l "8085 ; faster") /\
  pseudo_of pl_motorola motorola_pseudos (s2l " CPU 8085 ; faster") = Some (P_CPU, s2l "8085 ; faster").
Proof.
  split; [eexists; split; [vm_compute; reflexivity|split; vm_compute; reflexivity]|].
  split; [split; [eexists; split; vm_compute; reflexivity|intros [|m] o1 M E; [cbn in E; injection E as <-; vm_compute; reflexivity|exfalso; apply PeanoNat.Nat.lt_1_r in M; discriminate]]|].
  split; [split; [eexists; split; vm_compute; reflexivity|intros m o1 M; exfalso; exact (PeanoNat.Nat.nlt_0_r _ M)]|].
  split; [intros o [<-|[<-|[]]]; vm_compute; reflexivity|].
  split; [exists (s2l " ; faster"); repeat split; vm_compute; reflexivity|vm_compute; reflexivity].
Qed.
