(** C48: the text of a disassembly, given back to the assembler. *)
From Coq Require Import String ZArith List Bool Lia.
From Verif Require Import M_Char M_Error M_Value M_Text M_Insn M_Config M_Operators M_BinMemory M_Sources M_AsmDriver M_AsmI8080
  M_Listing M_Dis M_I8080Defs M_I8080 M_DisDriver M_DisI8080 S_ByteMap S_Memory S_Sources S_AsmDriver S_DisDriver P_Reassembly.
Import ListNotations.
Open Scope string_scope.
Open Scope list_scope.
Local Open Scope Z_scope.

(* The 8080, 8085 and V30 emulation, in Intel's or Zilog's syntax, with all options of the
   disassembler: any image of bytes below 64K that holds instructions only. The lines of its
   disassembly, written to a file, are assembled with no error, and the image is the one that was
   disassembled, byte for byte and with no byte more. The assembler is given the same syntax.
   Missing: images holding bytes that are no instruction, and an assembler not told the syntax
   (both false, below). *)
Theorem C48_reassembles_partial : forall zilog ty uh uc oc rel cs ih cur msg ws fuel0 l lines fs input passes fuel depth,
  let o := dis_8080 ty zilog uh uc oc rel cs ih cur msg in
  In ty [I8080; I8085; V30EMU] -> Forall is_write ws -> (forall a v, In (a, v) ws -> a < 2^16) ->
  dis_pieces fuel0 o (writes ws) = Val l ->
  (forall start ps p, In (start, ps) l -> In p ps -> i_err (r_insn (pc_dec p)) = OK) ->
  disassemble fuel0 o (writes ws) = Val lines ->
  ~ In 0 input -> fs input = Some (file_of lines []) -> (2 <= passes)%nat -> (length lines < fuel)%nat ->
  exists n p, run_asm passes fuel depth ops_8080 fs None input [mk8080 I8080 zilog 16 false] = Val (R_done n p) /\
    ps_errors p = false /\ same_image (ps_memory p) (writes ws).
Proof.
  intros zilog ty uh uc oc rel cs ih cur msg ws fuel0 l lines fs input passes fuel depth o T F LIM DP G DL IN FS PS FU.
  assert (GP : Forall (fun sp => Forall good_piece (snd sp)) l).
  { apply Forall_forall. intros [start ps] I1. apply Forall_forall. intros p I2. exact (G _ _ _ I1 I2). }
  exact (reassembles zilog ty uh uc oc rel cs ih cur msg ws fuel0 l lines fs input T F LIM DP GP DL IN FS passes fuel depth PS FU).
Qed.
Print Assumptions C48_reassembles_partial.
(* an image in two blocks, with bytes, words, registers and addresses as operands *)
Definition C48_ws : list (Z * Z) :=
  [(0x102, 0xC3); (0x100, 0x3E); (0x101, 0xFE); (0x103, 0x00); (0x104, 0x01); (0x105, 0x47); (0x8000, 0x21); (0x8001, 0xCD); (0x8002, 0xAB); (0x8003, 0xCF)].
Example C48_case : exists l lines, let o := dis_8080 I8085 false true false false false false true 36 (fun _ => []) in
  dis_pieces 10 o (writes C48_ws) = Val l /\ disassemble 10 o (writes C48_ws) = Val lines /\
  Forall is_write C48_ws /\ (forall a v, In (a, v) C48_ws -> a < 2^16) /\
  (forall start ps p, In (start, ps) l -> In p ps -> i_err (r_insn (pc_dec p)) = OK) /\
  lines = map s2l ["      cpu   8085"; "      org   0100H"; "      mvi   a, 0FEH"; "      jmp   0100H"; "      mov   b, a";
                   "      org   8000H"; "      lxi   h, 0ABCDH"; "      rst   1"].
Proof.
  eexists. eexists. cbv zeta. split; [vm_compute; reflexivity|]. split; [vm_compute; reflexivity|].
  split; [repeat constructor; cbn; lia|]. split; [cbn; intros a v H; repeat destruct H as [H|H]; try (injection H as <- <-; lia); destruct H|].
  split; [|vm_compute; reflexivity].
  cbn [In]. intros start ps p [H|[H|[]]]; injection H as <- <-; cbn [In]; intros H; repeat destruct H as [H|H]; try (subst p; vm_compute; reflexivity); destruct H.
Qed.
(* An image that holds a byte that is no instruction, here the 8080's 08h: its line is a comment,
   the assembler drops the byte and moves the next one down, and reports no error. *)
Theorem C48_data_refuted : exists ws lines fs input p, let o := dis_8080 I8080 false true false false false false true 36 (fun _ => []) in
  Forall is_write ws /\ (forall a v, In (a, v) ws -> a < 2^16) /\ disassemble 10 o (writes ws) = Val lines /\
  ~ In 0 input /\ fs input = Some (file_of lines []) /\
  run_asm 5 20 2 ops_8080 fs None input [new_i8080] = Val (R_done 2 p) /\ ps_errors p = false /\
  hasByte (writes ws) 1 = true /\ hasByte (ps_memory p) 1 = false /\ M_BinMemory.readByte (writes ws) 0 = 8 /\ M_BinMemory.readByte (ps_memory p) 0 = 0xAF.
Proof.
  exists [(0, 8); (1, 0xAF)].
  exists (match disassemble 10 (dis_8080 I8080 false true false false false false true 36 (fun _ => [])) (writes [(0, 8); (1, 0xAF)]) with Val l => l | _ => [] end).
  exists (fun _ => Some (file_of (match disassemble 10 (dis_8080 I8080 false true false false false false true 36 (fun _ => [])) (writes [(0, 8); (1, 0xAF)]) with Val l => l | _ => [] end) [])).
  exists (s2l "a.s"). eexists. cbv zeta. split; [repeat constructor; cbn; lia|].
  split; [cbn; intros a v H; repeat destruct H as [H|H]; try (injection H as <- <-; lia); destruct H|].
  split; [vm_compute; reflexivity|]. split; [vm_compute; intuition discriminate|]. split; [reflexivity|]. split; [vm_compute; reflexivity|].
  repeat split; vm_compute; reflexivity.
Qed.
Print Assumptions C48_data_refuted.
(* The text in Zilog's syntax does not say so: an assembler that was not told reports an error for it. *)
Theorem C48_syntax_refuted : exists ws l lines fs input p, let o := dis_8080 I8080 true true false false false false true 36 (fun _ => []) in
  Forall is_write ws /\ (forall a v, In (a, v) ws -> a < 2^16) /\
  dis_pieces 10 o (writes ws) = Val l /\ (forall start ps q, In (start, ps) l -> In q ps -> i_err (r_insn (pc_dec q)) = OK) /\
  disassemble 10 o (writes ws) = Val lines /\ ~ In 0 input /\ fs input = Some (file_of lines []) /\
  run_asm 5 20 2 ops_8080 fs None input [new_i8080] = Val (R_done 1 p) /\ ps_errors p = true.
Proof.
  exists [(0, 0x78)]. eexists.
  exists (match disassemble 10 (dis_8080 I8080 true true false false false false true 36 (fun _ => [])) (writes [(0, 0x78)]) with Val l => l | _ => [] end).
  exists (fun _ => Some (file_of (match disassemble 10 (dis_8080 I8080 true true false false false false true 36 (fun _ => [])) (writes [(0, 0x78)]) with Val l => l | _ => [] end) [])).
  exists (s2l "a.s"). eexists. cbv zeta. split; [repeat constructor; cbn; lia|].
  split; [cbn; intros a v H; repeat destruct H as [H|H]; try (injection H as <- <-; lia); destruct H|].
  split; [vm_compute; reflexivity|]. split.
  { cbn [In]. intros start ps q [H|[]]. injection H as <- <-. cbn [In]. intros [H|[]]. subst q. vm_compute. reflexivity. }
  split; [vm_compute; reflexivity|]. split; [vm_compute; intuition discriminate|]. split; [reflexivity|]. split; [vm_compute; reflexivity|].
  vm_compute; reflexivity.
Qed.
Print Assumptions C48_syntax_refuted.
