(** C70: the opcode map of the 8080, the 8085 and the 8080 emulation of the V30. *)
From Coq Require Import String ZArith List Bool Lia.
From Verif Require Import M_Char M_Error M_Value M_Text M_StrBuffer M_Format M_Number M_Insn M_Config M_Operators
  M_Parsers M_Expr M_Directive M_Table M_Asm M_Dis M_I8080Defs T_I8080 M_I8080
  S_Value S_Insn S_Expr S_ExprTree S_Table S_Cpu S_Map P_CpuShape P_CpuMap Prop_I8080.
Import ListNotations.
Open Scope string_scope.
Open Scope list_scope.
Local Open Scope Z_scope.

(* Every instruction without numbers of the manual: its code is shown as its mnemonic and operands,
   in either letter case, at every address, with whatever follows in memory, and the line with that
   text is assembled to that code, wherever the blanks are and whatever the symbols and the comment. *)
Theorem C70_i8080_map : forall ty zilog manual nm ops code uh uc oc rel cs ih cur m addr symbol function indent gap b rest,
  let d := i8080_dis uh uc oc rel cs ih cur None in
  In (ty, zilog, manual) [(I8080, false, map_8080); (I8085, false, map_8085); (V30EMU, false, map_v30emu);
    (I8080, true, map_z8080); (I8085, true, map_z8080); (V30EMU, true, map_z8080)] -> In (nm, ops, code) manual ->
  bytes_only m -> 0 <= addr < 65536 -> ending_functions function ->
  blanks indent -> blanks gap -> gap <> [] \/ ops = "" -> blanks b -> line_end rest ->
  (exists r, i8080_decode d ty zilog (code ++ m) addr 128 = Val r /\ i_err (r_insn r) = OK /\
     r_name r = cased uc nm /\ r_operands r = cased uc ops /\ i_code (r_insn r) = code) /\
  (exists i, i8080_encode ty zilog (i8080_asm symbol function 10) (indent ++ cased uc nm ++ gap ++ cased uc ops ++ b ++ rest) addr = Val (L_insn i rest) /\
     i_err i = OK /\ i_code i = code /\ i_addr i = addr).
Proof.
  intros ty zilog manual nm ops code uh uc oc rel cs ih cur m addr symbol function indent gap b rest d MA IN BM AR EF BI BG NG BB LE.
  assert (CK : In ty [I8080; I8085; V30EMU] /\ forallb code_ok manual = true /\ forall oc rel ih cs, let d := i8080_dis uh uc oc rel cs ih cur None in
    forallb (shows d (i8080_decodeImpl d ty zilog) addr uc) manual = true).
  { clear - MA. destruct MA as [MA|[MA|[MA|[MA|[MA|[MA|[]]]]]]]; injection MA as <- <- <-; (split; [cbn; tauto|]; split; [vm_compute; reflexivity|]; clear; intros; destruct uc; vm_compute; reflexivity). }
  destruct CK as (TY & CO & SH). destruct (code_ok_all _ _ _ _ CO IN) as (BC & NC & LC).
  split.
  - destruct (shows_all d (i8080_decodeImpl d ty zilog) addr uc manual nm ops code ltac:(cbn; lia) ltac:(cbn; lia) (SH oc rel ih cs) IN) as (r & D & E & N & O & C).
    exists r. split; [|auto]. change (i8080_decode d ty zilog code addr 128 = Val r) in D. rewrite <- C at 1.
    exact (proj2 (proj2 (C41_accepts_partial uh uc oc rel cs ih cur ty zilog code addr 128 r TY BC NC D E)) m).
  - pose (d' := i8080_dis uh uc false false false false cur None).
    destruct (shows_all d' (i8080_decodeImpl d' ty zilog) addr uc manual nm ops code ltac:(cbn; lia) ltac:(cbn; lia) (SH false false false false) IN) as (r & D & E & N & O & C).
    change (i8080_decode d' ty zilog code addr 128 = Val r) in D. rewrite <- C, <- N, <- O.
    assert (NG' : gap <> [] \/ r_operands r = []) by (destruct NG as [NG|NG]; [now left|right; rewrite O; now apply cased_nil]).
    exact (C40_round_trip uh uc false false false false cur ty zilog code addr 128 r symbol function indent gap b rest TY BC NC D E EF BI BG NG' BB LE).
Qed.
Print Assumptions C70_i8080_map.
Example C70_i8080_case : In ("MOV", "A, M", [0x7E]) map_8085 /\ exists r i, i8080_decode (i8080_dis true false false false false false 36 None) I8085 false [0x7E; 9] 0x1000 128 = Val r /\ i_err (r_insn r) = OK /\ r_operands r = s2l "a, m" /\
  i8080_encode I8085 false (i8080_asm (fun _ => None) (fun _ => None) 10) (s2l " mov   a, m ; x") 0x1000 = Val (L_insn i (s2l "; x")) /\ i_err i = OK /\ i_code i = [0x7E].
Proof. split; [vm_compute; tauto|]. do 2 eexists. repeat (split; [vm_compute; reflexivity|]). vm_compute. reflexivity. Qed.
