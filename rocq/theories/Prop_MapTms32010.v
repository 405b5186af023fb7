(** C70: the opcode map of the TMS32010 family. *)
From Coq Require Import String ZArith List Bool Lia.
From Verif Require Import M_Char M_Error M_Value M_Text M_StrBuffer M_Format M_Number M_Insn M_Config M_Operators
  M_Parsers M_Expr M_Directive M_Table M_Asm M_Dis M_Tms32010Defs T_Tms32010 M_Tms32010
  S_Value S_Insn S_Expr S_ExprTree S_Table S_Cpu S_Tms32010 S_Map P_CpuShape P_CpuMap Prop_Tms32010.
Import ListNotations.
Open Scope string_scope.
Open Scope list_scope.
Local Open Scope Z_scope.

(* Every instruction without numbers of the manual: its code is shown as its mnemonic and operands,
   in either letter case, at every address, with whatever follows in memory, and the line with that
   text is assembled to that code, wherever the blanks are and whatever the symbols and the comment. *)
Theorem C70_tms32010_map : forall ct manual nm ops code uh uc oc rel cs ih  m addr symbol function indent gap b rest,
  let d := tms32010_dis uh uc oc rel cs ih 36 None in
  In (ct, manual) [(TMS32010, map_32010); (TMS32015, map_32010)] -> In (nm, ops, code) manual ->
  bytes_only m -> 0 <= addr < 4096 -> 
  blanks indent -> blanks gap -> gap <> [] \/ ops = "" -> blanks b -> line_end rest ->
  (exists r, tms32010_decode d ct (code ++ m) addr 128 = Val r /\ i_err (r_insn r) = OK /\
     r_name r = cased uc nm /\ r_operands r = cased uc ops /\ i_code (r_insn r) = code) /\
  (exists i, tms32010_encode (tms32010_asm symbol function 10) ct (indent ++ cased uc nm ++ gap ++ cased uc ops ++ b ++ rest) addr = Val (L_insn i rest) /\
     i_err i = OK /\ i_code i = code /\ i_addr i = addr).
Proof.
  intros ct manual nm ops code uh uc oc rel cs ih  m addr symbol function indent gap b rest d MA IN BM AR  BI BG NG BB LE.
  assert (CK : (In ct tms_types /\ forallb (fun r => Nat.eqb (length (snd r)) 2) manual = true) /\ forallb code_ok manual = true /\ forall oc rel ih cs, let d := tms32010_dis uh uc oc rel cs ih 36 None in
    forallb (shows d (tms32010_decodeImpl d ct) addr uc) manual = true).
  { clear - MA. destruct MA as [MA|[MA|[]]]; injection MA as <- <-; (split; [split; [cbn; tauto|vm_compute; reflexivity]|]; split; [vm_compute; reflexivity|]; clear; intros; destruct uc; vm_compute; reflexivity). }
  destruct CK as ((TY & WL) & CO & SH). assert (NL : (2 <= length code)%nat).
  { rewrite forallb_forall in WL. specialize (WL _ IN). apply Nat.eqb_eq in WL. cbn in WL. lia. } destruct (code_ok_all _ _ _ _ CO IN) as (BC & NC & LC).
  split.
  - destruct (shows_all d (tms32010_decodeImpl d ct) addr uc manual nm ops code ltac:(cbn; lia) ltac:(cbn; lia) (SH oc rel ih cs) IN) as (r & D & E & N & O & C).
    exists r. split; [|auto]. change (tms32010_decode d ct code addr 128 = Val r) in D. rewrite <- C at 1.
    exact (proj2 (proj2 (C68_accepts_partial ct uh uc oc rel cs ih code addr 128 r TY BC NL D E)) m BM).
  - pose (d' := tms32010_dis uh uc false false false false 36 None).
    destruct (shows_all d' (tms32010_decodeImpl d' ct) addr uc manual nm ops code ltac:(cbn; lia) ltac:(cbn; lia) (SH false false false false) IN) as (r & D & E & N & O & C).
    change (tms32010_decode d' ct code addr 128 = Val r) in D. rewrite <- C, <- N, <- O.
    assert (NG' : gap <> [] \/ r_operands r = []) by (destruct NG as [NG|NG]; [now left|right; rewrite O; now apply cased_nil]).
    exact (C67_round_trip_partial ct uh uc false false false false code addr 128 r symbol function indent gap b rest TY BC NL AR ltac:(discriminate) D E BI BG NG' BB LE).
Qed.
Print Assumptions C70_tms32010_map.
Example C70_tms32010_case : In ("LAR", "AR1, *+, AR0", [0xA0; 0x39]) map_32010 /\ exists r i, tms32010_decode (tms32010_dis true false false false false false 36 None) TMS32010 [0xA0; 0x39; 9] 0x100 128 = Val r /\ i_err (r_insn r) = OK /\ r_operands r = s2l "ar1, *+, ar0" /\
  tms32010_encode (tms32010_asm (fun _ => None) (fun _ => None) 10) TMS32010 (s2l " lar  ar1, *+, ar0 ; x") 0x100 = Val (L_insn i (s2l "; x")) /\ i_err i = OK /\ i_code i = [0xA0; 0x39].
Proof. split; [vm_compute; tauto|]. do 2 eexists. repeat (split; [vm_compute; reflexivity|]). vm_compute. reflexivity. Qed.
