(** C70: the opcode map of the 8051. *)
From Coq Require Import String ZArith List Bool Lia.
From Verif Require Import M_Char M_Error M_Value M_Text M_StrBuffer M_Format M_Number M_Insn M_Config M_Operators
  M_Parsers M_Expr M_Directive M_Table M_Asm M_Dis M_I8051Defs T_I8051 M_I8051
  S_Value S_Insn S_Expr S_ExprTree S_Table S_Cpu S_Map P_CpuShape P_CpuMap Prop_I8051.
Import ListNotations.
Open Scope string_scope.
Open Scope list_scope.
Local Open Scope Z_scope.

(* Every instruction without numbers of the manual: its code is shown as its mnemonic and operands,
   in either letter case, at every address, with whatever follows in memory, and the line with that
   text is assembled to that code, wherever the blanks are and whatever the symbols and the comment. *)
Theorem C70_i8051_map : forall manual nm ops code uh uc oc rel cs ih  m addr smart symbol function indent gap b rest,
  let d := i8051_dis uh uc oc rel cs ih 36 None in
  manual = map_8051 -> In (nm, ops, code) manual ->
  bytes_only m -> 0 <= addr < 65536 -> 
  blanks indent -> blanks gap -> gap <> [] \/ ops = "" -> blanks b -> line_end rest ->
  (exists r, i8051_decode d  (code ++ m) addr 128 = Val r /\ i_err (r_insn r) = OK /\
     r_name r = cased uc nm /\ r_operands r = cased uc ops /\ i_code (r_insn r) = code) /\
  (exists i, i8051_encode smart (i8051_asm symbol function 10) (indent ++ cased uc nm ++ gap ++ cased uc ops ++ b ++ rest) addr = Val (L_insn i rest) /\
     i_err i = OK /\ i_code i = code /\ i_addr i = addr).
Proof.
  intros manual nm ops code uh uc oc rel cs ih  m addr smart symbol function indent gap b rest d MA IN BM AR  BI BG NG BB LE.
  assert (CK : True /\ forallb code_ok manual = true /\ forall oc rel ih cs, let d := i8051_dis uh uc oc rel cs ih 36 None in
    forallb (shows d (i8051_decodeImpl d ) addr uc) manual = true).
  { clear - MA. subst manual; (split; [cbn; tauto|]; split; [vm_compute; reflexivity|]; clear; intros; destruct uc; vm_compute; reflexivity). }
  destruct CK as (TY & CO & SH). destruct (code_ok_all _ _ _ _ CO IN) as (BC & NC & LC).
  split.
  - destruct (shows_all d (i8051_decodeImpl d ) addr uc manual nm ops code ltac:(cbn; lia) ltac:(cbn; lia) (SH oc rel ih cs) IN) as (r & D & E & N & O & C).
    exists r. split; [|auto]. change (i8051_decode d  code addr 128 = Val r) in D. rewrite <- C at 1.
    exact (proj2 (proj2 (C72_accepts_partial uh uc oc rel cs ih 36 code addr 128 r (fun _ => eq_refl) BC NC D E)) m BM).
  - pose (d' := i8051_dis uh uc false false false false 36 None).
    destruct (shows_all d' (i8051_decodeImpl d' ) addr uc manual nm ops code ltac:(cbn; lia) ltac:(cbn; lia) (SH false false false false) IN) as (r & D & E & N & O & C).
    change (i8051_decode d'  code addr 128 = Val r) in D. rewrite <- C, <- N, <- O.
    assert (NG' : gap <> [] \/ r_operands r = []) by (destruct NG as [NG|NG]; [now left|right; rewrite O; now apply cased_nil]).
    assert (SM : smart = true -> forall c hi lo, i_code (r_insn r) = [c; hi; lo] -> c = 0x02 \/ c = 0x12 -> hi / 8 <> ((addr + 2) / 2048) mod 32).
    { intros _ c hi lo H. rewrite C in H. rewrite H in LC. cbn in LC. lia. }
    exact (C71_round_trip_partial uh uc false false false false 36 smart code addr 128 r symbol function indent gap b rest BC NC ltac:(lia) (fun _ => eq_refl) D E SM BI BG NG' BB LE).
Qed.
Print Assumptions C70_i8051_map.
Example C70_i8051_case : In ("MOVC", "A, @A+PC", [0x83]) map_8051 /\ exists r i, i8051_decode (i8051_dis true false false false false false 36 None) [0x83; 9] 0x1000 128 = Val r /\ i_err (r_insn r) = OK /\ r_operands r = s2l "a, @a+pc" /\
  i8051_encode false (i8051_asm (fun _ => None) (fun _ => None) 10) (s2l " movc   a, @a+pc ; x") 0x1000 = Val (L_insn i (s2l "; x")) /\ i_err i = OK /\ i_code i = [0x83].
Proof. split; [vm_compute; tauto|]. do 2 eexists. repeat (split; [vm_compute; reflexivity|]). vm_compute. reflexivity. Qed.
