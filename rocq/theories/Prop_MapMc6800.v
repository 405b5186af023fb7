(** C70: the opcode map of the 6800 family. *)
From Coq Require Import String ZArith List Bool Lia.
From Verif Require Import M_Char M_Error M_Value M_Text M_StrBuffer M_Format M_Number M_Insn M_Config M_Operators
  M_Parsers M_Expr M_Directive M_Table M_Asm M_Dis M_Mc6800Defs T_Mc6800 M_Mc6800
  S_Value S_Insn S_Expr S_ExprTree S_Table S_Cpu S_Map P_CpuShape P_CpuMap Prop_Mc6800.
Import ListNotations.
Open Scope string_scope.
Open Scope list_scope.
Local Open Scope Z_scope.

(* Every instruction without numbers of the manual: its code is shown as its mnemonic and operands,
   in either letter case, at every address, with whatever follows in memory, and the line with that
   text is assembled to that code, wherever the blanks are and whatever the symbols and the comment. *)
Theorem C70_mc6800_map : forall ty manual nm ops code uh uc oc rel cs ih  m addr symbol function indent gap b rest,
  let d := mc6800_dis uh uc oc rel cs ih 42 None in
  In (ty, manual) [(MC6800, map_6800); (MB8861, map_6800); (MC6801, map_6801); (HD6301, map_6301); (MC68HC11, map_68hc11)] -> In (nm, ops, code) manual ->
  bytes_only m -> 0 <= addr < 65536 -> 
  blanks indent -> blanks gap -> gap <> [] \/ ops = "" -> blanks b -> line_end rest ->
  (exists r, mc6800_decode d ty (code ++ m) addr 128 = Val r /\ i_err (r_insn r) = OK /\
     r_name r = cased uc nm /\ r_operands r = cased uc ops /\ i_code (r_insn r) = code) /\
  (exists i, mc6800_encode ty (mc6800_asm symbol function 10) (indent ++ cased uc nm ++ gap ++ cased uc ops ++ b ++ rest) addr = Val (L_insn i rest) /\
     i_err i = OK /\ i_code i = code /\ i_addr i = addr).
Proof.
  intros ty manual nm ops code uh uc oc rel cs ih  m addr symbol function indent gap b rest d MA IN BM AR  BI BG NG BB LE.
  assert (CK : In ty [MC6800; MB8861; MC6801; HD6301; MC68HC11] /\ forallb code_ok manual = true /\ forall oc rel ih cs, let d := mc6800_dis uh uc oc rel cs ih 42 None in
    forallb (shows d (mc6800_decodeImpl d ty) addr uc) manual = true).
  { clear - MA. destruct MA as [MA|[MA|[MA|[MA|[MA|[]]]]]]; injection MA as <- <-; (split; [cbn; tauto|]; split; [vm_compute; reflexivity|]; clear; intros; destruct uc; vm_compute; reflexivity). }
  destruct CK as (TY & CO & SH). destruct (code_ok_all _ _ _ _ CO IN) as (BC & NC & LC).
  split.
  - destruct (shows_all d (mc6800_decodeImpl d ty) addr uc manual nm ops code ltac:(cbn; lia) ltac:(cbn; lia) (SH oc rel ih cs) IN) as (r & D & E & N & O & C).
    exists r. split; [|auto]. change (mc6800_decode d ty code addr 128 = Val r) in D. rewrite <- C at 1.
    exact (proj2 (proj2 (C51_accepts uh uc oc rel cs ih 42 ty code addr 128 r TY (fun _ => eq_refl) BC D E)) m BM).
  - pose (d' := mc6800_dis uh uc false false false false 42 None).
    destruct (shows_all d' (mc6800_decodeImpl d' ty) addr uc manual nm ops code ltac:(cbn; lia) ltac:(cbn; lia) (SH false false false false) IN) as (r & D & E & N & O & C).
    change (mc6800_decode d' ty code addr 128 = Val r) in D. rewrite <- C, <- N, <- O.
    assert (NG' : gap <> [] \/ r_operands r = []) by (destruct NG as [NG|NG]; [now left|right; rewrite O; now apply cased_nil]).
    exact (C50_round_trip uh uc false false false false 42 ty code addr 128 r symbol function indent gap b rest TY BC ltac:(lia) (fun _ => eq_refl) D E BI BG NG' BB LE).
Qed.
Print Assumptions C70_mc6800_map.
Example C70_mc6800_case : In ("XGDY", "", [0x18; 0x8F]) map_68hc11 /\ exists r i, mc6800_decode (mc6800_dis true false false false false false 42 None) MC68HC11 [0x18; 0x8F; 9] 0x1000 128 = Val r /\ i_err (r_insn r) = OK /\ r_operands r = s2l "" /\
  mc6800_encode MC68HC11 (mc6800_asm (fun _ => None) (fun _ => None) 10) (s2l " xgdy ; x") 0x1000 = Val (L_insn i (s2l "; x")) /\ i_err i = OK /\ i_code i = [0x18; 0x8F].
Proof. split; [vm_compute; tauto|]. do 2 eexists. repeat (split; [vm_compute; reflexivity|]). vm_compute. reflexivity. Qed.
