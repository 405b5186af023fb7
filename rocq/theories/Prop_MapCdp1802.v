(** C70: the opcode map of the CDP1802 family. *)
From Coq Require Import String ZArith List Bool Lia.
From Verif Require Import M_Char M_Error M_Value M_Text M_StrBuffer M_Format M_Number M_Insn M_Config M_Operators
  M_Parsers M_Expr M_Directive M_Table M_Asm M_Dis M_Cdp1802Defs T_Cdp1802 M_Cdp1802
  S_Value S_Insn S_Expr S_ExprTree S_Table S_Cpu S_Cdp1802 S_Map P_CpuShape P_CpuMap Prop_Cdp1802.
Import ListNotations.
Open Scope string_scope.
Open Scope list_scope.
Local Open Scope Z_scope.

(* Every instruction without numbers of the manual: its code is shown as its mnemonic and operands,
   in either letter case, at every address, with whatever follows in memory, and the line with that
   text is assembled to that code, wherever the blanks are and whatever the symbols and the comment. *)
Theorem C70_cdp1802_map : forall ct ur manual nm ops code uh uc oc rel cs ih  m addr uA smart symbol function indent gap b rest,
  let d := cdp1802_dis uh uc oc rel cs ih 42 None in
  In (ct, manual) [(CDP1802, map_1802_names); (CDP1804, map_1804_names); (CDP1804A, map_1804a_names)] \/
    ur = true /\ In (ct, manual) [(CDP1802, map_1802_registers); (CDP1804, map_1804_registers); (CDP1804A, map_1804_registers)] -> In (nm, ops, code) manual ->
  bytes_only m -> 0 <= addr < 65534 -> (ur = true -> uA = true) ->
  blanks indent -> blanks gap -> gap <> [] \/ ops = "" -> blanks b -> line_end rest ->
  (exists r, cdp1802_decode d ct ur (code ++ m) addr 128 = Val r /\ i_err (r_insn r) = OK /\
     r_name r = cased uc nm /\ r_operands r = cased uc ops /\ i_code (r_insn r) = code) /\
  (exists i, cdp1802_encode (cdp1802_asm symbol function 10) ct uA smart (indent ++ cased uc nm ++ gap ++ cased uc ops ++ b ++ rest) addr = Val (L_insn i rest) /\
     i_err i = OK /\ i_code i = code /\ i_addr i = addr).
Proof.
  intros ct ur manual nm ops code uh uc oc rel cs ih  m addr uA smart symbol function indent gap b rest d MA IN BM AR UA BI BG NG BB LE.
  assert (CK : In ct cdp_types /\ forallb code_ok manual = true /\ forall oc rel ih cs, let d := cdp1802_dis uh uc oc rel cs ih 42 None in
    forallb (shows d (cdp1802_decodeImpl d ct ur) addr uc) manual = true).
  { clear - MA. destruct MA as [[MA|[MA|[MA|[]]]]|(-> & [MA|[MA|[MA|[]]]])]; injection MA as <- <-; (split; [cbn; tauto|]; split; [vm_compute; reflexivity|]; clear; intros; destruct uc; vm_compute; reflexivity). }
  destruct CK as (TY & CO & SH). destruct (code_ok_all _ _ _ _ CO IN) as (BC & NC & LC).
  split.
  - destruct (shows_all d (cdp1802_decodeImpl d ct ur) addr uc manual nm ops code ltac:(cbn; lia) ltac:(cbn; lia) (SH oc rel ih cs) IN) as (r & D & E & N & O & C).
    exists r. split; [|auto]. change (cdp1802_decode d ct ur code addr 128 = Val r) in D. rewrite <- C at 1.
    exact (proj2 (proj2 (C64_accepts_partial ct ur uh uc oc rel cs ih code addr 128 r TY BC NC D E)) m BM).
  - pose (d' := cdp1802_dis uh uc false false false false 42 None).
    destruct (shows_all d' (cdp1802_decodeImpl d' ct ur) addr uc manual nm ops code ltac:(cbn; lia) ltac:(cbn; lia) (SH false false false false) IN) as (r & D & E & N & O & C).
    change (cdp1802_decode d' ct ur code addr 128 = Val r) in D. rewrite <- C, <- N, <- O.
    assert (NG' : gap <> [] \/ r_operands r = []) by (destruct NG as [NG|NG]; [now left|right; rewrite O; now apply cased_nil]).
    assert (SM : smart = true -> forall c hi lo, i_code (r_insn r) = [c; hi; lo] -> 0xC0 <= c < 0xD0 -> hi <> (addr + 2) / 256).
    { intros _ c hi lo H. rewrite C in H. rewrite H in LC. cbn in LC. lia. }
    exact (C63_round_trip_partial ct ur uA smart uh uc false false false false code addr 128 r symbol function indent gap b rest TY UA BC NC AR ltac:(discriminate) D E SM BI BG NG' BB LE).
Qed.
Print Assumptions C70_cdp1802_map.
Example C70_cdp1802_case : In ("RNX", "R12", [0x68; 0xBC]) map_1804_registers /\ exists r i, cdp1802_decode (cdp1802_dis true false false false false false 42 None) CDP1804 true [0x68; 0xBC; 9] 0x1000 128 = Val r /\ i_err (r_insn r) = OK /\ r_operands r = s2l "r12" /\
  cdp1802_encode (cdp1802_asm (fun _ => None) (fun _ => None) 10) CDP1804 true false (s2l " rnx  r12 ; x") 0x1000 = Val (L_insn i (s2l "; x")) /\ i_err i = OK /\ i_code i = [0x68; 0xBC].
Proof. split; [vm_compute; tauto|]. do 2 eexists. repeat (split; [vm_compute; reflexivity|]). vm_compute. reflexivity. Qed.
