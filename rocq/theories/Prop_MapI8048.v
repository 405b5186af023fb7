(** C70: the opcode map of the 8048 family. *)
From Coq Require Import String ZArith List Bool Lia.
From Verif Require Import M_Char M_Error M_Value M_Text M_StrBuffer M_Format M_Number M_Insn M_Config M_Operators
  M_Parsers M_Expr M_Directive M_Table M_Asm M_Dis M_I8048Defs T_I8048 M_I8048
  S_Value S_Insn S_Expr S_ExprTree S_Table S_Cpu S_I8048 S_Map P_CpuShape P_CpuMap Prop_I8048.
Import ListNotations.
Open Scope string_scope.
Open Scope list_scope.
Local Open Scope Z_scope.

(* Every instruction without numbers of the manual: its code is shown as its mnemonic and operands,
   in either letter case, at every address, with whatever follows in memory, and the line with that
   text is assembled to that code, wherever the blanks are and whatever the symbols and the comment. *)
Theorem C70_i8048_map : forall ty manual nm ops code uh uc oc rel cs ih cur m addr symbol function indent gap b rest,
  let d := i8048_dis uh uc oc rel cs ih cur None in
  In (ty, manual) [(I8039, map_8039); (I8048, map_8048); (I80C39, map_8039 ++ map_halt); (I80C48, map_8048 ++ map_halt);
    (MSM80C39, map_8039 ++ map_halt ++ map_oki); (MSM80C48, map_8048 ++ map_halt ++ map_oki)] -> In (nm, ops, code) manual ->
  bytes_only m -> 0 <= addr < 4096 -> 
  blanks indent -> blanks gap -> gap <> [] \/ ops = "" -> blanks b -> line_end rest ->
  (exists r, i8048_decode d ty (code ++ m) addr 128 = Val r /\ i_err (r_insn r) = OK /\
     r_name r = cased uc nm /\ r_operands r = cased uc ops /\ i_code (r_insn r) = code) /\
  (exists i, i8048_encode ty (i8048_asm symbol function 10) (indent ++ cased uc nm ++ gap ++ cased uc ops ++ b ++ rest) addr = Val (L_insn i rest) /\
     i_err i = OK /\ i_code i = code /\ i_addr i = addr).
Proof.
  intros ty manual nm ops code uh uc oc rel cs ih cur m addr symbol function indent gap b rest d MA IN BM AR  BI BG NG BB LE.
  assert (CK : In ty i8048_types /\ forallb code_ok manual = true /\ forall oc rel ih cs, let d := i8048_dis uh uc oc rel cs ih cur None in
    forallb (shows d (i8048_decodeImpl d ty) addr uc) manual = true).
  { clear - MA. destruct MA as [MA|[MA|[MA|[MA|[MA|[MA|[]]]]]]]; injection MA as <- <-; (split; [cbn; tauto|]; split; [vm_compute; reflexivity|]; clear; intros; destruct uc; vm_compute; reflexivity). }
  destruct CK as (TY & CO & SH). destruct (code_ok_all _ _ _ _ CO IN) as (BC & NC & LC).
  split.
  - destruct (shows_all d (i8048_decodeImpl d ty) addr uc manual nm ops code ltac:(cbn; lia) ltac:(cbn; lia) (SH oc rel ih cs) IN) as (r & D & E & N & O & C).
    exists r. split; [|auto]. change (i8048_decode d ty code addr 128 = Val r) in D. rewrite <- C at 1.
    exact (proj2 (proj2 (proj2 (C76_accepts_partial ty uh uc oc rel cs ih cur code addr 128 r TY BC NC ltac:(lia) D E))) m BM).
  - pose (d' := i8048_dis uh uc false false false false cur None).
    destruct (shows_all d' (i8048_decodeImpl d' ty) addr uc manual nm ops code ltac:(cbn; lia) ltac:(cbn; lia) (SH false false false false) IN) as (r & D & E & N & O & C).
    change (i8048_decode d' ty code addr 128 = Val r) in D. rewrite <- C, <- N, <- O.
    assert (NG' : gap <> [] \/ r_operands r = []) by (destruct NG as [NG|NG]; [now left|right; rewrite O; now apply cased_nil]).
    assert (L1 : addr + Z.of_nat (length (i_code (r_insn r))) <= 4096).
    { rewrite C. assert (length code = 1)%nat as ->; [|lia]. clear - MA IN. assert (Q : forallb (fun r => (length (snd r) =? 1)%nat) manual = true) by (destruct MA as [MA|[MA|[MA|[MA|[MA|[MA|[]]]]]]]; injection MA as _ <-; vm_compute; reflexivity).
      rewrite forallb_forall in Q. apply Nat.eqb_eq. exact (Q (nm, ops, code) IN). }
    exact (C75_round_trip_partial ty uh uc false false false false cur code addr 128 r symbol function indent gap b rest TY BC NC D E ltac:(lia) L1 BI BG NG' BB LE).
Qed.
Print Assumptions C70_i8048_map.
Example C70_i8048_case : In ("MOVP1", "P, @R3", [0xC3]) (map_8039 ++ map_halt ++ map_oki) /\ exists r i, i8048_decode (i8048_dis true false false false false false 36 None) MSM80C39 [0xC3; 9] 0x100 128 = Val r /\ i_err (r_insn r) = OK /\ r_operands r = s2l "p, @r3" /\
  i8048_encode MSM80C39 (i8048_asm (fun _ => None) (fun _ => None) 10) (s2l " movp1   p, @r3 ; x") 0x100 = Val (L_insn i (s2l "; x")) /\ i_err i = OK /\ i_code i = [0xC3].
Proof. split; [vm_compute; tauto|]. do 2 eexists. repeat (split; [vm_compute; reflexivity|]). vm_compute. reflexivity. Qed.
