(** C70: the opcode map of the 6502 family. *)
From Coq Require Import String ZArith List Bool Lia.
From Verif Require Import M_Char M_Error M_Value M_Text M_StrBuffer M_Format M_Number M_Insn M_Config M_Operators
  M_Parsers M_Expr M_Directive M_Table M_Asm M_Dis M_Mos6502Defs T_Mos6502 M_Mos6502
  S_Value S_Insn S_Expr S_ExprTree S_Table S_Cpu S_Map P_CpuShape P_CpuMap Prop_Mos6502.
Import ListNotations.
Open Scope string_scope.
Open Scope list_scope.
Local Open Scope Z_scope.

(* Every instruction without numbers of the manual: its code is shown as its mnemonic and operands,
   in either letter case, at every address, with whatever follows in memory, and the line with that
   text is assembled to that code, wherever the blanks are and whatever the symbols and the comment. *)
Theorem C70_mos6502_map : forall ty manual opt nm ops code uh uc oc rel cs ih  m addr st symbol function indent gap b rest,
  let d := mos6502_dis ty uh uc oc rel cs ih 42 None in
  In (ty, manual) [(MOS6502, map_6502); (G65SC02, map_65sc02); (R65C02, map_65sc02); (W65C02S, map_w65c02s); (W65C816, map_65816)] -> In (nm, ops, code) manual ->
  bytes_only m -> 0 <= addr < 2^24 -> (ty <> W65C816 -> addr < 65536) -> st_cpu st = ty -> st_longa st = (ty =? W65C816) && op_longa opt -> st_longi st = (ty =? W65C816) && op_longi opt ->
  blanks indent -> blanks gap -> gap <> [] \/ ops = "" -> blanks b -> line_end rest ->
  (exists r, mos6502_decode d ty opt (code ++ m) addr 128 = Val r /\ i_err (r_insn r) = OK /\
     r_name r = cased uc nm /\ r_operands r = cased uc ops /\ i_code (r_insn r) = code) /\
  (exists i, mos6502_encode st false (mos6502_asm ty symbol function 10) (indent ++ cased uc nm ++ gap ++ cased uc ops ++ b ++ rest) addr = Val (L_insn i rest) /\
     i_err i = OK /\ i_code i = code /\ i_addr i = addr).
Proof.
  intros ty manual opt nm ops code uh uc oc rel cs ih  m addr st symbol function indent gap b rest d MA IN BM AR AM ST SA SX BI BG NG BB LE.
  assert (CK : In ty [MOS6502; G65SC02; R65C02; W65C02S; W65C816] /\ forallb code_ok manual = true /\ forall oc rel ih cs, let d := mos6502_dis ty uh uc oc rel cs ih 42 None in
    forallb (shows d (mos6502_decodeImpl d ty opt) addr uc) manual = true).
  { clear - MA. destruct MA as [MA|[MA|[MA|[MA|[MA|[]]]]]]; injection MA as <- <-; (split; [cbn; tauto|]; split; [vm_compute; reflexivity|]; clear; intros; destruct uc; vm_compute; reflexivity). }
  destruct CK as (TY & CO & SH). assert (AW : 1 <= addressWidth ty <= 32) by (unfold addressWidth, bankModel; destruct (ty =? W65C816); lia).
  assert (A2 : 0 <= addr < 2 ^ addressWidth ty).
  { unfold addressWidth, bankModel. destruct (ty =? W65C816) eqn:W; [exact AR|]. apply Z.eqb_neq in W. specialize (AM W). change (2 ^ 16) with 65536. lia. } destruct (code_ok_all _ _ _ _ CO IN) as (BC & NC & LC).
  split.
  - destruct (shows_all d (mos6502_decodeImpl d ty opt) addr uc manual nm ops code AW A2 (SH oc rel ih cs) IN) as (r & D & E & N & O & C).
    exists r. split; [|auto]. change (mos6502_decode d ty opt code addr 128 = Val r) in D. rewrite <- C at 1.
    exact (proj2 (proj2 (C61_accepts_partial ty opt uh uc oc rel cs ih code addr 128 r TY BC NC D E)) m BM).
  - pose (d' := mos6502_dis ty uh uc false false false false 42 None).
    destruct (shows_all d' (mos6502_decodeImpl d' ty opt) addr uc manual nm ops code AW A2 (SH false false false false) IN) as (r & D & E & N & O & C).
    change (mos6502_decode d' ty opt code addr 128 = Val r) in D. rewrite <- C, <- N, <- O.
    assert (NG' : gap <> [] \/ r_operands r = []) by (destruct NG as [NG|NG]; [now left|right; rewrite O; now apply cased_nil]).
    exact (C60_round_trip_partial ty opt uh uc false false false false code addr 128 r st symbol function indent gap b rest TY ST SA SX BC NC ltac:(lia) ltac:(discriminate) D E BI BG NG' BB LE).
Qed.
Print Assumptions C70_mos6502_map.
Example C70_mos6502_case : In ("INC", "A", [0x1A]) map_65816 /\ exists r i, mos6502_decode (mos6502_dis W65C816 true false false false false false 42 None) W65C816 (mkOpt false false false) [0x1A; 9] 0x1000 128 = Val r /\ i_err (r_insn r) = OK /\ r_operands r = s2l "a" /\
  mos6502_encode (mkState W65C816 false false) false (mos6502_asm W65C816 (fun _ => None) (fun _ => None) 10) (s2l " inc  a ; x") 0x1000 = Val (L_insn i (s2l "; x")) /\ i_err i = OK /\ i_code i = [0x1A].
Proof. split; [vm_compute; tauto|]. do 2 eexists. repeat (split; [vm_compute; reflexivity|]). vm_compute. reflexivity. Qed.
