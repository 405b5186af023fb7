(** C79: what the assembler of the CDP1802 family accepts is an instruction. *)
From Coq Require Import String ZArith List Bool Lia.
From Verif Require Import M_Char M_Error M_Value M_Text M_StrBuffer M_Format M_Number M_Insn M_Config M_Operators
  M_Parsers M_Expr M_Directive M_Table M_Asm M_Dis M_Cdp1802Defs T_Cdp1802 M_Cdp1802
  S_Value S_Insn S_Number S_Expr S_ExprTree S_Table S_Cpu S_Cdp1802 P_Room P_CpuFine P_Cdp1802 P_Cdp1802Emit Prop_Cdp1802.
Import ListNotations.
Open Scope string_scope.
Open Scope list_scope.
Local Open Scope Z_scope.

(* Whatever the processor of the family, the line (any text), the symbols and functions, the default
   radix, the address, with or without names of registers, and whether or not the assembler chooses
   the branches itself: when the line is an instruction and there is no error, its 1 to 4 bytes,
   whatever follows them in memory, are accepted by the disassembler of the same processor at the
   same address, with every option, and it takes exactly these bytes.
   Missing: the bytes of NBR, of NLBR and of INP with a value that is no value, which are not
   instructions for the disassembler (below). *)
Theorem C79_cdp1802_emits_partial : forall ct ur uA smart symbol function radix line addr i rest uh uc oc rel cs ih cur m size,
  let d := cdp1802_dis uh uc oc rel cs ih cur None in
  In ct cdp_types -> 0 <= addr < 2^32 ->
  cdp1802_encode (cdp1802_asm symbol function radix) ct uA smart line addr = Val (L_insn i rest) -> i_err i = OK ->
  i_code i <> [0x68] -> (forall x, i_code i <> [0x38; x]) -> (forall x y, i_code i <> [0xC8; x; y]) ->
  bytes_only m -> 128 <= size ->
  i_addr i = addr /\ bytes_only (i_code i) /\ (1 <= length (i_code i) <= 4)%nat /\
  exists r, cdp1802_decode d ct ur (i_code i ++ m) addr size = Val r /\ i_err (r_insn r) = OK /\ i_code (r_insn r) = i_code i.
Proof.
  intros ct ur uA smart symbol function radix line addr i rest uh uc oc rel cs ih cur m size d T A H E N1 N2 N3 BM SZ.
  destruct (cdp1802_decodes d ct ur uA smart (cdp1802_asm symbol function radix) line addr i rest m size T eq_refl eq_refl brief_cdp1802 eq_refl A H E (conj N1 (conj N2 N3)) BM SZ) as (A1 & B & L & r & D & R).
  split; [exact A1|]. split; [exact B|]. split; [exact L|]. exists r. rewrite R. auto.
Qed.
Print Assumptions C79_cdp1802_emits_partial.
(* And the line that the disassembler shows for it is assembled to the same bytes.
   Missing: as above, and what the round trip does not have: octal numbers in the family's own
   notation and the last two addresses of the memory. *)
Theorem C79_cdp1802_normal_partial : forall ct ur uA smart symbol function radix line addr i rest uh uc oc rel cs ih m size symbol' function' indent gap b rest',
  let d := cdp1802_dis uh uc oc rel cs ih 42 None in
  In ct cdp_types -> 0 <= addr < 65534 -> (oc = true -> cs = true \/ ih = true) ->
  cdp1802_encode (cdp1802_asm symbol function radix) ct uA smart line addr = Val (L_insn i rest) -> i_err i = OK ->
  i_code i <> [0x68] -> (forall x, i_code i <> [0x38; x]) -> (forall x y, i_code i <> [0xC8; x; y]) ->
  bytes_only m -> 128 <= size -> blanks indent -> blanks gap -> gap <> [] -> blanks b -> line_end rest' ->
  exists r i', cdp1802_decode d ct ur (i_code i ++ m) addr size = Val r /\
    cdp1802_encode (cdp1802_asm symbol' function' 10) ct true false (indent ++ r_name r ++ gap ++ r_operands r ++ b ++ rest') addr = Val (L_insn i' rest') /\
    i_err i' = OK /\ i_code i' = i_code i.
Proof.
  intros ct ur uA smart symbol function radix line addr i rest uh uc oc rel cs ih m size symbol' function' indent gap b rest' d T A OC H E N1 N2 N3 BM SZ BI BG NG BB LE.
  destruct (C79_cdp1802_emits_partial ct ur uA smart symbol function radix line addr i rest uh uc oc rel cs ih 42 m size T ltac:(lia) H E N1 N2 N3 BM SZ) as (A1 & B & L & r & D & R & C).
  assert (NE : i_code i ++ m <> []) by (destruct (i_code i); [cbn in L; lia|discriminate]).
  destruct (C63_round_trip_partial ct ur true false uh uc oc rel cs ih (i_code i ++ m) addr size r symbol' function' indent gap b rest') as (i' & X & Y & Z1 & _); auto.
  - apply Forall_app. split; assumption.
  - discriminate.
  - exists r, i'. split; [exact D|]. split; [exact X|]. split; [exact Y|]. now rewrite Z1.
Qed.
Print Assumptions C79_cdp1802_normal_partial.
(* a branch written long that the assembler makes short; the disassembler has the short name *)
Example C79_cdp1802_case : exists i r, cdp1802_encode (cdp1802_asm (fun s => if Nat.eqb (length s) 4 then Some (setUnsigned 0x1012) else None) (fun _ => None) 10) CDP1802 true true (s2l "  lbz loop+3 ; x") 0x1000 = Val (L_insn i (s2l "; x")) /\
  i_err i = OK /\ i_code i = [0x32; 0x15] /\ cdp1802_decode (cdp1802_dis true true false false false false 42 None) CDP1802 true [0x32; 0x15; 7] 0x1000 128 = Val r /\
  i_err (r_insn r) = OK /\ r_name r = s2l "BZ" /\ r_operands r = s2l "X'1015'".
Proof. do 2 eexists. split; [vm_compute; reflexivity|]. split; [reflexivity|]. split; [reflexivity|]. split; [vm_compute; reflexivity|]. repeat split; reflexivity. Qed.
(* An empty pair of parentheses is read as an expression without a value, and without an error: INP
   with it is assembled to the byte 68, which is no instruction of the CDP1802 (and the first byte of
   the two-byte instructions of the others).  INP 0 is refused. *)
Theorem C79_cdp1802_no_value_refuted : exists i j r,
  cdp1802_encode (cdp1802_asm (fun _ => None) (fun _ => None) 10) CDP1802 true false (s2l " INP ()") 0x1000 = Val (L_insn i []) /\ i_err i = OK /\ i_code i = [0x68] /\
  cdp1802_decode (cdp1802_dis true true false false false false 42 None) CDP1802 true [0x68; 7] 0x1000 128 = Val r /\ i_err (r_insn r) = UNKNOWN_INSTRUCTION /\
  cdp1802_encode (cdp1802_asm (fun _ => None) (fun _ => None) 10) CDP1802 true false (s2l " INP 0") 0x1000 = Val (L_insn j []) /\ i_err j = OPERAND_NOT_ALLOWED.
Proof. do 3 eexists. repeat (split; [vm_compute; reflexivity|]). vm_compute; reflexivity. Qed.
Print Assumptions C79_cdp1802_no_value_refuted.
(* NBR and NLBR are a byte with an operand for the assembler, a byte alone for the disassembler. *)
Theorem C79_cdp1802_nbr_refuted : exists i j r q,
  cdp1802_encode (cdp1802_asm (fun _ => None) (fun _ => None) 10) CDP1802 true false (s2l " NBR X'1020'") 0x1000 = Val (L_insn i []) /\ i_err i = OK /\ i_code i = [0x38; 0x20] /\
  cdp1802_encode (cdp1802_asm (fun _ => None) (fun _ => None) 10) CDP1802 true false (s2l " NLBR X'1020'") 0x1000 = Val (L_insn j []) /\ i_err j = OK /\ i_code j = [0xC8; 0x10; 0x20] /\
  cdp1802_decode (cdp1802_dis true true false false false false 42 None) CDP1802 true [0x38; 0x20] 0x1000 128 = Val r /\ i_err (r_insn r) = OK /\ i_code (r_insn r) = [0x38] /\
  cdp1802_decode (cdp1802_dis true true false false false false 42 None) CDP1802 true [0xC8; 0x10; 0x20] 0x1000 128 = Val q /\ i_err (r_insn q) = OK /\ i_code (r_insn q) = [0xC8].
Proof. do 4 eexists. repeat (split; [vm_compute; reflexivity|]). vm_compute; reflexivity. Qed.
Print Assumptions C79_cdp1802_nbr_refuted.
