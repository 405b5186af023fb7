(** C40, C41, C42: the 8080, 8085 and V30 8080 emulation. *)
From Coq Require Import String ZArith List Bool Lia.
From Verif Require Import M_Char M_Error M_Value M_Text M_StrBuffer M_Format M_Number M_Insn M_Config M_Operators
  M_Parsers M_Expr M_Directive M_Table M_Asm M_Dis M_I8080Defs T_I8080 M_I8080
  S_Value S_Insn S_Expr S_ExprTree S_Table S_Cpu S_I8080 P_Insn P_Config P_ExprCase P_AsmText P_CpuShape P_I8080 P_I8080Range.
Import ListNotations.
Open Scope string_scope.
Open Scope list_scope.
Local Open Scope Z_scope.

(* ------------------------------------------------------------ C40 *)
(* Whatever the disassembler accepts, in any letter case, number notation and output buffer size,
   is a line that the assembler turns back into the same bytes, wherever the blanks are and
   whatever the symbols and the comment. *)
Theorem C40_round_trip : forall uh uc oc rel cs ih cur ty zilog mem addr size r symbol function indent gap b rest,
  let d := i8080_dis uh uc oc rel cs ih cur None in
  In ty [I8080; I8085; V30EMU] -> bytes_only mem -> mem <> [] ->
  i8080_decode d ty zilog mem addr size = Val r -> i_err (r_insn r) = OK ->
  ending_functions function -> blanks indent -> blanks gap -> gap <> [] \/ r_operands r = [] -> blanks b -> line_end rest ->
  exists i, i8080_encode ty zilog (i8080_asm symbol function 10)
      (indent ++ r_name r ++ gap ++ r_operands r ++ b ++ rest) addr = Val (L_insn i rest) /\
    i_err i = OK /\ i_code i = i_code (r_insn r) /\ i_addr i = addr.
Proof.
  intros uh uc oc rel cs ih cur ty zilog mem addr size r symbol function indent gap b rest d T BM NE D E EF BI BG NG BB LE.
  destruct (i8080_round d ty zilog mem addr size r (i8080_asm symbol function 10) indent gap b rest
    (i8080_reads uh uc oc rel cs ih cur) T BM NE D E eq_refl eq_refl eq_refl EF BI BG NG BB LE) as (_ & bs & _ & _ & _ & R & _ & H).
  exists (canon addr bs). rewrite R. auto.
Qed.
Print Assumptions C40_round_trip.
Example C40_case :
  exists r, i8080_decode (i8080_dis false false false false false false 36 None) I8080 true [0x3A; 0xCD; 0xAB; 0] 0x1000 128 = Val r /\
    i_err (r_insn r) = OK /\ r_name r = s2l "ld" /\ r_operands r = s2l "a, (0abcdh)" /\ i_code (r_insn r) = [0x3A; 0xCD; 0xAB] /\
    exists i, i8080_encode I8080 true (i8080_asm (fun _ => None) (fun _ => None) 10) (s2l "  ld a, (0abcdh) ; x") 0x1000 = Val (L_insn i (s2l "; x")) /\
      i_code i = [0x3A; 0xCD; 0xAB].
Proof. eexists. split; [vm_compute; reflexivity|]. repeat split; try reflexivity. eexists. split; vm_compute; reflexivity. Qed.
Example C40_case_V30 :
  exists r, i8080_decode (i8080_dis true true false false true false 36 None) V30EMU false [0xED; 0xED; 0xFE; 1] 0 128 = Val r /\
    i_err (r_insn r) = OK /\ r_name r = s2l "CALLN" /\ r_operands r = s2l "0xFE".
Proof. eexists. split; [vm_compute; reflexivity|]. repeat split; reflexivity. Qed.

(* ------------------------------------------------------------ C41 *)
(* Decoding always ends with an instruction or an error, and the bytes it takes are the first of
   the memory, at most 3. *)
Theorem C41_total : forall uh uc oc rel cs ih cur ty zilog mem addr size,
  let d := i8080_dis uh uc oc rel cs ih cur None in
  In ty [I8080; I8085; V30EMU] -> bytes_only mem ->
  exists r, i8080_decode d ty zilog mem addr size = Val r /\
    exists m, mem = i_code (r_insn r) ++ m /\ (length (i_code (r_insn r)) <= 3)%nat.
Proof.
  intros uh uc oc rel cs ih cur ty zilog mem addr size d T BM.
  destruct (i8080_total d ty zilog mem addr size eq_refl T BM) as (r & H). exists r. split; [exact H|].
  exact (i8080_within _ _ _ _ _ _ _ T BM H).
Qed.
Print Assumptions C41_total.
(* An accepted instruction has 1 to 3 bytes, and what follows them in memory does not matter.
   Missing: empty memory, for which the claim is false (below). *)
Theorem C41_accepts_partial : forall uh uc oc rel cs ih cur ty zilog mem addr size r,
  let d := i8080_dis uh uc oc rel cs ih cur None in
  In ty [I8080; I8085; V30EMU] -> bytes_only mem -> mem <> [] ->
  i8080_decode d ty zilog mem addr size = Val r -> i_err (r_insn r) = OK ->
  (1 <= length (i_code (r_insn r)) <= 3)%nat /\ (exists m, mem = i_code (r_insn r) ++ m) /\
  forall m, i8080_decode d ty zilog (i_code (r_insn r) ++ m) addr size = Val r.
Proof.
  intros uh uc oc rel cs ih cur ty zilog mem addr size r d T BM NE D E.
  destruct (i8080_consumes d ty zilog mem addr size r (i8080_reads uh uc oc rel cs ih cur) T BM NE D E) as (bs & m & M & L & R & X).
  rewrite R, canon_code. split; [exact L|]. split; [now exists m|exact X].
Qed.
Print Assumptions C41_accepts_partial.
Example C41_case : exists r, i8080_decode (i8080_dis false false false false false false 36 None) I8085 false [0xC3; 1] 0 128 = Val r /\
  i_err (r_insn r) = NO_MEMORY /\ i_code (r_insn r) = [0xC3; 1].
Proof. eexists. split; [vm_compute; reflexivity|]. split; reflexivity. Qed.
(* with no memory at all a NOP of 0 bytes is accepted *)
Theorem C41_empty_memory_refuted : exists r,
  i8080_decode (i8080_dis false false false false false false 36 None) I8080 false [] 0x1000 128 = Val r /\
  i_err (r_insn r) = OK /\ i_code (r_insn r) = [] /\ r_name r = s2l "nop".
Proof. eexists. split; [vm_compute; reflexivity|]. repeat split; reflexivity. Qed.
Print Assumptions C41_empty_memory_refuted.
(* with a symbol table, an address that has no symbol makes the disassembler shift by -1 *)
Theorem C41_symbol_table_refuted : exists table : value -> option text,
  i8080_decode (i8080_dis false false false false false false 36 (Some table)) I8080 false [0xC3; 0x34; 0x12] 0 128 = UB.
Proof. exists (fun _ => None). vm_compute. reflexivity. Qed.
Print Assumptions C41_symbol_table_refuted.

(* ------------------------------------------------------------ C42 *)
(* [e] is the tree of the text [s], an expression of value [v], followed by [rest] *)
(* The instructions with a byte: the byte is the value modulo 256, and an error is reported exactly
   when the value is not one of a signed or unsigned byte (of a port for IN and OUT). *)
Theorem C42_byte_operand : forall ty f symbol function indent gap b0 e s rest v addr,
  In ty [I8080; I8085; V30EMU] -> In f (byte_forms ++ port_forms) -> ending_functions function ->
  blanks indent -> blanks gap -> gap <> [] -> blanks b0 -> 0 <= addr < 2^16 -> starts_number (fm_zilog f) s ->
  derives fam_8080 (mkC addr symbol function 0) e s rest -> well_nested e -> value_slots e <= 8 -> operator_slots e <= 8 ->
  line_end rest -> value_of e = Val (OK, v) -> int_value v ->
  exists i, i8080_encode ty (fm_zilog f) (i8080_asm symbol function 10)
      (indent ++ s2l (fm_name f) ++ gap ++ first_text f ++ b0 ++ s) addr = Val (L_insn i rest) /\
    i_code i = [fm_opc f; int_of v mod 256] /\
    (In f byte_forms -> i_err i = if (-128 <=? int_of v) && (int_of v <=? 255) then OK else OVERFLOW_RANGE) /\
    (In f port_forms -> i_err i = if (0 <=? int_of v) && (int_of v <=? 255) then OK else OVERFLOW_RANGE).
Proof.
  intros ty f symbol function indent gap b0 e s rest v addr T F EF BI BG NG B0 A. apply range_byte; auto.
  apply (proj1 (C31_addr 16 addr false ltac:(lia) ltac:(lia))). split; [exact (proj2 A)|discriminate].
Qed.
Print Assumptions C42_byte_operand.
(* The instructions with a word: the bytes are exact and no error is reported, whatever the value.
   Missing: values outside -32768..65535 are not reported (below). *)
Theorem C42_word_operand_partial : forall ty f symbol function indent gap b0 e s rest v addr,
  In ty [I8080; I8085; V30EMU] -> In f word_forms -> ending_functions function ->
  blanks indent -> blanks gap -> gap <> [] -> blanks b0 -> 0 <= addr < 2^16 -> starts_number (fm_zilog f) s ->
  derives fam_8080 (mkC addr symbol function 0) e s rest -> well_nested e -> value_slots e <= 8 -> operator_slots e <= 8 ->
  line_end rest -> value_of e = Val (OK, v) -> int_value v ->
  exists i, i8080_encode ty (fm_zilog f) (i8080_asm symbol function 10)
      (indent ++ s2l (fm_name f) ++ gap ++ first_text f ++ b0 ++ s) addr = Val (L_insn i rest) /\
    i_code i = [fm_opc f; int_of v mod 256; int_of v / 256 mod 256] /\ i_err i = OK.
Proof.
  intros ty f symbol function indent gap b0 e s rest v addr T F EF BI BG NG B0 A. apply range_word; auto.
  apply (proj1 (C31_addr 16 addr false ltac:(lia) ltac:(lia))). split; [exact (proj2 A)|discriminate].
Qed.
Print Assumptions C42_word_operand_partial.
Theorem C42_word_refuted : exists i,
  i8080_encode I8080 false (i8080_asm (fun _ => None) (fun _ => None) 10) (s2l " LXI H,12345H") 0 = Val (L_insn i []) /\
  i_err i = OK /\ i_code i = [0x21; 0x45; 0x23].
Proof. eexists. split; [vm_compute; reflexivity|]. split; reflexivity. Qed.
Print Assumptions C42_word_refuted.
(* the hypotheses are met: MVI H,LIMIT *)
Example C42_case : let symbol n := if list_eq_dec Z.eq_dec n (s2l "LIMIT") then Some (setUnsigned 256) else None in
  let e := Sym (s2l "LIMIT") (setUnsigned 256) in
  In (mkForm false "MVI" "H" 0x26) byte_forms /\ starts_number false (s2l "LIMIT") /\
  derives fam_8080 (mkC 0 symbol (fun _ => None) 0) e (s2l "LIMIT") [] /\ well_nested e /\
  value_slots e <= 8 /\ operator_slots e <= 8 /\ value_of e = Val (OK, setUnsigned 256) /\ int_value (setUnsigned 256) /\
  exists i, i8080_encode I8080 false (i8080_asm symbol (fun _ => None) 10) (s2l " MVI H,LIMIT") 0 = Val (L_insn i []) /\
    i_err i = OVERFLOW_RANGE /\ i_code i = [0x26; 0].
Proof.
  cbv zeta. split; [cbn; auto 10|]. split.
  { split; [repeat split; discriminate|]. intros n I H. cbn in I. unfold leading_word, same_name in H.
    repeat (destruct I as [<-|I]; [cbn in H; repeat (inversion H; subst; clear H; match goal with X : Forall2 _ _ _ |- _ => rename X into H end); inversion H|]). destruct I. }
  split.
  { apply (D_sym fam_8080 _ (s2l "LIMIT") _ [] []); [cbn; auto| |reflexivity|reflexivity|reflexivity|reflexivity|apply Forall_nil|exact Logic.I].
    intros [(d & D & E & _)|K]; [|cbn in K; intuition discriminate].
    cbn in D. repeat (destruct D as [<-|D]; [discriminate E|]). destruct D. }
  split; [exact Logic.I|]. split; [cbn; lia|]. split; [cbn; lia|]. split; [reflexivity|]. split; [vm_compute; intuition discriminate|].
  eexists. split; [vm_compute; reflexivity|]. split; reflexivity.
Qed.
