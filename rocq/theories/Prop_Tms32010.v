(** C67, C68, C69: the TMS32010 family. *)
From Coq Require Import String ZArith List Bool Lia.
From Verif Require Import M_Char M_Error M_Value M_Text M_StrBuffer M_Format M_Number M_Insn M_Config M_Operators
  M_Parsers M_Expr M_Directive M_Table M_Asm M_Dis M_Tms32010Defs T_Tms32010 M_Tms32010
  S_Value S_Insn S_Expr S_ExprTree S_Table S_Cpu S_Tms32010 P_Insn P_Config P_ExprCase P_AsmText P_CpuShape P_CpuGood P_CpuText P_CpuWord
  P_Tms32010 P_Tms32010Range.
Import ListNotations.
Open Scope string_scope.
Open Scope list_scope.
Local Open Scope Z_scope.

(* ------------------------------------------------------------ C67 *)
(* Whatever the disassembler accepts from at least one word of memory for one of the two processors,
   in any letter case and output buffer size, is a line that the assembler set to the same processor
   turns back into the same bytes, wherever the blanks are and whatever the symbols, the functions
   and the comment.
   Missing: octal numbers in the family's own notation, which are not read back (below). *)
Theorem C67_round_trip_partial : forall ct uh uc oc rel cs ih mem addr size r symbol function indent gap b rest,
  let d := tms32010_dis uh uc oc rel cs ih 36 None in
  In ct tms_types -> bytes_only mem -> (2 <= length mem)%nat -> 0 <= addr < 4096 ->
  (oc = true -> cs = true \/ ih = true) ->
  tms32010_decode d ct mem addr size = Val r -> i_err (r_insn r) = OK ->
  blanks indent -> blanks gap -> gap <> [] \/ r_operands r = [] -> blanks b -> line_end rest ->
  exists i, tms32010_encode (tms32010_asm symbol function 10) ct (indent ++ r_name r ++ gap ++ r_operands r ++ b ++ rest) addr = Val (L_insn i rest) /\
    i_err i = OK /\ i_code i = i_code (r_insn r) /\ i_addr i = addr.
Proof.
  intros ct uh uc oc rel cs ih mem addr size r symbol function indent gap b rest d CT BM NE AR OC D E BI BG NG BB LE.
  pose proof (tms32010_reads uh uc oc rel cs ih 36 (fun X => proj2 (orb_true_iff _ _) (OC X))) as RD. exists (r_insn r). split.
  { exact (tms32010_round d ct RD CT mem addr size r (tms32010_asm symbol function 10) indent gap b rest BM NE D E eq_refl eq_refl eq_refl AR BI BG NG BB LE). }
  destruct (tms32010_accepts np_intel d ct RD CT mem addr size r BM NE D E) as (_ & o & nb & m & _ & _ & _ & RI & _). rewrite RI. auto.
Qed.
Print Assumptions C67_round_trip_partial.
(* indirect addressing with a shift and the next register; a negative factor; a branch of two words *)
Example C67_case : exists r q p i,
  tms32010_decode (tms32010_dis true true false false false false 36 None) TMS32010 [0xA1; 0x5C; 9] 0x100 128 = Val r /\
    i_err (r_insn r) = OK /\ r_name r = s2l "SACH" /\ r_operands r = s2l "*+, 4, AR1" /\ i_code (r_insn r) = [0xA1; 0x5C] /\
  tms32010_decode (tms32010_dis true false false false true false 36 None) TMS32015 [0xFE; 0x9F] 0 128 = Val q /\
    i_err (r_insn q) = OK /\ r_name q = s2l "mpyk" /\ r_operands q = s2l "-2" /\
  tms32010_decode (tms32010_dis true true false false false false 36 None) TMS32010 [0; 0xF4; 0x34; 0x0A; 7] 0 128 = Val p /\
    i_err (r_insn p) = OK /\ r_name p = s2l "BANZ" /\ r_operands p = s2l "0A34H" /\ i_code (r_insn p) = [0; 0xF4; 0x34; 0x0A] /\
  tms32010_encode (tms32010_asm (fun _ => None) (fun _ => None) 10) TMS32010 (s2l " SACH *+, 4, AR1 ; x") 0x100 = Val (L_insn i (s2l "; x")) /\
    i_err i = OK /\ i_code i = [0xA1; 0x5C].
Proof. do 4 eexists. repeat (split; [vm_compute; reflexivity|]). vm_compute. reflexivity. Qed.
(* in octal, the number 100 is printed for 64, and read as 100 *)
Theorem C67_octal_refuted : exists r i,
  tms32010_decode (tms32010_dis true true true false false false 36 None) TMS32010 [64; 0x60] 0 128 = Val r /\
    i_err (r_insn r) = OK /\ i_code (r_insn r) = [64; 0x60] /\
  tms32010_encode (tms32010_asm (fun _ => None) (fun _ => None) 10) TMS32010 ([32] ++ r_name r ++ [32] ++ r_operands r) 0 = Val (L_insn i []) /\
    i_err i = OK /\ i_code i = [100; 0x60].
Proof. do 2 eexists. split; [vm_compute; reflexivity|]. repeat (split; [vm_compute; reflexivity|]). vm_compute; reflexivity. Qed.
Print Assumptions C67_octal_refuted.
(* the other way round: with direct addressing the register that is to be the next one is accepted,
   and changes the address *)
Theorem C67_next_register_refuted : exists i r,
  tms32010_encode (tms32010_asm (fun _ => None) (fun _ => None) 10) TMS32010 (s2l " ADDH 8, AR1") 0 = Val (L_insn i []) /\
    i_err i = OK /\ i_code i = [1; 0x60] /\
  tms32010_decode (tms32010_dis true true false false false false 36 None) TMS32010 (i_code i) 0 128 = Val r /\
    i_err (r_insn r) = OK /\ r_name r = s2l "ADDH" /\ r_operands r = s2l "01H".
Proof. do 2 eexists. split; [vm_compute; reflexivity|]. repeat (split; [vm_compute; reflexivity|]). vm_compute; reflexivity. Qed.
Print Assumptions C67_next_register_refuted.

(* ------------------------------------------------------------ C68 *)
(* Decoding always ends with an instruction or an error, and the bytes it takes are the first of
   the memory, at most 4. *)
Theorem C68_total : forall ct uh uc oc rel cs ih mem addr size,
  let d := tms32010_dis uh uc oc rel cs ih 36 None in
  In ct tms_types -> bytes_only mem ->
  exists r, tms32010_decode d ct mem addr size = Val r /\
    exists m, mem = i_code (r_insn r) ++ m /\ (length (i_code (r_insn r)) <= 4)%nat.
Proof.
  intros ct uh uc oc rel cs ih mem addr size d CT BM. destruct (tms32010_printed uh uc oc rel cs ih 36) as (np & RD).
  destruct (tms32010_total np d ct RD CT mem addr size BM) as (r & H). exists r. split; [exact H|].
  exact (tms32010_within np d ct RD CT mem addr size r BM H).
Qed.
Print Assumptions C68_total.
(* An accepted instruction has one word or two, and what follows them in memory does not matter.
   Missing: memory of less than one word, for which the claim is false (below). *)
Theorem C68_accepts_partial : forall ct uh uc oc rel cs ih mem addr size r,
  let d := tms32010_dis uh uc oc rel cs ih 36 None in
  In ct tms_types -> bytes_only mem -> (2 <= length mem)%nat ->
  tms32010_decode d ct mem addr size = Val r -> i_err (r_insn r) = OK ->
  (length (i_code (r_insn r)) = 2 \/ length (i_code (r_insn r)) = 4)%nat /\ (exists m, mem = i_code (r_insn r) ++ m) /\
  forall m, bytes_only m -> tms32010_decode d ct (i_code (r_insn r) ++ m) addr size = Val r.
Proof.
  intros ct uh uc oc rel cs ih mem addr size r d CT BM NE D E. destruct (tms32010_printed uh uc oc rel cs ih 36) as (np & RD).
  destruct (tms32010_accepts np d ct RD CT mem addr size r BM NE D E) as (_ & o & nb & m & O & M & _ & RI & RC & X).
  rewrite RI, canon_code. rewrite app_assoc in M. split; [|split; [exists m; exact M|]].
  - rewrite app_length. change (length (word_bytes o)) with 2%nat. destruct (chain_words np ct o _ _ _ _ CT O RC) as [->| ->]; auto.
  - intros m' BM'. rewrite <- app_assoc. exact (X m' BM').
Qed.
Print Assumptions C68_accepts_partial.
Example C68_case : exists r, tms32010_decode (tms32010_dis false false false false false false 36 None) TMS32010 [0; 0xF9; 1] 0 128 = Val r /\
  i_err (r_insn r) = NO_MEMORY /\ i_code (r_insn r) = [0; 0xF9; 1].
Proof. eexists. split; [vm_compute; reflexivity|]. split; reflexivity. Qed.
(* from no memory, an instruction of no bytes, and from one byte an instruction of one: the error is
   forgotten when the opcode is searched *)
Theorem C68_short_memory_refuted : exists r q,
  tms32010_decode (tms32010_dis true true false false false false 36 None) TMS32010 [] 0 128 = Val r /\
    i_err (r_insn r) = OK /\ i_code (r_insn r) = [] /\ r_name r = s2l "ADD" /\
  tms32010_decode (tms32010_dis true true false false false false 36 None) TMS32010 [5] 0 128 = Val q /\
    i_err (r_insn q) = OK /\ i_code (r_insn q) = [5] /\ r_name q = s2l "ADD".
Proof. do 2 eexists. repeat (split; [vm_compute; reflexivity|]). vm_compute; reflexivity. Qed.
Print Assumptions C68_short_memory_refuted.
(* with a symbol table, an address that has no symbol makes the disassembler shift by -1 *)
Theorem C68_symbol_table_refuted : exists table : value -> option text,
  tms32010_decode (tms32010_dis false false false false false false 36 (Some table)) TMS32010 [0; 0xF9; 0x34; 2] 0 128 = UB.
Proof. exists (fun _ => None). vm_compute. reflexivity. Qed.
Print Assumptions C68_symbol_table_refuted.

(* ------------------------------------------------------------ C69 *)
(* An instruction with one number: an error is reported exactly when the number is not in its range,
   and otherwise the words are those of the manual.
   Missing: numbers that are cut before they are looked at, which are accepted (below). *)
Theorem C69_one_number_partial : forall ct name opcode kind symbol function indent gap b0 s rest v addr,
  In ct tms_types -> In (name, opcode, kind) one_forms ->
  blanks indent -> blanks gap -> gap <> [] -> blanks b0 -> 0 <= addr < 4096 -> starts_number s -> line_end rest ->
  expression fam_32010 addr symbol function s rest v -> uncut kind (int_of v) ->
  exists i, tms32010_encode (tms32010_asm symbol function 10) ct (indent ++ s2l name ++ gap ++ b0 ++ s) addr = Val (L_insn i rest) /\
    (i_err i = OK <-> in_range ct kind (int_of v)) /\
    (in_range ct kind (int_of v) -> i_code i = in_bytes (opcode + part_of_word kind (int_of v) :: next_words kind (int_of v))).
Proof.
  intros ct nm opc k symbol function indent gap b0 s rest v addr CT F BI BG NG B0 A SN LE (e & D & W & VS & OS & V & IV) U.
  exact (one_line symbol function indent gap b0 e s rest v addr ct CT BI BG NG B0 A D W VS OS V SN IV nm opc k F LE U).
Qed.
Print Assumptions C69_one_number_partial.
(* An instruction with two numbers. *)
Theorem C69_two_numbers_partial : forall ct name opcode kind1 kind2 symbol function indent gap b0 s v b1 s2 rest w addr,
  In ct tms_types -> In (name, opcode, kind1, kind2) two_forms ->
  blanks indent -> blanks gap -> gap <> [] -> blanks b0 -> blanks b1 -> 0 <= addr < 4096 -> starts_number s -> starts_number s2 -> line_end rest ->
  expression fam_32010 addr symbol function s (44 :: b1 ++ s2) v -> expression fam_32010 addr symbol function s2 rest w ->
  uncut kind1 (int_of v) -> uncut kind2 (int_of w) ->
  exists i, tms32010_encode (tms32010_asm symbol function 10) ct (indent ++ s2l name ++ gap ++ b0 ++ s) addr = Val (L_insn i rest) /\
    (i_err i = OK <-> in_range ct kind1 (int_of v) /\ in_range ct kind2 (int_of w)) /\
    (in_range ct kind1 (int_of v) -> in_range ct kind2 (int_of w) ->
     i_code i = in_bytes [opcode + part_of_word kind1 (int_of v) + part_of_word kind2 (int_of w)]).
Proof.
  intros ct nm opc k1 k2 symbol function indent gap b0 s v b1 s2 rest w addr CT F BI BG NG B0 B1 A SN SN2 LE (e & D & W & VS & OS & V & IV) (e2 & D2 & W2 & VS2 & OS2 & V2 & IW) U U2.
  exact (two_line symbol function indent gap b0 e s (44 :: b1 ++ s2) v addr ct CT BI BG NG B0 A D W VS OS V SN IV nm opc k1 k2 b1 e2 s2 rest w F U U2 eq_refl B1 D2 W2 VS2 OS2 V2 SN2 IW LE).
Qed.
Print Assumptions C69_two_numbers_partial.
(* the hypotheses are met: LACK MASK *)
Example C69_hypotheses : let symbol n := if list_eq_dec Z.eq_dec n (s2l "MASK") then Some (setUnsigned 200) else None in
  In ("LACK", 0x7E00, Num_byte) one_forms /\ starts_number (s2l "MASK") /\
  expression fam_32010 0x100 symbol (fun _ => None) (s2l "MASK") [] (setUnsigned 200) /\ uncut Num_byte (int_of (setUnsigned 200)) /\
  exists i, tms32010_encode (tms32010_asm symbol (fun _ => None) 10) TMS32010 (s2l " LACK MASK") 0x100 = Val (L_insn i []) /\
    i_err i = OK /\ i_code i = [200; 0x7E].
Proof.
  cbv zeta. split; [cbn; auto 50|]. split.
  { split; [cbn; repeat split; discriminate|]. intros (c & d & n & z & E & C & _). injection E as <- <- _. destruct C as [([C|C] & _)|([C|C] & _)]; discriminate. }
  split.
  { exists (Sym (s2l "MASK") (setUnsigned 200)). split.
    { apply (D_sym fam_32010 _ (s2l "MASK") _ [] []); [cbn; auto| |reflexivity|reflexivity|reflexivity|reflexivity|apply Forall_nil|exact Logic.I].
      intros [(d & D & E & _)|K]; [|cbn in K; intuition discriminate].
      cbn in D. repeat (destruct D as [<-|D]; [discriminate E|]). destruct D. }
    split; [exact Logic.I|]. split; [cbn; lia|]. split; [cbn; lia|]. split; [reflexivity|]. vm_compute; intuition discriminate. }
  split; [unfold uncut; vm_compute; intuition discriminate|].
  eexists. split; [vm_compute; reflexivity|]. split; reflexivity.
Qed.
Example C69_case : exists i j k l m n,
  tms32010_encode (tms32010_asm (fun _ => None) (fun _ => None) 10) TMS32010 (s2l " LACK 256") 0 = Val (L_insn i []) /\ i_err i = OPERAND_NOT_ALLOWED /\
  tms32010_encode (tms32010_asm (fun _ => None) (fun _ => None) 10) TMS32010 (s2l " MPYK -4097") 0 = Val (L_insn j []) /\ i_err j = OVERFLOW_RANGE /\
  tms32010_encode (tms32010_asm (fun _ => None) (fun _ => None) 10) TMS32010 (s2l " ADD 144 ; x") 0 = Val (L_insn k (s2l "; x")) /\ i_err k = OVERFLOW_RANGE /\
  tms32010_encode (tms32010_asm (fun _ => None) (fun _ => None) 10) TMS32015 (s2l " ADD 144, 4+4 ; x") 0 = Val (L_insn l (s2l "; x")) /\ i_err l = OK /\ i_code l = [16; 8] /\
  tms32010_encode (tms32010_asm (fun _ => None) (fun _ => None) 10) TMS32010 (s2l " SACH 5, 3") 0 = Val (L_insn m []) /\ i_err m = OPERAND_NOT_ALLOWED /\
  tms32010_encode (tms32010_asm (fun _ => None) (fun _ => None) 10) TMS32010 (s2l " CALL 0FFFH") 0 = Val (L_insn n []) /\ i_err n = OK /\ i_code n = [0; 0xF8; 0xFF; 0x0F].
Proof. do 6 eexists. repeat (split; [vm_compute; reflexivity|]). vm_compute; reflexivity. Qed.
(* numbers of more than 16 bits are cut, and then fit *)
Theorem C69_cut_refuted : exists i j k,
  tms32010_encode (tms32010_asm (fun _ => None) (fun _ => None) 10) TMS32010 (s2l " LACK 10005H") 0 = Val (L_insn i []) /\ i_err i = OK /\ i_code i = [5; 0x7E] /\
  tms32010_encode (tms32010_asm (fun _ => None) (fun _ => None) 10) TMS32010 (s2l " ADD 3, 10001H") 0 = Val (L_insn j []) /\ i_err j = OK /\ i_code j = [3; 1] /\
  tms32010_encode (tms32010_asm (fun _ => None) (fun _ => None) 10) TMS32010 (s2l " ADD 100000003H") 0 = Val (L_insn k []) /\ i_err k = OK /\ i_code k = [3; 0].
Proof. do 3 eexists. repeat (split; [vm_compute; reflexivity|]). vm_compute; reflexivity. Qed.
Print Assumptions C69_cut_refuted.
