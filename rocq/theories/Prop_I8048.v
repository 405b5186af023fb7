(** C75, C76, C77: the 8048 family. *)
From Coq Require Import String ZArith List Bool Lia.
From Verif Require Import M_Char M_Error M_Value M_Text M_StrBuffer M_Format M_Number M_Insn M_Config M_Operators
  M_Parsers M_Expr M_Directive M_Table M_Asm M_Dis M_I8048Defs T_I8048 M_I8048
  S_Value S_Insn S_Number S_Expr S_ExprTree S_Table S_Cpu S_I8048 P_Insn P_Config P_ExprCase P_AsmText P_CpuShape P_CpuGood P_CpuText P_I8048 P_I8048Range.
Import ListNotations.
Open Scope string_scope.
Open Scope list_scope.
Local Open Scope Z_scope.

(* ------------------------------------------------------------ C75 *)
(* Whatever the disassembler accepts, on every processor of the family, in any letter case, number
   notation and output buffer size, is a line that the assembler turns back into the same bytes,
   wherever the blanks are and whatever the symbols, the functions and the comment.
   Missing: an instruction that runs over the end of the 4096 bytes of memory, for which the claim
   is false (below). *)
Theorem C75_round_trip_partial : forall ty uh uc oc rel cs ih cur mem addr size r symbol function indent gap b rest,
  let d := i8048_dis uh uc oc rel cs ih cur None in
  In ty i8048_types -> bytes_only mem -> mem <> [] ->
  i8048_decode d ty mem addr size = Val r -> i_err (r_insn r) = OK ->
  0 <= addr -> addr + Z.of_nat (length (i_code (r_insn r))) <= 4096 ->
  blanks indent -> blanks gap -> gap <> [] \/ r_operands r = [] -> blanks b -> line_end rest ->
  exists i, i8048_encode ty (i8048_asm symbol function 10)
      (indent ++ r_name r ++ gap ++ r_operands r ++ b ++ rest) addr = Val (L_insn i rest) /\
    i_err i = OK /\ i_code i = i_code (r_insn r) /\ i_addr i = addr.
Proof.
  intros ty uh uc oc rel cs ih cur mem addr size r symbol function indent gap b rest d TY BM NE D E A0 A1 BI BG NG BB LE.
  pose proof (i8048_reads uh uc oc rel cs ih cur) as RD. exists (r_insn r). split.
  { exact (i8048_round d ty RD TY mem addr size r (i8048_asm symbol function 10) indent gap b rest BM NE D E eq_refl eq_refl eq_refl ltac:(lia) A1 BI BG NG BB LE). }
  destruct (i8048_accepts d ty RD TY mem addr size r BM NE D E) as (_ & o & nb & m & _ & _ & _ & RI & _). rewrite RI. auto.
Qed.
Print Assumptions C75_round_trip_partial.
(* a branch on a bit, at the end of a page; an instruction of the OKI processors *)
Example C75_case :
  (exists r, i8048_decode (i8048_dis true true false false false false 36 None) I8048 [0x72; 5; 9] 0x3FF 128 = Val r /\
    i_err (r_insn r) = OK /\ r_name r = s2l "JB" /\ r_operands r = s2l "3, 405H" /\ i_code (r_insn r) = [0x72; 5] /\
    exists i, i8048_encode I8048 (i8048_asm (fun _ => None) (fun _ => None) 10) (s2l " JB 3, 405H ; x") 0x3FF = Val (L_insn i (s2l "; x")) /\
      i_err i = OK /\ i_code i = [0x72; 5]) /\
  (exists r, i8048_decode (i8048_dis true false false false true false 36 None) MSM80C39 [0xE1; 7] 0x10 128 = Val r /\
    i_err (r_insn r) = OK /\ r_name r = s2l "djnz" /\ r_operands r = s2l "@r1, 0x007") /\
  (exists r, i8048_decode (i8048_dis true false false false true false 36 None) I80C39 [0xE1; 7] 0x10 128 = Val r /\ i_err (r_insn r) = UNKNOWN_INSTRUCTION).
Proof.
  split; [|split].
  - eexists. split; [vm_compute; reflexivity|]. do 4 (split; [reflexivity|]). eexists. split; [vm_compute; reflexivity|]. split; reflexivity.
  - eexists. split; [vm_compute; reflexivity|]. repeat split; reflexivity.
  - eexists. split; [vm_compute; reflexivity|]. reflexivity.
Qed.
(* a branch in the last byte of the memory: its page is shown as page 0, which the assembler refuses *)
Theorem C75_end_refuted : exists r i,
  i8048_decode (i8048_dis true true false false false false 36 None) I8048 [0xF6; 5] 0xFFF 128 = Val r /\ i_err (r_insn r) = OK /\
  r_name r = s2l "JC" /\ r_operands r = s2l "005H" /\
  i8048_encode I8048 (i8048_asm (fun _ => None) (fun _ => None) 10) (s2l "JC 005H") 0xFFF = Val (L_insn i []) /\ i_err i = OPERAND_TOO_FAR.
Proof. do 2 eexists. split; [vm_compute; reflexivity|]. do 3 (split; [reflexivity|]). split; [vm_compute; reflexivity|]. reflexivity. Qed.
Print Assumptions C75_end_refuted.

(* ------------------------------------------------------------ C76 *)
(* Decoding always ends with an instruction or an error, and the bytes it takes are the first of
   the memory, at most 2. *)
Theorem C76_total : forall ty uh uc oc rel cs ih cur mem addr size,
  let d := i8048_dis uh uc oc rel cs ih cur None in
  In ty i8048_types -> bytes_only mem ->
  exists r, i8048_decode d ty mem addr size = Val r /\
    exists m, mem = i_code (r_insn r) ++ m /\ (length (i_code (r_insn r)) <= 2)%nat.
Proof.
  intros ty uh uc oc rel cs ih cur mem addr size d TY BM. pose proof (i8048_reads uh uc oc rel cs ih cur) as RD.
  destruct (i8048_total d ty RD TY mem addr size BM) as (r & H). exists r. split; [exact H|].
  exact (i8048_within d ty RD TY mem addr size r BM H).
Qed.
Print Assumptions C76_total.
(* An accepted instruction has 1 or 2 bytes, lies in the memory, and what follows it does not
   matter.  Missing: empty memory, for which the claim is false (below). *)
Theorem C76_accepts_partial : forall ty uh uc oc rel cs ih cur mem addr size r,
  let d := i8048_dis uh uc oc rel cs ih cur None in
  In ty i8048_types -> bytes_only mem -> mem <> [] -> 0 <= addr < 2^32 ->
  i8048_decode d ty mem addr size = Val r -> i_err (r_insn r) = OK ->
  (1 <= length (i_code (r_insn r)) <= 2)%nat /\ addr < 4096 /\ (exists m, mem = i_code (r_insn r) ++ m) /\
  forall m, bytes_only m -> i8048_decode d ty (i_code (r_insn r) ++ m) addr size = Val r.
Proof.
  intros ty uh uc oc rel cs ih cur mem addr size r d TY BM NE AR D E. pose proof (i8048_reads uh uc oc rel cs ih cur) as RD.
  destruct (i8048_accepts d ty RD TY mem addr size r BM NE D E) as (CA & o & nb & m & _ & M & L & RI & _ & X).
  rewrite RI, canon_code. split; [split; [cbn; lia|exact L]|]. split; [|split; [exists m; exact M|exact X]].
  pose proof (C31_addr 12 addr false ltac:(lia) ltac:(lia)) as Q. apply Q in CA. change (2^12) with 4096 in CA. lia.
Qed.
Print Assumptions C76_accepts_partial.
Example C76_case : (exists r, i8048_decode (i8048_dis false false false false false false 36 None) I8048 [0x04] 0 128 = Val r /\
  i_err (r_insn r) = NO_MEMORY /\ i_code (r_insn r) = [0x04]) /\
  exists r, i8048_decode (i8048_dis false false false false false false 36 None) I8048 [0x04; 5] 4096 128 = Val r /\ i_err (r_insn r) = OVERFLOW_RANGE.
Proof. split; eexists; (split; [vm_compute; reflexivity|]); [split; reflexivity|reflexivity]. Qed.
(* from no memory, an instruction of no bytes: the error is forgotten when the opcode is searched *)
Theorem C76_empty_memory_refuted : exists r,
  i8048_decode (i8048_dis true true false false false false 36 None) I8048 [] 0 128 = Val r /\
  i_err (r_insn r) = OK /\ i_code (r_insn r) = [] /\ r_name r = s2l "NOP".
Proof. eexists. split; [vm_compute; reflexivity|]. repeat split; reflexivity. Qed.
Print Assumptions C76_empty_memory_refuted.
(* with a symbol table, an address that has no symbol makes the disassembler shift by -1 *)
Theorem C76_symbol_table_refuted : exists table : value -> option text,
  i8048_decode (i8048_dis false false false false false false 36 (Some table)) I8048 [0xF6; 0x34] 0 128 = UB.
Proof. exists (fun _ => None). vm_compute. reflexivity. Qed.
Print Assumptions C76_symbol_table_refuted.

(* ------------------------------------------------------------ C77 *)
(* The instructions with a byte, and every value of it: the code is the opcode and the byte, and
   an error is reported exactly when the number is not one of a byte. *)
Theorem C77_bytes : forall ty f symbol function indent gap t rest xs addr,
  In ty i8048_types -> In f (byte_forms ty) -> 0 <= addr -> addr + 2 <= 4096 ->
  blanks indent -> blanks gap -> gap <> [] -> line_end rest ->
  operands_text addr symbol function (fm_operands f) t rest xs ->
  exists i, i8048_encode ty (i8048_asm symbol function 10) (indent ++ s2l (fm_name f) ++ gap ++ t) addr = Val (L_insn i rest) /\
    i_code i = form_bytes f xs /\ (i_err i = OK <-> all_fit addr (fm_operands f) xs).
Proof.
  intros ty f symbol function indent gap t rest xs addr TY F A0 A1 BI BG NG LE H. pose proof forms_ok as FK. rewrite forallb_forall in FK. specialize (FK ty TY). rewrite forallb_forall in FK.
  apply (form_line ty (i8048_asm symbol function 10) f indent gap t rest xs addr (FK f ltac:(apply in_or_app; now left)) eq_refl eq_refl eq_refl ltac:(lia) BI BG NG LE H).
  assert (NT : forallb (fun ty => forallb (fun f => forallb (fun o => match o with Page | Far => false | _ => true end) (fm_operands f)) (byte_forms ty)) i8048_types = true) by (vm_compute; reflexivity).
  rewrite forallb_forall in NT. specialize (NT ty TY). rewrite forallb_forall in NT. specialize (NT f F). rewrite forallb_forall in NT.
  split; intros x I; apply in_combine_l in I; specialize (NT _ I); discriminate.
Qed.
Print Assumptions C77_bytes.
(* The branches and jumps, and every target: a branch has the low byte of its target, a jump three
   more bits in the opcode, and JB the number of the bit; an error is reported exactly when a branch
   leaves the page of its second byte, a jump leaves the memory, or the bit has no such number.
   Missing: targets of branches that 16 bits and targets of jumps that 32 bits do not hold, which
   are cut (below). *)
Theorem C77_targets_partial : forall ty f symbol function indent gap t rest xs addr,
  In ty i8048_types -> In f (page_forms ty ++ far_forms) -> 0 <= addr -> addr + 2 <= 4096 ->
  blanks indent -> blanks gap -> gap <> [] -> line_end rest ->
  operands_text addr symbol function (fm_operands f) t rest xs -> targets_held (fm_operands f) xs ->
  exists i, i8048_encode ty (i8048_asm symbol function 10) (indent ++ s2l (fm_name f) ++ gap ++ t) addr = Val (L_insn i rest) /\
    i_code i = form_bytes f xs /\ (i_err i = OK <-> all_fit addr (fm_operands f) xs).
Proof.
  intros ty f symbol function indent gap t rest xs addr TY F A0 A1 BI BG NG LE H T. pose proof forms_ok as FK. rewrite forallb_forall in FK. specialize (FK ty TY). rewrite forallb_forall in FK.
  exact (form_line ty (i8048_asm symbol function 10) f indent gap t rest xs addr (FK f ltac:(apply in_or_app; now right)) eq_refl eq_refl eq_refl ltac:(lia) BI BG NG LE H T).
Qed.
Print Assumptions C77_targets_partial.
Lemma plain_number F loc symbol function (t : text) n rest : is_digit (peek t) = true ->
  (forall r, token_end r -> p_number (fam_pl F) (t ++ r) 10 = (OK, n, r)) -> token_end rest -> int_value n ->
  expression F loc symbol function (t ++ rest) rest n.
Proof.
  intros DG N TE IV. exists (Num t n). split; [apply (D_num F _ t n [] rest); auto; apply Forall_nil|]. cbn. repeat split; try lia; try exact Logic.I; apply IV.
Qed.
Lemma token_case (t : text) v : (forall c, In c (0 :: 9 :: 10 :: 11 :: 12 :: 13 :: 32 :: s2l "+-*/%<>=!&|^#(),;]") -> forall r, np_intel (t ++ c :: r) 10 = (OK, v, c :: r)) ->
  np_intel t 10 = (OK, v, []) -> forall r, token_end r -> np_intel (t ++ r) 10 = (OK, v, r).
Proof.
  intros H H0 [|c r] TE; [now rewrite app_nil_r|]. cbn [token_end] in TE. apply H. destruct TE as [SP|I]; [|do 7 right; exact I].
  apply space_cases in SP. cbn. lia.
Qed.
(* the hypotheses are met: a byte of 300 for the bus, which only some of the processors have *)
Example C77_bytes_case : let none := fun _ : text => @None value in let nof := fun _ : text => @None functor in
  In (mkForm "ORL" [Reg "BUS"; Imm] 0x88) (byte_forms I8048) /\
  operands_text 0 none nof [Reg "BUS"; Imm] (s2l "BUS, #300") [] [None; Some 300] /\
  (exists i, i8048_encode I8048 (i8048_asm none nof 10) (s2l " ORL BUS, #300") 0 = Val (L_insn i []) /\ i_code i = [0x88; 44] /\ i_err i = OVERFLOW_RANGE) /\
  (exists i, i8048_encode I8039 (i8048_asm none nof 10) (s2l " ORL BUS, #30") 0 = Val (L_insn i []) /\ i_code i = [] /\ i_err i = OPERAND_NOT_ALLOWED).
Proof.
  cbv zeta. split; [vm_compute; tauto|]. split.
  { cbn [operands_text]. exists (s2l " "), (s2l "#300"). split; [|split; [repeat constructor|]].
    - split; [reflexivity|]. exists []. split; [reflexivity|apply Forall_nil].
    - exists [], (s2l "300"), (setUnsigned 300). split; [reflexivity|]. split; [apply Forall_nil|]. split; [|reflexivity].
      apply (plain_number fam_8048 0 _ _ (s2l "300") (setUnsigned 300) []); [reflexivity| |exact Logic.I|vm_compute; intuition discriminate].
      apply token_case; [|vm_compute; reflexivity]. intros c I r. cbn in I. repeat (destruct I as [<-|I]; [reflexivity|]). destruct I. }
  split; (eexists; split; [vm_compute; reflexivity|]); split; reflexivity.
Qed.
Example C77_targets_case :
  In (mkForm "JB" [BitNo; Page] 0x12) (page_forms I8048) /\
  (exists i, i8048_encode I8048 (i8048_asm (fun _ => None) (fun _ => None) 10) (s2l " JB 7, 3FEH") 0x2FF = Val (L_insn i []) /\ i_code i = [0xF2; 0xFE] /\ i_err i = OK) /\
  (exists i, i8048_encode I8048 (i8048_asm (fun _ => None) (fun _ => None) 10) (s2l " JB 7, 2FEH") 0x2FF = Val (L_insn i []) /\ i_code i = [0xF2; 0xFE] /\ i_err i = OPERAND_TOO_FAR) /\
  (exists i, i8048_encode I8048 (i8048_asm (fun _ => None) (fun _ => None) 10) (s2l " JB 8, 3FEH") 0x2FF = Val (L_insn i []) /\ i_code i = [0x12; 0xFE] /\ i_err i = ILLEGAL_BIT_NUMBER) /\
  (exists i, i8048_encode I8048 (i8048_asm (fun _ => None) (fun _ => None) 10) (s2l " CALL 7FFH") 0 = Val (L_insn i []) /\ i_code i = [0xF4; 0xFF] /\ i_err i = OK) /\
  (exists i, i8048_encode I8048 (i8048_asm (fun _ => None) (fun _ => None) 10) (s2l " CALL 1000H") 0 = Val (L_insn i []) /\ i_code i = [0x14; 0x00] /\ i_err i = OVERFLOW_RANGE) /\
  operands_text 0x2FF (fun _ => None) (fun _ => None) [BitNo; Page] (s2l "7,1022") [] [Some 7; Some 1022] /\ targets_held [BitNo; Page] [Some 7; Some 1022].
Proof.
  split; [vm_compute; tauto|]. do 5 (split; [eexists; split; [vm_compute; reflexivity|split; reflexivity]|]).
  split.
  { cbn [operands_text]. exists [], (s2l "1022"). split; [|split; [apply Forall_nil|]].
    - split. { split; [cbn; intuition discriminate|]. intros n I H. cbn in I. unfold leading_word, same_name in H.
        repeat (destruct I as [<-|I]; [cbn in H; inversion H as [|? ? ? ? Q]; subst; unfold same_letter in Q; lia|]). destruct I. }
      exists (setUnsigned 7). split; [|reflexivity]. apply (plain_number fam_8048 _ _ _ (s2l "7") (setUnsigned 7)); [reflexivity| |right; cbn; auto 40|vm_compute; intuition discriminate].
      apply token_case; [|vm_compute; reflexivity]. intros c I r. cbn in I. repeat (destruct I as [<-|I]; [reflexivity|]). destruct I.
    - split. { split; [cbn; intuition discriminate|]. intros n I H. cbn in I. unfold leading_word, same_name in H.
        repeat (destruct I as [<-|I]; [cbn in H; inversion H as [|? ? ? ? Q]; subst; unfold same_letter in Q; lia|]). destruct I. }
      exists (setUnsigned 1022). split; [|reflexivity]. apply (plain_number fam_8048 _ _ _ (s2l "1022") (setUnsigned 1022) []); [reflexivity| |exact Logic.I|vm_compute; intuition discriminate].
      apply token_case; [|vm_compute; reflexivity]. intros c I r. cbn in I. repeat (destruct I as [<-|I]; [reflexivity|]). destruct I. }
  split; intros x I; cbn in I; repeat (destruct I as [I|I]; [try discriminate; injection I as <-; lia|]); destruct I.
Qed.
(* a target that 16 bits do not hold is cut for a branch, one that 32 bits do not hold for a jump *)
Theorem C77_cut_refuted : exists i j,
  i8048_encode I8048 (i8048_asm (fun _ => None) (fun _ => None) 10) (s2l " JC 10005H") 0 = Val (L_insn i []) /\ i_err i = OK /\ i_code i = [0xF6; 0x05] /\
  i8048_encode I8048 (i8048_asm (fun _ => None) (fun _ => None) 10) (s2l " JMP 100000005H") 0 = Val (L_insn j []) /\ i_err j = OK /\ i_code j = [0x04; 0x05].
Proof. do 2 eexists. split; [vm_compute; reflexivity|]. do 2 (split; [reflexivity|]). split; [vm_compute; reflexivity|]. split; reflexivity. Qed.
Print Assumptions C77_cut_refuted.
