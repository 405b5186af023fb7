(** C71, C72, C73, C74: the 8051. *)
From Coq Require Import String ZArith List Bool Lia.
From Verif Require Import M_Char M_Error M_Value M_Text M_StrBuffer M_Format M_Number M_Insn M_Config M_Operators
  M_Parsers M_Expr M_Directive M_Table M_Asm M_Dis M_I8051Defs T_I8051 M_I8051
  S_Value S_Insn S_Number S_Expr S_ExprTree S_Table S_Cpu S_I8051 P_Insn P_Config P_ExprCase P_AsmText P_CpuShape P_CpuGood P_CpuText P_I8051 P_I8051Range.
Import ListNotations.
Open Scope string_scope.
Open Scope list_scope.
Local Open Scope Z_scope.

(* ------------------------------------------------------------ C71 *)
(* Whatever the disassembler accepts, in any letter case, number notation and output buffer size,
   with absolute or relative branch targets, is a line that the assembler turns back into the same
   bytes, wherever the blanks are and whatever the symbols, the functions and the comment.
   Missing: with smart branches, an LJMP or LCALL to its own block, for which the claim is false
   (below). *)
Theorem C71_round_trip_partial : forall uh uc oc rel cs ih cur smart mem addr size r symbol function indent gap b rest,
  let d := i8051_dis uh uc oc rel cs ih cur None in
  bytes_only mem -> mem <> [] -> 0 <= addr < 2^32 ->
  (rel = true -> cur = 36) ->
  i8051_decode d mem addr size = Val r -> i_err (r_insn r) = OK ->
  (smart = true -> forall c hi lo, i_code (r_insn r) = [c; hi; lo] -> c = 0x02 \/ c = 0x12 ->
     hi / 8 <> ((addr + 2) / 2048) mod 32) ->
  blanks indent -> blanks gap -> gap <> [] \/ r_operands r = [] -> blanks b -> line_end rest ->
  exists i, i8051_encode smart (i8051_asm symbol function 10)
      (indent ++ r_name r ++ gap ++ r_operands r ++ b ++ rest) addr = Val (L_insn i rest) /\
    i_err i = OK /\ i_code i = i_code (r_insn r) /\ i_addr i = addr.
Proof.
  intros uh uc oc rel cs ih cur smart mem addr size r symbol function indent gap b rest d BM NE AR CU D E SM BI BG NG BB LE.
  pose proof (i8051_reads uh uc oc rel cs ih cur CU) as RD. exists (r_insn r). split.
  { exact (i8051_round d RD smart mem addr size r (i8051_asm symbol function 10) indent gap b rest BM NE D E eq_refl eq_refl eq_refl AR BI BG NG BB LE SM). }
  destruct (i8051_accepts d RD mem addr size r BM NE D E) as (_ & o & nb & m & _ & _ & _ & RI & _). rewrite RI. auto.
Qed.
Print Assumptions C71_round_trip_partial.
(* without smart branches nothing is missing *)
Theorem C71_round_trip : forall uh uc oc rel cs ih cur mem addr size r symbol function indent gap b rest,
  let d := i8051_dis uh uc oc rel cs ih cur None in
  bytes_only mem -> mem <> [] -> 0 <= addr < 2^32 ->
  (rel = true -> cur = 36) ->
  i8051_decode d mem addr size = Val r -> i_err (r_insn r) = OK ->
  blanks indent -> blanks gap -> gap <> [] \/ r_operands r = [] -> blanks b -> line_end rest ->
  exists i, i8051_encode false (i8051_asm symbol function 10)
      (indent ++ r_name r ++ gap ++ r_operands r ++ b ++ rest) addr = Val (L_insn i rest) /\
    i_err i = OK /\ i_code i = i_code (r_insn r) /\ i_addr i = addr.
Proof.
  intros uh uc oc rel cs ih cur mem addr size r symbol function indent gap b rest d BM NE AR CU D E BI BG NG BB LE.
  apply (C71_round_trip_partial uh uc oc rel cs ih cur false mem addr size r symbol function indent gap b rest BM NE AR CU D E ltac:(discriminate) BI BG NG BB LE).
Qed.
Print Assumptions C71_round_trip.
(* a comparison with a byte, its target relative to the location; a bit *)
Example C71_case :
  exists r, i8051_decode (i8051_dis true true false true false false 36 None) [0xB7; 0xFE; 0x80; 7] 0x1000 128 = Val r /\
    i_err (r_insn r) = OK /\ r_name r = s2l "CJNE" /\ r_operands r = s2l "@R1, #0FEH, $-125" /\ i_code (r_insn r) = [0xB7; 0xFE; 0x80] /\
    exists i, i8051_encode false (i8051_asm (fun _ => None) (fun _ => None) 10) (s2l " CJNE @R1, #0FEH, $-125 ; x") 0x1000 = Val (L_insn i (s2l "; x")) /\
      i_err i = OK /\ i_code i = [0xB7; 0xFE; 0x80].
Proof.
  eexists. split; [vm_compute; reflexivity|]. do 4 (split; [reflexivity|]). eexists. split; [vm_compute; reflexivity|]. split; reflexivity.
Qed.
Example C71_case_bit :
  exists r, i8051_decode (i8051_dis false false false false true false 36 None) [0xA0; 0xD7] 0 128 = Val r /\
    i_err (r_insn r) = OK /\ r_name r = s2l "orl" /\ r_operands r = s2l "c, /0xd0.7".
Proof. eexists. split; [vm_compute; reflexivity|]. repeat split; reflexivity. Qed.
(* with smart branches, a long jump to its own block comes back as a short one *)
Theorem C71_smart_refuted : exists r i,
  i8051_decode (i8051_dis true true false false false false 36 None) [0x02; 0x10; 0x34] 0x1000 128 = Val r /\ i_err (r_insn r) = OK /\
  i_code (r_insn r) = [0x02; 0x10; 0x34] /\ r_name r = s2l "LJMP" /\ r_operands r = s2l "1034H" /\
  i8051_encode true (i8051_asm (fun _ => None) (fun _ => None) 10) (s2l "LJMP 1034H") 0x1000 = Val (L_insn i []) /\
  i_err i = OK /\ i_code i = [0x01; 0x34].
Proof. do 2 eexists. split; [vm_compute; reflexivity|]. do 4 (split; [reflexivity|]). split; [vm_compute; reflexivity|]. split; reflexivity. Qed.
Print Assumptions C71_smart_refuted.

(* ------------------------------------------------------------ C72 *)
(* Decoding always ends with an instruction or an error, and the bytes it takes are the first of
   the memory, at most 3. *)
Theorem C72_total : forall uh uc oc rel cs ih cur mem addr size,
  let d := i8051_dis uh uc oc rel cs ih cur None in
  (rel = true -> cur = 36) -> bytes_only mem ->
  exists r, i8051_decode d mem addr size = Val r /\
    exists m, mem = i_code (r_insn r) ++ m /\ (length (i_code (r_insn r)) <= 3)%nat.
Proof.
  intros uh uc oc rel cs ih cur mem addr size d CU BM. pose proof (i8051_reads uh uc oc rel cs ih cur CU) as RD.
  destruct (i8051_total d RD mem addr size BM) as (r & H). exists r. split; [exact H|].
  exact (i8051_within d RD mem addr size r BM H).
Qed.
Print Assumptions C72_total.
(* An accepted instruction has 1 to 3 bytes, and what follows them in memory does not matter.
   Missing: empty memory, for which the claim is false (below). *)
Theorem C72_accepts_partial : forall uh uc oc rel cs ih cur mem addr size r,
  let d := i8051_dis uh uc oc rel cs ih cur None in
  (rel = true -> cur = 36) -> bytes_only mem -> mem <> [] ->
  i8051_decode d mem addr size = Val r -> i_err (r_insn r) = OK ->
  (1 <= length (i_code (r_insn r)) <= 3)%nat /\ (exists m, mem = i_code (r_insn r) ++ m) /\
  forall m, bytes_only m -> i8051_decode d (i_code (r_insn r) ++ m) addr size = Val r.
Proof.
  intros uh uc oc rel cs ih cur mem addr size r d CU BM NE D E. pose proof (i8051_reads uh uc oc rel cs ih cur CU) as RD.
  destruct (i8051_accepts d RD mem addr size r BM NE D E) as (_ & o & nb & m & _ & M & L & RI & _ & X).
  rewrite RI, canon_code. split; [|split; [exists m; exact M|exact X]].
  split; [cbn; lia|exact L].
Qed.
Print Assumptions C72_accepts_partial.
Example C72_case : exists r, i8051_decode (i8051_dis false false false false false false 36 None) [0x02; 1] 0 128 = Val r /\
  i_err (r_insn r) = NO_MEMORY /\ i_code (r_insn r) = [0x02; 1].
Proof. eexists. split; [vm_compute; reflexivity|]. split; reflexivity. Qed.
(* from no memory, an instruction of no bytes: the error is forgotten when the opcode is searched *)
Theorem C72_empty_memory_refuted : exists r,
  i8051_decode (i8051_dis true true false false false false 36 None) [] 0 128 = Val r /\
  i_err (r_insn r) = OK /\ i_code (r_insn r) = [] /\ r_name r = s2l "NOP".
Proof. eexists. split; [vm_compute; reflexivity|]. repeat split; reflexivity. Qed.
Print Assumptions C72_empty_memory_refuted.
(* with a symbol table, an address that has no symbol makes the disassembler shift by -1 *)
Theorem C72_symbol_table_refuted : exists table : value -> option text,
  i8051_decode (i8051_dis false false false false false false 36 (Some table)) [0x02; 0x34; 0x12] 0 128 = UB.
Proof. exists (fun _ => None). vm_compute. reflexivity. Qed.
Print Assumptions C72_symbol_table_refuted.

(* ------------------------------------------------------------ C73 *)
(* Every instruction with numbers, and every value of them: the code is the opcode and the bytes of
   the operands in their order, and an error is reported exactly when one of the numbers is not one
   that its operand can have. *)
Theorem C73_operands : forall smart f symbol function indent gap t rest xs addr,
  In f number_forms -> 0 <= addr -> addr + form_size f <= 2^16 ->
  blanks indent -> blanks gap -> gap <> [] -> line_end rest ->
  operands_text addr symbol function (fm_operands f) t rest xs ->
  exists i, i8051_encode smart (i8051_asm symbol function 10) (indent ++ s2l (fm_name f) ++ gap ++ t) addr = Val (L_insn i rest) /\
    i_code i = fm_code f :: all_bytes_of (addr + form_size f) (fm_operands f) xs /\
    (i_err i = OK <-> all_fit (addr + form_size f) (fm_operands f) xs).
Proof.
  intros smart f symbol function indent gap t rest xs addr F A0 A1 BI BG NG LE H. pose proof forms_ok as FK. rewrite forallb_forall in FK.
  apply (form_line smart (i8051_asm symbol function 10) f indent gap t rest xs addr (FK f ltac:(apply in_or_app; now left)) eq_refl eq_refl eq_refl A0 A1 BI BG NG LE H).
  intros x I. exfalso. clear - F I. apply in_combine_l in I. assert (NT : forallb (fun f => forallb (fun o => match o with Target => false | _ => true end) (fm_operands f)) number_forms = true) by (vm_compute; reflexivity).
  rewrite forallb_forall in NT. specialize (NT f F). rewrite forallb_forall in NT. specialize (NT _ I). discriminate.
Qed.
Print Assumptions C73_operands.
Lemma plain_number F loc symbol function (t : text) n rest : is_digit (peek t) = true ->
  (forall r, token_end r -> p_number (fam_pl F) (t ++ r) 10 = (OK, n, r)) -> token_end rest -> int_value n ->
  expression F loc symbol function (t ++ rest) rest n.
Proof.
  intros DG N TE IV. exists (Num t n). split; [apply (D_num F _ t n [] rest); auto; apply Forall_nil|]. cbn. repeat split; try lia; try exact Logic.I; apply IV.
Qed.
Lemma token_case (t : text) v : (forall c, In c (0 :: 9 :: 10 :: 11 :: 12 :: 13 :: 32 :: s2l "+-*/%<>=!&|^#(),;]") -> forall r, np_intel (t ++ c :: r) 10 = (OK, v, c :: r)) ->
  np_intel t 10 = (OK, v, []) -> forall r, token_end r -> np_intel (t ++ r) 10 = (OK, v, r).
Proof.
  intros H H0 [|c r] TE; [now rewrite app_nil_r|]. cbn [token_end] in TE. apply H. destruct TE as [SP|I]; [|do 7 right; exact I].
  apply space_cases in SP. cbn. lia.
Qed.
(* the hypotheses are met: XRL 30H, #300 gives both bytes and an error *)
Example C73_case : let none := fun _ : text => @None value in let nof := fun _ : text => @None functor in
  In (mkForm "XRL" [Direct; Imm] 0x63) number_forms /\
  operands_text 0 none nof [Direct; Imm] (s2l "30H, #300") [] [Some 48; Some 300] /\
  exists i, i8051_encode false (i8051_asm none nof 10) (s2l " XRL 30H, #300") 0 = Val (L_insn i []) /\
    i_code i = [0x63; 0x30; 44] /\ i_err i = OVERFLOW_RANGE.
Proof.
  cbv zeta. split; [cbn; auto 60|]. split.
  { cbn [operands_text]. exists (s2l " "), (s2l "#300"). split; [|split; [repeat constructor|]].
    - split; [split; [cbn; intuition discriminate|]|].
      { intros n I H. cbn in I. unfold leading_word, same_name in H.
        repeat (destruct I as [<-|I]; [cbn in H; repeat (inversion H; subst; clear H; match goal with X : Forall2 _ _ _ |- _ => rename X into H end); inversion H|]). destruct I. }
      exists (setUnsigned 48). split; [|reflexivity]. apply (plain_number fam_8051 0 _ _ (s2l "30H") (setUnsigned 48)); [reflexivity| |right; cbn; auto 40|vm_compute; intuition discriminate].
      apply token_case; [|vm_compute; reflexivity]. intros c I r. cbn in I. repeat (destruct I as [<-|I]; [reflexivity|]). destruct I.
    - exists [], (s2l "300"), (setUnsigned 300). split; [reflexivity|]. split; [apply Forall_nil|]. split; [|reflexivity].
      apply (plain_number fam_8051 0 _ _ (s2l "300") (setUnsigned 300) []); [reflexivity| |exact Logic.I|vm_compute; intuition discriminate].
      apply token_case; [|vm_compute; reflexivity]. intros c I r. cbn in I. repeat (destruct I as [<-|I]; [reflexivity|]). destruct I. }
  eexists. split; [vm_compute; reflexivity|]. split; reflexivity.
Qed.
(* The branches: the last byte is the distance from the next instruction.
   Missing: targets written as numbers that 32 bits do not hold, which are cut (below). *)
Theorem C73_branches_partial : forall smart f symbol function indent gap t rest xs addr,
  In f branch_forms -> 0 <= addr -> addr + form_size f <= 2^16 ->
  blanks indent -> blanks gap -> gap <> [] -> line_end rest ->
  operands_text addr symbol function (fm_operands f) t rest xs -> targets_32 (fm_operands f) xs ->
  exists i, i8051_encode smart (i8051_asm symbol function 10) (indent ++ s2l (fm_name f) ++ gap ++ t) addr = Val (L_insn i rest) /\
    i_code i = fm_code f :: all_bytes_of (addr + form_size f) (fm_operands f) xs /\
    (i_err i = OK <-> all_fit (addr + form_size f) (fm_operands f) xs).
Proof.
  intros smart f symbol function indent gap t rest xs addr F A0 A1 BI BG NG LE H T. pose proof forms_ok as FK. rewrite forallb_forall in FK.
  exact (form_line smart (i8051_asm symbol function 10) f indent gap t rest xs addr (FK f ltac:(apply in_or_app; now right)) eq_refl eq_refl eq_refl A0 A1 BI BG NG LE H T).
Qed.
Print Assumptions C73_branches_partial.
Example C73_branches_case : In (mkForm "JNB" [Bit; Target] 0x30) branch_forms /\
  (exists i, i8051_encode false (i8051_asm (fun _ => None) (fun _ => None) 10) (s2l " JNB 20H.3, $-80H+3") 0x1000 = Val (L_insn i []) /\ i_code i = [0x30; 0x03; 0x80] /\ i_err i = OK) /\
  (exists i, i8051_encode false (i8051_asm (fun _ => None) (fun _ => None) 10) (s2l " JNB 20H.3, $-80H+2") 0x1000 = Val (L_insn i []) /\ i_code i = [0x30; 0x03; 0x7F] /\ i_err i = OPERAND_TOO_FAR).
Proof. split; [cbn; auto 60|]. split; (eexists; split; [vm_compute; reflexivity|split; reflexivity]). Qed.
(* MOV A, direct: reading the accumulator itself is refused *)
Theorem C73_load : forall smart symbol function indent gap t rest xs addr,
  0 <= addr < 2^16 -> blanks indent -> blanks gap -> gap <> [] -> line_end rest ->
  operands_text addr symbol function (fm_operands load_form) t rest xs ->
  exists x i, xs = [None; Some x] /\ i8051_encode smart (i8051_asm symbol function 10) (indent ++ s2l (fm_name load_form) ++ gap ++ t) addr = Val (L_insn i rest) /\
    i_code i = [fm_code load_form; x mod 256] /\ (i_err i = OK <-> 0 <= x <= 255 /\ x <> 0xE0).
Proof.
  intros smart symbol function indent gap t rest xs addr A BI BG NG LE H.
  exact (load_line smart (i8051_asm symbol function 10) indent gap t rest xs addr eq_refl eq_refl eq_refl A BI BG NG LE H).
Qed.
Print Assumptions C73_load.
(* MOV direct, direct: the source comes first in the code *)
Theorem C73_move : forall smart symbol function indent gap t rest xs addr,
  0 <= addr < 2^16 -> blanks indent -> blanks gap -> gap <> [] -> line_end rest ->
  operands_text addr symbol function (fm_operands move_form) t rest xs ->
  exists x y i, xs = [Some x; Some y] /\ i8051_encode smart (i8051_asm symbol function 10) (indent ++ s2l (fm_name move_form) ++ gap ++ t) addr = Val (L_insn i rest) /\
    i_code i = [fm_code move_form; y mod 256; x mod 256] /\ (i_err i = OK <-> 0 <= x <= 255 /\ 0 <= y <= 255).
Proof.
  intros smart symbol function indent gap t rest xs addr A BI BG NG LE H.
  exact (move_line smart (i8051_asm symbol function 10) indent gap t rest xs addr eq_refl eq_refl eq_refl A BI BG NG LE H).
Qed.
Print Assumptions C73_move.
Example C73_move_case :
  (exists i, i8051_encode false (i8051_asm (fun _ => None) (fun _ => None) 10) (s2l " MOV 10H, 256") 0 = Val (L_insn i []) /\ i_code i = [0x85; 0; 0x10] /\ i_err i = OVERFLOW_RANGE) /\
  (exists i, i8051_encode false (i8051_asm (fun _ => None) (fun _ => None) 10) (s2l " MOV A, 0E0H") 0 = Val (L_insn i []) /\ i_code i = [0xE5; 0xE0] /\ i_err i = OPERAND_NOT_ALLOWED).
Proof. split; (eexists; split; [vm_compute; reflexivity|split; reflexivity]). Qed.
(* A bit written with a dot, of a byte whose bits have no numbers, or a number which is not that
   of a bit: an error, and no code.
   Missing: the instructions with another operand, and addresses that 32 bits do not hold, which
   are cut (below). *)
Theorem C73_no_such_bit_partial : forall smart n symbol function indent gap u b s v rest addr,
  In n ["SETB"; "CLR"; "CPL"] -> 0 <= addr < 2^16 -> blanks indent -> blanks gap -> gap <> [] -> line_end rest ->
  numeral_8051 u b -> 0 <= b < 2^32 -> expression fam_8051 addr symbol function s rest v -> (forall x, ~ bit_number b (int_of v) x) ->
  exists i z, i8051_encode smart (i8051_asm symbol function 10) (indent ++ s2l n ++ gap ++ u ++ 46 :: s) addr = Val (L_insn i z) /\ i_code i = [] /\
    i_err i = if (0 <=? int_of v) && (int_of v <=? 7) then NOT_BIT_ADDRESSABLE else ILLEGAL_BIT_NUMBER.
Proof.
  intros smart n symbol function indent gap u b s v rest addr NN A BI BG NG LE NU BR EX NB.
  exact (bad_bit_line smart (i8051_asm symbol function 10) n indent gap u b s v rest addr NN eq_refl eq_refl eq_refl A BI BG NG LE NU BR EX NB).
Qed.
Print Assumptions C73_no_such_bit_partial.
Example C73_no_such_bit_case : (forall x, ~ bit_number 0x81 3 x) /\ (forall x, ~ bit_number 0x80 8 x) /\ bit_number 0x2F 7 0x7F /\
  exists i z, i8051_encode false (i8051_asm (fun _ => None) (fun _ => None) 10) (s2l " SETB 81H.3") 0 = Val (L_insn i z) /\ i_code i = [] /\ i_err i = NOT_BIT_ADDRESSABLE.
Proof.
  split; [intros x (_ & [?|(_ & M & _)]); [lia|discriminate M]|]. split; [intros x (? & _); lia|]. split; [unfold bit_number; lia|].
  do 2 eexists. split; [vm_compute; reflexivity|]. split; reflexivity.
Qed.
(* Only R0 and R1 are pointers: a line with @R2 to @R7 as its operand, or after A, is an error
   without code, whatever follows. *)
Theorem C73_no_such_pointer : forall smart n symbol function indent gap first r k z addr,
  In n ["MOV"; "ADD"; "ADDC"; "SUBB"; "ORL"; "ANL"; "XRL"; "INC"; "DEC"; "XCH"; "XCHD"; "MOVX"; "CJNE"] ->
  0 <= addr < 2^16 -> blanks indent -> blanks gap -> gap <> [] ->
  (first = [] \/ exists b, blanks b /\ first = s2l "A," ++ b) -> In r (s2l "Rr") -> 2 <= k <= 7 -> isNameLetter (peek z) = false ->
  exists i q, i8051_encode smart (i8051_asm symbol function 10) (indent ++ s2l n ++ gap ++ first ++ s2l "@" ++ r :: 48 + k :: z) addr = Val (L_insn i q) /\
    i_code i = [] /\ i_err i = UNKNOWN_OPERAND.
Proof.
  intros smart n symbol function indent gap first r k z addr NN A BI BG NG FI R K Z.
  exact (bad_pointer_line smart (i8051_asm symbol function 10) n indent gap first r k z addr NN eq_refl eq_refl A BI BG NG FI R K Z).
Qed.
Print Assumptions C73_no_such_pointer.
Example C73_no_such_pointer_case : (exists b, blanks b /\ s2l "A, " = s2l "A," ++ b) /\
  (exists i q, i8051_encode false (i8051_asm (fun _ => None) (fun _ => None) 10) (s2l " MOV A, @R2") 0 = Val (L_insn i q) /\ i_code i = [] /\ i_err i = UNKNOWN_OPERAND) /\
  (exists i q, i8051_encode false (i8051_asm (fun _ => None) (fun _ => None) 10) (s2l " MOV A, @R1") 0 = Val (L_insn i q) /\ i_code i = [0xE7] /\ i_err i = OK).
Proof.
  split; [exists [32]; split; [repeat constructor|reflexivity]|].
  split; (do 2 eexists; split; [vm_compute; reflexivity|split; reflexivity]).
Qed.
(* the number of a word is cut without a word *)
Theorem C73_word_refuted : exists i,
  i8051_encode false (i8051_asm (fun _ => None) (fun _ => None) 10) (s2l " MOV DPTR, #12345H") 0 = Val (L_insn i []) /\
  i_err i = OK /\ i_code i = [0x90; 0x23; 0x45].
Proof. eexists. split; [vm_compute; reflexivity|]. split; reflexivity. Qed.
Print Assumptions C73_word_refuted.
(* so are the target of a branch and the address of a bit, to 32 bits *)
Theorem C73_cut_refuted : exists i j,
  i8051_encode false (i8051_asm (fun _ => None) (fun _ => None) 10) (s2l " SJMP 100000010H") 0 = Val (L_insn i []) /\
  i_err i = OK /\ i_code i = [0x80; 0x0E] /\
  i8051_encode false (i8051_asm (fun _ => None) (fun _ => None) 10) (s2l " SETB 100000020H.1") 0 = Val (L_insn j []) /\
  i_err j = OK /\ i_code j = [0xD2; 0x01].
Proof. do 2 eexists. split; [vm_compute; reflexivity|]. do 2 (split; [reflexivity|]). split; [vm_compute; reflexivity|]. split; reflexivity. Qed.
Print Assumptions C73_cut_refuted.

(* ------------------------------------------------------------ C74 *)
(* AJMP and ACALL: three bits of the target are in the opcode, and an error is reported exactly when
   the target is not in the block of 2 kilobytes of the next instruction.
   Missing: targets that are not addresses, which are cut (below). *)
Theorem C74_short_partial : forall f symbol function indent gap t rest x addr,
  In f short_jumps -> 0 <= addr < 2^16 - 2 -> blanks indent -> blanks gap -> gap <> [] -> line_end rest ->
  operands_text addr symbol function [Target] t rest [Some x] -> 0 <= x < 2^16 ->
  exists i, i8051_encode false (i8051_asm symbol function 10) (indent ++ s2l (fst f) ++ gap ++ t) addr = Val (L_insn i rest) /\
    i_code i = [snd f + 32 * (x / 256 mod 8); x mod 256] /\ (i_err i = OK <-> same_block x (addr + 2)).
Proof.
  intros f symbol function indent gap t rest x addr F A BI BG NG LE H X.
  assert (exists call, f = (jump_name false call, short_code call)) as (call & ->) by (cbn in F; destruct F as [<-|[<-|[]]]; [exists false|exists true]; reflexivity). cbn [fst snd].
  destruct (jump_line false false call (i8051_asm symbol function 10) indent gap t rest _ addr eq_refl eq_refl eq_refl A BI BG NG LE H) as (y & i & E & EN & Q). injection E as <-.
  destruct (Q X) as (C & ER). exists i. split; [exact EN|]. split; [exact C|]. rewrite ER. unfold same_block. rewrite Z.eqb_eq. intuition discriminate.
Qed.
Print Assumptions C74_short_partial.
(* LJMP and LCALL reach every address. *)
Theorem C74_long_partial : forall f symbol function indent gap t rest x addr,
  In f long_jumps -> 0 <= addr < 2^16 - 2 -> blanks indent -> blanks gap -> gap <> [] -> line_end rest ->
  operands_text addr symbol function [Target] t rest [Some x] -> 0 <= x < 2^16 ->
  exists i, i8051_encode false (i8051_asm symbol function 10) (indent ++ s2l (fst f) ++ gap ++ t) addr = Val (L_insn i rest) /\
    i_code i = [snd f; x / 256; x mod 256] /\ i_err i = OK.
Proof.
  intros f symbol function indent gap t rest x addr F A BI BG NG LE H X.
  assert (exists call, f = (jump_name true call, long_code call)) as (call & ->) by (cbn in F; destruct F as [<-|[<-|[]]]; [exists false|exists true]; reflexivity). cbn [fst snd].
  destruct (jump_line false true call (i8051_asm symbol function 10) indent gap t rest _ addr eq_refl eq_refl eq_refl A BI BG NG LE H) as (y & i & E & EN & Q). injection E as <-.
  destruct (Q X) as (C & ER). exists i. split; [exact EN|]. split; [exact C|]. apply ER. auto.
Qed.
Print Assumptions C74_long_partial.
(* With smart branches, either form gives the short one exactly when it reaches, and the long one
   otherwise; no error. *)
Theorem C74_smart_partial : forall f g h symbol function indent gap t rest x addr,
  In (f, g) (combine short_jumps long_jumps) -> h = f \/ h = g -> 0 <= addr < 2^16 - 2 -> blanks indent -> blanks gap -> gap <> [] -> line_end rest ->
  operands_text addr symbol function [Target] t rest [Some x] -> 0 <= x < 2^16 ->
  exists i, i8051_encode true (i8051_asm symbol function 10) (indent ++ s2l (fst h) ++ gap ++ t) addr = Val (L_insn i rest) /\ i_err i = OK /\
    (same_block x (addr + 2) -> i_code i = [snd f + 32 * (x / 256 mod 8); x mod 256]) /\
    (~ same_block x (addr + 2) -> i_code i = [snd g; x / 256; x mod 256]).
Proof.
  intros f g h symbol function indent gap t rest x addr F HH A BI BG NG LE H X.
  assert (exists call, f = (jump_name false call, short_code call) /\ g = (jump_name true call, long_code call)) as (call & -> & ->).
  { cbn in F. destruct F as [E|[E|[]]]; injection E as <- <-; [exists false|exists true]; auto. }
  assert (exists long, fst h = jump_name long call) as (long & ->) by (destruct HH as [-> | ->]; eexists; reflexivity). cbn [snd].
  destruct (jump_line true long call (i8051_asm symbol function 10) indent gap t rest _ addr eq_refl eq_refl eq_refl A BI BG NG LE H) as (y & i & E & EN & Q). injection E as <-.
  destruct (Q X) as (C & ER). exists i. split; [exact EN|]. split; [apply ER; auto|]. rewrite C. unfold same_block. destruct (Z.eqb_spec (x / 2048) ((addr + 2) / 2048)); tauto.
Qed.
Print Assumptions C74_smart_partial.
Example C74_case :
  (exists i, i8051_encode true (i8051_asm (fun _ => None) (fun _ => None) 10) (s2l " LCALL 17FFH") 0x0FFE = Val (L_insn i []) /\ i_err i = OK /\ i_code i = [0xF1; 0xFF]) /\
  (exists i, i8051_encode true (i8051_asm (fun _ => None) (fun _ => None) 10) (s2l " ACALL 1800H") 0x0FFE = Val (L_insn i []) /\ i_err i = OK /\ i_code i = [0x12; 0x18; 0x00]) /\
  (exists i, i8051_encode false (i8051_asm (fun _ => None) (fun _ => None) 10) (s2l " ACALL 1800H") 0x0FFE = Val (L_insn i []) /\ i_err i = OPERAND_TOO_FAR).
Proof. split; [|split]; (eexists; split; [vm_compute; reflexivity|]); repeat split; reflexivity. Qed.
(* a target which is no address is cut to 16 bits *)
Theorem C74_cut_refuted : exists i j,
  i8051_encode false (i8051_asm (fun _ => None) (fun _ => None) 10) (s2l " AJMP 10005H") 0 = Val (L_insn i []) /\ i_err i = OK /\ i_code i = [0x01; 0x05] /\
  i8051_encode false (i8051_asm (fun _ => None) (fun _ => None) 10) (s2l " LJMP 12345H") 0 = Val (L_insn j []) /\ i_err j = OK /\ i_code j = [0x02; 0x23; 0x45].
Proof. do 2 eexists. split; [vm_compute; reflexivity|]. do 2 (split; [reflexivity|]). split; [vm_compute; reflexivity|]. split; reflexivity. Qed.
Print Assumptions C74_cut_refuted.
