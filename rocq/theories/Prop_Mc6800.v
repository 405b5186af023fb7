(** C50, C51, C52: the 6800, MB8861, 6801, 6301 and 68HC11. *)
From Coq Require Import String ZArith List Bool Lia.
From Verif Require Import M_Char M_Error M_Value M_Text M_StrBuffer M_Format M_Number M_Insn M_Config M_Operators
  M_Parsers M_Expr M_Directive M_Table M_Asm M_Dis M_Mc6800Defs T_Mc6800 M_Mc6800
  S_Value S_Insn S_Expr S_ExprTree S_Table S_Cpu S_Mc6800 P_Insn P_Config P_ExprCase P_AsmText P_CpuShape P_CpuGood P_Mc6800 P_Mc6800Range.
Import ListNotations.
Open Scope string_scope.
Open Scope list_scope.
Local Open Scope Z_scope.

(* ------------------------------------------------------------ C50 *)
(* Whatever the disassembler accepts, in any letter case, number notation and output buffer size,
   with absolute or relative branch targets, is a line that the assembler turns back into the same
   bytes, wherever the blanks are and whatever the symbols, the functions and the comment. *)
Theorem C50_round_trip : forall uh uc oc rel cs ih cur ty mem addr size r symbol function indent gap b rest,
  let d := mc6800_dis uh uc oc rel cs ih cur None in
  In ty [MC6800; MB8861; MC6801; HD6301; MC68HC11] -> bytes_only mem -> 0 <= addr < 2^32 ->
  (rel = true -> cur = 42) ->
  mc6800_decode d ty mem addr size = Val r -> i_err (r_insn r) = OK ->
  blanks indent -> blanks gap -> gap <> [] \/ r_operands r = [] -> blanks b -> line_end rest ->
  exists i, mc6800_encode ty (mc6800_asm symbol function 10)
      (indent ++ r_name r ++ gap ++ r_operands r ++ b ++ rest) addr = Val (L_insn i rest) /\
    i_err i = OK /\ i_code i = i_code (r_insn r) /\ i_addr i = addr.
Proof.
  intros uh uc oc rel cs ih cur ty mem addr size r symbol function indent gap b rest d T BM AR CU D E BI BG NG BB LE.
  pose proof (mc6800_reads uh uc oc rel cs ih cur CU) as RD.
  assert (NE : mem <> []) by (intros ->; exact (mc6800_empty d ty RD T addr size r D E)). exists (r_insn r). split.
  { exact (mc6800_round d ty RD T mem addr size r (mc6800_asm symbol function 10) indent gap b rest BM NE D E eq_refl eq_refl eq_refl AR BI BG NG BB LE). }
  destruct (mc6800_accepts d ty RD T mem addr size r BM NE D E) as (_ & p & o & nb & m & _ & _ & _ & _ & _ & RI & _). rewrite RI. auto.
Qed.
Print Assumptions C50_round_trip.
(* a bit branch of the 68HC11 with a prefix and three operands, its target relative to the location *)
Example C50_case :
  exists r, mc6800_decode (mc6800_dis true true false true false false 42 None) MC68HC11 [0x18; 0x1E; 0x12; 0x80; 0xFB; 7] 0x1000 128 = Val r /\
    i_err (r_insn r) = OK /\ r_name r = s2l "BRSET" /\ r_operands r = s2l "18,Y, #$80, *" /\ i_code (r_insn r) = [0x18; 0x1E; 0x12; 0x80; 0xFB] /\
    exists i, mc6800_encode MC68HC11 (mc6800_asm (fun _ => None) (fun _ => None) 10) (s2l " BRSET 18,Y, #$80, * ; x") 0x1000 = Val (L_insn i (s2l "; x")) /\
      i_code i = [0x18; 0x1E; 0x12; 0x80; 0xFB].
Proof. eexists. split; [vm_compute; reflexivity|]. repeat split; try reflexivity. eexists. split; vm_compute; reflexivity. Qed.
Example C50_case_6301 :
  exists r, mc6800_decode (mc6800_dis false false false false true false 42 None) HD6301 [0x71; 0xFE; 0x90] 0 128 = Val r /\
    i_err (r_insn r) = OK /\ r_name r = s2l "bclr" /\ r_operands r = s2l "0, 0x90".
Proof. eexists. split; [vm_compute; reflexivity|]. repeat split; reflexivity. Qed.
(* the options must agree: with a location symbol that the assembler does not know *)
Theorem C50_location_symbol_refuted : exists r,
  mc6800_decode (mc6800_dis true true false true false false 36 None) MC6800 [0x20; 0xFE] 0x1000 128 = Val r /\
  i_err (r_insn r) = OK /\ r_operands r = s2l "$" /\
  exists i rest, mc6800_encode MC6800 (mc6800_asm (fun _ => None) (fun _ => None) 10) (s2l " BRA $") 0x1000 = Val (L_insn i rest) /\ i_err i <> OK.
Proof.
  eexists. split; [vm_compute; reflexivity|]. split; [reflexivity|]. split; [reflexivity|].
  eexists. eexists. split; [vm_compute; reflexivity|]. discriminate.
Qed.
Print Assumptions C50_location_symbol_refuted.

(* ------------------------------------------------------------ C51 *)
(* Decoding always ends with an instruction or an error, and the bytes it takes are the first of
   the memory, at most 5. *)
Theorem C51_total : forall uh uc oc rel cs ih cur ty mem addr size,
  let d := mc6800_dis uh uc oc rel cs ih cur None in
  In ty [MC6800; MB8861; MC6801; HD6301; MC68HC11] -> (rel = true -> cur = 42) -> bytes_only mem ->
  exists r, mc6800_decode d ty mem addr size = Val r /\
    exists m, mem = i_code (r_insn r) ++ m /\ (length (i_code (r_insn r)) <= 5)%nat.
Proof.
  intros uh uc oc rel cs ih cur ty mem addr size d T CU BM. pose proof (mc6800_reads uh uc oc rel cs ih cur CU) as RD.
  destruct (mc6800_total d ty RD T mem addr size BM) as (r & H). exists r. split; [exact H|].
  exact (mc6800_within d ty RD T mem addr size r BM H).
Qed.
Print Assumptions C51_total.
(* An accepted instruction has 1 to 5 bytes, and what follows them in memory does not matter. *)
Theorem C51_accepts : forall uh uc oc rel cs ih cur ty mem addr size r,
  let d := mc6800_dis uh uc oc rel cs ih cur None in
  In ty [MC6800; MB8861; MC6801; HD6301; MC68HC11] -> (rel = true -> cur = 42) -> bytes_only mem ->
  mc6800_decode d ty mem addr size = Val r -> i_err (r_insn r) = OK ->
  (1 <= length (i_code (r_insn r)) <= 5)%nat /\ (exists m, mem = i_code (r_insn r) ++ m) /\
  forall m, bytes_only m -> mc6800_decode d ty (i_code (r_insn r) ++ m) addr size = Val r.
Proof.
  intros uh uc oc rel cs ih cur ty mem addr size r d T CU BM D E. pose proof (mc6800_reads uh uc oc rel cs ih cur CU) as RD.
  assert (NE : mem <> []) by (intros ->; exact (mc6800_empty d ty RD T addr size r D E)).
  destruct (mc6800_accepts d ty RD T mem addr size r BM NE D E) as (_ & p & o & nb & m & _ & _ & _ & M & L & RI & _ & X).
  rewrite RI, canon_code. split; [|split; [exists m; now rewrite <- app_assoc|intros m' BM'; rewrite <- app_assoc; now apply X]].
  split; [|exact L]. unfold opcode_bytes. rewrite !app_length. cbn. lia.
Qed.
Print Assumptions C51_accepts.
Example C51_case : exists r, mc6800_decode (mc6800_dis false false false false false false 42 None) MC6801 [0xBD; 1] 0 128 = Val r /\
  i_err (r_insn r) = NO_MEMORY /\ i_code (r_insn r) = [0xBD; 1].
Proof. eexists. split; [vm_compute; reflexivity|]. split; reflexivity. Qed.
(* with a symbol table, an address that has no symbol makes the disassembler shift by -1 *)
Theorem C51_symbol_table_refuted : exists table : value -> option text,
  mc6800_decode (mc6800_dis false false false false false false 42 (Some table)) MC6800 [0x7E; 0x34; 0x12] 0 128 = UB.
Proof. exists (fun _ => None). vm_compute. reflexivity. Qed.
Print Assumptions C51_symbol_table_refuted.

(* ------------------------------------------------------------ C52 *)
(* [e] is the tree of the text [s], an expression of value [v], followed by [rest] *)
(* A branch: the byte is the distance from the end of the instruction, and an error is reported
   exactly when the target is not an address within -128..127 of there. *)
Theorem C52_branch : forall ty f symbol function indent gap b0 e s rest v addr,
  In ty [MC6800; MB8861; MC6801; HD6301; MC68HC11] -> In f branch_forms ->
  blanks indent -> blanks gap -> gap <> [] -> blanks b0 -> 0 <= addr <= 65534 -> starts_address s ->
  derives fam_6800 (mkC addr symbol function 0) e s rest -> well_nested e -> value_slots e <= 8 -> operator_slots e <= 8 ->
  line_end rest -> value_of e = Val (OK, v) -> int_value v -> 0 <= int_of v < 2^32 ->
  exists i, mc6800_encode ty (mc6800_asm symbol function 10) (indent ++ s2l (fst f) ++ gap ++ b0 ++ s) addr = Val (L_insn i rest) /\
    i_code i = [snd f; (int_of v - (addr + 2)) mod 256] /\
    (i_err i = OK <-> int_of v < 65536 /\ -128 <= int_of v - (addr + 2) <= 127).
Proof.
  intros ty f symbol function indent gap b0 e s rest v addr T F BI BG NG B0 A SA D W VS OS LE V IV R.
  destruct (range_branch ty f symbol function indent gap b0 e s rest v addr T BI BG NG B0 ltac:(lia) W VS OS V IV LE D F SA ltac:(lia)) as (i & E & C & X).
  rewrite Z.mod_small in X by exact R. exists i. auto.
Qed.
Print Assumptions C52_branch.
(* the hypotheses are met: BNE LOOP *)
Example C52_branch_case : let symbol n := if list_eq_dec Z.eq_dec n (s2l "LOOP") then Some (setUnsigned 0xF82) else None in
  let e := Sym (s2l "LOOP") (setUnsigned 0xF82) in
  In ("BNE", 0x26) branch_forms /\ starts_address (s2l "LOOP") /\
  derives fam_6800 (mkC 0x1000 symbol (fun _ => None) 0) e (s2l "LOOP") [] /\ well_nested e /\
  value_slots e <= 8 /\ operator_slots e <= 8 /\ value_of e = Val (OK, setUnsigned 0xF82) /\ int_value (setUnsigned 0xF82) /\
  exists i, mc6800_encode MC6800 (mc6800_asm symbol (fun _ => None) 10) (s2l " BNE LOOP") 0x1000 = Val (L_insn i []) /\
    i_err i = OK /\ i_code i = [0x26; 0x80].
Proof.
  cbv zeta. split; [cbn; auto 20|]. split; [repeat split; discriminate|]. split.
  { apply (D_sym fam_6800 _ (s2l "LOOP") _ [] []); [cbn; auto| |reflexivity|reflexivity|reflexivity|reflexivity|apply Forall_nil|exact Logic.I].
    intros [(d & D & E & _)|K]; [|cbn in K; intuition discriminate].
    cbn in D. repeat (destruct D as [<-|D]; [discriminate E|]). destruct D. }
  split; [exact Logic.I|]. split; [cbn; lia|]. split; [cbn; lia|]. split; [reflexivity|]. split; [vm_compute; intuition discriminate|].
  eexists. split; [vm_compute; reflexivity|]. split; reflexivity.
Qed.
(* An immediate byte: the byte is the value modulo 256, and an error is reported exactly when the
   value is not one of a signed or unsigned byte. *)
Theorem C52_immediate_byte : forall ty f symbol function indent gap b0 e s rest v addr,
  In ty [MC6800; MB8861; MC6801; HD6301; MC68HC11] -> In f byte_forms ->
  blanks indent -> blanks gap -> gap <> [] -> blanks b0 -> 0 <= addr < 2^16 ->
  derives fam_6800 (mkC addr symbol function 0) e s rest -> well_nested e -> value_slots e <= 8 -> operator_slots e <= 8 ->
  line_end rest -> value_of e = Val (OK, v) -> int_value v ->
  exists i, mc6800_encode ty (mc6800_asm symbol function 10) (indent ++ s2l (fst f) ++ gap ++ 35 :: b0 ++ s) addr = Val (L_insn i rest) /\
    i_code i = [snd f; int_of v mod 256] /\
    i_err i = if (-128 <=? int_of v) && (int_of v <=? 255) then OK else OVERFLOW_RANGE.
Proof. intros ty f symbol function indent gap b0 e s rest v addr T F BI BG NG B0 A D W VS OS LE V IV. eapply range_imm8; eauto. Qed.
Print Assumptions C52_immediate_byte.
Example C52_immediate_case : exists i,
  mc6800_encode MC6800 (mc6800_asm (fun _ => None) (fun _ => None) 10) (s2l " LDAA #256") 0 = Val (L_insn i []) /\ i_err i = OVERFLOW_RANGE /\ i_code i = [0x86; 0].
Proof. eexists. split; [vm_compute; reflexivity|]. split; reflexivity. Qed.
(* An immediate word.  Missing: values outside -32768..65535 are not reported (below). *)
Theorem C52_immediate_word_partial : forall ty f symbol function indent gap b0 e s rest v addr,
  In ty [MC6800; MB8861; MC6801; HD6301; MC68HC11] -> In f (word_forms ty) ->
  blanks indent -> blanks gap -> gap <> [] -> blanks b0 -> 0 <= addr < 2^16 ->
  derives fam_6800 (mkC addr symbol function 0) e s rest -> well_nested e -> value_slots e <= 8 -> operator_slots e <= 8 ->
  line_end rest -> value_of e = Val (OK, v) -> int_value v ->
  exists i, mc6800_encode ty (mc6800_asm symbol function 10) (indent ++ s2l (fst f) ++ gap ++ 35 :: b0 ++ s) addr = Val (L_insn i rest) /\
    i_code i = [snd f; int_of v / 256 mod 256; int_of v mod 256] /\ i_err i = OK.
Proof. intros ty f symbol function indent gap b0 e s rest v addr T F BI BG NG B0 A D W VS OS LE V IV. eapply range_imm16; eauto. Qed.
Print Assumptions C52_immediate_word_partial.
(* An indexed operand: an error is reported exactly when the offset is not 0..255. *)
Theorem C52_indexed : forall ty f symbol function indent gap b0 e s b1 r b2 rest v addr,
  In ty [MC6800; MB8861; MC6801; HD6301; MC68HC11] -> In f (memory_forms ty) ->
  blanks indent -> blanks gap -> gap <> [] -> blanks b0 -> 0 <= addr < 2^16 -> starts_address s ->
  blanks b1 -> In r (s2l "Xx") -> blanks b2 -> line_end rest ->
  derives fam_6800 (mkC addr symbol function 0) e s (44 :: b1 ++ r :: b2 ++ rest) -> well_nested e -> value_slots e <= 8 -> operator_slots e <= 8 ->
  value_of e = Val (OK, v) -> int_value v ->
  exists i, mc6800_encode ty (mc6800_asm symbol function 10) (indent ++ s2l (fst f) ++ gap ++ b0 ++ s) addr = Val (L_insn i rest) /\
    i_code i = [indexed (snd f); int_of v mod 256] /\
    i_err i = if (0 <=? int_of v) && (int_of v <=? 255) then OK else OVERFLOW_RANGE.
Proof. intros ty f symbol function indent gap b0 e s b1 r b2 rest v addr T F BI BG NG B0 A SA B1 R B2 LE D W VS OS V IV.
  exact (range_indexed ty f symbol function indent gap b0 e s rest v addr T BI BG NG B0 A W VS OS V IV LE b1 r b2 F SA B1 R B2 D).
Qed.
Print Assumptions C52_indexed.
Example C52_indexed_case : exists i,
  mc6800_encode HD6301 (mc6800_asm (fun _ => None) (fun _ => None) 10) (s2l " STX 2*100 , x ;") 0 = Val (L_insn i (s2l ";")) /\ i_err i = OK /\ i_code i = [0xEF; 200].
Proof. eexists. split; [vm_compute; reflexivity|]. split; reflexivity. Qed.
(* An address in memory: the direct form for the first 256 bytes, the extended form for the others.
   Missing: values that are not addresses are not reported (below). *)
Theorem C52_address_partial : forall ty f symbol function indent gap b0 e s rest v addr,
  In ty [MC6800; MB8861; MC6801; HD6301; MC68HC11] -> In f (memory_forms ty) ->
  blanks indent -> blanks gap -> gap <> [] -> blanks b0 -> 0 <= addr < 2^16 -> starts_address s ->
  derives fam_6800 (mkC addr symbol function 0) e s rest -> well_nested e -> value_slots e <= 8 -> operator_slots e <= 8 ->
  line_end rest -> value_of e = Val (OK, v) -> int_value v -> 0 <= int_of v < 65536 ->
  exists i, mc6800_encode ty (mc6800_asm symbol function 10) (indent ++ s2l (fst f) ++ gap ++ b0 ++ s) addr = Val (L_insn i rest) /\
    i_err i = OK /\
    i_code i = if int_of v <? 256 then [direct (snd f); int_of v] else [extended (snd f); int_of v / 256; int_of v mod 256].
Proof.
  intros ty f symbol function indent gap b0 e s rest v addr T F BI BG NG B0 A SA D W VS OS LE V IV R.
  destruct (range_memory ty f symbol function indent gap b0 e s rest v addr T BI BG NG B0 A W VS OS V IV LE D F SA) as (i & E & C & X).
  exists i. split; [exact E|]. split; [exact C|]. rewrite X. destruct (Z.ltb_spec (int_of v) 256) as [L|L].
  - replace ((-128 <=? int_of v) && (int_of v <=? 255)) with true by (symmetry; apply andb_true_iff; split; apply Z.leb_le; lia). now rewrite Z.mod_small by lia.
  - replace ((-128 <=? int_of v) && (int_of v <=? 255)) with false by (symmetry; apply andb_false_iff; right; apply Z.leb_gt; lia).
    rewrite (Z.mod_small (int_of v / 256)); [reflexivity|]. split; [apply Z.div_pos; lia|apply Z.div_lt_upper_bound; lia].
Qed.
Print Assumptions C52_address_partial.
Example C52_address_case : exists i j,
  mc6800_encode MC68HC11 (mc6800_asm (fun _ => None) (fun _ => None) 10) (s2l " ADDB $FF") 0 = Val (L_insn i []) /\ i_code i = [0xDB; 0xFF] /\
  mc6800_encode MC68HC11 (mc6800_asm (fun _ => None) (fun _ => None) 10) (s2l " ADDB $100") 0 = Val (L_insn j []) /\ i_code j = [0xFB; 1; 0].
Proof. eexists. eexists. split; [vm_compute; reflexivity|]. split; [reflexivity|]. split; [vm_compute; reflexivity|]. reflexivity. Qed.
(* The instructions that change memory, JMP and JSR, indexed. *)
Theorem C52_change_indexed : forall ty f symbol function indent gap b0 e s b1 r b2 rest v addr,
  In ty [MC6800; MB8861; MC6801; HD6301; MC68HC11] -> In f (change_forms ++ [(fst call_form, indexed (snd call_form))]) ->
  blanks indent -> blanks gap -> gap <> [] -> blanks b0 -> 0 <= addr < 2^16 -> starts_address s ->
  blanks b1 -> In r (s2l "Xx") -> blanks b2 -> line_end rest ->
  derives fam_6800 (mkC addr symbol function 0) e s (44 :: b1 ++ r :: b2 ++ rest) -> well_nested e -> value_slots e <= 8 -> operator_slots e <= 8 ->
  value_of e = Val (OK, v) -> int_value v ->
  exists i, mc6800_encode ty (mc6800_asm symbol function 10) (indent ++ s2l (fst f) ++ gap ++ b0 ++ s) addr = Val (L_insn i rest) /\
    i_code i = [snd f; int_of v mod 256] /\
    i_err i = if (0 <=? int_of v) && (int_of v <=? 255) then OK else OVERFLOW_RANGE.
Proof. intros ty f symbol function indent gap b0 e s b1 r b2 rest v addr T F BI BG NG B0 A SA B1 R B2 LE D W VS OS V IV.
  apply in_app_or in F. destruct F as [F|[F|[]]].
  - exact (range_place ty f symbol function indent gap b0 e s rest v addr T BI BG NG B0 A W VS OS V IV LE b1 r b2 M_GMEM (or_introl (conj eq_refl F)) SA B1 R B2 D).
  - exact (range_place ty f symbol function indent gap b0 e s rest v addr T BI BG NG B0 A W VS OS V IV LE b1 r b2 M_IDX (or_intror (conj eq_refl (eq_sym F))) SA B1 R B2 D).
Qed.
Print Assumptions C52_change_indexed.
(* The instructions that change memory, and JMP, with an address.
   Missing: values that are not addresses are not reported (below). *)
Theorem C52_change_address_partial : forall ty f symbol function indent gap b0 e s rest v addr,
  In ty [MC6800; MB8861; MC6801; HD6301; MC68HC11] -> In f change_forms ->
  blanks indent -> blanks gap -> gap <> [] -> blanks b0 -> 0 <= addr < 2^16 -> starts_address s ->
  derives fam_6800 (mkC addr symbol function 0) e s rest -> well_nested e -> value_slots e <= 8 -> operator_slots e <= 8 ->
  line_end rest -> value_of e = Val (OK, v) -> int_value v -> 0 <= int_of v < 65536 ->
  exists i, mc6800_encode ty (mc6800_asm symbol function 10) (indent ++ s2l (fst f) ++ gap ++ b0 ++ s) addr = Val (L_insn i rest) /\
    i_err i = OK /\ i_code i = [snd f + 0x10; int_of v / 256; int_of v mod 256].
Proof.
  intros ty f symbol function indent gap b0 e s rest v addr T F BI BG NG B0 A SA D W VS OS LE V IV R.
  destruct (range_change ty f symbol function indent gap b0 e s rest v addr T BI BG NG B0 A W VS OS V IV LE D F SA) as (i & E & C & X).
  rewrite (Z.mod_small (int_of v / 256)) in X by (split; [apply Z.div_pos; lia|apply Z.div_lt_upper_bound; lia]). eauto.
Qed.
Print Assumptions C52_change_address_partial.
(* JSR with an address: the direct form, where there is one, for the first 256 bytes. *)
Theorem C52_call_partial : forall ty symbol function indent gap b0 e s rest v addr,
  In ty [MC6800; MB8861; MC6801; HD6301; MC68HC11] ->
  blanks indent -> blanks gap -> gap <> [] -> blanks b0 -> 0 <= addr < 2^16 -> starts_address s ->
  derives fam_6800 (mkC addr symbol function 0) e s rest -> well_nested e -> value_slots e <= 8 -> operator_slots e <= 8 ->
  line_end rest -> value_of e = Val (OK, v) -> int_value v -> 0 <= int_of v < 65536 ->
  exists i, mc6800_encode ty (mc6800_asm symbol function 10) (indent ++ s2l (fst call_form) ++ gap ++ b0 ++ s) addr = Val (L_insn i rest) /\
    i_err i = OK /\
    i_code i = if negb ((ty =? MC6800) || (ty =? MB8861)) && (int_of v <? 256) then [direct (snd call_form); int_of v]
               else [extended (snd call_form); int_of v / 256; int_of v mod 256].
Proof.
  intros ty symbol function indent gap b0 e s rest v addr T BI BG NG B0 A SA D W VS OS LE V IV R.
  exact (range_call ty symbol function indent gap b0 e s rest v addr T BI BG NG B0 A W VS OS V IV LE D SA R).
Qed.
Print Assumptions C52_call_partial.
Example C52_change_case : exists i j k,
  mc6800_encode MC6800 (mc6800_asm (fun _ => None) (fun _ => None) 10) (s2l " JMP $FF") 0 = Val (L_insn i []) /\ i_code i = [0x7E; 0; 0xFF] /\
  mc6800_encode HD6301 (mc6800_asm (fun _ => None) (fun _ => None) 10) (s2l " JSR $FF") 0 = Val (L_insn j []) /\ i_code j = [0x9D; 0xFF] /\
  mc6800_encode MC6800 (mc6800_asm (fun _ => None) (fun _ => None) 10) (s2l " JSR 256,X") 0 = Val (L_insn k []) /\ i_code k = [0xAD; 0] /\ i_err k = OVERFLOW_RANGE.
Proof. do 3 eexists. repeat (split; [vm_compute; reflexivity|]). vm_compute. reflexivity. Qed.
(* words and addresses that do not fit are cut, and a negative address is taken as one of the first 256 bytes *)
Theorem C52_word_refuted : exists i j k,
  mc6800_encode MC6800 (mc6800_asm (fun _ => None) (fun _ => None) 10) (s2l " LDX #$12345") 0 = Val (L_insn i []) /\ i_err i = OK /\ i_code i = [0xCE; 0x23; 0x45] /\
  mc6800_encode MC6800 (mc6800_asm (fun _ => None) (fun _ => None) 10) (s2l " LDAA $12345") 0 = Val (L_insn j []) /\ i_err j = OK /\ i_code j = [0xB6; 0x23; 0x45] /\
  mc6800_encode MC6800 (mc6800_asm (fun _ => None) (fun _ => None) 10) (s2l " LDAA -1") 0 = Val (L_insn k []) /\ i_err k = OK /\ i_code k = [0x96; 0xFF].
Proof. do 3 eexists. repeat (split; [vm_compute; reflexivity|]). vm_compute; reflexivity. Qed.
Print Assumptions C52_word_refuted.
(* an address forced to one byte is cut too *)
Theorem C52_forced_direct_refuted : exists i,
  mc6800_encode MC6800 (mc6800_asm (fun _ => None) (fun _ => None) 10) (s2l " LDAA <$1234") 0 = Val (L_insn i []) /\ i_err i = OK /\ i_code i = [0x96; 0x34].
Proof. eexists. split; [vm_compute; reflexivity|]. split; reflexivity. Qed.
Print Assumptions C52_forced_direct_refuted.
