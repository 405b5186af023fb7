(** C83: the SC/MP disassembler. *)
From Coq Require Import String ZArith List Bool Lia.
From Verif Require Import M_Char M_Error M_Value M_Text M_StrBuffer M_Format M_Number M_Insn M_Config M_Operators
  M_Table M_Dis M_Ins8060Defs T_Ins8060 M_Ins8060 S_Number S_Cpu S_Ins8060 P_Insn P_Config P_AsmText P_CpuShape P_CpuMap P_Undef P_Ins8060.
Import ListNotations.
Open Scope string_scope.
Open Scope list_scope.
Local Open Scope Z_scope.

(* Decoding always ends with an instruction or an error, and the bytes it takes are the first of
   the memory, at most 2. *)
Theorem C83_total : forall uh uc oc rel cs ih cur mem addr size,
  let d := ins8060_dis uh uc oc rel cs ih cur None in
  bytes_only mem ->
  exists r, ins8060_decode d mem addr size = Val r /\
    exists m, mem = i_code (r_insn r) ++ m /\ (length (i_code (r_insn r)) <= 2)%nat.
Proof.
  intros uh uc oc rel cs ih cur mem addr size d BM. unfold ins8060_decode, dis_decode.
  destruct (negb (isOK (checkAddr (da_aw d) addr false))).
  { eexists. split; [reflexivity|]. exists mem. split; [reflexivity|cbn; lia]. }
  destruct (decode_run d mem addr size eq_refl BM) as (s & R & (_ & bs & M & L & I) & _).
  unfold start in R. rewrite <- canon_new in R. rewrite R. cbn [bind]. eexists. split; [reflexivity|]. exists (d_mem (t_in s)). cbn [r_insn].
  assert (CC : i_code (if isOK (i_err (i_seterr (d_err (t_in s)) (d_insn (t_in s)))) then i_seterr (b_err (t_out s)) (i_seterr (d_err (t_in s)) (d_insn (t_in s)))
    else i_seterr (d_err (t_in s)) (d_insn (t_in s))) = bs).
  { transitivity (i_code (d_insn (t_in s))); [match goal with |- context [if ?c then _ else _] => destruct c end; reflexivity|]. rewrite I. apply canon_code. }
  rewrite CC. auto.
Qed.
Print Assumptions C83_total.
(* An accepted instruction has as many bytes as the highest bit of its code says, and they are all in
   the page of its address.
   Missing: empty memory, for which the claim is false (below). *)
Theorem C83_accepts_partial : forall uh uc oc rel cs ih cur o m addr size r,
  let d := ins8060_dis uh uc oc rel cs ih cur None in
  bytes_only (o :: m) -> 0 <= addr < 65536 ->
  ins8060_decode d (o :: m) addr size = Val r -> i_err (r_insn r) = OK ->
  length (i_code (r_insn r)) = (if has_byte o then 2 else 1)%nat /\ (exists z, o :: m = i_code (r_insn r) ++ z) /\
  addr mod 4096 + Z.of_nat (length (i_code (r_insn r))) <= 4096.
Proof.
  intros uh uc oc rel cs ih cur o m addr size r d BM A D E. unfold ins8060_decode, dis_decode in D.
  destruct (negb (isOK (checkAddr (da_aw d) addr false))) eqn:C.
  { injection D as <-. change (checkAddr (da_aw d) addr false = OK) in E. rewrite E in C. discriminate. }
  destruct (decode_run d (o :: m) addr size eq_refl BM) as (s & R & _ & OKS).
  unfold start in R. rewrite <- canon_new in R. rewrite R in D. cbn [bind] in D. injection D as <-. cbn [r_insn] in *.
  assert (EE : d_err (t_in s) = OK).
  { clear - E. cbn [i_err i_seterr] in E. destruct (d_err (t_in s)); cbn [isOK i_err i_seterr] in E; solve [reflexivity|discriminate E]. }
  clear C. destruct (OKS ltac:(discriminate) EE) as (o' & m' & EQ & bs & M & I & L & PG). injection EQ as <- <-.
  assert (CC : i_code (if isOK (i_err (i_seterr (d_err (t_in s)) (d_insn (t_in s)))) then i_seterr (b_err (t_out s)) (i_seterr (d_err (t_in s)) (d_insn (t_in s)))
    else i_seterr (d_err (t_in s)) (d_insn (t_in s))) = bs).
  { transitivity (i_code (d_insn (t_in s))); [match goal with |- context [if ?c then _ else _] => destruct c end; reflexivity|]. rewrite I. apply canon_code. }
  change (isOK (i_err (i_seterr (d_err (t_in s)) (d_insn (t_in s))))) with (isOK (d_err (t_in s))) in CC. rewrite CC. split; [exact L|]. split; [exists (d_mem (t_in s)); exact M|].
  assert (UA : u16 addr = addr) by (unfold u16; apply Z.mod_small; change (2^16) with 65536; lia). rewrite UA in PG.
  pose proof (Z.mod_pos_bound addr 4096 ltac:(lia)). rewrite L in *. destruct (has_byte o); cbn [Z.of_nat Pos.of_succ_nat Pos.succ] in *; [|lia].
  destruct (Z.eq_dec (addr mod 4096) 4095) as [B|]; [|lia]. exfalso.
  replace (addr + 2 - 1) with (addr + 1) in PG by lia. rewrite page_div in PG by lia.
  destruct (Z.eq_dec addr 65535) as [->|]; [vm_compute in PG; discriminate|].
  rewrite page_div in PG by lia.
  pose proof (Z.div_mod addr 4096 ltac:(lia)). pose proof (Z.div_mod (addr + 1) 4096 ltac:(lia)). pose proof (Z.mod_pos_bound (addr + 1) 4096 ltac:(lia)). lia.
Qed.
Print Assumptions C83_accepts_partial.
(* LD @-1(P2); the same code at the end of a page is an error *)
Example C83_case :
  (exists r, ins8060_decode (ins8060_dis true true false false false false 36 None) [0xC6; 0xFF; 8] 0x1000 128 = Val r /\
    i_err (r_insn r) = OK /\ r_name r = s2l "LD" /\ r_operands r = s2l "@-1(P2)" /\ i_code (r_insn r) = [0xC6; 0xFF]) /\
  (exists r, ins8060_decode (ins8060_dis true true false false false false 36 None) [0xC6; 0xFF; 8] 0x1FFF 128 = Val r /\
    i_err (r_insn r) = OVERWRAP_SEGMENT).
Proof. split; eexists; (split; [vm_compute; reflexivity|]); repeat split; reflexivity. Qed.
(* from no memory, an instruction of no bytes: the error is forgotten when the opcode is searched *)
Theorem C83_empty_memory_refuted : exists r,
  ins8060_decode (ins8060_dis true true false false false false 36 None) [] 0x100 128 = Val r /\
  i_err (r_insn r) = OK /\ i_code (r_insn r) = [] /\ r_name r = s2l "HALT".
Proof. eexists. split; [vm_compute; reflexivity|]. repeat split; reflexivity. Qed.
Print Assumptions C83_empty_memory_refuted.
(* with a symbol table, an address that has no symbol makes the disassembler shift by -1 *)
Theorem C83_symbol_table_refuted : exists table : value -> option text,
  ins8060_decode (ins8060_dis false false false false false false 36 (Some table)) [0x90; 0x10] 0x100 128 = UB.
Proof. exists (fun _ => None). vm_compute. reflexivity. Qed.
Print Assumptions C83_symbol_table_refuted.

(* The operand of a jump relative to the program counter is the address the processor goes to, which
   is in the page of the jump, and that of a memory reference is the address of the data. *)
Theorem C83_jump : forall uh uc cs ih cur o x m addr size r,
  let d := ins8060_dis uh uc false false cs ih cur None in
  In o jump_codes -> bytes_only (o :: x :: m) -> 0 <= addr < 65536 ->
  ins8060_decode d (o :: x :: m) addr size = Val r -> i_err (r_insn r) = OK ->
  numeral_scmp (r_operands r) (jump_address addr x).
Proof.
  intros uh uc cs ih cur o x m addr size r d IN BM A D E.
  destruct (C83_accepts_partial uh uc false false cs ih cur o (x :: m) addr size r BM A D E) as (L & _ & P).
  assert (K : forallb (fun c => pc_code true c && has_byte c) jump_codes = true) by (vm_compute; reflexivity).
  rewrite forallb_forall in K. specialize (K o IN). apply andb_prop in K. destruct K as [K H]. rewrite H in L. rewrite L in P.
  inversion BM as [|? ? BO BM1]. inversion BM1 as [|? ? BX BM2]. subst.
  pose proof (pc_target true o x m addr size uh uc cs ih cur r K ltac:(unfold byte; lia) ltac:(unfold byte; lia) A ltac:(lia) D E) as N.
  unfold jump_address. replace (addr mod 4096 + 2 + displacement x) with (addr mod 4096 + 1 + 1 + displacement x) by lia. exact N.
Qed.
Print Assumptions C83_jump.
Theorem C83_data : forall uh uc cs ih cur o x m addr size r,
  let d := ins8060_dis uh uc false false cs ih cur None in
  In o data_codes -> bytes_only (o :: x :: m) -> 0 <= addr < 65536 ->
  ins8060_decode d (o :: x :: m) addr size = Val r -> i_err (r_insn r) = OK ->
  numeral_scmp (r_operands r) (data_address addr x).
Proof.
  intros uh uc cs ih cur o x m addr size r d IN BM A D E.
  destruct (C83_accepts_partial uh uc false false cs ih cur o (x :: m) addr size r BM A D E) as (L & _ & P).
  assert (K : forallb (fun c => pc_code false c && has_byte c) data_codes = true) by (vm_compute; reflexivity).
  rewrite forallb_forall in K. specialize (K o IN). apply andb_prop in K. destruct K as [K H]. rewrite H in L. rewrite L in P.
  inversion BM as [|? ? BO BM1]. inversion BM1 as [|? ? BX BM2]. subst.
  pose proof (pc_target false o x m addr size uh uc cs ih cur r K ltac:(unfold byte; lia) ltac:(unfold byte; lia) A ltac:(lia) D E) as N.
  unfold data_address. replace (addr mod 4096 + 1 + displacement x) with (addr mod 4096 + 1 + 0 + displacement x) by lia. exact N.
Qed.
Print Assumptions C83_data.
(* backwards over the start of a page: to its end *)
Example C83_jump_case : exists r, ins8060_decode (ins8060_dis true true false false false false 36 None) [0x9C; 0xF0] 0x2004 128 = Val r /\
  i_err (r_insn r) = OK /\ r_name r = s2l "JNZ" /\ r_operands r = s2l "X'2FF6" /\ jump_address 0x2004 0xF0 = 0x2FF6.
Proof. eexists. split; [vm_compute; reflexivity|]. repeat split; reflexivity. Qed.
Example C83_data_case : exists r, ins8060_decode (ins8060_dis true false false false true false 36 None) [0xC8; 0x7F] 0x100 128 = Val r /\
  i_err (r_insn r) = OK /\ r_name r = s2l "st" /\ r_operands r = s2l "0x0180" /\ data_address 0x100 0x7F = 0x180.
Proof. eexists. split; [vm_compute; reflexivity|]. repeat split; reflexivity. Qed.

(* A code that the manual leaves undefined is reported as unknown, and nothing after it is taken, at
   every address, with whatever follows in memory, and with every option. *)
Theorem C83_undefined : forall code uh uc oc rel cs ih cur symtab m addr size,
  let d := ins8060_dis uh uc oc rel cs ih cur symtab in
  In code undef_scmp -> 0 <= addr < 65536 ->
  exists r, ins8060_decode d (code ++ m) addr size = Val r /\ i_err (r_insn r) = UNKNOWN_INSTRUCTION /\ i_code (r_insn r) = code.
Proof.
  intros code uh uc oc rel cs ih cur symtab m addr size d IN AR.
  assert (SH : forallb (refuses d (ins8060_decodeImpl d) addr size m) undef_scmp = true).
  { clear - d. vm_compute; reflexivity. }
  refine (refused d (ins8060_decodeImpl d) addr size m code undef_scmp _ _ SH IN); cbn; lia.
Qed.
Print Assumptions C83_undefined.
Example C83_undefined_case : In [0xCC] undef_scmp /\ (length undef_scmp = 135)%nat /\
  exists r, ins8060_decode (ins8060_dis true true false false false false 36 None) [0xCC; 1] 0x1000 128 = Val r /\
    i_err (r_insn r) = UNKNOWN_INSTRUCTION /\ i_code (r_insn r) = [0xCC].
Proof. split; [vm_compute; auto 200|]. split; [vm_compute; reflexivity|]. eexists. split; [vm_compute; reflexivity|]. split; reflexivity. Qed.
