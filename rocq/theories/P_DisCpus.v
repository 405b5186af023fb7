(** Proofs for the disassembler's driver on further processors. *)
From Coq Require Import String ZArith List Bool Lia.
From Verif Require Import M_Char M_Error M_Value M_Text M_StrBuffer M_Format M_Number M_Insn M_Config M_Operators M_BinMemory M_Listing
  M_Dis M_DisDriver M_DisCpus S_ByteMap S_Memory S_DisDriver S_DisCpus
  P_BinMemory P_Config P_AsmText P_CpuShape P_CpuGood P_DisDriver.
From Verif Require M_Mc6800 P_Mc6800 M_F3850 P_F3850 M_Z80 P_Z80 M_Mos6502 P_Mos6502 P_Mos6502Round M_Cdp1802 P_Cdp1802 M_I8051 P_I8051 M_I8048 P_I8048.
Import ListNotations.
Local Open Scope Z_scope.

Section Any.
Variables (o : dops) (n : nat).
Notation u := (lc_unit (do_conf o)).
Variable bits : Z.
Hypothesis U : 1 <= u.
Hypothesis BITS : 2 ^ da_aw (do_dis o) * u = 2 ^ bits.
Hypothesis B31 : 2 ^ bits <= 2 ^ 31.
Hypothesis EV : forall mem addr r rest, do_decode o mem addr = Val (r, rest) -> mem = i_code (r_insn r) ++ rest -> rest = [] \/ Z.of_nat (length (i_code (r_insn r))) mod u = 0.
Hypothesis S0 : da_symtab (do_dis o) = None.
Hypothesis AW : 1 <= da_aw (do_dis o) <= 31.
Hypothesis TK : takes (do_dis o) (do_impl o) n.
Hypothesis N63 : (n < 64)%nat.
Lemma any_from mem addr : Forall byte mem -> mem <> [] -> 0 <= addr < 2 ^ da_aw (do_dis o) ->
  exists r rest bs e, do_decode o mem addr = Val (r, rest) /\
    r_insn r = i_seterr e (canon addr bs) /\ mem = bs ++ rest /\ bs <> [] /\ (length bs <= n)%nat.
Proof.
  intros FM NE A. destruct (TK mem addr operands_capacity FM NE) as (s & bs & H & M & NB & L & C).
  assert (P31 : 2 ^ da_aw (do_dis o) <= 2 ^ 31) by (apply Z.pow_le_mono_r; lia). change (2^31) with 2147483648 in P31.
  unfold do_decode, dis_decode_from. rewrite (checkAddr_false (da_aw (do_dis o)) addr) by (change (2^32) with 4294967296; lia).
  destruct (Z.leb_spec (2 ^ da_aw (do_dis o)) addr) as [B|_]; [lia|]. cbn [andb]. change (isOK OK) with true. cbn [negb]. rewrite H. cbn [bind].
  exists (mkDec (let i := i_seterr (d_err (t_in s)) (d_insn (t_in s)) in if isOK (i_err i) then i_seterr (b_err (t_out s)) i else i) (t_name s) (b_txt (t_out s))),
    (d_mem (t_in s)), bs, (if isOK (d_err (t_in s)) then b_err (t_out s) else d_err (t_in s)).
  split; [reflexivity|]. split; [|auto]. cbn [r_insn]. rewrite C. cbn [i_seterr i_err]. now destruct (isOK (d_err (t_in s))).
Qed.
Lemma any_takes : takes_some o (2 ^ da_aw (do_dis o)).
Proof.
  intros mem addr FM0 NE A. assert (FM : Forall byte mem) by (apply Forall_forall; exact FM0).
  destruct (any_from mem addr FM NE A) as (r & rest & bs & e & D & R & M & N & L).
  assert (E : i_code (r_insn r) = bs) by (rewrite R; exact (canon_code addr bs)).
  exists r, rest. rewrite E. split; [exact D|]. split; [exact M|]. split; [exact N|]. split; [rewrite R; reflexivity|].
  split; [rewrite R; reflexivity|].
  assert (EL : i_len (r_insn r) = Z.of_nat (length (i_code (r_insn r)))) by (rewrite E; rewrite R; reflexivity). rewrite EL.
  apply (EV mem addr r rest D). now rewrite E.
Qed.
Lemma any_piece p : decoded_by o (2 ^ da_aw (do_dis o)) p -> exists ts, piece_lines o p = Val ts.
Proof.
  intros (mem & rest & FM & NE & A & D).
  destruct (any_from mem _ FM NE A) as (r & rest' & bs & e & D' & R & M & N & L).
  rewrite D in D'. injection D' as <- <-. apply piece_lines_val; rewrite R; cbn [i_seterr canon i_bytes i_len]; [|lia].
  rewrite app_length, repeat_length. lia.
Qed.
Lemma any_disassembled ws : image_of bits ws -> disassembled o ws.
Proof.
  intros (F & LIM). assert (P31 : 2 ^ bits <= 2147483648) by exact B31.
  destruct (pieces_done o (2 ^ da_aw (do_dis o)) ws) as (bl & m & l & E & R & C & BI & DB).
  - exact U.
  - rewrite BITS. change (2^32) with 4294967296. lia.
  - exact any_takes.
  - exact F.
  - rewrite BITS. exact LIM.
  - exists (2^31). split; [unfold is_addr; change (2^31) with 2147483648; change (2^32) with 4294967296; lia|].
    destruct (last_write ws (2^31)) as [v|] eqn:Q; [|reflexivity].
    apply last_write_in in Q. apply LIM in Q. change (2^31) with 2147483648 in Q. lia.
  - destruct (blocks_lines_val o l S0) as (ts & BL).
    { eapply Forall_impl; [|exact DB]. cbn beta. intros sp H. eapply Forall_impl; [|exact H]. intros p. apply any_piece. }
    exists bl, m, l, (cpu_line o :: ts). split; [exact E|]. split; [|exact C]. intros fuel L. split; [exact (R fuel L)|].
    unfold disassemble. rewrite (R fuel L). cbn [bind]. rewrite BL. reflexivity.
Qed.
End Any.
(* addresses of bytes *)
Lemma bytes_disassembled o n : lc_unit (do_conf o) = 1 -> da_symtab (do_dis o) = None -> 1 <= da_aw (do_dis o) <= 31 ->
  takes (do_dis o) (do_impl o) n -> (n < 64)%nat -> forall ws, image_of (da_aw (do_dis o)) ws -> disassembled o ws.
Proof.
  intros U S0 AW TK N ws I. apply (any_disassembled o n (da_aw (do_dis o))); auto; rewrite ?U.
  - lia.
  - lia.
  - apply Z.pow_le_mono_r; lia.
  - intros. right. apply Z.mod_1_r.
Qed.

Lemma dis_6800_done ty uh uc oc rel cs ih cur msg ws : In ty P_Mc6800.types -> (rel = true -> cur = 42) ->
  image_of 16 ws -> disassembled (dis_6800 ty uh uc oc rel cs ih cur msg) ws.
Proof.
  intros T C. apply (bytes_disassembled (dis_6800 ty uh uc oc rel cs ih cur msg) 5); try reflexivity; [cbn; lia| |lia].
  apply P_Mc6800.mc6800_takes; [now apply P_Mc6800.mc6800_reads|exact T].
Qed.
Lemma dis_f8_done uh uc oc rel cs ih cur msg ws : (rel = true -> In cur [42; 36; 46]) ->
  image_of 16 ws -> disassembled (dis_f8 uh uc oc rel cs ih cur msg) ws.
Proof.
  intros C. apply (bytes_disassembled (dis_f8 uh uc oc rel cs ih cur msg) 3); try reflexivity; [cbn; lia| |lia].
  apply P_F3850.f3850_takes. now apply P_F3850.f3850_reads.
Qed.
Lemma dis_z80_done uh uc oc rel cs ih cur msg ws : (rel = true -> cur = 36) ->
  image_of 16 ws -> disassembled (dis_z80 uh uc oc rel cs ih cur msg) ws.
Proof.
  intros C. apply (bytes_disassembled (dis_z80 uh uc oc rel cs ih cur msg) 4); try reflexivity; [cbn; lia| |lia].
  apply P_Z80.z80_takes. now apply P_Z80.z80_reads.
Qed.
Lemma dis_6502_done ty opt uh uc oc rel cs ih cur msg ws : In ty P_Mos6502.types -> (rel = true -> cur = 42) -> (oc = true -> cs = true \/ ih = true) ->
  image_of (M_Mos6502.addressWidth ty) ws -> disassembled (dis_6502 ty opt uh uc oc rel cs ih cur msg) ws.
Proof.
  intros T C OC. apply (bytes_disassembled (dis_6502 ty opt uh uc oc rel cs ih cur msg) 4); try reflexivity; [| |lia].
  - cbn [dis_6502 do_dis M_Mos6502.mos6502_dis da_aw]. unfold M_Mos6502.addressWidth. match goal with |- context [if ?b then _ else _] => destruct b end; lia.
  - apply (P_Mos6502Round.mos6502_takes np_motorola); [now apply P_Mos6502.mos6502_reads|exact T].
Qed.
Lemma dis_1802_done ty ur uh uc oc rel cs ih cur msg ws : In ty P_Cdp1802.types -> (oc = true -> (cs || ih)%bool = true) ->
  image_of 16 ws -> disassembled (dis_1802 ty ur uh uc oc rel cs ih cur msg) ws.
Proof.
  intros T OC. apply (bytes_disassembled (dis_1802 ty ur uh uc oc rel cs ih cur msg) 4); try reflexivity; [cbn; lia| |lia].
  eapply P_Cdp1802.cdp1802_takes; [now apply P_Cdp1802.cdp1802_reads|exact T].
Qed.
Lemma dis_8051_done uh uc oc rel cs ih cur msg ws : (rel = true -> cur = 36) ->
  image_of 16 ws -> disassembled (dis_8051 uh uc oc rel cs ih cur msg) ws.
Proof.
  intros C. apply (bytes_disassembled (dis_8051 uh uc oc rel cs ih cur msg) 3); try reflexivity; [cbn; lia| |lia].
  apply P_I8051.i8051_takes. now apply P_I8051.i8051_reads.
Qed.
Lemma dis_8048_done ty uh uc oc rel cs ih cur msg ws : In ty P_I8048.types ->
  image_of 12 ws -> disassembled (dis_8048 ty uh uc oc rel cs ih cur msg) ws.
Proof.
  intros T. apply (bytes_disassembled (dis_8048 ty uh uc oc rel cs ih cur msg) 2); try reflexivity; [cbn; lia| |lia].
  apply P_I8048.i8048_takes; [apply P_I8048.i8048_reads|exact T].
Qed.
