(** C15: the disassembly of an image. *)
From Coq Require Import String ZArith List Bool Lia.
From Verif Require Import M_Char M_Error M_Value M_Text M_Insn M_Config M_Operators M_BinMemory M_Listing M_Dis M_I8080Defs M_I8080
  M_DisDriver M_DisI8080 S_ByteMap S_Memory S_DisDriver P_DisDriver.
Import ListNotations.
Open Scope string_scope.
Open Scope list_scope.
Local Open Scope Z_scope.

(* For any disassembler that takes at least one byte (a whole number of address units, or all that
   is left) wherever the address is in range, and for any image of bytes in range: the run ends,
   and its pieces partition each block of the image, in order.
   Missing: addresses out of range (false, below); a block of all 2^32 bytes. *)
Theorem C15_covers_partial : forall o top ws,
  1 <= lc_unit (do_conf o) -> top * lc_unit (do_conf o) <= 2^32 -> takes_some o top ->
  Forall is_write ws -> (forall a v, In (a, v) ws -> a < top * lc_unit (do_conf o)) ->
  (exists a, is_addr a /\ last_write ws a = None) ->
  exists bl n l, mem_blocks (writes ws) = Some bl /\
    (forall fuel, (n <= fuel)%nat -> dis_pieces fuel o (writes ws) = Val l) /\
    covers (lc_unit (do_conf o)) bl l.
Proof.
  intros o top ws U T TS F LIM FREE. destruct (pieces_done o top ws U T TS F LIM FREE) as (bl & n & l & E & R & C & _). exists bl, n, l. auto.
Qed.
Print Assumptions C15_covers_partial.
(* The 8080, 8085 and V30 emulation, with all options: the run ends with an output text, and its
   pieces partition each block of the image, in order. *)
Theorem C15_covers_8080_partial : forall ty zilog uh uc oc rel cs ih cur msg ws,
  let o := dis_8080 ty zilog uh uc oc rel cs ih cur msg in
  In ty [I8080; I8085; V30EMU] -> Forall is_write ws -> (forall a v, In (a, v) ws -> a < 2^16) ->
  exists bl n l lines, mem_blocks (writes ws) = Some bl /\
    (forall fuel, (n <= fuel)%nat -> dis_pieces fuel o (writes ws) = Val l /\ disassemble fuel o (writes ws) = Val lines) /\
    covers 1 bl l.
Proof.
  intros ty zilog uh uc oc rel cs ih cur msg ws o T F LIM.
  destruct (i8080_disassembles ty zilog uh uc oc rel cs ih cur msg ws T F LIM) as (bl & n & l & ts & E & R & C & _). exists bl, n, l, ts. auto.
Qed.
Print Assumptions C15_covers_8080_partial.
Example C15_case : exists ws l, ws = [(0x100, 0x3E); (0x102, 0xC3); (0x101, 5); (0x103, 0); (0x104, 1); (0xFFFF, 0x08)] /\
  Forall is_write ws /\ (forall a v, In (a, v) ws -> a < 2^16) /\
  dis_pieces 10 (dis_8080 I8080 false false false false false false false 36 (fun _ => [])) (writes ws) = Val l /\
  map (fun sp => (fst sp, map piece_bytes (snd sp))) l = [(0x100, [[0x3E; 5]; [0xC3; 0; 1]]); (0xFFFF, [[0x08]])].
Proof.
  eexists. eexists. split; [reflexivity|]. split; [repeat constructor; cbn; lia|]. split.
  - cbn. intros a v H. repeat destruct H as [H|H]; try (injection H as <- <-; lia). destruct H.
  - split; vm_compute; reflexivity.
Qed.
(* A byte at the first address out of range, on any processor whose addresses have fewer than 32
   bits: the run never ends, whatever the disassembler. *)
Theorem C15_out_of_range_refuted : forall o,
  1 <= lc_unit (do_conf o) -> 1 <= da_aw (do_dis o) < 32 -> 2 ^ da_aw (do_dis o) * lc_unit (do_conf o) < 2^32 ->
  exists ws, Forall is_write ws /\ forall fuel, disassemble fuel o (writes ws) = FUEL.
Proof.
  intros o U W T. exists [(2 ^ da_aw (do_dis o) * lc_unit (do_conf o), 0)]. split; [|intros fuel; apply never_ends; auto].
  constructor; [|constructor]. split; cbn; unfold is_addr, is_byte; [|lia]. split; [|lia].
  apply Z.mul_nonneg_nonneg; [apply Z.pow_nonneg; lia|lia].
Qed.
Print Assumptions C15_out_of_range_refuted.
Example C15_out_of_range_case : 1 <= lc_unit (do_conf (dis_8080 I8080 false false false false false false false 36 (fun _ => []))) /\
  da_aw (do_dis (dis_8080 I8080 false false false false false false false 36 (fun _ => []))) = 16.
Proof. split; [cbn; lia|reflexivity]. Qed.
