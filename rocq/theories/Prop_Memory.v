(** Properties C01, C02, C03: the memory image of the assembler driver. *)
From Coq Require Import ZArith List Bool Lia.
From Verif Require Import M_BinMemory S_ByteMap S_Memory P_BinMemory P_BinRange.
Import ListNotations.
Local Open Scope Z_scope.

(* C01: a history of writes is a byte map. *)
Theorem C01_hasByte_iff_written : forall ws a, Forall is_write ws ->
  (hasByte (writes ws) a = true <-> exists v, In (a, v) ws).
Proof. exact writes_hasByte. Qed.

Theorem C01_readByte_last_write : forall ws a, Forall is_write ws ->
  readByte (writes ws) a = match last_write ws a with Some v => v | None => 0 end.
Proof. exact writes_readByte. Qed.

(* Writes in an order that creates, extends, prepends, joins and overwrites blocks. *)
Example C01_case : let ws := [(10, 1); (12, 3); (11, 2); (9, 0); (4294967295, 7); (0, 5); (12, 9)] in
  Forall is_write ws /\ readByte (writes ws) 12 = 9 /\ hasByte (writes ws) 13 = false /\
  length (writes ws) = 3%nat.
Proof. repeat split; try (repeat constructor; cbn; lia). Qed.

(* C02: the block list seen through begin()/next() never follows a dangling pointer, is
   sorted, its blocks are not empty and never touch, and holds exactly the bytes written. *)
Theorem C02_blocks_complete : forall ws, Forall is_write ws ->
  exists bl, mem_blocks (writes ws) = Some bl /\
    separated (map block_seg bl) /\
    (forall a, segs_at (map block_seg bl) a = last_write ws a).
Proof. exact writes_blocks. Qed.

Theorem C02_equal_iff_same_bytes : forall ws1 ws2, Forall is_write ws1 -> Forall is_write ws2 ->
  (mem_eqb (writes ws1) (writes ws2) = true <-> forall a, last_write ws1 a = last_write ws2 a).
Proof. exact writes_eq. Qed.

Example C02_case : let ws1 := [(1, 5); (3, 7); (2, 6)] in let ws2 := [(3, 7); (2, 0); (1, 5); (2, 6)] in
  Forall is_write ws1 /\ Forall is_write ws2 /\ mem_eqb (writes ws1) (writes ws2) = true /\
  mem_eqb (writes ws1) (writes [(1, 5)]) = false.
Proof. repeat split; try (repeat constructor; cbn; lia). Qed.

(* C03 as stated is false: a block that starts exactly at [end] keeps all its bytes. *)
Theorem C03_range_exact_refuted : exists ws start end_ a,
  Forall is_write ws /\ start <= end_ < a /\ hasByte (setRange (writes ws) start end_) a = true.
Proof.
  exists [(16, 1); (17, 2)], 0, 16, 17. repeat split; try lia. repeat constructor; cbn; lia.
Qed.

(* ... and exact in every other case: unless a run of two or more bytes starts at [end]. *)
Theorem C03_range_exact_partial : forall ws start end_, Forall is_write ws ->
  0 <= start <= end_ -> end_ < 2^32 ->
  (last_write ws (end_ - 1) <> None \/ last_write ws end_ = None \/ last_write ws (end_ + 1) = None) ->
  (forall a, hasByte (setRange (writes ws) start end_) a = true <->
             start <= a <= end_ /\ exists v, In (a, v) ws) /\
  (forall a, start <= a <= end_ -> readByte (setRange (writes ws) start end_) a = readByte (writes ws) a) /\
  exists bl, mem_blocks (setRange (writes ws) start end_) = Some bl /\
    forall a, segs_at (map block_seg bl) a = if (start <=? a) && (a <=? end_) then last_write ws a else None.
Proof. exact setRange_bytes. Qed.

Example C03_case : let ws := [(14, 1); (15, 2); (16, 3); (17, 4); (20, 9)] in
  Forall is_write ws /\ last_write ws 15 <> None /\
  map block_seg (map snd (setRange (writes ws) 15 16)) = [(15, [2; 3])].
Proof. repeat split; try (repeat constructor; cbn; lia). cbn. congruence. Qed.

Print Assumptions C01_hasByte_iff_written.
Print Assumptions C01_readByte_last_write.
Print Assumptions C02_blocks_complete.
Print Assumptions C02_equal_iff_same_bytes.
Print Assumptions C03_range_exact_refuted.
Print Assumptions C03_range_exact_partial.
