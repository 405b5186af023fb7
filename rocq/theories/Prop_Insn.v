(** C25, C26, C30, C31: instruction bytes, byte order, branch distances and address checks. *)
From Coq Require Import ZArith List Bool.
From Verif Require Import M_Char M_Error M_Insn M_Config S_Insn P_Insn P_Config.
Import ListNotations.
Local Open Scope Z_scope.

(* ------------------------------------------------------------------ C25 *)
(* any history of emit operations at any positions stays inside the 64-byte buffer *)
Theorem C25_emissions_stay_in_buffer : forall addr os,
  Forall legal os -> sound (fold_left (fun i o => do_emission o i) os (new_insn addr)).
Proof. exact C25_safe. Qed.
Print Assumptions C25_emissions_stay_in_buffer.
Example C25_case :
  let os := [Append S16 true 0x1234; At S8 true 0x7F 63; At S32 false 0x01020304 62; At S64 true 1 200] in
  Forall legal os /\
  let i := fold_left (fun i o => do_emission o i) os (new_insn 0x100) in
  byte_at i 0 = 0x12 /\ byte_at i 1 = 0x34 /\ byte_at i 62 = 4 /\ byte_at i 63 = 3 /\ i_len i = 64 /\ i_err i = NO_MEMORY.
Proof. cbv zeta. split; [repeat constructor; discriminate|]. repeat split. Qed.

(* appending: the bytes are those already there followed by the value's, cut at 64 *)
Theorem C25_append_exact : forall s b v i e i', sound i -> emit s b v i = (e, i') ->
  sound i' /\ emitted (data_bytes b s v) (i_len i) i e i' /\
  i_code i' = firstn 64 (i_code i ++ data_bytes b s v).
Proof. exact C25_append. Qed.
Print Assumptions C25_append_exact.

(* Full statement: without the bound on [pos].  The refutation below is what is missing. *)
Theorem C25_emit_at_exact_partial : forall s b v pos i e i', sound i -> 0 <= pos -> pos + nbytes s <= 256 ->
  emit_at s b v pos i = (e, i') -> sound i' /\ emitted (data_bytes b s v) pos i e i'.
Proof. exact C25_exact. Qed.
Print Assumptions C25_emit_at_exact_partial.

(* a position so near to 255 that the position of the last byte wraps around 256: byte 0 is
   overwritten and the call answers OK *)
Theorem C25_position_wrap_refuted : exists i',
  emit_at S16 true 0x1234 255 (new_insn 0) = (OK, i') /\ byte_at i' 0 = 0x34 /\ i_err i' = NO_MEMORY.
Proof. exact C25_wrap. Qed.
Print Assumptions C25_position_wrap_refuted.

(* ------------------------------------------------------------------ C26 *)
Theorem C26_round_trip : forall s b v i e i' d rest, 0 <= v < 256 ^ nbytes s ->
  sound i -> i_len i + nbytes s <= 64 -> emit s b v i = (e, i') ->
  sound (d_insn d) -> i_len (d_insn d) + nbytes s <= 64 -> d_mem d = data_bytes b s v ++ rest ->
  e = OK /\ i_code i' = i_code i ++ data_bytes b s v /\
  exists d', read_data s b d = (v, d') /\ d_mem d' = rest /\ d_err d' = d_err d /\
    i_code (d_insn d') = i_code (d_insn d) ++ data_bytes b s v.
Proof. exact C26_round. Qed.
Print Assumptions C26_round_trip.
Example C26_case : data_bytes true S32 0x12345678 = [0x12; 0x34; 0x56; 0x78] /\
  data_bytes false S32 0x12345678 = [0x78; 0x56; 0x34; 0x12] /\
  snd (emit S32 false 0x12345678 (new_insn 0)) <> new_insn 0.
Proof. repeat split. discriminate. Qed.

(* fewer bytes in memory than the value needs: reported *)
Theorem C26_short_memory_reported : forall d s b, d_err d = OK -> Z.of_nat (length (d_mem d)) < nbytes s ->
  d_err (snd (read_data s b d)) = NO_MEMORY.
Proof. exact C26_short. Qed.
Print Assumptions C26_short_memory_reported.
Example C26_short_case : d_err (snd (read_data S32 true (mkD (new_insn 0) [1; 2; 3] OK))) = NO_MEMORY.
Proof. reflexivity. Qed.

(* ------------------------------------------------------------------ C30 *)
Theorem C30_sign_extension : forall u w, 1 <= w <= 32 -> 0 <= u < 2^32 ->
  exists d, signExtend u w = Some d /\ - 2^(w-1) <= d < 2^(w-1) /\ (d - u) mod 2^w = 0 /\
  forall d', - 2^(w-1) <= d' < 2^(w-1) -> (d' - u) mod 2^w = 0 -> d' = d.
Proof. exact C30_sign. Qed.
Print Assumptions C30_sign_extension.
Example C30_sign_case : signExtend 0x1FE 8 = Some (-2) /\ signExtend 0x7FFF 16 = Some 0x7FFF.
Proof. split; reflexivity. Qed.

(* Full statement: for every width 1..32; width 32 is refuted below (never used by an assembler) *)
Theorem C30_delta_range_partial : forall d w, 1 <= w <= 31 ->
  exists b, overflowDelta d w = Some b /\ (b = false <-> - 2^(w-1) <= d < 2^(w-1)).
Proof. exact C30_delta. Qed.
Print Assumptions C30_delta_range_partial.
Example C30_delta_case : overflowDelta (-128) 8 = Some false /\ overflowDelta 128 8 = Some true.
Proof. split; reflexivity. Qed.

(* width 32 negates INT32_MIN *)
Theorem C30_delta_width_32_refuted : forall d, overflowDelta d 32 = None.
Proof. exact C30_delta_ub. Qed.
Print Assumptions C30_delta_width_32_refuted.

Theorem C30_branch_distance : forall aw base target, 1 <= aw <= 32 -> 0 <= base < 2^aw -> 0 <= target < 2^32 ->
  exists delta e, branchDelta aw base target OK = Some (delta, e) /\
  (base + delta - target) mod 2^aw = 0 /\ - 2^(aw-1) <= delta < 2^(aw-1) /\
  (e = OK \/ e = OVERFLOW_RANGE) /\
  (e = OK <-> target < 2^aw /\ - 2^(aw-1) <= target - base < 2^(aw-1)) /\
  (e = OK -> delta = target - base).
Proof. exact C30_branch. Qed.
Print Assumptions C30_branch_distance.
Example C30_branch_case : branchDelta 16 0x1002 0x1000 OK = Some (-2, OK) /\
  branchDelta 16 0xFFF0 0x10 OK = Some (0x20, OVERFLOW_RANGE) /\
  branchDelta 16 0x1000 0x10000 OK = Some (-0x1000, OVERFLOW_RANGE).
Proof. repeat split. Qed.

(* ------------------------------------------------------------------ C31 *)
Theorem C31_address_range : forall aw a al, 1 <= aw <= 32 -> 0 <= a < 2^32 ->
  (checkAddr aw a al = OK <-> a < 2^aw /\ (al = true -> Z.Even a)) /\
  (checkAddr aw a al = OVERFLOW_RANGE <-> 2^aw <= a).
Proof. exact C31_addr. Qed.
Print Assumptions C31_address_range.
Example C31_case : checkAddr 16 0xFFFF false = OK /\ checkAddr 16 0x10000 false = OVERFLOW_RANGE /\
  checkAddr 16 0xFFFF true = OPERAND_NOT_ALIGNED /\ checkAddr 32 0xFFFFFFFE true = OK.
Proof. repeat split. Qed.

Theorem C31_segment_range : forall aw a base w al, 1 <= aw <= 32 -> 0 <= a < 2^32 -> 0 <= base < 2^32 -> 0 <= w < 64 ->
  (checkAddr_in aw a base w al = OK <-> a < 2^aw /\ (al = true -> Z.Even a) /\ a / 2^w = base / 2^w).
Proof. exact C31_segment. Qed.
Print Assumptions C31_segment_range.
Example C31_segment_case : checkAddr_in 16 0x12FF 0x1234 8 false = OK /\
  checkAddr_in 16 0x1300 0x1234 8 false = OVERWRAP_SEGMENT.
Proof. split; reflexivity. Qed.
