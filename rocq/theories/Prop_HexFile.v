(** Properties C04 to C08: object files. *)
From Coq Require Import String ZArith List Bool Lia.
From Verif Require Import M_Char M_BinMemory M_HexFile M_Commander
  S_ByteMap S_Memory S_HexFile P_BinMemory P_HexFile P_HexProps.
Import ListNotations.
Local Open Scope string_scope.
Local Open Scope list_scope.
Local Open Scope Z_scope.

(* ---------------------------------------------------------------- C04 *)
(* Targets with at most 16 address bits: exact for every image and record size. *)
Theorem C04_ihex_round_trip_16bit : forall ws aw rs, Forall is_write ws -> aw <= 16 ->
  (forall a v, In (a, v) ws -> a < 65536) -> 1 <= rs <= 255 ->
  exists N file, (forall fuel, (N <= fuel)%nat -> ih_file fuel aw rs (writes ws) = Some file) /\
    exists n m', decode_file file empty = (n, m') /\ 0 <= n /\ mem_eqb m' (writes ws) = true.
Proof.
  intros ws aw rs F Haw HA Hrs. apply ih_round; auto. replace (aw <=? 16) with true by lia. exact HA.
Qed.

(* Wider targets: exact when no extended address record needs a checksum below 0x10 and no
   record reaches across a 64 KiB boundary ... *)
Theorem C04_ihex_round_trip_wide_partial : forall ws aw rs, Forall is_write ws -> 16 < aw ->
  1 <= rs <= 255 ->
  (forall a v, In (a, v) ws -> 16 <= ela_checksum (a / 65536)) -> no_straddle ws rs ->
  exists N file, (forall fuel, (N <= fuel)%nat -> ih_file fuel aw rs (writes ws) = Some file) /\
    exists n m', decode_file file empty = (n, m') /\ 0 <= n /\ mem_eqb m' (writes ws) = true.
Proof.
  intros ws aw rs F Haw Hrs H1 H2. apply ih_round; auto. replace (aw <=? 16) with false by lia. auto.
Qed.

(* ... and both conditions are needed: a file the decoder rejects, *)
Theorem C04_ihex_round_trip_ela_refuted : exists ws aw rs file n m',
  Forall is_write ws /\ 1 <= rs <= 255 /\ no_straddle ws rs /\
  ih_file 4 aw rs (writes ws) = Some file /\ decode_file file empty = (n, m') /\ n < 0.
Proof.
  exists [(15728640, 1); (65536, 2)], 24, 16. eexists _, _, _.
  split; [repeat constructor; cbn; lia|]. split; [lia|]. split.
  - intros s bnd Hb Hs H0 HA. exfalso.
    assert (A1 : last_write [(15728640, 1); (65536, 2)] bnd <> None) by (apply HA; lia).
    assert (A2 : last_write [(15728640, 1); (65536, 2)] (bnd - 1) <> None) by (apply HA; lia).
    unfold last_write in A1, A2. cbn [fold_left fst snd] in A1, A2.
    destruct (Z.eqb_spec 15728640 bnd); destruct (Z.eqb_spec 65536 bnd);
    destruct (Z.eqb_spec 15728640 (bnd - 1)); destruct (Z.eqb_spec 65536 (bnd - 1)); try lia; congruence.
  - split; [vm_compute; reflexivity|]. split; [vm_compute; reflexivity|lia].
Qed.

(* and a file that silently decodes to a different image. *)
Theorem C04_ihex_round_trip_boundary_refuted : exists ws aw rs file n m',
  Forall is_write ws /\ 1 <= rs <= 255 /\
  (forall a v, In (a, v) ws -> 16 <= ela_checksum (a / 65536)) /\
  ih_file 4 aw rs (writes ws) = Some file /\ decode_file file empty = (n, m') /\ 0 <= n /\
  readByte (writes ws) 65536 = 2 /\ hasByte m' 65536 = false /\ readByte m' 0 = 2.
Proof.
  exists [(65535, 1); (65536, 2)], 24, 16. eexists _, _, _.
  split; [repeat constructor; cbn; lia|]. split; [lia|]. split.
  - intros a v [E|[E|[]]]; inversion E; vm_compute; congruence.
  - split; [vm_compute; reflexivity|]. split; [vm_compute; reflexivity|].
    split; [vm_compute; congruence|]. repeat split; vm_compute; reflexivity.
Qed.

(* An image of two blocks on two pages, one of two records, that meets the wide hypotheses. *)
Example C04_case : let ws := [(70000, 1); (70001, 2); (70002, 3); (9, 255)] in
  Forall is_write ws /\ (forall a v, In (a, v) ws -> 16 <= ela_checksum (a / 65536)) /\
  no_straddle ws 2 /\
  ih_file 4 24 2 (writes ws) =
    Some (map s2l [":020000040000FA"; ":01000900FFF7"; ":020000040001F9";
                   ":0211700001027A"; ":011172000379"; ":00000001FF"]).
Proof.
  intros ws. split; [repeat constructor; cbn; lia|]. split; [|split].
  - intros a v [E|[E|[E|[E|[]]]]]; inversion E; vm_compute; congruence.
  - intros s bnd Hb Hs _ HA. exfalso. specialize (HA bnd ltac:(lia)).
    destruct (last_write ws bnd) as [v|] eqn:E; [|congruence].
    apply last_write_in in E. destruct E as [E|[E|[E|[E|[]]]]]; inversion E; subst bnd; vm_compute in Hb; congruence.
  - vm_compute. reflexivity.
Qed.

(* ---------------------------------------------------------------- C05 *)
Theorem C05_srec_round_trip : forall ws aw rs, Forall is_write ws -> 1 <= rs ->
  addressSize aw + rs + 1 <= 255 -> (forall a v, In (a, v) ws -> a < 2^(8 * addressSize aw)) ->
  exists N file, (forall fuel, (N <= fuel)%nat -> sr_file fuel aw rs (writes ws) = Some file) /\
    exists n m', decode_file file empty = (n, m') /\ 0 <= n /\ mem_eqb m' (writes ws) = true.
Proof. exact sr_round. Qed.

Example C05_case : let ws := [(70000, 1); (70001, 2); (70002, 3); (9, 255)] in
  Forall is_write ws /\ addressSize 24 + 2 + 1 <= 255 /\
  (forall a v, In (a, v) ws -> a < 2^(8 * addressSize 24)) /\
  sr_file 4 24 2 (writes ws) =
    Some (map s2l ["S0030000FC"; "S205000009FFF2"; "S206011170010274"; "S2050111720373"; "S804000000FB"]).
Proof.
  intros ws. split; [repeat constructor; cbn; lia|]. split; [vm_compute; congruence|]. split.
  - intros a v [E|[E|[E|[E|[]]]]]; inversion E; vm_compute; reflexivity.
  - vm_compute. reflexivity.
Qed.

(* ---------------------------------------------------------------- C06 *)
(* Address, data and checksum digits of an Intel HEX data record (":LLAAAATTdd..ddCC"). *)
Theorem C06_ihex_damage_rejected_partial : forall next addr d m i c,
  0 <= addr < 65536 -> Forall is_byte d -> dsize d <= 255 ->
  let line := encodeLine addr d (dsize d) in
  (3 <= i < 7 \/ 9 <= i)%nat -> (i < length line)%nat ->
  hex_char c -> digit_value c <> digit_value (nth i line 0) ->
  fst (fst (ih_decode next (replace_at line i c) m)) = -1.
Proof. exact ih_damage_replace. Qed.

(* Address, data and checksum digits of an S-record ("S1LLAAAAdd..ddCC"). *)
Theorem C06_srec_damage_rejected_partial : forall aw a d m i c,
  0 <= a < 2^(8 * addressSize aw) -> Forall is_byte d -> addressSize aw + dsize d + 1 <= 255 ->
  let line := sr_encode aw a d (dsize d) in
  (4 <= i < length line)%nat -> hex_char c -> digit_value c <> digit_value (nth i line 0) ->
  fst (sr_decode (replace_at line i c) m) = -1.
Proof. intros aw a d m i c H1 H2 H3. apply sr_damage_replace. repeat split; try apply H1; auto. Qed.

Example C06_case : let line := encodeLine 256 [1; 2] 2 in
  line = s2l ":020100000102FA" /\ hex_char 57 /\ digit_value 57 <> digit_value (nth 10 line 0) /\
  let line := sr_encode 16 256 [1; 2] 2 in
  line = s2l "S10501000102F6" /\ hex_char 97 /\ digit_value 97 <> digit_value (nth 6 line 0).
Proof.
  cbv zeta. repeat split; try (vm_compute; congruence);
  [left|right; right]; split; vm_compute; congruence.
Qed.

(* Damage to the record type digit of an Intel HEX record is not noticed: the data is dropped. *)
Theorem C06_ihex_type_digit_refuted : exists addr d i c,
  0 <= addr < 65536 /\ Forall is_byte d /\ d <> [] /\
  let line := encodeLine addr d (dsize d) in
  (i < length line)%nat /\ hex_char c /\ digit_value c <> digit_value (nth i line 0) /\
  ih_decode 0 (replace_at line i c) empty = (0, 0, empty).
Proof.
  exists 256, [1; 2], 8%nat, 49. split; [lia|]. split; [repeat constructor; cbn; lia|].
  split; [congruence|]. cbv zeta. split; [vm_compute; lia|]. split; [left; split; vm_compute; congruence|].
  split; [vm_compute; congruence|]. vm_compute. reflexivity.
Qed.

(* Damage to the length digits may go unnoticed. *)
Theorem C06_ihex_length_digit_refuted : exists addr d i c m',
  0 <= addr < 65536 /\ Forall is_byte d /\
  let line := encodeLine addr d (dsize d) in
  (i < length line)%nat /\ hex_char c /\ digit_value c <> digit_value (nth i line 0) /\
  ih_decode 0 (replace_at line i c) empty = (1, 0, m') /\ dsize d = 2 /\ hasByte m' (addr + 1) = false.
Proof.
  exists 0, [1; 254], 2%nat, 49. eexists. split; [lia|]. split; [repeat constructor; cbn; lia|].
  cbv zeta. split; [vm_compute; lia|]. split; [left; split; vm_compute; congruence|].
  split; [vm_compute; congruence|]. repeat split; vm_compute; reflexivity.
Qed.

(* Damage to the type digit of an S-record may store the data at another address. *)
Theorem C06_srec_type_digit_refuted : exists a d i c n m',
  0 <= a < 65536 /\ Forall is_byte d /\
  let line := sr_encode 16 a d (dsize d) in
  (i < length line)%nat /\ hex_char c /\ digit_value c <> digit_value (nth i line 0) /\
  sr_decode (replace_at line i c) empty = (n, m') /\ 0 <= n /\ hasByte m' a = false.
Proof.
  exists 4660, [1; 2; 3], 1%nat, 50. eexists _, _. split; [lia|]. split; [repeat constructor; cbn; lia|].
  cbv zeta. split; [vm_compute; lia|]. split; [left; split; vm_compute; congruence|].
  split; [vm_compute; congruence|]. split; [vm_compute; reflexivity|]. split; [lia|vm_compute; reflexivity].
Qed.

(* A record rejected for its checksum has already changed the image. *)
Theorem C06_rejected_contributes_nothing_refuted : exists addr d i c m',
  0 <= addr < 65536 /\ Forall is_byte d /\
  let line := encodeLine addr d (dsize d) in
  (9 <= i < length line)%nat /\ hex_char c /\ digit_value c <> digit_value (nth i line 0) /\
  ih_decode 0 (replace_at line i c) empty = (-1, 0, m') /\ hasByte m' addr = true.
Proof.
  exists 256, [1; 2], 10%nat, 57. eexists. split; [lia|]. split; [repeat constructor; cbn; lia|].
  cbv zeta. split; [vm_compute; lia|]. split; [left; split; vm_compute; congruence|].
  split; [vm_compute; congruence|]. split; vm_compute; reflexivity.
Qed.

(* ---------------------------------------------------------------- C07 *)
Theorem C07_records_partition_image : forall ws rs, Forall is_write ws -> 1 <= rs ->
  exists N recs, (forall fuel, (N <= fuel)%nat -> mem_records fuel rs (writes ws) = Some recs) /\
    Forall (fun r => 1 <= Z.of_nat (length (snd r)) <= rs) recs /\
    (forall l1 a1 d1 a2 d2 l2, recs = l1 ++ (a1, d1) :: (a2, d2) :: l2 -> a1 + Z.of_nat (length d1) <= a2) /\
    (forall a, segs_at recs a = last_write ws a).
Proof. exact records_partition. Qed.

Example C07_case : mem_records 3 2 (writes [(7, 1); (8, 2); (9, 3); (5, 4)]) = Some [(5, [4]); (7, [1; 2]); (9, [3])].
Proof. reflexivity. Qed.

(* A record size of 0, which the command line accepts (-H0, -S0), never finishes. *)
Theorem C07_record_size_zero_refuted : record_bytes_option (Some 0) = Some 0 /\
  forall ws fuel, Forall is_write ws -> ws <> [] -> mem_records fuel 0 (writes ws) = None.
Proof. split; [reflexivity|]. intros. apply records_zero; assumption. Qed.

(* The record length is 32 unless -H<n> or -S<n> gives another one, which must be at most 64; for
   every length from 1 on that is accepted the file consists of records of at most that length. *)
Theorem C07_record_size_option :
  record_bytes_option None = Some 32 /\ (forall n, n <= 64 -> record_bytes_option (Some n) = Some n) /\
  (forall n, 64 < n -> record_bytes_option (Some n) = None) /\
  forall n rs ws, record_bytes_option n = Some rs -> 1 <= rs -> Forall is_write ws ->
    rs <= 64 /\ exists N recs, (forall fuel, (N <= fuel)%nat -> mem_records fuel rs (writes ws) = Some recs) /\
      Forall (fun r => 1 <= Z.of_nat (length (snd r)) <= rs) recs /\ (forall a, segs_at recs a = last_write ws a).
Proof.
  split; [reflexivity|]. split; [intros n L; cbn; now destruct (Z.ltb_spec 64 n); [lia|]|]. split; [intros n L; cbn; now destruct (Z.ltb_spec 64 n); [|lia]|].
  intros n rs ws H R W. split.
  - destruct n as [n|]; cbn in H; [destruct (Z.ltb_spec 64 n); [discriminate|]|]; injection H as <-; lia.
  - destruct (records_partition ws rs W R) as (N & recs & A & B & _ & C). exists N, recs. auto.
Qed.
Example C07_option_case : record_bytes_option (Some 64) = Some 64 /\ record_bytes_option (Some 65) = None.
Proof. split; reflexivity. Qed.

(* ---------------------------------------------------------------- C08 *)
(* The -S and -H options do not change the format: *)
Theorem C08_option_ignored_refuted : exists default opt ws fuel file,
  opt = 83 (* -S *) /\ Forall is_write ws /\
  write_object fuel default opt 16 32 (writes ws) = Some file /\
  ih_file fuel 16 32 (writes ws) = Some file /\ sr_file fuel 16 32 (writes ws) <> Some file.
Proof.
  exists intel_hex_encoder, 83, [(256, 1)], 4%nat. eexists.
  split; [reflexivity|]. split; [repeat constructor; cbn; lia|].
  split; [vm_compute; reflexivity|]. split; [vm_compute; reflexivity|]. vm_compute. congruence.
Qed.

(* what is written is always the default format of the CPU. *)
Theorem C08_output_is_default_format_partial : forall fuel default opt aw rs m,
  write_object fuel default opt aw rs m =
  match e_format default with
  | IntelHexFormat => ih_file fuel aw rs m
  | MotoSrecFormat => sr_file fuel aw rs m
  end.
Proof.
  intros. unfold write_object, e_encode.
  destruct (opt =? 83); [reflexivity|]. destruct (opt =? 72); reflexivity.
Qed.
Print Assumptions C04_ihex_round_trip_16bit.
Print Assumptions C04_ihex_round_trip_wide_partial.
Print Assumptions C04_ihex_round_trip_ela_refuted.
Print Assumptions C04_ihex_round_trip_boundary_refuted.
Print Assumptions C05_srec_round_trip.
Print Assumptions C06_ihex_damage_rejected_partial.
Print Assumptions C06_srec_damage_rejected_partial.
Print Assumptions C06_ihex_type_digit_refuted.
Print Assumptions C06_ihex_length_digit_refuted.
Print Assumptions C06_srec_type_digit_refuted.
Print Assumptions C06_rejected_contributes_nothing_refuted.
Print Assumptions C07_records_partition_image.
Print Assumptions C07_record_size_zero_refuted.
Print Assumptions C07_record_size_option.
Print Assumptions C08_option_ignored_refuted.
Print Assumptions C08_output_is_default_format_partial.
