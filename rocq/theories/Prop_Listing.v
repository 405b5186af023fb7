(** C14: the listing of a source line. *)
From Coq Require Import String ZArith List Bool Lia.
From Verif Require Import M_Char M_Error M_Value M_StrBuffer M_Operators M_Listing S_Value S_Listing P_Listing.
Import ListNotations.
Open Scope string_scope.
Open Scope list_scope.
Local Open Scope Z_scope.

(* For every code of up to 64 bytes of an 8-bit or 16-bit machine (either byte order, even and odd
   addresses), or of a word machine as long as one line is enough, with any options and any
   source: the listing ends, and its lines show exactly the bytes of the code, in order, each line
   starting with the address of its first byte.
   Missing: several lines for a machine that addresses words (false, below); the text of error
   lines. *)
Theorem C14_listing_partial : forall l code,
  has_code (al_insn l) code -> machine_code (al_conf l) code -> isUndefined (al_value l) = true ->
  al_nest l - 1 < 2^32 -> match al_lineno l with Some n => 0 <= n < 2^32 | None => True end ->
  (lc_unit (al_conf l) = 1 \/ (length code <= 6)%nat) ->
  exists ts, asm_listing l None = Val ts /\ listing_shows l 0 code ts.
Proof. exact listing_ok. Qed.
Print Assumptions C14_listing_partial.
(* A column of bytes shows one sequence of bytes only. *)
Theorem C14_column_unambiguous : forall c r odd t bs bs', r = 8 \/ r = 16 ->
  Forall (fun b => 0 <= b < 256) bs -> Forall (fun b => 0 <= b < 256) bs' ->
  shows c r odd bs t -> shows c r odd bs' t -> bs = bs'.
Proof. intros c r odd t bs bs' R B B' S S'. exact (shows_inj c r odd bs t R S B bs' S' B'). Qed.
Print Assumptions C14_column_unambiguous.

Definition padded (code : list Z) : list Z := code ++ repeat 0 (64 - length code).
(* seven bytes and more at an odd address of a big endian 16-bit machine, included, with line numbers *)
Example C14_case : exists l code, code = [0x11; 0x12; 0x22; 0x23; 0x33; 0x34; 0x44; 0x45; 0x55; 0x56; 0x66; 0x67] /\
  l = mkAL (mkLC 1 16 true) (mkLO false true) (mkLI 0x101 12 (padded code)) v_undef (s2l " x") 3 (Some 12) /\
  has_code (al_insn l) code /\ machine_code (al_conf l) code /\
  asm_listing l None = Val [s2l "(2)   12/     101 :   11 1222 2333 3444     x"; s2l "              108 : 4555 5666 67"].
Proof.
  eexists _, _. split; [reflexivity|]. split; [reflexivity|]. split; [|split; [right; left; split; reflexivity|vm_compute; reflexivity]].
  split; [reflexivity|]. split; [reflexivity|]. split; [reflexivity|]. split; [cbn; lia|]. split; [repeat constructor; lia|cbn; lia].
Qed.

(* A machine that addresses words (here with the configuration of the MN1610): the second line of
   the listing starts with 106, although its bytes are at the word address 103.  No reading of the
   listing as a listing of the code is possible. *)
Theorem C14_word_addresses_refuted : exists l code ts,
  has_code (al_insn l) code /\ machine_code (al_conf l) code /\ isUndefined (al_value l) = true /\
  al_nest l = 1 /\ al_lineno l = None /\ asm_listing l None = Val ts /\
  ts = [s2l "        100 : 1111 2222 3333     x"; s2l "        106 : 4444"] /\
  byte_address l 6 = 0x103 /\ ~ listing_shows l 0 code ts.
Proof.
  exists (mkAL (mkLC 2 16 true) (mkLO false true) (mkLI 0x100 8 (padded [0x11; 0x11; 0x22; 0x22; 0x33; 0x33; 0x44; 0x44])) v_undef (s2l "x") 1 None),
    [0x11; 0x11; 0x22; 0x22; 0x33; 0x33; 0x44; 0x44], [s2l "        100 : 1111 2222 3333     x"; s2l "        106 : 4444"].
  split; [split; [reflexivity|]; split; [reflexivity|]; split; [reflexivity|]; split; [cbn; lia|]; split; [repeat constructor; lia|cbn; lia]|].
  split; [right; right; left; split; [reflexivity|]; split; [reflexivity|]; exists 4%nat; reflexivity|].
  split; [reflexivity|]. split; [reflexivity|]. split; [reflexivity|]. split; [vm_compute; reflexivity|]. split; [reflexivity|]. split; [reflexivity|].
  intros H. inversion H as [|? bs bs' ? ? N N' L R EO EB ET]. subst. inversion R as [? ? ? L'|? ? ? ? ? ? ? ? R']; subst; [|inversion R'].
  assert (LB : (length bs < 8)%nat). { apply (f_equal (@length Z)) in EB. rewrite app_length in EB. destruct bs'; [contradiction|]. cbn [length] in EB. lia. }
  assert (NB : 0 + Z.of_nat (length bs) <> 0) by (destruct bs; [contradiction|cbn [length]; lia]).
  pose proof (address_read _ _ _ _ NB L') as A. unfold byte_address in A. cbn [al_conf al_insn li_addr lc_unit] in A.
  change (positional _ _) with 262 in A. do 8 (destruct bs as [|? bs]; [discriminate A|]). cbn [length] in LB. lia.
Qed.
Print Assumptions C14_word_addresses_refuted.
