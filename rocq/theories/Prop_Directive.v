(** C32, C33, C34: alignment, data, origin and space. *)
From Coq Require Import ZArith String List Bool.
From Verif Require Import M_Char M_Error M_Value M_Text M_Insn M_Config M_Operators M_Parsers M_Expr M_Directive S_Value S_Insn S_Expr S_ExprTree S_Directive S_DataBad P_Directive P_Data P_DataBad P_ExprCase.
Import ListNotations.
Open Scope string_scope.
Open Scope list_scope.
Local Open Scope Z_scope.

(* ------------------------------------------------------------ C32 *)
(* ALIGN n, for n from 1 to 255, moves address and location to the least multiple of n that is not
   below; an error is reported exactly when that is not an address of the target. Missing: n = 0
   and multiples past the last 32-bit address, for which the claim is false (below). *)
Theorem C32_align_partial : forall a s n p m, 1 <= a_aw a <= 32 -> 1 <= n <= 255 -> operand a s n p ->
  0 <= i_addr (ds_insn s) -> i_err (ds_insn s) = OK ->
  least_multiple n (i_addr (ds_insn s)) m -> m < 2^32 ->
  exists s', alignOrigin a ALIGN_VAR s = Val (if m <? 2^(a_aw a) then OK else OVERFLOW_RANGE, s') /\
    ds_loc s' = m /\ i_addr (ds_insn s') = m /\ i_code (ds_insn s') = i_code (ds_insn s) /\ ds_scan s' = p.
Proof. exact C32_var. Qed.
Print Assumptions C32_align_partial.
(* EVEN and ODD *)
Theorem C32_even_partial : forall a s m, 1 <= a_aw a <= 32 -> 0 <= i_addr (ds_insn s) -> i_err (ds_insn s) = OK ->
  least_multiple 2 (i_addr (ds_insn s)) m -> m < 2^32 ->
  exists s', alignOrigin a ALIGN_EVEN s = Val (if m <? 2^(a_aw a) then OK else OVERFLOW_RANGE, s') /\
    ds_loc s' = m /\ i_addr (ds_insn s') = m /\ i_code (ds_insn s') = i_code (ds_insn s) /\ ds_scan s' = ds_scan s.
Proof. exact C32_even. Qed.
Print Assumptions C32_even_partial.
Theorem C32_odd_address : forall a s, 1 <= a_aw a <= 32 -> 0 <= i_addr (ds_insn s) < 2^32 -> i_err (ds_insn s) = OK ->
  let m := if Z.even (i_addr (ds_insn s)) then i_addr (ds_insn s) + 1 else i_addr (ds_insn s) in
  exists s', alignOrigin a ALIGN_ODD s = Val (if m <? 2^(a_aw a) then OK else OVERFLOW_RANGE, s') /\
    ds_loc s' = m /\ i_addr (ds_insn s') = m /\ ds_scan s' = ds_scan s.
Proof. exact C32_odd. Qed.
Print Assumptions C32_odd_address.
(* other operands, and operands that cannot be evaluated, are reported and move nothing *)
Theorem C32_out_of_range : forall a s n p, (n < 0 \/ 255 < n) -> operand a s n p ->
  exists s', alignOrigin a ALIGN_VAR s = Val (OVERFLOW_RANGE, s') /\
    ds_loc s' = ds_loc s /\ i_addr (ds_insn s') = i_addr (ds_insn s) /\ i_err (ds_insn s') = OVERFLOW_RANGE.
Proof. exact C32_range. Qed.
Print Assumptions C32_out_of_range.
Theorem C32_bad_operand : forall a s e, operand_error a s e ->
  exists s', alignOrigin a ALIGN_VAR s = Val (e, s') /\
    ds_loc s' = ds_loc s /\ i_addr (ds_insn s') = i_addr (ds_insn s) /\ i_err (ds_insn s') = e.
Proof. exact C32_error. Qed.
Print Assumptions C32_bad_operand.
(* ALIGN 0 divides by zero *)
Theorem C32_align_zero_refuted : exists a s p, operand a s 0 p /\ alignOrigin a ALIGN_VAR s = UB.
Proof.
  exists (ex_asm 16 false), (ex_line 0x101 (s2l "0")), [].
  split; [apply (ex_operand 16 false 0x101 0 (s2l "0") (setUnsigned 0)); vm_compute; intuition discriminate|vm_compute; reflexivity].
Qed.
Print Assumptions C32_align_zero_refuted.
(* past the last 32-bit address the location wraps to 0 without an error *)
Theorem C32_align_wraps_refuted : exists a s p s', operand a s 16 p /\ i_addr (ds_insn s) = 2^32 - 1 /\
  alignOrigin a ALIGN_VAR s = Val (OK, s') /\ ds_loc s' = 0.
Proof.
  exists (ex_asm 32 false), (ex_line (2^32 - 1) (s2l "16")), []. eexists.
  split; [apply (ex_operand 32 false (2^32 - 1) 16 (s2l "16") (setUnsigned 16)); vm_compute; intuition discriminate|].
  split; [reflexivity|]. split; vm_compute; reflexivity.
Qed.
Print Assumptions C32_align_wraps_refuted.
Example C32_case : operand (ex_asm 16 false) (ex_line 0x101 (s2l "3*4")) 12 [] /\ least_multiple 12 0x101 0x108 /\
  i_err (ds_insn (ex_line 0x101 (s2l "3*4"))) = OK /\
  alignOrigin (ex_asm 16 false) ALIGN_VAR (ex_line 0x101 (s2l "3*4")) = Val (OK, mkDS 0x108 [] (new_insn 0x108)) /\
  operand (ex_asm 16 false) (ex_line 0x101 (s2l "-1")) (-1) [] /\
  operand_error (ex_asm 16 false) (ex_line 0x101 (s2l "1+")) MISSING_OPERAND.
Proof.
  split; [apply (ex_operand 16 false 0x101 12 (s2l "3*4") (setUnsigned 12)); vm_compute; intuition discriminate|].
  split; [exact (aligned_least 12 0x101 eq_refl)|]. split; [reflexivity|]. split; [vm_compute; reflexivity|].
  split; [apply (ex_operand 16 false 0x101 (-1) (s2l "-1") (setInteger (-1))); vm_compute; intuition discriminate|].
  split; [discriminate|]. eexists _, _. vm_compute. reflexivity.
Qed.

(* ------------------------------------------------------------ C33 *)
(* A list of constants and strings emits, after the bytes already there, the bytes of its items in
   order and in the target's byte order, and reads the line up to its end; the instruction holds
   the first 64 bytes and an error is reported exactly when there are more. A data directive that
   aligns starts at the next even address.
   Missing: the families with escape sequences in strings (their constants are covered), the
   PDP-8 and PDP-11, function calls and letter constants within expressions, floating point. *)
Theorem C33_data_partial : forall f a ty align s its,
  In f data_families -> a_pl a = fam_pl f -> a_radix a = 10 -> (a_unit a = 1 \/ a_unit a = 2) -> integer_type ty = true ->
  total_functions (mkC (data_loc align s) (a_symbol a) (a_function a) 0) -> sound (ds_insn s) -> i_err (ds_insn s) = OK ->
  0 <= i_addr (ds_insn s) -> data_start align s < 2^32 ->
  data_text f (mkC (data_loc align s) (a_symbol a) (a_function a) 0) (has_string ty) its (ds_scan s) ->
  let all := i_code (ds_insn s) ++ flat_map (item_bytes (a_big a) (a_unit a) ty) its in
  exists s', defineDataConstant a ty align s = Val (if Z.of_nat (length all) <=? 64 then OK else NO_MEMORY, s') /\
    i_code (ds_insn s') = firstn 64 all /\ i_err (ds_insn s') = (if Z.of_nat (length all) <=? 64 then OK else NO_MEMORY) /\
    i_addr (ds_insn s') = data_start align s /\ ds_loc s' = data_loc align s /\
    (Z.of_nat (length all) <= 64 -> line_end (ds_scan s')).
Proof. exact C33_lists. Qed.
Print Assumptions C33_data_partial.
(* strings between two equal letters *)
Theorem C33_delimited_strings : forall s ls, sound (ds_insn s) -> i_err (ds_insn s) = OK -> delimited_text ls (ds_scan s) ->
  let all := i_code (ds_insn s) ++ map (fun c => c mod 256) (concat ls) in
  exists s', defineString s = Val (if Z.of_nat (length all) <=? 64 then OK else NO_MEMORY, s') /\
    i_code (ds_insn s') = firstn 64 all /\ i_err (ds_insn s') = (if Z.of_nat (length all) <=? 64 then OK else NO_MEMORY) /\
    i_addr (ds_insn s') = i_addr (ds_insn s) /\ ds_loc s' = ds_loc s /\ line_end (ds_scan s').
Proof. exact C33_delimited. Qed.
Print Assumptions C33_delimited_strings.
(* an error of an item, the first in the list that has one, makes the line one with an error,
   whatever follows *)
Theorem C33_bad_item_reported : forall f a ty align s e s',
  In f data_families -> a_pl a = fam_pl f -> a_radix a = 10 -> (a_unit a = 1 \/ a_unit a = 2) -> integer_type ty = true ->
  total_functions (mkC (data_loc align s) (a_symbol a) (a_function a) 0) -> sound (ds_insn s) -> i_err (ds_insn s) = OK ->
  0 <= i_addr (ds_insn s) -> data_start align s < 2^32 ->
  bad_data f a (data_loc align s) (has_string ty) (ds_scan s) ->
  defineDataConstant a ty align s = Val (e, s') -> e <> OK /\ i_err (ds_insn s') <> OK.
Proof. exact C33_bad_item. Qed.
Print Assumptions C33_bad_item_reported.
(* an undefined symbol first, a number after it *)
Example C33_bad_item_case : bad_data ex_fam (ex_asm 16 true) 0x100 true (s2l " NONE, 2") /\
  exists s', defineDataConstant (ex_asm 16 true) DATA_WORD false (ex_line 0x100 (s2l " NONE, 2")) = Val (UNDEFINED_SYMBOL, s') /\
    i_code (ds_insn s') = [0; 0; 0; 2].
Proof.
  split; [|eexists; split; vm_compute; reflexivity].
  apply (BD_here ex_fam (ex_asm 16 true) 0x100 true UNDEFINED_SYMBOL [32] (s2l "NONE, 2")); [repeat constructor|reflexivity| | |].
  - intros H. vm_compute in H. intuition discriminate.
  - intros H. vm_compute in H. intuition discriminate.
  - intros i. split; [discriminate|]. eexists _, _. vm_compute. reflexivity.
Qed.
(* a constant that does not fit is cut without an error *)
Theorem C33_range_refuted : exists a s s', operand a s 300 [] /\
  defineDataConstant a DATA_BYTE false s = Val (OK, s') /\ i_code (ds_insn s') = [44].
Proof.
  exists (ex_asm 16 false), (ex_line 0x100 (s2l "300")). eexists.
  split; [apply (ex_operand 16 false 0x100 300 (s2l "300") (setUnsigned 300)); vm_compute; intuition discriminate|].
  split; vm_compute; reflexivity.
Qed.
Print Assumptions C33_range_refuted.
(* PDP-8: a blank before the comma of a list is refused *)
Theorem C33_pdp8_list_refuted : exists a s s', a_pl a = pl_pdp8 /\ ds_scan s = s2l "1 ,2" /\
  defineDataConstant a DATA_WORD false s = Val (ILLEGAL_CONSTANT, s').
Proof.
  exists (mkA pl_pdp8 (fun _ => None) (fun _ => None) 10 12 2 true), (ex_line 0x100 (s2l "1 ,2")). eexists.
  split; [reflexivity|]. split; [reflexivity|]. vm_compute. reflexivity.
Qed.
Print Assumptions C33_pdp8_list_refuted.
Definition ex_data : text := s2l " 10 - 2*( MASK-3) -$,'A''B' , 2 ; x".
Example C33_case : In ex_fam data_families /\ a_pl (ex_asm 16 true) = fam_pl ex_fam /\
  total_functions (mkC 0x100 (a_symbol (ex_asm 16 true)) (a_function (ex_asm 16 true)) 0) /\ sound (new_insn 0x100) /\
  data_text ex_fam (mkC 0x100 (a_symbol (ex_asm 16 true)) (a_function (ex_asm 16 true)) 0) true [IConst (-250); IStr (s2l "A'B"); IConst 2] ex_data /\
  flat_map (item_bytes true 1 DATA_WORD) [IConst (-250); IStr (s2l "A'B"); IConst 2] = [0xFF; 0x06; 0x41; 0x27; 0x42; 0x00; 0x00; 0x02] /\
  (exists i, defineDataConstant (ex_asm 16 true) DATA_WORD false (ex_line 0x100 ex_data) = Val (OK, mkDS 0x100 (s2l "; x") i) /\
    i_code i = [0xFF; 0x06; 0x41; 0x27; 0x42; 0x00; 0x00; 0x02]).
Proof.
  split; [cbn; tauto|]. split; [reflexivity|]. split; [intros n g H; discriminate H|]. split; [exact (P_Insn.sound_new 0x100)|].
  split; [exact C33_example|]. split; [reflexivity|]. eexists. split; vm_compute; reflexivity.
Qed.
Example C33_delimited_case : delimited_text [s2l "ab"; s2l "c,d"] (s2l " /ab/ , |c,d| ;") /\
  (exists s', defineString (ex_line 0x100 (s2l " /ab/ , |c,d| ;")) = Val (OK, s') /\ i_code (ds_insn s') = s2l "abc,d").
Proof.
  split; [|eexists; split; vm_compute; reflexivity].
  apply (DL_more [32] [32] 47 (s2l "ab") [s2l "c,d"] (s2l " |c,d| ;")); try (repeat constructor; vm_compute; intuition discriminate).
  apply (DL_last [32] [32] 124 (s2l "c,d") (s2l ";")); repeat constructor; vm_compute; intuition discriminate.
Qed.

(* ------------------------------------------------------------ C34 *)
Theorem C34_origin_partial : forall a s n p, 1 <= a_aw a <= 32 -> 0 <= n < 2^(a_aw a) -> operand a s n p -> i_err (ds_insn s) = OK ->
  exists s', defineOrigin a s = Val (OK, s') /\ ds_loc s' = n /\ i_addr (ds_insn s') = n /\
    i_code (ds_insn s') = [] /\ ds_scan s' = p /\ i_err (ds_insn s') = OK.
Proof. exact C34_org. Qed.
Print Assumptions C34_origin_partial.
(* an operand that is not an address is reported, and the address stays. Missing: operands of more
   than 32 bits, and negative ones for 32-bit targets, for which it is false (below). *)
Theorem C34_origin_range_partial : forall a s n p, 1 <= a_aw a <= 32 ->
  2^(a_aw a) <= n < 2^32 \/ (a_aw a < 32 /\ - 2^31 <= n < 0) -> operand a s n p -> i_err (ds_insn s) = OK ->
  exists s', defineOrigin a s = Val (OVERFLOW_RANGE, s') /\ i_addr (ds_insn s') = i_addr (ds_insn s) /\ i_err (ds_insn s') = OVERFLOW_RANGE.
Proof. exact C34_org_range. Qed.
Print Assumptions C34_origin_range_partial.
Theorem C34_origin_bad_operand : forall a s e, operand_error a s e ->
  exists s', defineOrigin a s = Val (e, s') /\ ds_loc s' = ds_loc s /\ i_addr (ds_insn s') = i_addr (ds_insn s) /\ i_err (ds_insn s') = e.
Proof. exact C34_org_error. Qed.
Print Assumptions C34_origin_bad_operand.
(* space for n elements, 0 <= n < 2^16, of 1, 2 or 4 bytes: the location moves behind them, and the
   line's error tells whether the new location is an address (an even one, when aligning) *)
Theorem C34_space_partial : forall a ty align s n p to, 1 <= a_aw a <= 32 -> (a_unit a = 1 \/ a_unit a = 2) -> 0 <= n < 2^16 ->
  operand a s n p -> i_err (ds_insn s) = OK -> 0 <= i_addr (ds_insn s) ->
  to = space_start align (i_addr (ds_insn s)) + n * space_unit ty / a_unit a -> to < 2^32 ->
  exists s', allocateSpaces a ty align s = Val (OK, s') /\ ds_loc s' = to /\
    i_addr (ds_insn s') = space_start align (i_addr (ds_insn s)) /\ i_code (ds_insn s') = i_code (ds_insn s) /\
    ds_scan s' = p /\ i_err (ds_insn s') = checkAddr (a_aw a) to align.
Proof. exact C34_space. Qed.
Print Assumptions C34_space_partial.
Theorem C34_space_range_partial : forall a ty align s n p, n < - 2^15 \/ 2^16 <= n -> operand a s n p ->
  0 <= i_addr (ds_insn s) -> space_start align (i_addr (ds_insn s)) < 2^32 ->
  exists s', allocateSpaces a ty align s = Val (OVERFLOW_RANGE, s') /\ ds_loc s' = ds_loc s /\ i_err (ds_insn s') = OVERFLOW_RANGE.
Proof. exact C34_space_range. Qed.
Print Assumptions C34_space_range_partial.
Theorem C34_space_bad_operand : forall a ty align s e, operand_error a s e ->
  0 <= i_addr (ds_insn s) -> space_start align (i_addr (ds_insn s)) < 2^32 ->
  exists s', allocateSpaces a ty align s = Val (e, s') /\ ds_loc s' = ds_loc s /\ i_err (ds_insn s') = e.
Proof. exact C34_space_error. Qed.
Print Assumptions C34_space_bad_operand.
(* the origin is cut to 32 bits *)
Theorem C34_origin_wide_refuted : exists a s s', operand a s (2^32) [] /\ a_aw a = 16 /\ defineOrigin a s = Val (OK, s') /\ ds_loc s' = 0.
Proof.
  exists (ex_asm 16 false), (ex_line 0x100 (s2l "4294967296")). eexists.
  split; [apply (ex_operand 16 false 0x100 (2^32) (s2l "4294967296") {| v_type := V_UNSIGNED; v_bits := 2^32 |}); vm_compute; intuition discriminate|].
  split; [reflexivity|]. split; vm_compute; reflexivity.
Qed.
Print Assumptions C34_origin_wide_refuted.
Theorem C34_origin_negative_refuted : exists a s s', operand a s (-1) [] /\ a_aw a = 32 /\ defineOrigin a s = Val (OK, s') /\ ds_loc s' = 2^32 - 1.
Proof.
  exists (ex_asm 32 false), (ex_line 0x100 (s2l "-1")). eexists.
  split; [apply (ex_operand 32 false 0x100 (-1) (s2l "-1") (setInteger (-1))); vm_compute; intuition discriminate|].
  split; [reflexivity|]. split; vm_compute; reflexivity.
Qed.
Print Assumptions C34_origin_negative_refuted.
(* a negative count moves the location back without an error *)
Theorem C34_space_negative_refuted : exists a s s', operand a s (-1) [] /\ ds_loc s = 0x100 /\
  allocateSpaces a DATA_BYTE false s = Val (OK, s') /\ ds_loc s' = 0xFF /\ i_err (ds_insn s') = OK.
Proof.
  exists (ex_asm 16 false), (ex_line 0x100 (s2l "-1")). eexists.
  split; [apply (ex_operand 16 false 0x100 (-1) (s2l "-1") (setInteger (-1))); vm_compute; intuition discriminate|].
  split; [reflexivity|]. split; [vm_compute; reflexivity|]. split; vm_compute; reflexivity.
Qed.
Print Assumptions C34_space_negative_refuted.
Example C34_case : operand (ex_asm 16 false) (ex_line 0x100 (s2l "8000H")) 0x8000 [] /\
  (exists s', defineOrigin (ex_asm 16 false) (ex_line 0x100 (s2l "8000H")) = Val (OK, s') /\ ds_loc s' = 0x8000) /\
  (exists s', defineOrigin (ex_asm 15 false) (ex_line 0x100 (s2l "8000H")) = Val (OVERFLOW_RANGE, s')) /\
  (exists s', allocateSpaces (ex_asm 16 false) DATA_LONG true (ex_line 0x101 (s2l "8000H")) = Val (OK, s') /\ ds_loc s' = 0x20102 /\ i_err (ds_insn s') = OVERFLOW_RANGE) /\
  operand (ex_asm 16 false) (ex_line 0x100 (s2l "10000H")) 0x10000 [] /\
  operand_error (ex_asm 16 false) (ex_line 0x101 (s2l "(1")) MISSING_CLOSING_PAREN.
Proof.
  split; [apply (ex_operand 16 false 0x100 0x8000 (s2l "8000H") (setUnsigned 0x8000)); vm_compute; intuition discriminate|].
  split; [eexists; split; vm_compute; reflexivity|]. split; [eexists; vm_compute; reflexivity|].
  split; [eexists; split; [vm_compute; reflexivity|split; vm_compute; reflexivity]|].
  split; [apply (ex_operand 16 false 0x100 0x10000 (s2l "10000H") (setUnsigned 0x10000)); vm_compute; intuition discriminate|].
  split; [discriminate|]. eexists _, _. vm_compute. reflexivity.
Qed.
