(** C17 and C28: printed numbers read back; text output stays in its buffer. *)
From Coq Require Import ZArith String List Lia.
From Verif Require Import M_Char M_Error M_Value M_StrBuffer M_Format M_Number S_Number S_StrBuffer
  P_StrBufferOps P_NumberRead.
Import ListNotations.
Open Scope string_scope.
Open Scope list_scope.
Local Open Scope Z_scope.

(* ------------------------------------------------------------------ C17 *)
(* Full statement: [reads_back (format p) np dr] for the plugins [p], [np] and the default radix
   [dr] of every CPU, and the four notations.  What is missing is refuted below. *)

(* C style and Intel notations (the c-style and intel-hex options) are read by every family *)
Theorem C17_common_notations_read_back : forall np dr,
  In np [np_intel; np_motorola; np_texas; np_zilog; np_panasonic; np_signetics; np_rca; np_fairchild;
         np_ins80xx; np_ns32000; np_pdp11] ->
  reads_back (formatBin fp_cstyle) np dr /\ reads_back (formatOct fp_cstyle) np dr /\
  reads_back (formatHex fp_cstyle) np dr /\
  reads_back (formatBin fp_intel) np dr /\ reads_back (formatOct fp_intel) np dr /\
  reads_back (formatHex fp_intel) np dr.
Proof. exact C17_every. Qed.
Print Assumptions C17_common_notations_read_back.

(* decimal where the default radix is 10 *)
Theorem C17_decimal_reads_back : forall np p,
  In np [np_intel; np_motorola; np_texas; np_zilog; np_panasonic; np_signetics; np_rca; np_fairchild;
         np_ins80xx; np_ns32000; np_pdp11] ->
  In p [fp_default; fp_cstyle; fp_intel; fp_motorola; fp_fairchild; fp_national; fp_texas; fp_zilog; fp_cdp1802;
        fp_mn1610; fp_mos6502; fp_scn2650; fp_tms32010; fp_ns32000] ->
  reads_back (formatDec p) np 10.
Proof. exact C17_dec. Qed.
Print Assumptions C17_decimal_reads_back.

(* the native notations of the families *)
Theorem C17_native_notations_read_back_partial :
  Forall (fun '(f, np) => forall dr, reads_back f np dr)
    [(formatBin fp_motorola, np_motorola); (formatOct fp_motorola, np_motorola); (formatHex fp_motorola, np_motorola);
     (formatBin fp_fairchild, np_fairchild); (formatOct fp_fairchild, np_fairchild); (formatHex fp_fairchild, np_fairchild);
     (formatBin fp_zilog, np_zilog); (formatOct fp_zilog, np_zilog); (formatHex fp_zilog, np_zilog);
     (formatBin fp_texas, np_texas); (formatHex fp_texas, np_texas);
     (formatHex fp_national, np_ins80xx); (formatHex fp_ns32000, np_ns32000);
     (formatHex fp_cdp1802, np_rca); (formatHex fp_mn1610, np_panasonic); (formatHex fp_mos6502, np_motorola);
     (formatHex fp_scn2650, np_signetics); (formatHex fp_tms32010, np_intel)].
Proof. exact C17_native. Qed.
Print Assumptions C17_native_notations_read_back_partial.

(* plain octal where the default radix is 8 (PDP-8, PDP-11) *)
Theorem C17_plain_octal_reads_back : forall np,
  In np [np_intel; np_motorola; np_texas; np_zilog; np_panasonic; np_signetics; np_rca; np_fairchild;
         np_ins80xx; np_ns32000; np_pdp11] ->
  reads_back (formatOct fp_default) np 8.
Proof. exact C17_oct8. Qed.
Print Assumptions C17_plain_octal_reads_back.

(* families without an octal notation print octal numbers (list-radix 8) as bare digits, which
   read back as decimal; PDP-8 and PDP-11 print bare hexadecimal (list-radix 16) and PDP-8 bare
   decimal numbers, which are not read as such in the default radix 8 *)
Theorem C17_unmarked_numbers_refuted :
  Forall (fun '(f, np, dr) => ~ reads_back f np dr)
    [(formatOct fp_texas, np_texas, 10); (formatOct fp_cdp1802, np_rca, 10); (formatOct fp_mn1610, np_panasonic, 10);
     (formatOct fp_mos6502, np_motorola, 10); (formatOct fp_scn2650, np_signetics, 10);
     (formatOct fp_tms32010, np_intel, 10); (formatOct fp_ns32000, np_ns32000, 10); (formatOct fp_national, np_ins80xx, 10);
     (formatHex fp_pdp11, np_pdp11, 8); (formatHex fp_pdp8, np_intel, 8); (formatDec fp_pdp8, np_intel, 8)].
Proof. exact C17_bad. Qed.
Print Assumptions C17_unmarked_numbers_refuted.

Example C17_case :
  b_txt (formatHex fp_intel 0xFE12 (-16) (mkB (s2l "A,") 20 OK (Some false))) = s2l "A,-01eeh" /\
  np_intel (s2l "01eeh,B") 10 = (OK, mkV V_UNSIGNED 0x1ee, s2l ",B") /\ shown 0xFE12 (-16) = - 0x1ee /\
  boundary (s2l ",B").
Proof. repeat split; vm_compute; congruence. Qed.

(* ------------------------------------------------------------------ C28 *)

(* Whatever the operations, no byte outside the caller's buffer is touched, and the buffer holds
   a NUL-terminated text. *)
Theorem C28_output_stays_in_buffer : forall mem k os,
  mem <> [] -> Forall valid_op os -> Forall nul_free os ->
  exists b0 b s, c_new mem k = Some b0 /\ run_ops os b0 = Some b /\
    List.length (c_mem b) = List.length mem /\
    c_string (c_mem b) = Some s /\ Z.of_nat (List.length s) < Z.of_nat (List.length mem) /\
    Z.of_nat (List.length s) = c_out b.
Proof. exact C28_safe. Qed.
Print Assumptions C28_output_stays_in_buffer.

(* Without a reported error the buffer holds exactly the unlimited output. *)
Theorem C28_no_error_no_loss : forall mem k os b0 b,
  c_new mem k = Some b0 -> Forall valid_op os -> Forall nul_free os -> Forall no_reset os ->
  run_ops os b0 = Some b -> c_err b = OK -> c_string (c_mem b) = Some (unbounded k os []).
Proof. exact C28_exact. Qed.
Print Assumptions C28_no_error_no_loss.

(* Appending operations: the content is the longest prefix of the unlimited output that fits,
   and overflow is reported exactly when something was lost. *)
Theorem C28_appending_keeps_prefix_partial : forall mem k os b0 b,
  c_new mem k = Some b0 -> Forall nul_free os -> Forall appending os ->
  run_ops os b0 = Some b ->
  c_string (c_mem b) = Some (firstn (List.length mem - 1) (unbounded k os [])) /\
  (c_err b = OK <-> (List.length (unbounded k os []) < List.length mem)%nat) /\
  (c_err b = OK \/ c_err b = BUFFER_OVERFLOW).
Proof. exact C28_append. Qed.
Print Assumptions C28_appending_keeps_prefix_partial.

(* Numbers are written least digit first and then reversed, so after an overflow the content
   need not be a prefix of the unlimited output. *)
Theorem C28_prefix_refuted : exists mem os b0 b, c_new mem None = Some b0 /\
  Forall valid_op os /\ Forall nul_free os /\ Forall no_reset os /\ run_ops os b0 = Some b /\
  exists s, c_string (c_mem b) = Some s /\ forall n, firstn n (unbounded None os []) <> s.
Proof. exact C28_bad. Qed.
Print Assumptions C28_prefix_refuted.

Example C28_case : exists b0 b, c_new [7;7;7;7;7] (Some true) = Some b0 /\
  run_ops [OText (s2l "ab"); ORLetter 98; OReverse 1] b0 = Some b /\ c_mem b = s2l "AbB" ++ [0; 7] /\ c_err b = OK.
Proof. eexists _, _. repeat split. Qed.
