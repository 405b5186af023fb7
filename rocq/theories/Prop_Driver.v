(** Properties C09, C10, C13 and C43 to C47: source files, lines and passes. *)
From Coq Require Import String ZArith List Bool Lia.
From Verif Require Import M_Char M_Error M_Value M_Text M_Insn M_Config M_Operators M_Parsers M_Expr M_BinMemory M_HexFile M_Symbols M_Sources
  M_AsmDriver M_AsmI8080 M_AsmMn1610 S_ByteMap S_Memory S_Insn S_Expr S_Sources S_AsmDriver P_BinMemory P_HexFile P_HexProps
  P_Sources P_AsmDriver P_AsmBytes P_AsmPass P_DriverProps.
Import ListNotations.
Open Scope string_scope.
Open Scope list_scope.
Local Open Scope Z_scope.

(* ------------------------------------------------------------ C13 *)
(* A file is read as its lines, each exactly once and in order, whatever their lengths - as far as
   they are ended by a line feed: what follows the last line feed ([tail]) is not read. *)
Theorem C13_reads_lines_partial : forall fs input content ls tail, ~ In 0 input -> fs input = Some content ->
  readable content -> file_lines content ls tail ->
  exists src, open fs input [] = (OK, src) /\ reads_all src ls.
Proof.
  intros fs input content ls tail N E R F. destruct (open_first fs input content ls tail N E R F) as (s & O & St).
  exists s. split; [exact O|]. eapply reads_file. exact St.
Qed.
Print Assumptions C13_reads_lines_partial.
(* ... so a last line without a line feed is lost *)
Theorem C13_unterminated_line_refuted : exists fs content line src, fs a_asm = Some content /\ readable content /\
  content = [] ++ line /\ line <> [] /\ text_line line /\ open fs a_asm [] = (OK, src) /\ reads_all src [].
Proof.
  exists (fun _ => Some (s2l " NOP")), (s2l " NOP"), (s2l " NOP"). eexists. split; [reflexivity|]. split; [unfold readable; cbn; lia|].
  split; [reflexivity|]. split; [discriminate|]. split; [repeat constructor; discriminate|]. split; [reflexivity|].
  eapply RA_end. vm_compute. reflexivity.
Qed.
Print Assumptions C13_unterminated_line_refuted.
(* With INCLUDE, for any set of processors with a syntax of the library: the listing of a pass holds
   the lines in the order [expands] gives: the lines of an included file follow the INCLUDE line and
   precede the line after it, at most four files are open, a file that is refused is reported. *)
Theorem C13_inclusion_order : forall O (v : env O) input content ls tail d, text_files (e_files v) ->
  (forall o, In (op_pl (e_ops v) o) all_families) -> ~ In 0 input -> e_files v input = Some content -> file_lines content ls tail ->
  exists src, open (e_files v) input [] = (OK, src) /\ exists N, forall fuel, (N <= fuel)%nat ->
  match assemble fuel v d src with
  | Val p => exists ev1 ev2, expands (e_files v) 1 input ls (ev1 ++ ev2) /\ Forall2 (listed (e_ops v)) ev1 (rev (ps_items p)) /\
      (ev2 = [] \/ exists t ts, ps_items p = t :: ts /\ it_err t = END_ASSEMBLE)
  | UB => exists line q, pass_line v line q = UB
  | OOB => exists line q, pass_line v line q = OOB
  | FUEL => exists line q, pass_line v line q = FUEL
  | FLOAT => exists line q, pass_line v line q = FLOAT
  end.
Proof. intros O v input content ls tail d T K. apply pass_reads; [exact T|now apply known_eol]. Qed.
Print Assumptions C13_inclusion_order.
Definition ex_files : files := fun n =>
  if key_eqb n (s2l "d/a.asm") then Some (source [" INCLUDE ""b.inc"""; " NOP"])
  else if key_eqb n (s2l "d/b.inc") then Some (source ["X EQU 5"; " INCLUDE nothing"; " MVI A,X"])
  else None.
Example C13_case : text_files ex_files /\ exists src p, open ex_files (s2l "d/a.asm") [] = (OK, src) /\
  assemble 10 (mkEnv ops_8080 ex_files 5 false) (mkDrv [new_i8080] 0 empty_store) src = Val p /\
  map (fun t => (it_line t, it_err t)) (rev (ps_items p)) =
    [(s2l " INCLUDE ""b.inc""", OK); (s2l "X EQU 5", OK); (s2l " INCLUDE nothing", NO_INCLUDE_FOUND); (s2l " MVI A,X", OK); (s2l " NOP", OK)].
Proof.
  split.
  - intros p c. unfold ex_files. destruct (key_eqb p _); [|destruct (key_eqb p _); [|discriminate]]; intros E; injection E as <-;
      (split; [unfold readable; cbn; lia|]; intros X; cbn in X; repeat (destruct X as [X|X]; [discriminate X|]); exact X).
  - eexists. eexists. split; [reflexivity|]. split; [vm_compute; reflexivity|]. reflexivity.
Qed.

(* ------------------------------------------------------------ C09 *)
(* After a pass the image holds exactly the bytes of the lines of the listing, each at the address of
   its line times the address unit, later lines over earlier ones. *)
Theorem C09_image : forall O (v : env O) fuel d src p, emits_sound (e_ops v) -> assemble fuel v d src = Val p ->
  (forall a, hasByte (ps_memory p) a = true <-> exists b, In (a, b) (image_of (rev (ps_items p)))) /\
  (forall a, M_BinMemory.readByte (ps_memory p) a = match last_write (image_of (rev (ps_items p))) a with Some b => b | None => 0 end).
Proof.
  intros O v fuel d src p E A. destruct (pass_image fuel v d src p E A) as (M & F). rewrite M. split; intros a.
  - now apply writes_hasByte.
  - now apply writes_readByte.
Qed.
Print Assumptions C09_image.
(* the assemblers that are modelled keep the instruction buffer sound, whatever the line contains *)
Theorem C09_lines_stay_in_buffer : emits_sound ops_8080 /\ emits_sound ops_1610.
Proof. split; [exact ops_8080_sound|exact ops_1610_sound]. Qed.
Print Assumptions C09_lines_stay_in_buffer.
(* ... and the object file written from the image reads back as it, as long as the byte addresses fit
   the address size of the target *)
Theorem C09_srec_file_partial : forall O (v : env O) fuel d src p aw rs, emits_sound (e_ops v) -> assemble fuel v d src = Val p ->
  1 <= rs -> addressSize aw + rs + 1 <= 255 -> (forall a b, In (a, b) (image_of (rev (ps_items p))) -> a < 2^(8 * addressSize aw)) ->
  exists N file, (forall fuel, (N <= fuel)%nat -> sr_file fuel aw rs (ps_memory p) = Some file) /\
    exists n m', decode_file file M_BinMemory.empty = (n, m') /\ 0 <= n /\ mem_eqb m' (ps_memory p) = true.
Proof.
  intros O v fuel d src p aw rs E A R1 R2 B. destruct (pass_image fuel v d src p E A) as (M & F). rewrite M. now apply sr_round.
Qed.
Print Assumptions C09_srec_file_partial.
Theorem C09_ihex_file_partial : forall O (v : env O) fuel d src p aw rs, emits_sound (e_ops v) -> assemble fuel v d src = Val p ->
  aw <= 16 -> 1 <= rs <= 255 -> (forall a b, In (a, b) (image_of (rev (ps_items p))) -> a < 65536) ->
  exists N file, (forall fuel, (N <= fuel)%nat -> ih_file fuel aw rs (ps_memory p) = Some file) /\
    exists n m', decode_file file M_BinMemory.empty = (n, m') /\ 0 <= n /\ mem_eqb m' (ps_memory p) = true.
Proof.
  intros O v fuel d src p aw rs E A Haw Hrs B. destruct (pass_image fuel v d src p E A) as (M & F). rewrite M. apply ih_round; auto.
  replace (aw <=? 16) with true by lia. exact B.
Qed.
Print Assumptions C09_ihex_file_partial.
(* A word-addressed processor (MN1610, 16 address bits, two bytes a word): a program at word 9000H is
   assembled without an error, but its bytes lie beyond the addresses the object file has room for:
   they read back somewhere else. *)
Theorem C09_word_addressed_refuted : exists n p file k m', run_asm 10 20 5 ops_1610 (only [" ORG X'9000'"; " DC X'1234'"]) None a_asm [new_mn1610] = Val (R_done n p) /\
  ps_errors p = false /\ map (fun t => (it_addr t, it_bytes t)) (rev (ps_items p)) = [(0x9000, []); (0x9000, [0x12; 0x34])] /\
  (forall o, In o (dr_objs (ps_drv p)) -> mn1610_width o = 16) /\
  M_BinMemory.readByte (ps_memory p) (2 * 0x9000) = 0x12 /\
  ih_file 10 16 32 (ps_memory p) = Some file /\ decode_file file M_BinMemory.empty = (k, m') /\ 0 <= k /\
  hasByte m' (2 * 0x9000) = false /\ M_BinMemory.readByte m' (2 * 0x1000) = 0x12.
Proof.
  do 5 eexists. split; [vm_compute; reflexivity|]. split; [reflexivity|]. split; [reflexivity|].
  split; [intros o [<-|[]]; reflexivity|]. split; [reflexivity|].
  split; [vm_compute; reflexivity|]. split; [vm_compute; reflexivity|]. split; [vm_compute; congruence|]. split; vm_compute; reflexivity.
Qed.
Print Assumptions C09_word_addressed_refuted.
Definition ex_program : list string :=
  ["        ORG 100H"; "START:  LXI H,DATA"; "X  EQU 5"; "   MVI A,X"; "DATA: DB 1,2,'AB'"; " ORG 102H"; " DB 7"].
Example C09_case : exists n p, run_asm 10 20 5 ops_8080 (only ex_program) None a_asm [new_i8080] = Val (R_done n p) /\
  image_of (rev (ps_items p)) = [(0x100, 0x21); (0x101, 5); (0x102, 1); (0x103, 0x3E); (0x104, 5); (0x105, 1); (0x106, 2); (0x107, 65); (0x108, 66); (0x102, 7)] /\
  M_BinMemory.readByte (ps_memory p) 0x102 = 7.
Proof. do 2 eexists. split; [vm_compute; reflexivity|]. split; vm_compute; reflexivity. Qed.

(* ------------------------------------------------------------ C10 *)
(* When the command ends without an error, the last pass gave the same image and the same symbols as
   the pass before (or it was the only one, and there was nothing to assemble). *)
Theorem C10_ends_at_fixed_point : forall O (f : ops O) passes fuel depth fs cpu input objs n p, emits_sound f ->
  run_asm passes fuel depth f fs cpu input objs = Val (R_done n p) ->
  exists d1 d0, select_cpu f cpu (mkDrv objs 0 empty_store) = Some d1 /\ d0 = mkDrv (dr_objs d1) (dr_cur d1) empty_store /\
    nth_pass fuel depth f fs cpu input d0 n p /\
    (ps_errors p = false ->
      n = 1%nat /\ (forall a, hasByte (ps_memory p) a = false) /\ same_symbols empty_store (dr_store (ps_drv p)) \/
      exists m q, n = S m /\ nth_pass fuel depth f fs cpu input d0 m q /\
        same_image (ps_memory q) (ps_memory p) /\ same_symbols (dr_store (ps_drv q)) (dr_store (ps_drv p))).
Proof.
  intros O f passes fuel depth fs cpu input objs n p E R. destruct (run_ends _ _ _ _ _ _ _ _ _ _ E R) as (d1 & S1 & NP & ST).
  exists d1. eexists. split; [exact S1|]. split; [reflexivity|]. split; [exact NP|exact ST].
Qed.
Print Assumptions C10_ends_at_fixed_point.
(* But it does not end for every program. *)
Theorem C10_ends_for_every_program_refuted : exists program, forall passes fuel r,
  run_asm passes fuel 10 ops_8080 (only program) None a_asm [new_i8080] <> Val r.
Proof. exists cycle. exact cyc_never. Qed.
Print Assumptions C10_ends_for_every_program_refuted.
Example C10_case : exists p, run_asm 10 20 5 ops_8080 (only ex_program) None a_asm [new_i8080] = Val (R_done 3 p) /\ ps_errors p = false /\
  lookupSymbol (s2l "DATA") (dr_store (ps_drv p)) = Some (setUnsigned 0x105).
Proof. eexists. split; [vm_compute; reflexivity|]. split; vm_compute; reflexivity. Qed.

(* ------------------------------------------------------------ C43 *)
(* END ends nothing: the pass goes on after a line with END, for every processor. *)
Theorem C43_end_is_ignored_refuted : forall O (v : env O) k o line i d src n operand, dir_encode v k o line i d src = Val n ->
  pseudo_of (op_pl (e_ops v) o) (op_pseudos (e_ops v) o) line = Some (P_END, operand) -> n_ret n <> END_ASSEMBLE.
Proof. intros O v k o line i d src n operand E F. destruct (end_ignored _ _ _ _ _ _ _ _ _ E F) as [->| ->]; discriminate. Qed.
Print Assumptions C43_end_is_ignored_refuted.
Theorem C43_end_refuted : exists p, pseudo_of pl_i8080 intel_pseudos (s2l " END") = Some (P_END, []) /\
  run_asm 10 20 5 ops_8080 (only [" END"; " RET"]) None a_asm [new_i8080] = Val (R_done 2 p) /\ ps_errors p = false /\
  M_BinMemory.readByte (ps_memory p) 0 = 0xC9.
Proof. eexists. split; [vm_compute; reflexivity|]. split; [vm_compute; reflexivity|]. split; vm_compute; reflexivity. Qed.
Print Assumptions C43_end_refuted.

(* ------------------------------------------------------------ C44 *)
(* A label defined before is reported in the first pass on a line without an instruction ... *)
Theorem C44_label_alone_partial : forall O (v : env O) k o line i d src n label, dir_encode v k o line i d src = Val n -> e_report v = false ->
  fst (p_line (op_pl (e_ops v) o) line) = false ->
  label_of (op_pl (e_ops v) o) line = label -> label <> [] -> hasSymbol label (dr_store d) = true ->
  statement (op_pl (e_ops v) o) line = None -> n_err n = DUPLICATE_LABEL.
Proof. intros O v. apply dup_alone. Qed.
Print Assumptions C44_label_alone_partial.
(* ... and on a line with EQU, FUNCTION, INCLUDE, CPU, END, or SET if it was no variable *)
Theorem C44_pseudo_line_partial : forall O (v : env O) k o line i d src n h operand label, dir_encode v k o line i d src = Val n -> e_report v = false ->
  label_of (op_pl (e_ops v) o) line = label -> label <> [] -> hasSymbol label (dr_store d) = true ->
  pseudo_of (op_pl (e_ops v) o) (op_pseudos (e_ops v) o) line = Some (h, operand) -> (h = P_VARIABLE -> hasValue label false (dr_store d) = true) ->
  n_err n <> OK.
Proof. intros O v. apply dup_pseudo. Qed.
Print Assumptions C44_pseudo_line_partial.
(* but not on a line with an instruction: both definitions are taken, the last one counts *)
Theorem C44_instruction_line_refuted : exists p, run_asm 10 20 5 ops_8080 (only ["TOP: NOP"; "TOP: NOP"; " JMP TOP"]) None a_asm [new_i8080] = Val (R_done 3 p) /\
  ps_errors p = false /\ label_of pl_i8080 (s2l "TOP: NOP") = s2l "TOP" /\
  map (fun t => (it_addr t, it_bytes t)) (rev (ps_items p)) = [(0, [0]); (1, [0]); (2, [0xC3; 1; 0])].
Proof. eexists. split; [vm_compute; reflexivity|]. split; [vm_compute; reflexivity|]. split; vm_compute; reflexivity. Qed.
Print Assumptions C44_instruction_line_refuted.
Example C44_case : exists n, dir_encode (mkEnv ops_8080 (only []) 5 false) 0 new_i8080 (s2l "L EQU 5") (new_insn 0)
    (mkDrv [new_i8080] 0 (mkS [(s2l "L", setUnsigned 7)] [] [])) [] = Val n /\ label_of pl_i8080 (s2l "L EQU 5") = s2l "L" /\
  pseudo_of pl_i8080 intel_pseudos (s2l "L EQU 5") = Some (P_CONSTANT, s2l "5") /\ n_err n = DUPLICATE_LABEL /\
  statement pl_i8080 (s2l "L: ; again") = None.
Proof. eexists. split; [vm_compute; reflexivity|]. repeat split; vm_compute; reflexivity. Qed.

(* ------------------------------------------------------------ C45 *)
(* Undefined symbols are reported in the passes after the first; but if the first pass generates no
   byte and defines no symbol, it is the last one. *)
Theorem C45_undefined_refuted : exists p, run_asm 10 20 5 ops_8080 (only [" ORG FOO"]) None a_asm [new_i8080] = Val (R_done 1 p) /\
  ps_errors p = false /\ lookupSymbol (s2l "FOO") (dr_store (ps_drv p)) = None.
Proof. eexists. split; [vm_compute; reflexivity|]. split; vm_compute; reflexivity. Qed.
Print Assumptions C45_undefined_refuted.
(* apart from that, every error the assembler meets in a line is listed *)
Theorem C45_errors_listed_partial : forall O (v : env O) k o line i d src n, dir_encode v k o line i d src = Val n -> i_err i = OK ->
  i_err (n_insn n) <> OK -> n_err n = i_err (n_insn n) \/ e_report v = false /\ i_err (n_insn n) = UNDEFINED_SYMBOL.
Proof. intros O v. apply answers_listed. Qed.
Print Assumptions C45_errors_listed_partial.
Example C45_case : exists n, dir_encode (mkEnv ops_8080 (only []) 5 true) 0 new_i8080 (s2l " LXI H,FOO") (new_insn 0)
    (mkDrv [new_i8080] 0 empty_store) [] = Val n /\ i_err (n_insn n) = UNDEFINED_SYMBOL /\ n_err n = UNDEFINED_SYMBOL.
Proof. eexists. split; [vm_compute; reflexivity|]. split; reflexivity. Qed.

(* ------------------------------------------------------------ C46 *)
(* A setting made in one pass is still made when the next one starts: a program without an error in
   its first pass is refused in the second. *)
Theorem C46_settings_refuted : exists d p1 p2, let program := only [" MOV A,B"; " Z80SYNTAX ON"] in
  d = mkDrv [new_i8080] 0 empty_store /\ nth_pass 20 5 ops_8080 program None a_asm d 1 p1 /\ nth_pass 20 5 ops_8080 program None a_asm d 2 p2 /\
  map it_err (rev (ps_items p1)) = [OK; OK] /\ map it_err (rev (ps_items p2)) = [UNKNOWN_INSTRUCTION; OK].
Proof.
  assert (P1 : exists p1, assemble 20 (mkEnv ops_8080 (only [" MOV A,B"; " Z80SYNTAX ON"]) 5 false) (mkDrv [new_i8080] 0 empty_store)
    (snd (open (only [" MOV A,B"; " Z80SYNTAX ON"]) a_asm [])) = Val p1 /\ map it_err (rev (ps_items p1)) = [OK; OK] /\
    exists p2, assemble 20 (mkEnv ops_8080 (only [" MOV A,B"; " Z80SYNTAX ON"]) 5 true) (mkDrv (dr_objs (ps_drv p1)) (dr_cur (ps_drv p1)) (clearFunctions (dr_store (ps_drv p1))))
    (snd (open (only [" MOV A,B"; " Z80SYNTAX ON"]) a_asm [])) = Val p2 /\ map it_err (rev (ps_items p2)) = [UNKNOWN_INSTRUCTION; OK]).
  { eexists. split; [vm_compute; reflexivity|]. split; [reflexivity|]. eexists. split; [vm_compute; reflexivity|]. reflexivity. }
  destruct P1 as (p1 & A1 & E1 & p2 & A2 & E2). eexists. exists p1, p2. cbv zeta. split; [reflexivity|].
  assert (N1 : nth_pass 20 5 ops_8080 (only [" MOV A,B"; " Z80SYNTAX ON"]) None a_asm (mkDrv [new_i8080] 0 empty_store) 1 p1).
  { apply NP_first. eexists. eexists. split; [reflexivity|]. split; [|exact A1]. eexists. split; [reflexivity|]. left. reflexivity. }
  split; [exact N1|]. split; [|split; [exact E1|exact E2]].
  eapply NP_next; [exact N1|]. eexists. eexists. split; [reflexivity|]. split; [|exact A2]. eexists. split; [reflexivity|]. left. reflexivity.
Qed.
Print Assumptions C46_settings_refuted.

(* ------------------------------------------------------------ C47 *)
(* Text after an instruction is not reported ... *)
Theorem C47_garbage_refuted : exists p, run_asm 10 20 5 ops_8080 (only [" MOV A,B,C xyz"]) None a_asm [new_i8080] = Val (R_done 2 p) /\
  ps_errors p = false /\ map (fun t => it_bytes t) (ps_items p) = [[0x78]].
Proof. eexists. split; [vm_compute; reflexivity|]. split; vm_compute; reflexivity. Qed.
Print Assumptions C47_garbage_refuted.
(* ... text after a pseudo instruction that was carried out is *)
Theorem C47_pseudo_garbage_partial : forall O (v : env O) k o line i d src n h operand, dir_encode v k o line i d src = Val n ->
  pseudo_of (op_pl (e_ops v) o) (op_pseudos (e_ops v) o) line = Some (h, operand) ->
  forall name s, pseudo_find name (op_pseudos (e_ops v) o) = Some h ->
    processPseudo v (op_pl (e_ops v) o) (op_pseudos (e_ops v) o) (i_addr i) name
      (mkLst OK operand (label_of (op_pl (e_ops v) o) line) v_undef d src) = Val (OK, s) ->
    fst (p_eol (op_pl (e_ops v) o) (l_scan s)) = false -> n_err n <> OK.
Proof. intros. eapply garbage_pseudo; eauto. Qed.
Print Assumptions C47_pseudo_garbage_partial.
Example C47_case : exists n, dir_encode (mkEnv ops_8080 (only []) 5 false) 0 new_i8080 (s2l "L EQU 5 6") (new_insn 0)
    (mkDrv [new_i8080] 0 empty_store) [] = Val n /\ n_err n = GARBAGE_AT_END.
Proof. eexists. split; vm_compute; reflexivity. Qed.
