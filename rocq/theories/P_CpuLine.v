(** The first line of a disassembly, read by any assembler. *)
From Coq Require Import String ZArith List Bool Lia.
From Verif Require Import M_Char M_Error M_Text M_StrBuffer M_Operators M_Parsers M_Expr M_Listing M_AsmLine M_AsmDriver M_AsmRows M_Dis M_DisDriver M_DisI8080 M_DisCpus
  M_CpuName S_Table S_CpuName S_DisLines S_AsmDriver S_CpuSwitch P_Table P_CpuName.
Import ListNotations.
Open Scope string_scope.
Open Scope list_scope.
Local Open Scope Z_scope.

(* the names the ten disassemblers print, with the letters of the longest instruction name and the family *)
Definition printed : list (Z * string * string) := [
  (5, "8080", "i8080"); (5, "8085", "i8080"); (5, "V30EMU", "i8080");
  (5, "6800", "mc6800"); (5, "MB8861", "mc6800"); (5, "6801", "mc6800"); (5, "6301", "mc6800"); (5, "6811", "mc6800");
  (5, "3850", "f3850"); (4, "3850", "f3850"); (5, "Z80", "z80"); (4, "Z80", "z80");
  (4, "6502", "mos6502"); (4, "65SC02", "mos6502"); (4, "65C02", "mos6502"); (4, "W65C02S", "mos6502"); (4, "65816", "mos6502");
  (4, "1802", "cdp1802"); (4, "1804", "cdp1802"); (4, "1804A", "cdp1802"); (5, "8051", "i8051");
  (5, "8039", "i8048"); (5, "80C39", "i8048"); (5, "MSM80C39", "i8048"); (5, "8048", "i8048"); (5, "80C48", "i8048"); (5, "MSM80C48", "i8048");
  (4, "32010", "tms32010"); (4, "32015", "tms32010")].
Definition family (name : string) : string := if String.eqb name "w65816" then "mos6502" else name.
Lemma name_printed name o : disassembler name o -> exists n s, In (n, s, family name) printed /\ do_nameMax o = n /\ do_cpu o = s2l s.
Proof.
  intros D. destruct D; cbn [do_nameMax do_cpu dis_8080 dis_6800 dis_f8 dis_z80 dis_6502 dis_1802 dis_8051 dis_8048 dis_32010];
    unfold i8080_cpu_name, mc6800_cpu_name, mos6502_cpu_name, cdp1802_cpu_name, i8048_cpu_name;
    repeat match goal with |- context [if ?b then _ else _] => destruct b end; (do 2 eexists; split; [|split; reflexivity]); vm_compute; auto 40.
Qed.
(* the line depends on nothing else *)
Definition line_of (n : Z) (s : text) (up : bool) : text := cpu_line (mkDO (mkLC 1 8 true) (mkLO false false) 
  (M_Dis.mkDA M_Format.fp_default up up up up up up 0 None 16) n s [] (fun _ => UB) (fun _ => [])).
Lemma cpu_line_of o : cpu_line o = line_of (do_nameMax o) (do_cpu o) (da_uppercase (do_dis o)).
Proof. reflexivity. Qed.
Definition all_pseudos : list pseudos := [motorola_pseudos; intel_pseudos; mostek_pseudos; z8_pseudos; zilog_pseudos; rca_pseudos; national_pseudos; fairchild_pseudos; dec_pseudos].
(* the word and the operand of a line *)
Definition read_line (pl : plugins) (line : text) : option (text * text) :=
  match statement pl line with None => None | Some scan => readInstruction (p_symbol pl) scan end.
Definition teqb (a b : text) : bool := if list_eq_dec Z.eq_dec a b then true else false.
Lemma teqb_eq a b : teqb a b = true -> a = b.
Proof. unfold teqb. destruct (list_eq_dec _ _ _); congruence. Qed.
Definition word (up : bool) : text := case_text up (s2l "CPU").
Lemma lines_read : forallb (fun e : Z * string * string => let '(n, s, _) := e in forallb (fun up => forallb (fun p =>
  match read_line (as_pl p) (line_of n (s2l s) up) with Some (w, r) => teqb w (word up) && teqb (skipSpaces r) (case_text up (s2l s)) | None => false end)
    assemblers) [true; false]) printed = true.
Proof. vm_compute. reflexivity. Qed.
Lemma words_found : forallb (fun ps => forallb (fun up => match pseudo_find (word up) ps with Some P_CPU => true | _ => false end) [true; false]) all_pseudos = true.
Proof. vm_compute. reflexivity. Qed.
Lemma names_found : forallb (fun e : Z * string * string => let '(n, s, fam) := e in forallb (fun up =>
  iequals (case_text up (s2l s)) (s2l s) && forallb (fun c => negb (ends_word c)) (case_text up (s2l s)) &&
  match choose commander (case_text up (s2l s)) with Some (f, _) => String.eqb f fam | None => false end) [true; false]) printed = true.
Proof. vm_compute. reflexivity. Qed.
Lemma cpu_read name o p ps : disassembler name o -> In p assemblers -> In ps all_pseudos ->
  exists w ty, pseudo_of (as_pl p) ps (cpu_line o) = Some (P_CPU, w) /\ first_word w w /\ same_name w (do_cpu o) /\ choose commander w = Some (family name, ty).
Proof.
  intros D Ip Is. destruct (name_printed name o D) as (n & s & I & N & S). rewrite cpu_line_of, N, S. set (up := da_uppercase (do_dis o)).
  assert (U : In up [true; false]) by (destruct up; cbn; auto). clearbody up. clear D N S.
  pose proof lines_read as A. rewrite forallb_forall in A. specialize (A _ I). cbv beta iota in A. rewrite forallb_forall in A. specialize (A _ U).
  rewrite forallb_forall in A. specialize (A _ Ip). unfold read_line in A. unfold pseudo_of.
  destruct (statement (as_pl p) (line_of n (s2l s) up)) as [scan|]; [|discriminate].
  destruct (readInstruction (p_symbol (as_pl p)) scan) as [[w r]|]; [|discriminate]. apply andb_true_iff in A. destruct A as [A B]. apply teqb_eq in A, B. subst w. rewrite B.
  pose proof words_found as W. rewrite forallb_forall in W. specialize (W _ Is). rewrite forallb_forall in W. specialize (W _ U).
  destruct (pseudo_find (word up) ps) as [[]|]; try discriminate.
  pose proof names_found as F. rewrite forallb_forall in F. specialize (F _ I). cbv beta iota in F. rewrite forallb_forall in F. specialize (F _ U).
  apply andb_true_iff in F. destruct F as [F C]. apply andb_true_iff in F. destruct F as [F E]. revert C. set (w := case_text up (s2l s)) in *. clearbody w.
  remember (choose commander w) as c eqn:X. destruct c as [[f ty]|]; [|discriminate]. intros C. apply String.eqb_eq in C. subst f.
  exists w, ty. split; [reflexivity|]. split; [exists []; rewrite app_nil_r; auto|]. split; [now apply iequals_spec|]. symmetry. exact X.
Qed.
