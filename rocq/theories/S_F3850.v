(** The F8 instructions with one number, from the Fairchild manual: mnemonic and opcode. *)
From Coq Require Import String ZArith List Bool.
From Verif Require Import M_Char M_Text M_Parsers M_Expr S_Table S_ExprTree S_Cpu.
Import ListNotations.
Open Scope string_scope.
Open Scope list_scope.
Local Open Scope Z_scope.

(* the branches *)
Definition branch_forms : list (string * Z) := [
  ("BP", 0x81); ("BC", 0x82); ("BZ", 0x84); ("BR7", 0x8F); ("BR", 0x90); ("BM", 0x91); ("BNC", 0x92); ("BNZ", 0x94); ("BNO", 0x98)].
(* those that read a byte *)
Definition byte_forms : list (string * Z) := [("LI", 0x20); ("NI", 0x21); ("OI", 0x22); ("XI", 0x23); ("AI", 0x24); ("CI", 0x25)].
(* those with a port, which follows the opcode *)
Definition port_forms : list (string * Z) := [("IN", 0x26); ("OUT", 0x27)].
(* those with an address *)
Definition address_forms : list (string * Z) := [("PI", 0x28); ("JMP", 0x29); ("DCI", 0x2A)].
(* those with a number within the opcode: 3 bits, 4 bits, a short port, a scratchpad register *)
Definition octal_forms : list (string * Z) := [("LISU", 0x60); ("LISL", 0x68)].
Definition nibble_forms : list (string * Z) := [("LIS", 0x70)].
Definition short_forms : list (string * Z) := [("INS", 0xA0); ("OUTS", 0xB0)].
Definition register_forms : list (string * Z) := [("DS", 0x30); ("AS", 0xC0); ("ASD", 0xD0); ("XS", 0xE0); ("NS", 0xF0)].
(* the shifts by 1; the opcode of those by 4 is 2 more *)
Definition shift_forms : list (string * Z) := [("SR", 0x12); ("SL", 0x13)].

(* the text is not taken for a register *)
Definition operand_names : list string :=
  ["A"; "D"; "DC"; "H"; "HL"; "HU"; "I"; "IS"; "J"; "K"; "KL"; "KU"; "P"; "P0"; "Q"; "QL"; "QU"; "S"; "W"].
Definition starts_number (s : text) : Prop :=
  match s with [] => False | c :: _ => is_space c = false end /\
  forall n, In n operand_names -> ~ same_name (leading_word s) (s2l n).
(* the syntax of expressions *)
Definition fam_3850 : family := mkFam pl_f3850 prefix_c infix_c (s2l "$HhBbOoDd").
