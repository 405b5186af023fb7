(** The 6800 instructions with one number, from the Motorola manual: mnemonic and opcode. *)
From Coq Require Import String ZArith List Bool.
From Verif Require Import M_Char M_Text M_Parsers M_Expr M_Mc6800Defs S_ExprTree.
Import ListNotations.
Open Scope string_scope.
Open Scope list_scope.
Local Open Scope Z_scope.

(* the branches *)
Definition branch_forms : list (string * Z) := [
  ("BRA", 0x20); ("BHI", 0x22); ("BLS", 0x23); ("BCC", 0x24); ("BHS", 0x24); ("BCS", 0x25); ("BLO", 0x25);
  ("BNE", 0x26); ("BEQ", 0x27); ("BVC", 0x28); ("BVS", 0x29); ("BPL", 0x2A); ("BMI", 0x2B); ("BGE", 0x2C);
  ("BLT", 0x2D); ("BGT", 0x2E); ("BLE", 0x2F); ("BSR", 0x8D)].
(* those that read a byte, with the opcode of the immediate form *)
Definition byte_forms : list (string * Z) := [
  ("SUBA", 0x80); ("CMPA", 0x81); ("SBCA", 0x82); ("ANDA", 0x84); ("BITA", 0x85); ("LDAA", 0x86); ("EORA", 0x88);
  ("ADCA", 0x89); ("ORAA", 0x8A); ("ADDA", 0x8B);
  ("SUBB", 0xC0); ("CMPB", 0xC1); ("SBCB", 0xC2); ("ANDB", 0xC4); ("BITB", 0xC5); ("LDAB", 0xC6); ("EORB", 0xC8);
  ("ADCB", 0xC9); ("ORAB", 0xCA); ("ADDB", 0xCB)].
(* those that read a word *)
Definition from_6801 (ty : Z) (l : list (string * Z)) : list (string * Z) := if (ty =? MC6800) || (ty =? MB8861) then [] else l.
Definition word_forms (ty : Z) : list (string * Z) :=
  [("CPX", 0x8C); ("LDS", 0x8E); ("LDX", 0xCE)] ++ from_6801 ty [("SUBD", 0x83); ("ADDD", 0xC3); ("LDD", 0xCC)].
(* the stores, with the opcode that the immediate form would have *)
Definition store_forms (ty : Z) : list (string * Z) :=
  [("STAA", 0x87); ("STAB", 0xC7); ("STS", 0x8F); ("STX", 0xCF)] ++ from_6801 ty [("STD", 0xCD)].
(* all of these have a direct form (one byte of address), an indexed and an extended one (two bytes) *)
Definition memory_forms (ty : Z) : list (string * Z) := byte_forms ++ word_forms ty ++ store_forms ty.
Definition direct (opc : Z) : Z := opc + 0x10.
Definition indexed (opc : Z) : Z := opc + 0x20.
Definition extended (opc : Z) : Z := opc + 0x30.
(* those that change a byte of memory, and JMP, with the opcode of the indexed form; they have no
   direct form, and the extended one is 10H further *)
Definition change_forms : list (string * Z) := [
  ("NEG", 0x60); ("COM", 0x63); ("LSR", 0x64); ("ROR", 0x66); ("ASR", 0x67); ("ASL", 0x68); ("LSL", 0x68); ("ROL", 0x69); ("DEC", 0x6A);
  ("INC", 0x6C); ("TST", 0x6D); ("JMP", 0x6E); ("CLR", 0x6F)].
(* JSR has the direct form from the 6801 on *)
Definition call_form : string * Z := ("JSR", 0x8D).

(* the text of an operand is not one of the notations for immediate, direct and extended ones *)
Definition starts_address (s : text) : Prop :=
  match s with
  | [] => False
  | c :: _ => is_space c = false /\ c <> 35 /\ c <> 44 /\ c <> 60 /\ c <> 62
  end.
(* the syntax of expressions *)
Definition fam_6800 : family := mkFam pl_motorola prefix_c infix_motorola (s2l "$%@&").
