(** The 8080 instructions that end with a number, from the Intel and Zilog manuals: syntax,
    mnemonic, first operand (empty if there is none) and opcode. *)
From Coq Require Import String ZArith List Bool.
From Verif Require Import M_Char M_Text M_Parsers M_Expr S_Table S_ExprTree S_Cpu.
Import ListNotations.
Open Scope string_scope.
Open Scope list_scope.
Local Open Scope Z_scope.

Record form := mkForm { fm_zilog : bool; fm_name : string; fm_first : string; fm_opc : Z }.
Definition each (zilog : bool) (name : string) (first : list string) (opc step : Z) : list form :=
  map (fun '(k, r) => mkForm zilog name r (opc + step * Z.of_nat k)) (combine (seq 0 (length first)) first).

(* the number is a byte, signed or unsigned *)
Definition byte_forms : list form :=
  each false "MVI" ["B"; "C"; "D"; "E"; "H"; "L"; "M"; "A"] 0x06 8 ++
  [mkForm false "ADI" "" 0xC6; mkForm false "ACI" "" 0xCE; mkForm false "SUI" "" 0xD6; mkForm false "SBI" "" 0xDE;
   mkForm false "ANI" "" 0xE6; mkForm false "XRI" "" 0xEE; mkForm false "ORI" "" 0xF6; mkForm false "CPI" "" 0xFE] ++
  each true "LD" ["B"; "C"; "D"; "E"; "H"; "L"; "(HL)"; "A"] 0x06 8 ++
  [mkForm true "ADD" "A" 0xC6; mkForm true "ADC" "A" 0xCE; mkForm true "SUB" "" 0xD6; mkForm true "SUB" "A" 0xD6;
   mkForm true "SBC" "A" 0xDE; mkForm true "AND" "" 0xE6; mkForm true "XOR" "" 0xEE; mkForm true "OR" "" 0xF6; mkForm true "CP" "" 0xFE].
(* the number is a port, 0 to 255 *)
Definition port_forms : list form := [mkForm false "OUT" "" 0xD3; mkForm false "IN" "" 0xDB].
(* the number is a word *)
Definition word_forms : list form :=
  each false "LXI" ["B"; "D"; "H"; "SP"] 0x01 16 ++
  [mkForm false "SHLD" "" 0x22; mkForm false "LHLD" "" 0x2A; mkForm false "STA" "" 0x32; mkForm false "LDA" "" 0x3A;
   mkForm false "JMP" "" 0xC3; mkForm false "CALL" "" 0xCD] ++
  map (fun '(k, n) => mkForm false n "" (0xC2 + 8 * Z.of_nat k))
    (combine (seq 0 8) ["JNZ"; "JZ"; "JNC"; "JC"; "JPO"; "JPE"; "JP"; "JM"]) ++
  map (fun '(k, n) => mkForm false n "" (0xC4 + 8 * Z.of_nat k))
    (combine (seq 0 8) ["CNZ"; "CZ"; "CNC"; "CC"; "CPO"; "CPE"; "CP"; "CM"]) ++
  each true "LD" ["BC"; "DE"; "HL"; "SP"] 0x01 16 ++
  [mkForm true "JP" "" 0xC3; mkForm true "CALL" "" 0xCD] ++
  each true "JP" ["NZ"; "Z"; "NC"; "C"; "PO"; "PE"; "P"; "M"] 0xC2 8 ++
  each true "CALL" ["NZ"; "Z"; "NC"; "C"; "PO"; "PE"; "P"; "M"] 0xC4 8.

(* the text before the number *)
Definition first_text (f : form) : text := if String.eqb (fm_first f) "" then [] else s2l (fm_first f) ++ [44].
(* the expression is recognisable as one: it does not start with a register or condition name,
   or, in Zilog syntax, like an address *)
Definition operand_names (zilog : bool) : list string :=
  if zilog then ["A"; "AF"; "B"; "BC"; "C"; "D"; "DE"; "E"; "H"; "HL"; "IM"; "L"; "M"; "PSW"; "SP"; "NC"; "NZ"; "P"; "PE"; "PO"; "Z"]
  else ["A"; "B"; "C"; "D"; "E"; "H"; "L"; "M"; "PSW"; "SP"].
Definition starts_number (zilog : bool) (s : text) : Prop :=
  match s with
  | [] => False
  | c :: _ => is_space c = false /\ c <> 0 /\ c <> 59 /\ (zilog = true -> c <> 40)
  end /\
  forall n, In n (operand_names zilog) -> ~ same_name (leading_word s) (s2l n).

(* the syntax of expressions *)
Definition fam_8080 : family := mkFam pl_i8080 prefix_intel infix_intel [].
