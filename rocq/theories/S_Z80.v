(** The Z80 instructions with a number, from the Zilog manual: mnemonic, operands, prefix and opcode. *)
From Coq Require Import String ZArith List Bool.
From Verif Require Import M_Char M_Text M_Value M_Parsers M_Expr M_Directive S_Table S_ExprTree S_Cpu.
Import ListNotations.
Open Scope string_scope.
Open Scope list_scope.
Local Open Scope Z_scope.

(* an operand: a register or a condition, one in parentheses, a number, one in parentheses, an
   index register and a displacement in parentheses *)
Inductive opnd := Reg (n : string) | At (n : string) | Num | Mem | Index (n : string).
Record form := mkForm { fm_name : string; fm_first : opnd; fm_second : option opnd; fm_code : list Z }.
Definition one (n : string) (o : opnd) (code : list Z) : form := mkForm n o None code.
Definition two_of (n : string) (o1 o2 : opnd) (code : list Z) : form := mkForm n o1 (Some o2) code.

(* ------------------------------------------------------------ the instructions *)
(* the 8-bit registers, by their number; 6 is (HL) *)
Definition registers : list (opnd * Z) :=
  [(Reg "B", 0); (Reg "C", 1); (Reg "D", 2); (Reg "E", 3); (Reg "H", 4); (Reg "L", 5); (At "HL", 6); (Reg "A", 7)].
Definition conditions : list (opnd * Z) :=
  [(Reg "NZ", 0); (Reg "Z", 1); (Reg "NC", 2); (Reg "C", 3); (Reg "PO", 4); (Reg "PE", 5); (Reg "P", 6); (Reg "M", 7)].
Definition indexes : list (string * Z) := [("IX", 0xDD); ("IY", 0xFD)].
(* A and an operand, where A may be left out of some *)
Definition arithmetic : list (string * bool * Z) :=
  [("ADD", false, 0); ("ADC", false, 1); ("SUB", true, 2); ("SBC", false, 3); ("AND", true, 4); ("XOR", true, 5); ("OR", true, 6); ("CP", true, 7)].
(* a byte *)
Definition byte_forms : list form :=
  map (fun '(r, n) => two_of "LD" r Num [0x06 + 8 * n]) registers ++
  map (fun '(nm, _, n) => two_of nm (Reg "A") Num [0xC6 + 8 * n]) arithmetic ++
  flat_map (fun '(nm, b, n) => if b : bool then [one nm Num [0xC6 + 8 * n]] else []) arithmetic.
(* a port *)
Definition port_forms : list form := [two_of "IN" (Reg "A") Mem [0xDB]; two_of "OUT" Mem (Reg "A") [0xD3]].
(* a word *)
Definition word_forms : list form :=
  [two_of "LD" (Reg "BC") Num [0x01]; two_of "LD" (Reg "DE") Num [0x11]; two_of "LD" (Reg "HL") Num [0x21]; two_of "LD" (Reg "SP") Num [0x31];
   one "JP" Num [0xC3]; one "CALL" Num [0xCD]] ++
  map (fun '(c, n) => two_of "JP" c Num [0xC2 + 8 * n]) conditions ++
  map (fun '(c, n) => two_of "CALL" c Num [0xC4 + 8 * n]) conditions ++
  map (fun '(x, p) => two_of "LD" (Reg x) Num [p; 0x21]) indexes.
(* a place in memory *)
Definition memory_forms : list form :=
  [two_of "LD" (Reg "A") Mem [0x3A]; two_of "LD" Mem (Reg "A") [0x32]; two_of "LD" (Reg "HL") Mem [0x2A]; two_of "LD" Mem (Reg "HL") [0x22];
   two_of "LD" (Reg "BC") Mem [0xED; 0x4B]; two_of "LD" Mem (Reg "BC") [0xED; 0x43]; two_of "LD" (Reg "DE") Mem [0xED; 0x5B]; two_of "LD" Mem (Reg "DE") [0xED; 0x53];
   two_of "LD" (Reg "SP") Mem [0xED; 0x7B]; two_of "LD" Mem (Reg "SP") [0xED; 0x73]] ++
  flat_map (fun '(x, p) => [two_of "LD" (Reg x) Mem [p; 0x2A]; two_of "LD" Mem (Reg x) [p; 0x22]]) indexes.
(* a branch *)
Definition branch_forms : list form :=
  [one "DJNZ" Num [0x10]; one "JR" Num [0x18]; two_of "JR" (Reg "NZ") Num [0x20]; two_of "JR" (Reg "Z") Num [0x28];
   two_of "JR" (Reg "NC") Num [0x30]; two_of "JR" (Reg "C") Num [0x38]].
(* a displacement *)
Definition index_forms : list form :=
  flat_map (fun '(x, p) =>
    [one "INC" (Index x) [p; 0x34]; one "DEC" (Index x) [p; 0x35]] ++
    flat_map (fun '(r, n) => if n =? 6 then [] else [two_of "LD" r (Index x) [p; 0x46 + 8 * n]; two_of "LD" (Index x) r [p; 0x70 + n]]) registers ++
    map (fun '(nm, _, n) => two_of nm (Reg "A") (Index x) [p; 0x86 + 8 * n]) arithmetic ++
    flat_map (fun '(nm, b, n) => if b : bool then [one nm (Index x) [p; 0x86 + 8 * n]] else []) arithmetic) indexes.
(* a displacement, then a byte *)
Definition index_byte_forms : list form := map (fun '(x, p) => two_of "LD" (Index x) Num [p; 0x36]) indexes.
(* a displacement, before the second opcode *)
Definition index_shift_forms : list (form * Z) :=
  flat_map (fun '(x, p) => map (fun '(nm, o) => (one nm (Index x) [p; 0xCB], o))
    [("RLC", 0x06); ("RRC", 0x0E); ("RL", 0x16); ("RR", 0x1E); ("SLA", 0x26); ("SRA", 0x2E); ("SRL", 0x3E)]) indexes.
(* the number of a bit, within the opcode *)
Definition bit_names : list (string * Z) := [("BIT", 0x40); ("RES", 0x80); ("SET", 0xC0)].
Definition bit_forms : list (form * Z) :=
  flat_map (fun '(nm, o) => map (fun '(r, n) => (two_of nm Num r [0xCB], o + n)) registers) bit_names.
(* the number of a bit, and a displacement before the second opcode *)
Definition index_bit_forms : list (form * Z) :=
  flat_map (fun '(x, p) => map (fun '(nm, o) => (two_of nm Num (Index x) [p; 0xCB], o + 6)) bit_names) indexes.
(* a restart address, within the opcode; an interrupt mode, which chooses the opcode *)
Definition restart_form : form := one "RST" Num [].
Definition mode_form : form := one "IM" Num [0xED].

(* ------------------------------------------------------------ the operands as text *)
Definition z80_registers : list string :=
  ["A"; "AF"; "AF'"; "B"; "BC"; "C"; "D"; "DE"; "E"; "H"; "HL"; "I"; "IX"; "IY"; "L"; "R"; "SP"].
Definition z80_conditions : list string := ["C"; "M"; "NC"; "NZ"; "P"; "PE"; "PO"; "Z"].
(* the text is taken neither for one of the names nor for the end of the line *)
Definition starts_number (names : list string) (s : text) : Prop :=
  match s with [] => False | c :: _ => is_space c = false /\ c <> 0 /\ c <> 59 end /\
  forall n, In n names -> ~ same_name (leading_word s) (s2l n).
(* the syntax of expressions *)
Definition fam_z80 : family := mkFam pl_z80 prefix_zilog infix_zilog [].
(* the text [t] is the operand [o], followed by [after]; its number, if there is one, is [v] *)
Definition operand_text (loc : Z) (symbol : text -> option value) (function : text -> option functor) (o : opnd) (t after : text) (v : value) : Prop :=
  match o with
  | Reg n => exists b, t = s2l n ++ b ++ after /\ blanks b
  | At n => exists b, t = 40 :: s2l n ++ 41 :: b ++ after /\ blanks b
  | Num => starts_number (z80_registers ++ z80_conditions) t /\ peek t <> 40 /\ expression fam_z80 loc symbol function t after v
  | Mem => exists b0 s b, t = 40 :: b0 ++ s /\ blanks b0 /\ starts_number z80_registers s /\
      expression_until 41 fam_z80 loc symbol function s (41 :: b ++ after) v /\ blanks b
  | Index n => exists s b, t = 40 :: s2l n ++ s /\ (peek s = 43 \/ peek s = 45) /\
      expression_until 41 fam_z80 loc symbol function s (41 :: b ++ after) v /\ blanks b
  end.
(* the text [t] is the operands of the form [f], followed by [rest]; their numbers, if any, are
   [v1] and [v2] *)
Definition operands_text (loc : Z) (symbol : text -> option value) (function : text -> option functor) (f : form) (t rest : text) (v1 v2 : value) : Prop :=
  match fm_second f with
  | None => operand_text loc symbol function (fm_first f) t rest v1
  | Some o => exists b t2, operand_text loc symbol function (fm_first f) t (44 :: b ++ t2) v1 /\ blanks b /\
      operand_text loc symbol function o t2 rest v2
  end.
