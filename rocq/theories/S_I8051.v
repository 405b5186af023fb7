(** The 8051 instructions with a number, from the Intel manual: mnemonic, operands and opcode. *)
From Coq Require Import String ZArith List Bool.
From Verif Require Import M_Char M_Error M_Text M_Value M_Number M_Parsers M_Expr M_Directive S_Value S_Number S_Table S_ExprTree S_Cpu.
Import ListNotations.
Open Scope string_scope.
Open Scope list_scope.
Local Open Scope Z_scope.

(* an operand: a register, one with @, a byte or a word with #, the address of a byte of the
   internal memory, a bit, the complement of one, the target of a branch *)
Inductive opnd := Reg (n : string) | At (n : string) | Imm | Word | Direct | Bit | NotBit | Target.
Record form := mkForm { fm_name : string; fm_operands : list opnd; fm_code : Z }.

(* ------------------------------------------------------------ the instructions *)
Definition regs8 : list (string * Z) := [("R0", 0); ("R1", 1); ("R2", 2); ("R3", 3); ("R4", 4); ("R5", 5); ("R6", 6); ("R7", 7)].
Definition ats : list (string * Z) := [("R0", 0); ("R1", 1)].
(* A with a byte or a place of the internal memory *)
Definition accumulator : list (string * Z) :=
  [("ADD", 0x20); ("ADDC", 0x30); ("ORL", 0x40); ("ANL", 0x50); ("XRL", 0x60); ("SUBB", 0x90)].
(* a place of the internal memory with A or a byte *)
Definition logical : list (string * Z) := [("ORL", 0x40); ("ANL", 0x50); ("XRL", 0x60)].
Definition number_forms : list form :=
  flat_map (fun '(n, o) => [mkForm n [Reg "A"; Imm] (o + 4); mkForm n [Reg "A"; Direct] (o + 5)]) accumulator ++
  flat_map (fun '(n, o) => [mkForm n [Direct; Reg "A"] (o + 2); mkForm n [Direct; Imm] (o + 3)]) logical ++
  [mkForm "INC" [Direct] 0x05; mkForm "DEC" [Direct] 0x15; mkForm "PUSH" [Direct] 0xC0; mkForm "POP" [Direct] 0xD0; mkForm "XCH" [Reg "A"; Direct] 0xC5;
   mkForm "MOV" [Reg "A"; Imm] 0x74; mkForm "MOV" [Direct; Imm] 0x75; mkForm "MOV" [Direct; Reg "A"] 0xF5; mkForm "MOV" [Reg "DPTR"; Word] 0x90] ++
  map (fun '(r, n) => mkForm "MOV" [At r; Imm] (0x76 + n)) ats ++ map (fun '(r, n) => mkForm "MOV" [Reg r; Imm] (0x78 + n)) regs8 ++
  map (fun '(r, n) => mkForm "MOV" [Direct; At r] (0x86 + n)) ats ++ map (fun '(r, n) => mkForm "MOV" [Direct; Reg r] (0x88 + n)) regs8 ++
  map (fun '(r, n) => mkForm "MOV" [At r; Direct] (0xA6 + n)) ats ++ map (fun '(r, n) => mkForm "MOV" [Reg r; Direct] (0xA8 + n)) regs8 ++
  [mkForm "ORL" [Reg "C"; Bit] 0x72; mkForm "ANL" [Reg "C"; Bit] 0x82; mkForm "ORL" [Reg "C"; NotBit] 0xA0; mkForm "ANL" [Reg "C"; NotBit] 0xB0;
   mkForm "MOV" [Bit; Reg "C"] 0x92; mkForm "MOV" [Reg "C"; Bit] 0xA2; mkForm "CPL" [Bit] 0xB2; mkForm "CLR" [Bit] 0xC2; mkForm "SETB" [Bit] 0xD2].
Definition branch_forms : list form :=
  [mkForm "JBC" [Bit; Target] 0x10; mkForm "JB" [Bit; Target] 0x20; mkForm "JNB" [Bit; Target] 0x30;
   mkForm "JC" [Target] 0x40; mkForm "JNC" [Target] 0x50; mkForm "JZ" [Target] 0x60; mkForm "JNZ" [Target] 0x70; mkForm "SJMP" [Target] 0x80;
   mkForm "CJNE" [Reg "A"; Imm; Target] 0xB4; mkForm "CJNE" [Reg "A"; Direct; Target] 0xB5; mkForm "DJNZ" [Direct; Target] 0xD5] ++
  map (fun '(r, n) => mkForm "CJNE" [At r; Imm; Target] (0xB6 + n)) ats ++ map (fun '(r, n) => mkForm "CJNE" [Reg r; Imm; Target] (0xB8 + n)) regs8 ++
  map (fun '(r, n) => mkForm "DJNZ" [Reg r; Target] (0xD8 + n)) regs8.
(* the one that does not read ACC (0E0H); the one whose bytes are in the other order *)
Definition load_form : form := mkForm "MOV" [Reg "A"; Direct] 0xE5.
Definition move_form : form := mkForm "MOV" [Direct; Direct] 0x85.
(* the jumps within 2 kilobytes, whose opcode holds three bits of the target, and those to anywhere *)
Definition short_jumps : list (string * Z) := [("AJMP", 0x01); ("ACALL", 0x11)].
Definition long_jumps : list (string * Z) := [("LJMP", 0x02); ("LCALL", 0x12)].

(* ------------------------------------------------------------ the operands as text *)
Definition i8051_registers : list string := ["A"; "AB"; "C"; "DPTR"; "PC"; "R0"; "R1"; "R2"; "R3"; "R4"; "R5"; "R6"; "R7"].
(* the text is taken neither for a register, nor for another kind of operand, nor for the end of
   the line *)
Definition starts_number (s : text) : Prop :=
  match s with [] => False | c :: _ => is_space c = false /\ ~ In c [0; 35; 47; 59; 64] end /\
  forall n, In n i8051_registers -> ~ same_name (leading_word s) (s2l n).
(* the syntax of expressions *)
Definition fam_8051 : family := mkFam pl_intel prefix_intel infix_intel [].
(* a numeral *)
Definition numeral_8051 (t : text) (n : Z) : Prop := forall r, boundary r -> np_intel (t ++ r) 10 = (OK, mkV V_UNSIGNED n, r).
(* the number of the bit [n] of the byte at [b], which is one of those whose bits have numbers:
   those from 20H to 2FH, and every eighth from 80H on *)
Definition bit_number (b n x : Z) : Prop :=
  0 <= n <= 7 /\ ((0x20 <= b <= 0x2F /\ x = 8 * (b - 0x20) + n) \/ (0x80 <= b <= 0xFF /\ b mod 8 = 0 /\ x = b + n)).
(* the text [t] is a bit, followed by [after]: its number [x], or the address of a byte and its
   number in it, with a dot between *)
Definition bit_text (loc : Z) (symbol : text -> option value) (function : text -> option functor) (t after : text) (x : Z) : Prop :=
  (exists v, expression fam_8051 loc symbol function t after v /\ int_of v = x) \/
  (exists u b s v, t = u ++ 46 :: s /\ numeral_8051 u b /\ expression fam_8051 loc symbol function s after v /\ bit_number b (int_of v) x).
(* the text [t] is the operand [o], followed by [after]; its number, if there is one, is [x] *)
Definition operand_text (loc : Z) (symbol : text -> option value) (function : text -> option functor) (o : opnd) (t after : text) (x : option Z) : Prop :=
  match o with
  | Reg n => x = None /\ exists b, t = s2l n ++ b ++ after /\ blanks b
  | At n => x = None /\ exists b, t = 64 :: s2l n ++ b ++ after /\ blanks b
  | Imm | Word => exists b s v, t = 35 :: b ++ s /\ blanks b /\ expression fam_8051 loc symbol function s after v /\ x = Some (int_of v)
  | Direct | Target => starts_number t /\ exists v, expression fam_8051 loc symbol function t after v /\ x = Some (int_of v)
  | Bit => starts_number t /\ exists z, bit_text loc symbol function t after z /\ x = Some z
  | NotBit => exists b s z, t = 47 :: b ++ s /\ blanks b /\ is_space (peek s) = false /\ bit_text loc symbol function s after z /\ x = Some z
  end.
(* the text [t] is the operands [os], with commas between, followed by [rest]; [xs] are their
   numbers, in order *)
Fixpoint operands_text (loc : Z) (symbol : text -> option value) (function : text -> option functor) (os : list opnd) (t rest : text) (xs : list (option Z)) : Prop :=
  match os, xs with
  | [o], [x] => operand_text loc symbol function o t rest x
  | o :: os, x :: xs => exists b t2, operand_text loc symbol function o t (44 :: b ++ t2) x /\ blanks b /\
      operands_text loc symbol function os t2 rest xs
  | _, _ => False
  end.

(* ------------------------------------------------------------ what they mean *)
(* the bytes of an operand; [next] is the address of the instruction that follows *)
Definition operand_bytes (next : Z) (o : opnd) (x : option Z) : list Z :=
  match o, x with
  | (Imm | Direct | Bit | NotBit), Some x => [x mod 256]
  | Word, Some x => [x / 256 mod 256; x mod 256]
  | Target, Some x => [(x - next) mod 256]
  | _, _ => []
  end.
Definition all_bytes_of (next : Z) (os : list opnd) (xs : list (option Z)) : list Z :=
  concat (map (fun '(o, x) => operand_bytes next o x) (combine os xs)).
(* the number is one that the operand can have *)
Definition operand_fits (next : Z) (o : opnd) (x : option Z) : Prop :=
  match o, x with
  | Imm, Some x => -128 <= x <= 255
  | (Direct | Bit | NotBit), Some x => 0 <= x <= 255
  | Target, Some x => 0 <= x < 65536 /\ -128 <= x - next <= 127
  | _, _ => True
  end.
Definition all_fit (next : Z) (os : list opnd) (xs : list (option Z)) : Prop :=
  Forall (fun '(o, x) => operand_fits next o x) (combine os xs).
(* the length of an instruction *)
Definition operand_width (o : opnd) : Z := match o with Reg _ | At _ => 0 | Word => 2 | _ => 1 end.
Definition form_size (f : form) : Z := 1 + fold_right Z.add 0 (map operand_width (fm_operands f)).
(* no branch target is written as a number that 32 bits do not hold *)
Definition targets_32 (os : list opnd) (xs : list (option Z)) : Prop :=
  forall x, In (Target, Some x) (combine os xs) -> 0 <= x < 2^32.
(* a block of 2 kilobytes *)
Definition same_block (a b : Z) : Prop := a / 2048 = b / 2048.
