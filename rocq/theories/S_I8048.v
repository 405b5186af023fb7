(** The instructions of the 8048 family with a number, from the Intel manual: mnemonic, operands
    and opcode. *)
From Coq Require Import String ZArith List Bool.
From Verif Require Import M_Char M_Error M_Text M_Value M_Number M_Parsers M_Expr M_Directive M_I8048Defs S_Value S_Number S_Table S_ExprTree S_Cpu.
Import ListNotations.
Open Scope string_scope.
Open Scope list_scope.
Local Open Scope Z_scope.

(* an operand: a register, one with @, a byte with #, the number of a bit, a target in the same
   page of 256 bytes, a target anywhere *)
Inductive opnd := Reg (n : string) | At (n : string) | Imm | BitNo | Page | Far.
Record form := mkForm { fm_name : string; fm_operands : list opnd; fm_code : Z }.
(* the processors; those with a program memory of their own have the BUS as a port, and those of OKI
   more instructions *)
Definition i8048_types : list Z := [I8048; I8039; I80C48; I80C39; MSM80C48; MSM80C39].
Definition has_bus (ty : Z) : bool := (ty =? I8048) || (ty =? I80C48) || (ty =? MSM80C48).
Definition is_oki (ty : Z) : bool := (ty =? MSM80C48) || (ty =? MSM80C39).

(* ------------------------------------------------------------ the instructions *)
Definition regs8 : list (string * Z) := [("R0", 0); ("R1", 1); ("R2", 2); ("R3", 3); ("R4", 4); ("R5", 5); ("R6", 6); ("R7", 7)].
Definition ats : list (string * Z) := [("R0", 0); ("R1", 1)].
Definition byte_forms (ty : Z) : list form :=
  map (fun '(n, o) => mkForm n [Reg "A"; Imm] o) [("ADD", 0x03); ("ADDC", 0x13); ("MOV", 0x23); ("ORL", 0x43); ("ANL", 0x53); ("XRL", 0xD3)] ++
  map (fun '(r, n) => mkForm "MOV" [Reg r; Imm] (0xB8 + n)) regs8 ++ map (fun '(r, n) => mkForm "MOV" [At r; Imm] (0xB0 + n)) ats ++
  map (fun '(p, n) => mkForm "ORL" [Reg p; Imm] (0x88 + n)) [("P1", 1); ("P2", 2)] ++ map (fun '(p, n) => mkForm "ANL" [Reg p; Imm] (0x98 + n)) [("P1", 1); ("P2", 2)] ++
  if has_bus ty then [mkForm "ORL" [Reg "BUS"; Imm] 0x88; mkForm "ANL" [Reg "BUS"; Imm] 0x98] else [].
Definition page_forms (ty : Z) : list form :=
  map (fun '(n, o) => mkForm n [Page] o)
    [("JTF", 0x16); ("JNT0", 0x26); ("JT0", 0x36); ("JNT1", 0x46); ("JT1", 0x56); ("JF1", 0x76); ("JNI", 0x86); ("JNZ", 0x96); ("JF0", 0xB6); ("JZ", 0xC6); ("JNC", 0xE6); ("JC", 0xF6)] ++
  map (fun '(r, n) => mkForm "DJNZ" [Reg r; Page] (0xE8 + n)) regs8 ++ [mkForm "JB" [BitNo; Page] 0x12] ++
  if is_oki ty then map (fun '(r, n) => mkForm "DJNZ" [At r; Page] (0xE0 + n)) ats else [].
Definition far_forms : list form := [mkForm "JMP" [Far] 0x04; mkForm "CALL" [Far] 0x14].

(* ------------------------------------------------------------ the operands as text *)
Definition i8048_registers : list string :=
  ["A"; "BUS"; "C"; "CLK"; "CNT"; "F0"; "F1"; "I"; "MB0"; "MB1"; "P"; "P1"; "P2"; "P4"; "P5"; "P6"; "P7"; "PSW";
   "R0"; "R1"; "R2"; "R3"; "R4"; "R5"; "R6"; "R7"; "RB0"; "RB1"; "T"; "TCNT"; "TCNTI"].
(* the text is taken neither for a register, nor for another kind of operand, nor for the end of
   the line *)
Definition starts_number (s : text) : Prop :=
  match s with [] => False | c :: _ => is_space c = false /\ ~ In c [0; 35; 59; 64] end /\
  forall n, In n i8048_registers -> ~ same_name (leading_word s) (s2l n).
(* the syntax of expressions *)
Definition fam_8048 : family := mkFam pl_intel prefix_intel infix_intel [].
(* the text [t] is the operand [o], followed by [after]; its number, if there is one, is [x] *)
Definition operand_text (loc : Z) (symbol : text -> option value) (function : text -> option functor) (o : opnd) (t after : text) (x : option Z) : Prop :=
  match o with
  | Reg n => x = None /\ exists b, t = s2l n ++ b ++ after /\ blanks b
  | At n => x = None /\ exists b, t = 64 :: s2l n ++ b ++ after /\ blanks b
  | Imm => exists b s v, t = 35 :: b ++ s /\ blanks b /\ expression fam_8048 loc symbol function s after v /\ x = Some (int_of v)
  | BitNo | Page | Far => starts_number t /\ exists v, expression fam_8048 loc symbol function t after v /\ x = Some (int_of v)
  end.
(* the text [t] is the operands [os], with commas between, followed by [rest]; [xs] are their
   numbers, in order *)
Fixpoint operands_text (loc : Z) (symbol : text -> option value) (function : text -> option functor) (os : list opnd) (t rest : text) (xs : list (option Z)) : Prop :=
  match os, xs with
  | [o], [x] => operand_text loc symbol function o t rest x
  | o :: os, x :: xs => exists b t2, operand_text loc symbol function o t (44 :: b ++ t2) x /\ blanks b /\
      operands_text loc symbol function os t2 rest xs
  | _, _ => False
  end.

(* ------------------------------------------------------------ what they mean *)
(* what an operand adds to the opcode: the number of the bit, or three bits of the target, in the
   upper three bits *)
Definition opcode_bits (o : opnd) (x : option Z) : Z :=
  match o, x with
  | BitNo, Some x => 32 * (x mod 8)
  | Far, Some x => 32 * (x / 256 mod 8)
  | _, _ => 0
  end.
(* the byte after the opcode *)
Definition operand_bytes (o : opnd) (x : option Z) : list Z :=
  match o, x with
  | (Imm | Page | Far), Some x => [x mod 256]
  | _, _ => []
  end.
(* the code of an instruction *)
Definition form_bytes (f : form) (xs : list (option Z)) : list Z :=
  (fm_code f + fold_right Z.add 0 (map (fun '(o, x) => opcode_bits o x) (combine (fm_operands f) xs))) ::
  concat (map (fun '(o, x) => operand_bytes o x) (combine (fm_operands f) xs)).
(* the number is one that the operand of an instruction at [addr] can have: the page of a target is
   that of the second byte of the instruction *)
Definition operand_fits (addr : Z) (o : opnd) (x : option Z) : Prop :=
  match o, x with
  | Imm, Some x => -128 <= x <= 255
  | BitNo, Some x => 0 <= x <= 7
  | Page, Some x => x / 256 = (addr + 1) / 256
  | Far, Some x => 0 <= x < 4096
  | _, _ => True
  end.
Definition all_fit (addr : Z) (os : list opnd) (xs : list (option Z)) : Prop :=
  Forall (fun '(o, x) => operand_fits addr o x) (combine os xs).
(* no target in the page is written as a number that 16 bits do not hold, and no other as one that
   32 bits do not hold *)
Definition targets_held (os : list opnd) (xs : list (option Z)) : Prop :=
  (forall x, In (Page, Some x) (combine os xs) -> 0 <= x < 2^16) /\ (forall x, In (Far, Some x) (combine os xs) -> 0 <= x < 2^32).
