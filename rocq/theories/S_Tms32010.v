(** The instructions of the TMS32010 family with numbers, from the manual of Texas Instruments:
    mnemonic, opcode word and what the numbers are. *)
From Coq Require Import String ZArith List Bool.
From Verif Require Import M_Char M_Text M_Parsers M_Expr M_Tms32010Defs S_Table S_ExprTree S_Cpu.
Import ListNotations.
Open Scope string_scope.
Open Scope list_scope.
Local Open Scope Z_scope.

(* the two processors *)
Definition tms_types : list Z := [TMS32010; TMS32015].
(* the last address of the data memory *)
Definition last_data (ct : Z) : Z := if ct =? TMS32010 then 143 else 255.

(* the kinds of numbers *)
Inductive number_kind :=
| Num_data       (* an address of the data memory *)
| Num_status     (* one of the second page of the data memory *)
| Num_shift      (* a shift of 0 to 15 bits *)
| Num_shift_high (* a shift of 0, 1 or 4 bits *)
| Num_shift_none (* a shift of no bits *)
| Num_port       (* one of 8 ports *)
| Num_register   (* one of the 2 auxiliary registers, in bit 8 *)
| Num_bit        (* 0 or 1 *)
| Num_byte       (* an unsigned byte *)
| Num_factor     (* 13 bits, signed *)
| Num_program.   (* an address of the program memory, in the next word *)
Definition in_range (ct : Z) (k : number_kind) (v : Z) : Prop :=
  match k with
  | Num_data => 0 <= v <= last_data ct
  | Num_status => 128 <= v <= last_data ct
  | Num_shift => 0 <= v <= 15
  | Num_shift_high => v = 0 \/ v = 1 \/ v = 4
  | Num_shift_none => v = 0
  | Num_port => 0 <= v <= 7
  | Num_register | Num_bit => 0 <= v <= 1
  | Num_byte => 0 <= v <= 255
  | Num_factor => -4096 <= v <= 4095
  | Num_program => 0 <= v <= 4095
  end.
(* what the number adds to the opcode word *)
Definition part_of_word (k : number_kind) (v : Z) : Z :=
  match k with
  | Num_data | Num_status => v mod 128
  | Num_shift | Num_shift_high | Num_shift_none | Num_port | Num_register => 256 * v
  | Num_bit | Num_byte => v
  | Num_factor => v mod 8192
  | Num_program => 0
  end.
(* and the words that follow *)
Definition next_words (k : number_kind) (v : Z) : list Z := match k with Num_program => [v] | _ => [] end.
(* words in memory: the low byte is the first *)
Definition in_bytes (ws : list Z) : list Z := flat_map (fun w => [w mod 256; w / 256]) ws.
(* numbers that are not cut: addresses of data are cut to 32 bits before anything else, and the
   others, but for factors and addresses of the program, to 16 *)
Definition uncut (k : number_kind) (v : Z) : Prop :=
  match k with Num_factor | Num_program => True | Num_data | Num_status => -2^31 <= v < 2^32 | _ => -32768 <= v < 65536 end.

(* the instructions with one number *)
Definition one_forms : list (string * Z * number_kind) :=
  map (fun f => (fst f, snd f, Num_data)) [("ADD", 0x0000); ("SUB", 0x1000); ("LAC", 0x2000); ("SACL", 0x5000); ("SACH", 0x5800);
    ("ADDH", 0x6000); ("ADDS", 0x6100); ("SUBH", 0x6200); ("SUBS", 0x6300); ("SUBC", 0x6400); ("ZALH", 0x6500); ("ZALS", 0x6600);
    ("TBLR", 0x6700); ("MAR", 0x6800); ("DMOV", 0x6900); ("LT", 0x6A00); ("LTD", 0x6B00); ("LTA", 0x6C00); ("MPY", 0x6D00);
    ("LDP", 0x6F00); ("XOR", 0x7800); ("AND", 0x7900); ("OR", 0x7A00); ("LST", 0x7B00); ("TBLW", 0x7D00)] ++
  [("SST", 0x7C00, Num_status); ("LARP", 0x6880, Num_bit); ("LDPK", 0x6E00, Num_bit); ("LACK", 0x7E00, Num_byte); ("MPYK", 0x8000, Num_factor)] ++
  map (fun f => (fst f, snd f, Num_program)) [("BANZ", 0xF400); ("BV", 0xF500); ("BIOZ", 0xF600); ("CALL", 0xF800); ("B", 0xF900);
    ("BLZ", 0xFA00); ("BLEZ", 0xFB00); ("BGZ", 0xFC00); ("BGEZ", 0xFD00); ("BNZ", 0xFE00); ("BZ", 0xFF00)].
(* those with two *)
Definition two_forms : list (string * Z * number_kind * number_kind) := [
  ("ADD", 0x0000, Num_data, Num_shift); ("SUB", 0x1000, Num_data, Num_shift); ("LAC", 0x2000, Num_data, Num_shift);
  ("SACL", 0x5000, Num_data, Num_shift_none); ("SACH", 0x5800, Num_data, Num_shift_high);
  ("IN", 0x4000, Num_data, Num_port); ("OUT", 0x4800, Num_data, Num_port);
  ("SAR", 0x3000, Num_register, Num_data); ("LAR", 0x3800, Num_register, Num_data); ("LARK", 0x7000, Num_register, Num_byte)].

(* the text does not start with a blank, a comment or an asterisk, nor with a register (AR and
   a number below 2) or a port (PA and a number below 8) *)
Definition starts_number (s : text) : Prop :=
  match s with [] => False | c :: _ => is_space c = false /\ c <> 59 /\ c <> 0 /\ c <> 42 end /\
  ~ exists c d n z, s = c :: d :: n ++ z /\ ((c = 65 \/ c = 97) /\ (d = 82 \/ d = 114) /\ decimal 0 n < 2 \/ (c = 80 \/ c = 112) /\ (d = 65 \/ d = 97) /\ decimal 0 n < 8) /\
    n <> [] /\ Forall (fun d => is_digit d = true) n /\ is_alnum (peek z) = false /\ peek z <> 95.
(* the syntax of expressions *)
Definition fam_32010 : family := mkFam pl_tms32010 prefix_c infix_c [].
