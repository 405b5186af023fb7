(** The instructions of the CDP1802 family with a number, from the RCA manuals: mnemonic, prefix and
    opcode. *)
From Coq Require Import String ZArith List Bool.
From Verif Require Import M_Char M_Text M_Parsers M_Expr M_Cdp1802Defs S_Table S_ExprTree S_Cpu.
Import ListNotations.
Open Scope string_scope.
Open Scope list_scope.
Local Open Scope Z_scope.

(* the three processors *)
Definition cdp_types : list Z := [CDP1802; CDP1804; CDP1804A].
Definition form := (string * list Z * Z)%type.
Definition mnemonic (f : form) : text := s2l (fst (fst f)).
Definition prefix (f : form) : list Z := snd (fst f).
Definition opcode (f : form) : Z := snd f.
Definition from_1804 (ct : Z) (l : list form) : list form := if ct =? CDP1802 then [] else l.
Definition from_1804A (ct : Z) (l : list form) : list form := if ct =? CDP1804A then l else [].
(* those that read a byte *)
Definition byte_forms (ct : Z) : list form := [
  ("ADCI", [], 0x7C); ("SDBI", [], 0x7D); ("SMBI", [], 0x7F); ("LDI", [], 0xF8); ("ORI", [], 0xF9); ("ANI", [], 0xFA);
  ("XRI", [], 0xFB); ("ADI", [], 0xFC); ("SDI", [], 0xFD); ("SMI", [], 0xFF)] ++
  from_1804A ct [("DACI", [0x68], 0x7C); ("DSBI", [0x68], 0x7F); ("DADI", [0x68], 0xFC); ("DSMI", [0x68], 0xFF)].
(* those with a register within the opcode *)
Definition register_forms (ct : Z) : list form := [
  ("INC", [], 0x10); ("DEC", [], 0x20); ("LDA", [], 0x40); ("STR", [], 0x50); ("GLO", [], 0x80); ("GHI", [], 0x90);
  ("PLO", [], 0xA0); ("PHI", [], 0xB0); ("SEP", [], 0xD0); ("SEX", [], 0xE0)] ++
  from_1804 ct [("RLXA", [0x68], 0x60); ("SRET", [0x68], 0x90); ("RSXD", [0x68], 0xA0); ("RNX", [0x68], 0xB0)].
(* the one with a register other than 0 *)
Definition load_forms : list form := [("LDN", [], 0x00)].
(* those with a device within the opcode *)
Definition device_forms : list form := [("OUT", [], 0x60); ("INP", [], 0x68)].
(* the branches within a page which have no long form *)
Definition page_forms (ct : Z) : list form := [
  ("B1", [], 0x34); ("B2", [], 0x35); ("B3", [], 0x36); ("B4", [], 0x37); ("NBR", [], 0x38);
  ("BN1", [], 0x3C); ("BN2", [], 0x3D); ("BN3", [], 0x3E); ("BN4", [], 0x3F)] ++
  from_1804 ct [("BCI", [0x68], 0x3E); ("BXI", [0x68], 0x3F)].
(* the other branches within a page, and those to anywhere; the last digit is the condition *)
Definition short_forms : list form := [
  ("BR", [], 0x30); ("BQ", [], 0x31); ("BZ", [], 0x32); ("BDF", [], 0x33); ("BPZ", [], 0x33); ("BGE", [], 0x33);
  ("BNQ", [], 0x39); ("BNZ", [], 0x3A); ("BNF", [], 0x3B); ("BM", [], 0x3B); ("BL", [], 0x3B)].
Definition long_forms : list form := [
  ("LBR", [], 0xC0); ("LBQ", [], 0xC1); ("LBZ", [], 0xC2); ("LBDF", [], 0xC3); ("LBPZ", [], 0xC3); ("LBGE", [], 0xC3);
  ("LBNQ", [], 0xC9); ("LBNZ", [], 0xCA); ("LBNF", [], 0xCB); ("LBM", [], 0xCB); ("LBL", [], 0xCB)].
Definition condition (f : form) : Z := opcode f mod 16.
(* the long one that has no short form *)
Definition address_forms : list form := [("NLBR", [], 0xC8)].
(* those with a register and two more bytes *)
Definition double_forms (ct : Z) : list form :=
  from_1804 ct [("SCAL", [0x68], 0x80); ("RLDI", [0x68], 0xC0)] ++ from_1804A ct [("DBNZ", [0x68], 0x20)].

(* a page of memory, and the one of a branch at [addr] *)
Definition same_page (a b : Z) : Prop := a / 256 = b / 256.

(* the text does not start with a blank or a comment, nor with the name of a register:
   R and a number below 16 *)
Definition starts_number (s : text) : Prop :=
  match s with [] => False | c :: _ => is_space c = false /\ c <> 59 /\ c <> 0 end /\
  ~ exists c n z, s = c :: n ++ z /\ (c = 82 \/ c = 114) /\ n <> [] /\ Forall (fun d => is_digit d = true) n /\
    is_alnum (peek z) = false /\ peek z <> 95 /\ decimal 0 n < 16.
(* the syntax of expressions *)
Definition fam_1802 : family := mkFam pl_cdp1802 prefix_c infix_c (s2l "#XxBbDd").
