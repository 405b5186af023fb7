(** The 6502 instructions with a number, from the MOS Technology and WDC manuals: mnemonic, the
    way the operand is written, and the opcodes. *)
From Coq Require Import String ZArith List Bool.
From Verif Require Import M_Char M_Text M_Value M_Parsers M_Expr M_Directive S_Table S_ExprTree S_Cpu.
Import ListNotations.
Open Scope string_scope.
Open Scope list_scope.
Local Open Scope Z_scope.

(* ------------------------------------------------------------ the instructions *)
(* the branches of all processors *)
Definition branch_forms : list (string * Z) := [
  ("BPL", 0x10); ("BMI", 0x30); ("BVC", 0x50); ("BVS", 0x70); ("BCC", 0x90); ("BCS", 0xB0); ("BNE", 0xD0); ("BEQ", 0xF0)].
(* those that read an immediate number into the accumulator, and into an index register *)
Definition accumulator_forms : list (string * Z) := [
  ("ORA", 0x09); ("AND", 0x29); ("EOR", 0x49); ("ADC", 0x69); ("LDA", 0xA9); ("CMP", 0xC9); ("SBC", 0xE9)].
Definition index_forms : list (string * Z) := [("LDY", 0xA0); ("LDX", 0xA2); ("CPY", 0xC0); ("CPX", 0xE0)].
(* the ways to write an address: n  n,X  n,Y  (n,X)  (n),Y *)
Inductive way := Plain | WithX | WithY | InX | InY.
(* the opcodes with an address of one byte, two bytes and (65816) three bytes *)
Record form := mkForm { fm_name : string; fm_way : way; fm_zero : option Z; fm_abs : option Z; fm_long : option Z }.
Definition group1 : list (string * Z) :=
  [("ORA", 0x00); ("AND", 0x20); ("EOR", 0x40); ("ADC", 0x60); ("STA", 0x80); ("LDA", 0xA0); ("CMP", 0xC0); ("SBC", 0xE0)].
Definition group2 : list (string * Z) := [("ASL", 0x00); ("ROL", 0x20); ("LSR", 0x40); ("ROR", 0x60); ("DEC", 0xC0); ("INC", 0xE0)].
Definition address_forms : list form :=
  flat_map (fun '(n, o) => [
    mkForm n Plain (Some (o + 0x05)) (Some (o + 0x0D)) (Some (o + 0x0F));
    mkForm n WithX (Some (o + 0x15)) (Some (o + 0x1D)) (Some (o + 0x1F));
    mkForm n WithY None (Some (o + 0x19)) None;
    mkForm n InX (Some (o + 0x01)) None None;
    mkForm n InY (Some (o + 0x11)) None None]) group1 ++
  flat_map (fun '(n, o) => [
    mkForm n Plain (Some (o + 0x06)) (Some (o + 0x0E)) None;
    mkForm n WithX (Some (o + 0x16)) (Some (o + 0x1E)) None]) group2 ++
  [mkForm "STX" Plain (Some 0x86) (Some 0x8E) None; mkForm "STX" WithY (Some 0x96) None None;
   mkForm "LDX" Plain (Some 0xA6) (Some 0xAE) None; mkForm "LDX" WithY (Some 0xB6) (Some 0xBE) None;
   mkForm "STY" Plain (Some 0x84) (Some 0x8C) None; mkForm "STY" WithX (Some 0x94) None None;
   mkForm "LDY" Plain (Some 0xA4) (Some 0xAC) None; mkForm "LDY" WithX (Some 0xB4) (Some 0xBC) None;
   mkForm "CPY" Plain (Some 0xC4) (Some 0xCC) None; mkForm "CPX" Plain (Some 0xE4) (Some 0xEC) None;
   mkForm "BIT" Plain (Some 0x24) (Some 0x2C) None;
   mkForm "JMP" Plain None (Some 0x4C) (Some 0x5C); mkForm "JSR" Plain None (Some 0x20) None].
(* the code for the address [v]: the shortest that can hold it; [None]: there is none *)
Definition code_for (wide : bool) (f : form) (v : Z) : option (list Z) :=
  let long := match fm_long f with
              | Some o => if wide && (0 <=? v) && (v <? 0x1000000) then Some [o; v mod 256; v / 256 mod 256; v / 65536] else None
              | None => None
              end in
  let abs := match fm_abs f with
             | Some o => if (0 <=? v) && (v <? 0x10000) then Some [o; v mod 256; v / 256] else long
             | None => long
             end in
  match fm_zero f with
  | Some o => if (0 <=? v) && (v <? 0x100) then Some [o; v] else abs
  | None => abs
  end.

(* ------------------------------------------------------------ the text *)
Definition fam_6502 : family := mkFam pl_mos6502 prefix_c infix_c (s2l "$%@&").
(* the start of a number: not one of the notations for another operand, not a register *)
Definition starts_number (s : text) : Prop :=
  match s with [] => False | c :: _ => is_space c = false /\ ~ In c (s2l "#([<>;") /\ c <> 0 end /\
  forall n, In n ["A"; "S"; "X"; "Y"] -> ~ same_name (leading_word s) (s2l n).
(* the text [t] is an operand with the value [v], followed by [rest] *)
Definition written (w : way) (loc : Z) (symbol : text -> option value) (function : text -> option functor) (t rest : text) (v : value) : Prop :=
  let E := expression fam_6502 loc symbol function in
  let E' := expression_until 41 fam_6502 loc symbol function in
  match w with
  | Plain => starts_number t /\ E t rest v
  | WithX => starts_number t /\ exists b1 c b2, blanks b1 /\ In c (s2l "Xx") /\ blanks b2 /\ E t (44 :: b1 ++ c :: b2 ++ rest) v
  | WithY => starts_number t /\ exists b1 c b2, blanks b1 /\ In c (s2l "Yy") /\ blanks b2 /\ E t (44 :: b1 ++ c :: b2 ++ rest) v
  | InX => exists b0 s b1 c b2 b3, t = 40 :: b0 ++ s /\ blanks b0 /\ starts_number s /\ blanks b1 /\ In c (s2l "Xx") /\ blanks b2 /\ blanks b3 /\
      E' s (44 :: b1 ++ c :: b2 ++ 41 :: b3 ++ rest) v
  | InY => exists b0 s b1 b2 c b3, t = 40 :: b0 ++ s /\ blanks b0 /\ starts_number s /\ blanks b1 /\ blanks b2 /\ In c (s2l "Yy") /\ blanks b3 /\
      E' s (41 :: b1 ++ 44 :: b2 ++ c :: b3 ++ rest) v
  end.
(* an immediate number; < and > would take one of its bytes *)
Definition immediate (loc : Z) (symbol : text -> option value) (function : text -> option functor) (t rest : text) (v : value) : Prop :=
  exists s, t = 35 :: s /\ ~ In (peek s) (s2l "<>") /\ expression fam_6502 loc symbol function s rest v.

(* ------------------------------------------------------------ the widths of the registers *)
(* LONGA ON/OFF, LONGI ON/OFF *)
Inductive width_order := LongA (on : bool) | LongI (on : bool).
(* the last order about the accumulator (the index registers), at first short *)
Definition last_longa (h : list width_order) : bool := fold_left (fun w o => match o with LongA on => on | LongI _ => w end) h false.
Definition last_longi (h : list width_order) : bool := fold_left (fun w o => match o with LongI on => on | LongA _ => w end) h false.
