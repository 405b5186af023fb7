(** The SC/MP for the disassembler's driver. *)
From Coq Require Import String ZArith List Bool.
From Verif Require Import M_Char M_Error M_Value M_Text M_StrBuffer M_Format M_Insn M_Config M_Operators M_Listing M_Dis M_DisDriver M_Ins8060.
Import ListNotations.
Open Scope string_scope.
Local Open Scope Z_scope.

(* config_ins8060.h:29: little endian, at most 4 letters in a name; table_ins8060.cpp:142,
   text_ins8060.cpp:24; value_formatter.cpp:49-51 a semicolon starts a comment *)
Definition dis_scmp (upperhex uppercase octal relative cstyle intelhex : bool) (cursym : Z) (message : err -> text) : dops :=
  let d := ins8060_dis upperhex uppercase octal relative cstyle intelhex cursym None in
  mkDO (mkLC 1 8 false) (mkLO octal upperhex) d 4 (s2l "SC/MP") (s2l ";") (ins8060_decodeImpl d) message.
