(** Model of the 8080 disassembler as the driver uses it. *)
From Coq Require Import String ZArith List Bool.
From Verif Require Import M_Char M_Error M_Value M_Text M_StrBuffer M_Format M_Insn M_Config M_Operators M_Listing M_Dis
  M_I8080Defs T_I8080 M_I8080 M_DisDriver.
Import ListNotations.
Open Scope string_scope.
Open Scope list_scope.
Local Open Scope Z_scope.

(* table_i8080.cpp:407-417 the name of the current processor, config_base.h cpu_P *)
Definition i8080_cpu_name (ty : Z) : text :=
  if ty =? I8080 then s2l "8080" else if ty =? I8085 then s2l "8085" else s2l "V30EMU".
(* config_i8080.h:31-33: 16-bit addresses of bytes, 8-bit code, at most 5 letters in a name;
   value_formatter.h:34 lineComment_P, as Intel has it *)
Definition dis_8080 (ty : Z) (zilog upperhex uppercase octal relative cstyle intelhex : bool) (cursym : Z)
    (message : err -> text) : dops :=
  let d := i8080_dis upperhex uppercase octal relative cstyle intelhex cursym None in
  mkDO (mkLC 1 8 false) (mkLO octal upperhex) d 5 (i8080_cpu_name ty) (s2l ";") (i8080_decodeImpl d ty zilog) message.
