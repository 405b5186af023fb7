(** Model of the 8080 assembler as the driver uses it: src/asm_i8080.{h,cpp} with its options. *)
From Coq Require Import String ZArith List Bool.
From Verif Require Import M_Char M_Error M_Value M_Text M_Insn M_Config M_Operators M_Parsers M_Expr M_Directive M_Table T_Tables
  M_Asm M_AsmLine M_I8080Defs T_I8080 M_I8080 M_AsmDriver.
Import ListNotations.
Open Scope string_scope.
Open Scope list_scope.
Local Open Scope Z_scope.

(* config_base.h:181 _cpuType, asm_i8080.h:37 _zilogSyntax, asm_base.h: _listRadix, _smartBranch *)
Record i8080 := mk8080 { x_cpu : Z; x_zilog : bool; x_list : Z; x_smart : bool }.
(* asm_i8080.cpp:61-69 and asm_base.cpp:57-61 reset *)
Definition new_i8080 : i8080 := mk8080 I8080 false 16 false.
(* asm_base.cpp:63-71 *)
Definition common_8080 : list (string * option_of i8080) := [
  ("list-radix", OptInt (fun r o => (OK, mk8080 (x_cpu o) (x_zilog o) (if r =? 8 then 8 else 16) (x_smart o))));
  ("smart-branch", OptBool (fun b o => (OK, mk8080 (x_cpu o) (x_zilog o) (x_list o) b)))].
(* asm_i8080.cpp:66-69 setZilogSyntax *)
Definition opt_zilog : option_of i8080 := OptBool (fun b o => (OK, mk8080 (x_cpu o) b (x_list o) (x_smart o))).
Definition own_8080 : list (string * option_of i8080) := [("zilog-syntax", opt_zilog)].
(* asm_i8080.cpp:247-254 processPseudo: Z80SYNTAX *)
Definition special_8080 (a : asm) (k : nat) (s : dstate) (o : i8080) : res (dstate * i8080) :=
  bind (set_option a (ds_loc s) opt_zilog (ds_scan s) o) (fun '(e, p, o) =>
    if isOK e then Val (ds_set_scan p s, o) else Val (snd (insn_setErrorIf e s), o)).
(* table_i8080.cpp:518-533 searchCpuName *)
Definition cpu_8080 (name : text) : option Z :=
  if iequals name (s2l "8080") then Some I8080
  else if iequals name (s2l "8085") then Some I8085
  else if iequals name (s2l "V30EMU") then Some V30EMU
  else
    let name := opt_ichar 105 name in
    if iequals name (s2l "8080") then Some I8080
    else if iequals name (s2l "8085") then Some I8085
    else None.
Definition encode_8080 (o : i8080) (symbol : text -> option value) (function : text -> option functor) (loc : Z)
    (line : text) (i : insn) : res (insn * Z * i8080) :=
  let a := i8080_asm symbol function 10 in
  encode_line a i8080_specials i8080_directives common_8080 own_8080 (special_8080 a)
    (i8080_encodeImpl (x_cpu o) (x_zilog o) a (i_addr i)) loc line i o.
(* cli/asm.cpp: IntelDirective for the 8080 *)
Definition ops_8080 : ops i8080 := mkOps
  (fun _ => pl_i8080) (fun _ => 1) (fun _ => intel_pseudos)
  (fun cpu o => option_map (fun t => mk8080 t (x_zilog o) (x_list o) (x_smart o)) (cpu_8080 cpu))
  x_list (fun r o => mk8080 (x_cpu o) (x_zilog o) (if r =? 8 then 8 else 16) (x_smart o))
  encode_8080.
