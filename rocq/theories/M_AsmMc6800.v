(** Model of the 6800 assembler as the driver uses it: src/asm_mc6800.{h,cpp} with its options, and
    of a driver with the 6800 and the 8080 assembler: cli/asm.cpp. *)
From Coq Require Import String ZArith List Bool.
From Verif Require Import M_Char M_Error M_Value M_Text M_Insn M_Config M_Operators M_Parsers M_Expr M_Directive M_Table T_Tables
  M_Asm M_AsmLine M_Mc6800Defs T_Mc6800 M_Mc6800 M_AsmDriver M_AsmI8080.
Import ListNotations.
Open Scope string_scope.
Open Scope list_scope.
Local Open Scope Z_scope.

(* config_base.h:181 _cpuType, asm_base.h: _listRadix, _smartBranch *)
Record mc6800 := mk6800 { y_cpu : Z; y_list : Z; y_smart : bool }.
(* config_mc6800.h:37, asm_base.cpp:57-61 reset *)
Definition new_mc6800 : mc6800 := mk6800 MC6800 16 false.
(* asm_base.cpp:63-71 *)
Definition common_6800 : list (string * option_of mc6800) := [
  ("list-radix", OptInt (fun r o => (OK, mk6800 (y_cpu o) (if r =? 8 then 8 else 16) (y_smart o))));
  ("smart-branch", OptBool (fun b o => (OK, mk6800 (y_cpu o) (y_list o) b)))].
(* table_mc6800.cpp:705-719 searchCpuName *)
Definition cpu_6800 (name : text) : option Z :=
  let p := match iexpectText (s2l "MC") name with Some p => p | None => name end in
  if iequals p (s2l "6800") then Some MC6800
  else if iequals p (s2l "MB8861") then Some MB8861
  else if iequals p (s2l "6801") then Some MC6801
  else if iequals p (s2l "6301") then Some HD6301
  else if iequals p (s2l "6811") then Some MC68HC11
  else if iequals p (s2l "68HC11") then Some MC68HC11
  else if iequals name (s2l "HD6301") then Some HD6301
  else None.
Definition encode_6800 (o : mc6800) (symbol : text -> option value) (function : text -> option functor) (loc : Z)
    (line : text) (i : insn) : res (insn * Z * mc6800) :=
  let a := mc6800_asm symbol function 10 in
  encode_line a [] mc6800_directives common_6800 [] (fun _ s o => Val (s, o))
    (mc6800_encodeImpl (y_cpu o) a (i_addr i)) loc line i o.
(* cli/asm.cpp:92 MotorolaDirective for the 6800 *)
Definition ops_6800 : ops mc6800 := mkOps
  (fun _ => pl_motorola) (fun _ => 1) (fun _ => motorola_pseudos)
  (fun cpu o => option_map (fun t => mk6800 t (y_list o) (y_smart o)) (cpu_6800 cpu))
  y_list (fun r o => mk6800 (y_cpu o) (if r =? 8 then 8 else 16) (y_smart o))
  encode_6800.

(* the methods of the objects of two classes *)
Definition ops_either {A B} (f : ops A) (g : ops B) : ops (A + B) := mkOps
  (fun o => match o with inl a => op_pl f a | inr b => op_pl g b end)
  (fun o => match o with inl a => op_unit f a | inr b => op_unit g b end)
  (fun o => match o with inl a => op_pseudos f a | inr b => op_pseudos g b end)
  (fun cpu o => match o with inl a => option_map inl (op_setCpu f cpu a) | inr b => option_map inr (op_setCpu g cpu b) end)
  (fun o => match o with inl a => op_listRadix f a | inr b => op_listRadix g b end)
  (fun r o => match o with inl a => inl (op_setListRadix f r a) | inr b => inr (op_setListRadix g r b) end)
  (fun o symbol function loc line i =>
    match o with
    | inl a => bind (op_encode f a symbol function loc line i) (fun '(i, l, a) => Val (i, l, inl a))
    | inr b => bind (op_encode g b symbol function loc line i) (fun '(i, l, b) => Val (i, l, inr b))
    end).
(* cli/asm.cpp:104-111: the 6800 comes before the 8080.  Simplification: the assemblers before,
   between and behind them are left out. *)
Definition ops_both : ops (mc6800 + i8080) := ops_either ops_6800 ops_8080.
Definition both : list (mc6800 + i8080) := [inl new_mc6800; inr new_i8080].
