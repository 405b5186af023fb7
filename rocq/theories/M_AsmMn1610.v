(** Model of the data and origin statements of the MN1610 assembler, a word-addressed processor:
    src/asm_mn1610.{h,cpp}, src/config_mn1610.h, src/table_mn1610.cpp (processor names).
    Simplification: its instructions are not modelled (every mnemonic is answered with
    UNKNOWN_INSTRUCTION); floating point data leaves the model (outcome FLOAT). *)
From Coq Require Import String ZArith List Bool.
From Verif Require Import M_Char M_Error M_Value M_Text M_Insn M_Config M_Operators M_Parsers M_Expr M_Directive M_Table T_Tables
  M_Asm M_AsmLine M_AsmDriver.
Import ListNotations.
Open Scope string_scope.
Open Scope list_scope.
Local Open Scope Z_scope.

(* config_mn1610.h:25-29 CpuType *)
Definition MN1610 : Z := 0.
Definition MN1613 : Z := 1.
Definition MN1613A : Z := 2.
Record mn1610 := mk1610 { w_cpu : Z; w_list : Z; w_smart : bool }.
(* asm_mn1610.cpp:52-55, asm_base.cpp:57-61 reset *)
Definition new_mn1610 : mn1610 := mk1610 MN1610 16 false.
(* config_mn1610.h:34-36 addressWidth *)
Definition mn1610_width (o : mn1610) : Z := if w_cpu o =? MN1610 then 16 else 18.
Definition mn1610_asm (o : mn1610) (symbol : text -> option value) (function : text -> option functor) : asm :=
  mkA pl_mn1610 symbol function 10 (mn1610_width o) 2 true.
Definition common_1610 : list (string * option_of mn1610) := [
  ("list-radix", OptInt (fun r o => (OK, mk1610 (w_cpu o) (if r =? 8 then 8 else 16) (w_smart o))));
  ("smart-branch", OptBool (fun b o => (OK, mk1610 (w_cpu o) (w_list o) b)))].
(* asm_mn1610.cpp:360-374: one expression of DC *)
Definition dc_expr (a : asm) (e str : err) (s : dstate) : res round :=
  bind (parseExpr a s 0) (fun '(v, ee, p) =>
    let '(eol, p) := endOfLine a p in
    if negb eol && negb (peek p =? 44) then
      Val (Stop (setErrorIfAt e (if negb (isOK str) then str else ILLEGAL_CONSTANT)) s)
    else if hasError ee then Val (Stop (setErrorIfAt e (if negb (isOK str) then str else ee)) s)
    else if isInteger v then
      let ee := if overflowUint16 v then setErrorIfAt ee OVERFLOW_RANGE else ee in
      let '(em, i) := emitUint16Be (getUnsigned v mod 2^16) (ds_insn s) in
      let e := setErrorIfAt e (setErrorIfAt ee em) in
      let s := mkDS (ds_loc s) p i in
      if err_eqb e NO_MEMORY then Val (Stop e s) else Val (More e s)
    else FLOAT).
(* asm_mn1610.cpp:345-358 *)
Definition dc_item (a : asm) (e : err) (s : dstate) : res round :=
  let scan := skipSpaces (ds_scan s) in
  let s := ds_set_scan scan s in
  bind (isString a scan) (fun '(se, stop) =>
    if isOK se then
      bind (generateString a DATA_WORD scan stop (ds_insn s) OK) (fun '(i, se, p) =>
        let e := setErrorIfAt e se in
        let s := mkDS (ds_loc s) p i in
        if err_eqb e NO_MEMORY then Val (Stop e s) else Val (More e s))
    else dc_expr a e (if err_eqb se NOT_AN_EXPECTED then OK else se) s).
(* asm_mn1610.cpp:343-391 defineDataConstant *)
Fixpoint dc_items (fuel : nat) (a : asm) (e : err) (s : dstate) : res (err * dstate) :=
  match fuel with
  | O => FUEL
  | S fuel =>
    bind (dc_item a e s) (fun r =>
      match r with
      | Stop e s => Val (e, s)
      | More e s =>
        let t := skipSpaces (ds_scan s) in
        match expect_char 44 t with
        | Some t => dc_items fuel a e (ds_set_scan t s)
        | None => Val (e, ds_set_scan t s)
        end
      end)
  end.
(* asm_mn1610.cpp:393-398 processPseudo *)
Definition special_1610 (a : asm) (k : nat) (s : dstate) (o : mn1610) : res (dstate * mn1610) :=
  bind (dc_items (S (length (ds_scan s))) a OK s) (fun '(e, s) => Val (ds_seterr e s, o)).
Definition encode_1610 (o : mn1610) (symbol : text -> option value) (function : text -> option functor) (loc : Z)
    (line : text) (i : insn) : res (insn * Z * mn1610) :=
  let a := mn1610_asm o symbol function in
  encode_line a [s2l "DC"] [d_mn1610_PSEUDOS; d_base_PSEUDOS] common_1610 [] (special_1610 a)
    (fun name scan i => Val (i_seterr UNKNOWN_INSTRUCTION i, scan)) loc line i o.
(* table_mn1610.cpp:443-457 searchCpuName *)
Definition cpu_1610 (name : text) : option Z :=
  if iequals name (s2l "MN1610") || iequals name (s2l "1610") then Some MN1610
  else if iequals name (s2l "MN1613") || iequals name (s2l "1613") then Some MN1613
  else if iequals name (s2l "MN1613A") || iequals name (s2l "1613A") then Some MN1613A
  else None.
(* cli/asm.cpp:80 IntelDirective *)
Definition ops_1610 : ops mn1610 := mkOps
  (fun _ => pl_mn1610) (fun _ => 2) (fun _ => intel_pseudos)
  (fun cpu o => option_map (fun t => mk1610 t (w_list o) (w_smart o)) (cpu_1610 cpu))
  w_list (fun r o => mk1610 (w_cpu o) (if r =? 8 then 8 else 16) (w_smart o))
  encode_1610.
