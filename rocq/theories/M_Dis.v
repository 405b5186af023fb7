(** Model of the disassembler's interface and output functions: src/dis_base.{h,cpp}, for any
    processor.  [UB] is the shift by a negative count in [signExtend] for a width of 0. *)
From Coq Require Import String ZArith List Bool.
From Verif Require Import M_Char M_Error M_Value M_Text M_StrBuffer M_Format M_Insn M_Config M_Operators.
Import ListNotations.
Open Scope string_scope.
Open Scope list_scope.
Local Open Scope Z_scope.

(* dis_base.h:83-100: the formatter and the options *)
Record disasm := mkDA {
  da_plug : fplugin;           (* _formatter *)
  da_upperhex : bool;
  da_uppercase : bool;
  da_octal : bool;             (* _listRadix is RADIX_8 *)
  da_relative : bool;
  da_cstyle : bool;
  da_intelhex : bool;
  da_cursym : Z;
  da_symtab : option (value -> option text);   (* SymbolTable::lookupValue *)
  da_aw : Z                    (* config().addressWidth() *)
}.
(* dis_base.cpp:66-76 formatter *)
Definition da_formatter (d : disasm) : fplugin :=
  if da_cstyle d then fp_cstyle else if da_intelhex d then fp_intel else da_plug d.

(* dis_base.cpp:152-164 lookup *)
Definition da_lookup (d : disasm) (addr width : Z) : res (option text) :=
  match da_symtab d with
  | None => Val None
  | Some find =>
    match find (setUnsigned addr) with
    | Some s => Val (Some s)
    | None =>
      match signExtend addr width with
      | None => UB
      | Some v => Val (find (setSigned v))
      end
    end
  end.

(* [StrCaseBuffer caseOut(out, _upperHex); f(caseOut).over(out)] *)
Definition hex_case (d : disasm) (f : sbuf -> sbuf) (out : sbuf) : sbuf :=
  over (f (case_buf (da_upperhex d) out)) out.

(* dis_base.cpp:166-175 outDec *)
Definition dis_outDec (d : disasm) (v bits : Z) (out : sbuf) : res sbuf :=
  bind (da_lookup d v (Z.abs bits)) (fun l =>
    match l with
    | Some label => Val (out_rtext label out)
    | None =>
      if da_octal d then Val (hex_case d (formatOct (da_formatter d) v bits) out)
      else Val (hex_case d (formatDec (da_formatter d) v bits) out)
    end).
(* dis_base.cpp:182-197 outHex *)
Definition dis_outHex (d : disasm) (v bits : Z) (relax : bool) (out : sbuf) : res sbuf :=
  bind (da_lookup d v (Z.abs bits)) (fun l =>
    match l with
    | Some label => Val (out_rtext label out)
    | None =>
      if da_octal d then Val (hex_case d (formatOct (da_formatter d) v bits) out)
      else if relax && (snd (absolute v bits) <=? 32)
      then Val (hex_case d (formatDec (da_formatter d) v bits) out)
      else Val (hex_case d (formatHex (da_formatter d) v bits) out)
    end).
(* dis_base.cpp:204-214 outAbsAddr *)
Definition outAbsAddr (d : disasm) (v width : Z) (out : sbuf) : res sbuf :=
  bind (da_lookup d v width) (fun l =>
    match l with
    | Some label => Val (out_rtext label out)
    | None =>
      let width := if width =? 0 then da_aw d else width in
      if da_octal d then Val (hex_case d (formatOct (da_formatter d) v width) out)
      else Val (hex_case d (formatHex (da_formatter d) v width) out)
    end).
(* dis_base.cpp:219-245 outRelAddr *)
Definition outRelAddr (d : disasm) (target origin bits : Z) (out : sbuf) : res sbuf :=
  if negb (da_relative d) then outAbsAddr d target 0 out
  else
    bind (da_lookup d target (da_aw d)) (fun l =>
      match l with
      | Some label => Val (out_rtext label out)
      | None =>
        let out := letter (da_cursym d) out in
        let delta := s32 (target - origin) in
        if delta =? 0 then Val out
        else
          let out := letter (if delta <? 0 then 45 else 43) out in
          let v := u32 (Z.abs delta) in
          if da_octal d then Val (hex_case d (formatOct (da_formatter d) v bits) out)
          else if bits <=? 14 then Val (hex_case d (formatDec (da_formatter d) v bits) out)
          else bind (dis_outHex d v bits true (case_buf (da_upperhex d) out)) (fun b => Val (over b out))
      end).

(* what a processor's decodeImpl works on: the instruction and its memory, and the texts *)
Record dstate := mkDst { t_in : dinsn; t_name : text; t_out : sbuf }.
Definition t_seterr (e : err) (s : dstate) : dstate :=
  mkDst (mkD (d_insn (t_in s)) (d_mem (t_in s)) e) (t_name s) (t_out s).
Definition t_set_out (b : sbuf) (s : dstate) : dstate := mkDst (t_in s) (t_name s) b.
Definition t_set_in (d : dinsn) (s : dstate) : dstate := mkDst d (t_name s) (t_out s).
(* [f(out)], which may fail *)
Definition t_print (f : sbuf -> res sbuf) (s : dstate) : res dstate :=
  bind (f (t_out s)) (fun b => Val (t_set_out b s)).
Definition t_put (f : sbuf -> sbuf) (s : dstate) : dstate := t_set_out (f (t_out s)) s.
Definition t_byte (s : dstate) : Z * dstate := let '(v, d) := readByte (t_in s) in (v, t_set_in d s).
Definition t_uint16Le (s : dstate) : Z * dstate := let '(v, d) := readUint16Le (t_in s) in (v, t_set_in d s).
Definition t_uint16Be (s : dstate) : Z * dstate := let '(v, d) := readUint16Be (t_in s) in (v, t_set_in d s).
(* [insn.setErrorIf(at, error)] *)
Definition t_setErrorIf (e : err) (s : dstate) : dstate := t_seterr (setErrorIfAt (d_err (t_in s)) e) s.
(* entry_table.h:180-187 defaultReadName: the mnemonic, in the case of [out], in the 11 letters of
   the name buffer *)
Definition t_readName (name : text) (s : dstate) : dstate :=
  mkDst (t_in s) (firstn 11 (map (conv (b_case (t_out s))) name)) (t_out s).

(* the results the caller sees *)
Record decoded := mkDec { r_insn : insn; r_name : text; r_operands : text }.

(* dis_base.cpp:138-150 decode; [size] is that of the caller's buffer (at least 1).
   [impl] ends with [_insn.setError(insn)]. *)
Definition dis_decode (d : disasm) (impl : dstate -> res dstate) (mem : list Z) (addr size : Z) : res decoded :=
  let i := new_insn addr in
  let e := checkAddr (da_aw d) addr false in
  if negb (isOK e) then Val (mkDec (i_seterr e i) [] [])
  else
    bind (impl (mkDst (mkD i mem OK) [] (mkB [] (size - 1) OK (Some (da_uppercase d))))) (fun s =>
      let i := i_seterr (d_err (t_in s)) (d_insn (t_in s)) in
      let i := if isOK (i_err i) then i_seterr (b_err (t_out s)) i else i in
      Val (mkDec i (t_name s) (b_txt (t_out s)))).
