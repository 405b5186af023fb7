(** Model of the disassembler of the SC/MP: src/dis_ins8060.cpp, src/reg_ins8060.cpp,
    src/table_ins8060.cpp, src/insn_ins8060.h.  The tables are T_Ins8060.v.  The assembler of this
    processor is not modelled. *)
From Coq Require Import String ZArith List Bool.
From Verif Require Import M_Char M_Error M_Value M_Text M_StrBuffer M_Format M_Insn M_Config M_Operators
  M_Table M_Dis M_Ins8060Defs T_Ins8060.
Import ListNotations.
Open Scope string_scope.
Open Scope list_scope.
Local Open Scope Z_scope.

Definition u16 (z : Z) : Z := z mod 2^16.
Definition s16 (z : Z) : Z := let u := u16 z in if u <? 2^15 then u else u - 2^16.

(* ------------------------------------------------------------ registers *)
Definition name_text (r : string * Z) : text := s2l (fst r).
(* reg_base.cpp:59-61 searchName; [None] is nullptr *)
Definition name_of (n : Z) (entries : list (string * Z)) : option text :=
  match searchByNumber snd n entries with
  | Some k => match nth_error entries k with Some r => Some (name_text r) | None => None end
  | None => None
  end.
(* reg_ins8060.cpp:51-54 outRegName *)
Definition outRegName (n : Z) (out : sbuf) : sbuf :=
  match name_of n REG_ENTRIES with
  | Some t => out_text t out
  | None => out
  end.
(* reg_ins8060.cpp:75-77 decodePointerReg *)
Definition decodePointerReg (num : Z) : Z := Z.land num 3.
(* reg_ins8060.h:43-49 page, offset; the parameter has 16 bits *)
Definition pageOf (addr : Z) : Z := Z.land (u16 addr) (Z.lnot 0xFFF).
Definition offset (addr : Z) : Z := Z.land (u16 addr) 0xFFF.

(* ------------------------------------------------------------ table *)
(* table_ins8060.cpp:145-147 cpu: the only one *)
Definition cpu_pages : res (list epage) := bind (item_at CPU_TABLE 0) (fun c => Val (snd c)).
(* table_ins8060.cpp:166-175 matchOpCode; [~] of an opcode_t is an int *)
Definition matchOpCode (opc : Z) (e : entry) : bool :=
  let opc :=
    if e_mode e =? M_INDX then Z.land opc (Z.lnot 0x07)
    else if (e_mode e =? M_PNTR) || (e_mode e =? M_REL8) || (e_mode e =? M_DISP) then Z.land opc (Z.lnot 0x03)
    else opc in
  opc =? e_opc e.
(* entry_table.h:189-226 searchOpCode *)
Definition find_opcode (opc : Z) : res (option entry) :=
  bind cpu_pages (fun pages =>
    match searchOpCode (fun _ => true) (fun _ => matchOpCode opc) pages with
    | Miss _ => Val None
    | Hit pg i => bind (item_at pages pg) (fun p => bind (item_at (p_items p) i) (fun e => Val (Some e)))
    end).

(* ------------------------------------------------------------ disassembler *)
(* [insn.address()] has 16 bits (insn_base.h:381) *)
Definition address (s : M_Dis.dstate) : Z := u16 (i_addr (d_insn (t_in s))).
(* dis_ins8060.cpp:52-59: the address meant by the displacement [opr] of an instruction at [addr] *)
Definition target_of (addr opr fetch : Z) : Z :=
  let base := addr + 1 in
  let toff := offset (offset base + int8 opr + fetch) in
  Z.lor (pageOf base) toff.
(* dis_ins8060.cpp:44-73 decodeIndx; [mode] is that of the instruction *)
Definition decodeIndx (d : disasm) (opc mode : Z) (hasMode : bool) (s : M_Dis.dstate) : res M_Dis.dstate :=
  let s := if hasMode && negb (Z.land opc 4 =? 0) then t_put (letter 64) s else s in
  let reg := decodePointerReg opc in
  let '(opr, s) := t_byte s in
  if reg =? REG_PC then
    let base := address s + 1 in
    let fetch := if mode =? M_REL8 then 1 else 0 in
    let target := target_of (address s) opr fetch in
    let diff := s16 (target - base - fetch) in
    if (-128 <=? diff) && (diff <? 128) then t_print (outRelAddr d target (address s) 8) s
    else t_print (outAbsAddr d target 0) s
  else
    bind (if opr =? 0x80 then Val (t_put (outRegName REG_E) s)
          else t_print (dis_outDec d (u32 (int8 opr)) (-8)) s) (fun s =>
      Val (t_put (letter 41) (t_put (outRegName reg) (t_put (letter 40) s)))).
(* dis_ins8060.cpp:81-97: the operand *)
Definition decodeOperand (d : disasm) (opc mode : Z) (s : M_Dis.dstate) : res M_Dis.dstate :=
  if mode =? M_PNTR then Val (t_put (outRegName (decodePointerReg opc)) s)
  else if mode =? M_IMM8 then let '(v, s) := t_byte s in t_print (dis_outHex d v 8 true) s
  else if (mode =? M_REL8) || (mode =? M_DISP) then decodeIndx d opc mode false s
  else if mode =? M_INDX then decodeIndx d opc mode true s
  else Val s.
(* dis_ins8060.cpp:98-99: an instruction does not cross a page *)
Definition checkPage (s : M_Dis.dstate) : M_Dis.dstate :=
  if negb (pageOf (address s) =? pageOf (address s + i_len (d_insn (t_in s)) - 1))
  then t_setErrorIf OVERWRAP_SEGMENT s else s.
(* dis_ins8060.cpp:75-101 decodeImpl, table_ins8060.cpp:177-184 searchOpCode, which starts with
   insn.setOK() and empties the name of an undefined instruction *)
Definition decode_opcode (d : disasm) (opc : Z) (s : M_Dis.dstate) : res M_Dis.dstate :=
  let s := t_seterr OK s in
  bind (find_opcode opc) (fun r =>
    match r with
    | None => Val (t_setErrorIf UNKNOWN_INSTRUCTION s)
    | Some e =>
      if e_mode e =? M_UNDEF then Val (t_seterr UNKNOWN_INSTRUCTION (mkDst (t_in s) [] (t_out s)))
      else bind (decodeOperand d opc (e_mode e) (t_readName (entry_name e) s)) (fun s => Val (checkPage s))
    end).
Definition ins8060_decodeImpl (d : disasm) (s : M_Dis.dstate) : res M_Dis.dstate :=
  let '(opc, s) := t_byte s in decode_opcode d opc s.

(* dis_ins8060.cpp:27-34: National number notation unless the options say otherwise; 16-bit addresses
   (config_ins8060.h:29) *)
Definition ins8060_dis (upperhex uppercase octal relative cstyle intelhex : bool) (cursym : Z)
    (symtab : option (value -> option text)) : disasm :=
  mkDA fp_national upperhex uppercase octal relative cstyle intelhex cursym symtab 16.
(* dis_base.cpp:138-150 decode *)
Definition ins8060_decode (d : disasm) (mem : list Z) (addr size : Z) : res decoded :=
  dis_decode d (ins8060_decodeImpl d) mem addr size.
