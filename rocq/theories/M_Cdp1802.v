(** Model of the assembler and disassembler of the CDP1802 family: src/asm_cdp1802.cpp,
    src/dis_cdp1802.cpp, src/reg_cdp1802.cpp, src/table_cdp1802.cpp, src/insn_cdp1802.h.  The tables
    are T_Cdp1802.v.
    Simplification: where in the line an error is reported is not modelled. *)
From Coq Require Import String ZArith List Bool.
From Verif Require Import M_Char M_Error M_Value M_Text M_StrBuffer M_Format M_Insn M_Config M_Operators M_Parsers
  M_Expr M_Directive M_Table T_Tables M_Asm M_Dis M_Cdp1802Defs T_Cdp1802.
Import ListNotations.
Open Scope string_scope.
Open Scope list_scope.
Local Open Scope Z_scope.

Definition u8 (z : Z) : Z := z mod 2^8.
Definition u16 (z : Z) : Z := z mod 2^16.

(* ------------------------------------------------------------ registers *)
(* reg_cdp1802.cpp:27-37 parseRegName; [None] is REG_UNDEF *)
Definition parseRegName (s : text) : option (Z * text) :=
  match iexpect 82 s with
  | Some p =>
    match parseRegNumber p with
    | Some (n, t) => if (0 <=? n) && (n <? 16) then Some (n, t) else None
    | None => None
    end
  | None => None
  end.
(* reg_cdp1802.cpp:39-41 outRegName *)
Definition outRegName (n : Z) (out : sbuf) : sbuf := out_sdec (int8 n) 0 (letter 82 out).

(* ------------------------------------------------------------ table *)
(* table_cdp1802.cpp:323-325 cpu, entry_table.h: linear search on the CPU type; the pages of the CPU *)
Definition cpu_pages (cpuType : Z) : res (list epage) :=
  match find (fun c => fst (fst c) =? cpuType) CPU_TABLE with
  | Some c => Val (snd c)
  | None => OOB
  end.
(* table_cdp1802.cpp:327-336 acceptMode *)
Definition acceptMode (opr table : Z) : bool :=
  if opr =? table then true
  else if opr =? M_REGN then table =? M_REG1
  else if opr =? M_ADDR then
    (table =? M_REGN) || (table =? M_REG1) || (table =? M_IMM8) || (table =? M_PAGE) || (table =? M_IOAD) ||
    (table =? M_SHRT) || (table =? M_LONG)
  else false.
(* table_cdp1802.cpp:338-341 acceptModes *)
Definition acceptModes (m1 m2 : Z) (e : entry) : bool := acceptMode m1 (e_m1 e) && acceptMode m2 (e_m2 e).
(* table_cdp1802.cpp:343-346 searchName, entry_table.h:140-170; the prefix of the page and the entry *)
Definition cdp1802_searchName (cpuType : Z) (name : text) (m1 m2 : Z) : res (err * option (Z * entry)) :=
  bind (cpu_pages cpuType) (fun pages =>
    bind (searchName entry_name name (fun _ => acceptModes m1 m2) pages) (fun r =>
      match r with
      | Miss e => Val (e, None)
      | Hit pg i =>
        bind (item_at pages pg) (fun p => bind (item_at (p_items p) i) (fun e => Val (OK, Some (p_info p, e))))
      end)).
(* table_cdp1802.cpp:348-360 matchOpCode; [~] of an opcode_t is an int *)
Definition matchOpCode (opc : Z) (e : entry) : bool :=
  if (e_m1 e =? M_REGN) || (e_m1 e =? M_REG1) then Z.land opc (Z.lnot 0x0F) =? e_opc e
  else if e_m1 e =? M_IOAD then
    if Z.land opc 7 =? 0 then false else Z.land opc (Z.lnot 7) =? e_opc e
  else opc =? e_opc e.
(* table_cdp1802.cpp:362-365 searchOpCode, entry_table.h:189-226 *)
Definition cdp1802_searchOpCode (cpuType prefix opc : Z) : res (option entry) :=
  bind (cpu_pages cpuType) (fun pages =>
    match searchOpCode (fun p => prefix =? p_info p) (fun _ => matchOpCode opc) pages with
    | Miss _ => Val None
    | Hit pg i => bind (item_at pages pg) (fun p => bind (item_at (p_items p) i) (fun e => Val (Some e)))
    end).
(* table_cdp1802.cpp:367-369 isPrefix *)
Definition cdp1802_isPrefix (cpuType code : Z) : res bool :=
  bind (cpu_pages cpuType) (fun pages => Val (isPrefix pages code)).

(* ------------------------------------------------------------ assembler *)
(* insn_cdp1802.h:33-37 Operand *)
Record operand := mkOp { o_mode : Z; o_val : value; o_err : err }.
Definition no_operand : operand := mkOp M_NONE v_undef OK.
(* insn_cdp1802.h:39-49 AsmInsn *)
Record ainsn := mkAI { ai_insn : insn; ai_err : err; ai_prefix : Z; ai_opc : Z }.
Definition ai_setErrorIf (e : err) (i : ainsn) : ainsn :=
  mkAI (ai_insn i) (setErrorIfAt (ai_err i) e) (ai_prefix i) (ai_opc i).
(* insn_base.h: embed, setOpCode *)
Definition ai_embed (v : Z) (i : ainsn) : ainsn :=
  mkAI (ai_insn i) (ai_err i) (ai_prefix i) (u8 (Z.lor (ai_opc i) v)).
Definition ai_setopc (v : Z) (i : ainsn) : ainsn := mkAI (ai_insn i) (ai_err i) (ai_prefix i) (u8 v).
Definition ai_set (i : insn) (a : ainsn) : ainsn := mkAI i (ai_err a) (ai_prefix a) (ai_opc a).
(* insn_base.h: emitByte, emitUint16, behind what there is; what they return is ignored *)
Definition ai_emitByte (v : Z) (i : ainsn) : ainsn := ai_set (snd (emitByte (u8 v) (ai_insn i))) i.
Definition ai_emitUint16 (v : Z) (i : ainsn) : ainsn := ai_set (snd (emitUint16Be (u16 v) (ai_insn i))) i.
(* insn_cdp1802.h:44-48 emitInsn *)
Definition ai_emitInsn (i : ainsn) : ainsn :=
  let i := if negb (ai_prefix i =? 0) then ai_emitByte (ai_prefix i) i else i in
  ai_emitByte (ai_opc i) i.

(* asm_cdp1802.cpp:77-85 intraBranch, interBranch *)
Definition intraBranch (i : ainsn) : ainsn := ai_setopc (Z.lor 0x30 (Z.land (ai_opc i) 0xF)) i.
Definition interBranch (i : ainsn) : ainsn := ai_setopc (Z.lor 0xC0 (Z.land (ai_opc i) 0xF)) i.
(* asm_cdp1802.cpp:89-113 encodePage; addresses have 16 bits (config_cdp1802.h:31) *)
Definition intra_page (target : Z) (i : ainsn) : ainsn := ai_emitByte target (ai_emitInsn i).
Definition inter_page (op : operand) (i : ainsn) : ainsn :=
  let target := getUnsigned (o_val op) in
  let i := ai_setErrorIf (checkAddr 16 target false) i in
  ai_emitUint16 target (ai_emitInsn i).
Definition encodePage (smart : bool) (mode : Z) (op : operand) (i : ainsn) : ainsn :=
  let base := u32 (i_addr (ai_insn i) + 2) in
  let target := if negb (isOK (o_err op)) then base else getUnsigned (o_val op) in
  let e := checkAddr_in 16 target base 8 false in
  if (mode =? M_PAGE) || ((mode =? M_SHRT) && negb smart) then intra_page target (ai_setErrorIf e i)
  else if (mode =? M_ADDR) || ((mode =? M_LONG) && negb smart) then inter_page op i
  else if negb (isOK (o_err op)) || negb (isOK e) then inter_page op (interBranch i)
  else intra_page target (intraBranch i).
(* asm_cdp1802.cpp:115-163 emitOperand *)
Definition emit_register (op : operand) (v : value) (i : ainsn) : ainsn :=
  let v := if negb (isOK (o_err op)) then setUnsigned 7 else v in
  let '(i, v) := if overflow v 15 0 then (ai_setErrorIf ILLEGAL_REGISTER i, setUnsigned 7) else (i, v) in
  ai_emitInsn (ai_embed (getUnsigned v) i).
Definition emitOperand (smart : bool) (mode : Z) (op : operand) (i : ainsn) : ainsn :=
  let i := ai_setErrorIf (o_err op) i in
  let v := o_val op in
  if mode =? M_REG1 then
    let v := if negb (isOK (o_err op)) then setUnsigned 7 else v in
    let '(i, v) := if isZero v then (ai_setErrorIf REGISTER_NOT_ALLOWED i, setUnsigned 7) else (i, v) in
    emit_register op v i
  else if mode =? M_REGN then emit_register op v i
  else if mode =? M_IMM8 then
    let i := if overflowUint8 v then ai_setErrorIf OVERFLOW_RANGE i else i in
    ai_emitByte (getUnsigned v) (ai_emitInsn i)
  else if (mode =? M_PAGE) || (mode =? M_ADDR) || (mode =? M_SHRT) || (mode =? M_LONG) then encodePage smart mode op i
  else if mode =? M_IOAD then
    let v := if negb (isOK (o_err op)) then setUnsigned 1 else v in
    let '(i, v) := if isZero v || overflow v 7 0 then (ai_setErrorIf OPERAND_NOT_ALLOWED i, setUnsigned 1) else (i, v) in
    ai_emitInsn (ai_embed (getUnsigned v) i)
  else ai_emitInsn i.

(* asm_cdp1802.cpp:165-186 parseOperand: the error returned, the operand (with its error) and the new scanner *)
Definition parseOperand (a : asm) (useReg : bool) (loc : Z) (scan : text) : res (err * operand * text) :=
  let scan := skipSpaces scan in          (* scan.skipSpaces() moves the scanner itself *)
  let '(eol, p) := p_eol (a_pl a) scan in
  if eol then Val (OK, no_operand, scan)
  else
    match (if useReg then parseRegName p else None) with
    | Some (reg, t) => Val (OK, mkOp M_REGN (setUnsigned reg) OK, t)
    | None =>
      bind (parseInteger a loc p OK 0) (fun '(v, e, t) =>
        if hasError e then Val (e, mkOp M_NONE v e, scan) else Val (e, mkOp M_ADDR v e, t))
    end.
(* asm_cdp1802.cpp:190-196: the operands *)
Inductive operands := Bad (e : err) (scan : text) | Two (o1 o2 : operand) (scan : text).
Definition parseOperands (a : asm) (useReg : bool) (loc : Z) (scan : text) : res operands :=
  bind (parseOperand a useReg loc scan) (fun '(e1, o1, scan) =>
    if negb (isOK e1) && hasError (o_err o1) then Val (Bad (o_err o1) scan)
    else
      let scan := skipSpaces scan in
      match expect_char 44 scan with
      | Some scan =>
        bind (parseOperand a useReg loc scan) (fun '(e2, o2, scan) =>
          if negb (isOK e2) && hasError (o_err o2) then Val (Bad (o_err o2) scan)
          else Val (Two o1 o2 (skipSpaces scan)))
      | None => Val (Two o1 no_operand scan)
      end).
(* asm_cdp1802.cpp:188-208 encodeImpl *)
Definition cdp1802_encodeImpl (a : asm) (cpuType : Z) (useReg smart : bool) (loc : Z) (name scan : text) (i : insn) : res (insn * text) :=
  bind (parseOperands a useReg loc scan) (fun ops =>
    match ops with
    | Bad e scan => Val (i_seterr e i, scan)
    | Two o1 o2 scan =>
      bind (cdp1802_searchName cpuType name (o_mode o1) (o_mode o2)) (fun '(e, found) =>
        let err := setErrorIfAt (i_err i) e in
        if negb (isOK err) then Val (i_seterr err i, scan)
        else
          match found with
          | None => Val (i, scan)                  (* not reached: an error has been returned *)
          | Some (prefix, e) =>
            let ai := emitOperand smart (e_m1 e) o1 (mkAI i OK prefix (e_opc e)) in
            let ai := if e_m2 e =? M_ADDR then ai_emitUint16 (getUnsigned (o_val o2)) (ai_setErrorIf (o_err o2) ai) else ai in
            Val (i_seterr (ai_err ai) (ai_insn ai), scan)
          end)
    end).

(* asm_cdp1802.cpp:37-39, asm_base.cpp: the directives; there are no special ones *)
Definition cdp1802_directives : list name_table := [d_cdp1802_PSEUDOS; d_base_PSEUDOS].
(* what the driver's symbol tables and the options give; 16-bit addresses, bytes, big endian
   (config_cdp1802.h:31) *)
Definition cdp1802_asm (symbol : text -> option value) (function : text -> option functor) (radix : Z) : asm :=
  mkA pl_cdp1802 symbol function radix 16 1 true.
(* asm_base.cpp:79-103 encode of a line, at the address [addr], which is the current location *)
Definition cdp1802_encode (a : asm) (cpuType : Z) (useReg smart : bool) (line : text) (addr : Z) : res M_Asm.line :=
  asm_encode a [] cdp1802_directives (cdp1802_encodeImpl a cpuType useReg smart addr) line (new_insn addr).

(* ------------------------------------------------------------ disassembler *)
(* dis_cdp1802.cpp:66-72 page, inpage; Config::uintptr_t has 16 bits *)
Definition inpage (base offset : Z) : Z := u16 (Z.lor (Z.land (u16 base) (Z.lnot 0xFF)) offset).
(* dis_cdp1802.cpp:76-104 decodeOperand *)
Definition decodeOperand (d : disasm) (useReg : bool) (opc mode : Z) (s : M_Dis.dstate) : res M_Dis.dstate :=
  if (mode =? M_REG1) || (mode =? M_REGN) then
    if useReg then Val (t_put (outRegName (Z.land opc 0x0F)) s)
    else t_print (dis_outDec d (Z.land opc 0xF) 4) s
  else if mode =? M_IMM8 then let '(v, s) := t_byte s in t_print (dis_outHex d v 8 true) s
  else if mode =? M_IOAD then t_print (dis_outHex d (Z.land opc 7) 3 true) s
  else if (mode =? M_ADDR) || (mode =? M_LONG) then let '(v, s) := t_uint16Be s in t_print (outAbsAddr d v 0) s
  else if (mode =? M_PAGE) || (mode =? M_SHRT) then
    let '(v, s) := t_byte s in
    t_print (outAbsAddr d (inpage (i_addr (d_insn (t_in s)) + 2) v) 0) s
  else Val s.
(* dis_cdp1802.cpp:116-128 decodeImpl, after the opcode has been read; searchOpCode starts with insn.setOK() *)
Definition decode_opcode (d : disasm) (cpuType : Z) (useReg : bool) (prefix opc : Z) (s : M_Dis.dstate) : res M_Dis.dstate :=
  let s := t_seterr OK s in
  bind (cdp1802_searchOpCode cpuType prefix opc) (fun r =>
    match r with
    | None => Val (t_setErrorIf UNKNOWN_INSTRUCTION s)
    | Some e =>
      let s := t_readName (entry_name e) s in
      if e_m1 e =? M_NONE then Val s
      else
        bind (decodeOperand d useReg opc (e_m1 e) s) (fun s =>
          if e_m2 e =? M_NONE then Val s
          else decodeOperand d useReg opc (e_m2 e) (t_put comma s))
    end).
(* dis_cdp1802.cpp:106-115 decodeImpl *)
Definition cdp1802_decodeImpl (d : disasm) (cpuType : Z) (useReg : bool) (s : M_Dis.dstate) : res M_Dis.dstate :=
  let '(opc, s) := t_byte s in
  bind (cdp1802_isPrefix cpuType opc) (fun pfx =>
    if pfx then
      let '(opc2, s) := t_byte s in
      if negb (isOK (d_err (t_in s))) then Val s
      else decode_opcode d cpuType useReg opc opc2 s
    else decode_opcode d cpuType useReg 0 opc s).

(* dis_cdp1802.cpp:36-44: its own number notation unless the options say otherwise; 16-bit addresses *)
Definition cdp1802_dis (upperhex uppercase octal relative cstyle intelhex : bool) (cursym : Z)
    (symtab : option (value -> option text)) : disasm :=
  mkDA fp_cdp1802 upperhex uppercase octal relative cstyle intelhex cursym symtab 16.
(* dis_base.cpp:138-150 decode *)
Definition cdp1802_decode (d : disasm) (cpuType : Z) (useReg : bool) (mem : list Z) (addr size : Z) : res decoded :=
  dis_decode d (cdp1802_decodeImpl d cpuType useReg) mem addr size.
