(** Model of the assembler and disassembler of the 6800 family (6800, MB8861, 6801, 6301, 68HC11):
    src/asm_mc6800.cpp, src/dis_mc6800.cpp, src/reg_mc6800.cpp, src/table_mc6800.cpp,
    src/insn_mc6800.h.  The tables are T_Mc6800.v.
    Simplification: where in the line an error is reported is not modelled. *)
From Coq Require Import String ZArith List Bool.
From Verif Require Import M_Char M_Error M_Value M_Text M_StrBuffer M_Format M_Insn M_Config M_Operators M_Parsers
  M_Expr M_Directive M_Table T_Tables M_Asm M_Dis M_Mc6800Defs T_Mc6800.
Import ListNotations.
Open Scope string_scope.
Open Scope list_scope.
Local Open Scope Z_scope.

Definition u8 (z : Z) : Z := z mod 2^8.
Definition u16 (z : Z) : Z := z mod 2^16.

(* ------------------------------------------------------------ registers *)
(* reg_mc6800.cpp:29-35 parseRegName *)
Definition parseRegName (s : text) : Z * text :=
  match iexpectWord (s2l "X") s with
  | Some t => (REG_X, t)
  | None =>
    match iexpectWord (s2l "Y") s with
    | Some t => (REG_Y, t)
    | None => (REG_UNDEF, s)
    end
  end.
(* reg_mc6800.cpp:37-39 outRegName *)
Definition outRegName (n : Z) (out : sbuf) : sbuf := letter n out.

(* ------------------------------------------------------------ table *)
(* table_mc6800.cpp:606-608 cpu, entry_table.h:89-97; a missing entry would be a null pointer *)
Definition cpu_pages (cpuType : Z) : res (list epage) :=
  match cpu_by_type (fun c => fst (fst c)) cpuType CPU_TABLE with
  | Some k => bind (item_at CPU_TABLE k) (fun c => Val (snd c))
  | None => UB
  end.
(* entry_table.h:140-170 searchName with a test of the operands: the entry and its prefix *)
Definition search_entry (cpuType : Z) (name : text) (accept : entry -> bool) : res (err * option (Z * entry)) :=
  bind (cpu_pages cpuType) (fun pages =>
    bind (searchName entry_name name (fun _ => accept) pages) (fun r =>
      match r with
      | Miss e => Val (e, None)
      | Hit pg i =>
        bind (item_at pages pg) (fun p => bind (item_at (p_items p) i) (fun e => Val (OK, Some (p_info p, e))))
      end)).
(* table_mc6800.cpp:610-617 acceptAll, hasOperand *)
Definition hasOperand (cpuType : Z) (name : text) : res bool :=
  bind (search_entry cpuType name (fun _ => true)) (fun '(_, found) =>
    Val (match found with Some (_, e) => negb (e_m1 e =? M_NONE) | None => false end)).
(* table_mc6800.cpp:619-635 acceptMode *)
Definition acceptMode (opr table : Z) : bool :=
  if opr =? table then true
  else if (table =? M_GN8) || (table =? M_GN16) then
    (opr =? M_EXT) || (opr =? M_DIR) || (opr =? M_BIT) || (opr =? M_IM16) || (opr =? M_IDX)
  else if table =? M_GMEM then (opr =? M_EXT) || (opr =? M_DIR) || (opr =? M_BIT) || (opr =? M_IDX)
  else if opr =? M_EXT then table =? M_REL
  else if opr =? M_DIR then (table =? M_REL) || (table =? M_EXT)
  else if opr =? M_BIT then (table =? M_REL) || (table =? M_EXT) || (table =? M_DIR)
  else if opr =? M_IM16 then (table =? M_IM8) || (table =? M_BMM)
  else false.
(* table_mc6800.cpp:637-646 acceptModes: the answer *)
Definition acceptModes (m1 m2 m3 : Z) (e : entry) : bool :=
  acceptMode m1 (e_m1 e) && acceptMode m2 (e_m2 e) && acceptMode m3 (e_m3 e).
(* table_mc6800.cpp:648-651 searchName; acceptModes records OPERAND_NOT_ALLOWED for an undefined entry *)
Definition mc6800_searchName (cpuType : Z) (name : text) (m1 m2 m3 : Z) : res (err * option (Z * entry)) :=
  bind (search_entry cpuType name (acceptModes m1 m2 m3)) (fun '(er, found) =>
    Val (match found with
         | Some (_, e) => if e_undef e then OPERAND_NOT_ALLOWED else er
         | None => er
         end, found)).
(* table_mc6800.cpp:653-665 matchOpCode; [~] of an opcode_t is an int *)
Definition matchOpCode (opc : Z) (e : entry) : bool :=
  let opc :=
    if (e_m1 e =? M_GMEM) || (e_m2 e =? M_GMEM) then
      let h := Z.land opc 0xF0 in
      if (h =? 0x60) || (h =? 0x70) then Z.land opc (Z.lnot 0x10) else opc
    else if (e_m1 e =? M_GN8) || (e_m1 e =? M_GN16) then Z.land opc (Z.lnot 0x30)
    else opc in
  opc =? e_opc e.
(* table_mc6800.cpp:667-675 searchOpCodeImpl, entry_table.h:189-226: the page and the position in it
   of the entry found, even when it is an undefined one *)
Definition find_opcode (cpuType prefix opc : Z) : res (option (list entry * nat)) :=
  bind (cpu_pages cpuType) (fun pages =>
    match searchOpCode (fun p => prefix =? p_info p) (fun _ => matchOpCode opc) pages with
    | Miss _ => Val None
    | Hit pg i => bind (item_at pages pg) (fun p => Val (Some (p_items p, i)))
    end).
(* table_mc6800.cpp:667-675 searchOpCodeImpl: the name, the error and the entry *)
Definition searchOpCodeImpl (cpuType prefix opc : Z) (s : M_Dis.dstate) : res (option (list entry * nat * entry) * M_Dis.dstate) :=
  let s := t_seterr OK s in          (* searchOpCode starts with insn.setOK() *)
  bind (find_opcode cpuType prefix opc) (fun r =>
    match r with
    | None => Val (None, t_setErrorIf UNKNOWN_INSTRUCTION s)
    | Some (items, i) =>
      bind (item_at items i) (fun e =>
        let s := t_readName (entry_name e) s in
        if e_undef e then Val (None, t_setErrorIf UNKNOWN_INSTRUCTION (mkDst (t_in s) [] (t_out s)))
        else Val (Some (items, i, e), s))
    end).
(* table_mc6800.cpp:682-691 searchOpCodeAlias: the entry after the one found *)
Definition searchOpCodeAlias (cpuType prefix opc : Z) (s : M_Dis.dstate) : res M_Dis.dstate :=
  bind (searchOpCodeImpl cpuType prefix opc s) (fun '(r, s) =>
    match r with
    | None => Val (t_setErrorIf INTERNAL_ERROR s)
    | Some (items, i, _) =>
      bind (item_at items (S i)) (fun e =>
        if negb (e_opc e =? opc) then Val (t_seterr INTERNAL_ERROR s)
        else Val (t_readName (entry_name e) s))
    end).
(* table_mc6800.cpp:693-695 isPrefix *)
Definition mc6800_isPrefix (cpuType code : Z) : res bool :=
  bind (cpu_pages cpuType) (fun pages => Val (isPrefix pages code)).

(* ------------------------------------------------------------ assembler *)
(* insn_mc6800.h:34-39 Operand; the size is used by parseOperand only *)
Record operand := mkOp { o_mode : Z; o_val : value; o_err : err }.
Definition no_operand : operand := mkOp M_NONE v_undef OK.
(* insn_mc6800.h:41-62 AsmInsn *)
Record ainsn := mkAI { ai_insn : insn; ai_err : err; ai_prefix : Z; ai_opc : Z }.
Definition ai_setErrorIf (e : err) (i : ainsn) : ainsn :=
  mkAI (ai_insn i) (setErrorIfAt (ai_err i) e) (ai_prefix i) (ai_opc i).
Definition ai_seterr (e : err) (i : ainsn) : ainsn := mkAI (ai_insn i) e (ai_prefix i) (ai_opc i).
(* insn_base.h: embed *)
Definition ai_embed (v : Z) (i : ainsn) : ainsn :=
  mkAI (ai_insn i) (ai_err i) (ai_prefix i) (u8 (Z.lor (ai_opc i) v)).
Definition ai_set (i : insn) (a : ainsn) : ainsn := mkAI i (ai_err a) (ai_prefix a) (ai_opc a).
(* insn_mc6800.h:56-61 operandPos *)
Definition ai_operandPos (i : ainsn) : Z :=
  let pos := i_len (ai_insn i) in
  if pos =? 0 then if negb (ai_prefix i =? 0) then 2 else 1 else pos.
(* insn_mc6800.h:52-53 emitOperand8, emitOperand16; what they return is ignored *)
Definition ai_emitOperand8 (v : Z) (i : ainsn) : ainsn :=
  ai_set (snd (emitByte_at (u8 v) (ai_operandPos i) (ai_insn i))) i.
Definition ai_emitOperand16 (v : Z) (i : ainsn) : ainsn :=
  ai_set (snd (emitUint16Be_at (u16 v) (ai_operandPos i) (ai_insn i))) i.
(* insn_mc6800.h:46-51 emitInsn *)
Definition ai_emitInsn (i : ainsn) : ainsn :=
  let '(pos, i) := if negb (ai_prefix i =? 0)
                   then (1, ai_set (snd (emitByte_at (ai_prefix i) 0 (ai_insn i))) i) else (0, i) in
  ai_set (snd (emitByte_at (ai_opc i) pos (ai_insn i))) i.

(* asm_mc6800.cpp:53-103 parseOperand: the operand (with its error) and the new scanner; the error
   returned is OK or that of the operand *)
Definition parseOperand (a : asm) (loc : Z) (scan : text) : res (operand * text) :=
  let p := skipSpaces scan in             (* scan.skipSpaces() moves the scanner itself *)
  let scan := p in
  if peek p =? 44 then Val (no_operand, p)
  else
    match expect_char 35 p with
    | Some p =>
      bind (parseInteger a loc p OK 0) (fun '(v, e, t) =>
        if hasError e then Val (mkOp M_NONE v e, scan) else Val (mkOp M_IM16 v e, t))
    | None =>
      let '(size, p) :=
        match expect_char 60 p with
        | Some p => (8, p)
        | None => match expect_char 62 p with Some p => (16, p) | None => (0, p) end
        end in
      bind (parseInteger a loc p OK 0) (fun '(v, e, p) =>
        if hasError e then Val (mkOp M_NONE v e, scan)
        else
          let '(reg, t) :=
            match expect_char 44 (skipSpaces p) with
            | Some q => parseRegName (skipSpaces q)
            | None => (REG_UNDEF, p)
            end in
          if negb (reg =? REG_UNDEF) then Val (mkOp (if reg =? REG_X then M_IDX else M_IDY) v e, t)
          else
            let mode :=
              if size =? 0 then
                if overflowUint8 v then M_EXT else if overflow v 7 0 then M_DIR else M_BIT
              else if size =? 8 then M_DIR else M_EXT in
            Val (mkOp mode v e, p))
    end.

(* asm_mc6800.cpp:105-112 emitRelative; addresses have 16 bits (config_mc6800.h:34) *)
Definition emitRelative (op : operand) (i : ainsn) : res ainsn :=
  let len := i_len (ai_insn i) in
  let base := u32 (i_addr (ai_insn i) + (if len =? 0 then 2 else len + 1)) in
  let target := if negb (isOK (o_err op)) then base else getUnsigned (o_val op) in
  match branchDelta 16 base target (ai_err i) with
  | None => UB
  | Some (delta, e) =>
    match overflowDelta delta 8 with
    | None => UB
    | Some far =>
      let i := ai_seterr e i in
      let i := if far then ai_setErrorIf OPERAND_TOO_FAR i else i in
      Val (ai_emitOperand8 delta i)
    end
  end.
(* asm_mc6800.cpp:114-122 emitImmediate *)
Definition emitImmediate (mode : Z) (op : operand) (i : ainsn) : ainsn :=
  if (mode =? M_GN16) || (mode =? M_IM16) then ai_emitOperand16 (getUnsigned (o_val op)) i
  else
    let i := if overflowUint8 (o_val op) then ai_setErrorIf OVERFLOW_RANGE i else i in
    ai_emitOperand8 (getUnsigned (o_val op)) i.
(* asm_mc6800.cpp:124-128 emitBitNumber *)
Definition emitBitNumber (op : operand) (i : ainsn) : ainsn :=
  let imm := u8 (Z.shiftl 1 (Z.land (getUnsigned (o_val op)) 7)) in
  let aim := Z.land (ai_opc i) 0xF =? 1 in
  ai_emitOperand8 (if aim then Z.lnot imm else imm) i.
(* asm_mc6800.cpp:130-185 emitOperand *)
Definition emitOperand (mode : Z) (op : operand) (i : ainsn) : res ainsn :=
  let i := ai_setErrorIf (o_err op) i in
  let val16 := getUnsigned (o_val op) in
  let m := o_mode op in
  let check i := if overflow (o_val op) 255 0 then ai_setErrorIf OVERFLOW_RANGE i else i in
  if (mode =? M_GN8) || (mode =? M_GN16) then
    if (m =? M_DIR) || (m =? M_BIT) then Val (ai_emitOperand8 val16 (ai_embed 0x10 i))
    else if (m =? M_IDX) || (m =? M_IDY) then Val (ai_emitOperand8 val16 (ai_embed 0x20 (check i)))
    else if m =? M_EXT then Val (ai_emitOperand16 val16 (ai_embed 0x30 i))
    else Val (emitImmediate mode op i)
  else if mode =? M_GMEM then
    if m =? M_IDX then Val (ai_emitOperand8 val16 (check i))
    else Val (ai_emitOperand16 val16 (ai_embed 0x70 i))
  else if (mode =? M_DIR) || (mode =? M_IDX) || (mode =? M_IDY) then Val (ai_emitOperand8 val16 (check i))
  else if mode =? M_EXT then Val (ai_emitOperand16 val16 i)
  else if mode =? M_REL then emitRelative op i
  else if (mode =? M_IM8) || (mode =? M_IM16) || (mode =? M_BMM) then Val (emitImmediate mode op i)
  else if mode =? M_BIT then Val (emitBitNumber op i)
  else Val i.

(* asm_mc6800.cpp:187-201: the operands; [inl]: an operand's error and the scanner *)
Inductive operands := Bad (e : err) (scan : text) | Three (o1 o2 o3 : operand) (scan : text).
Definition parseOperands (a : asm) (loc : Z) (scan : text) : res operands :=
  bind (parseOperand a loc scan) (fun '(o1, scan) =>
    if hasError (o_err o1) then Val (Bad (o_err o1) scan)
    else
      let more scan :=
        let scan := skipSpaces scan in
        match expect_char 44 scan with
        | Some scan => parseOperand a loc scan
        | None => Val (no_operand, scan)
        end in
      bind (more scan) (fun '(o2, scan) =>
        if hasError (o_err o2) then Val (Bad (o_err o2) scan)
        else
          bind (more scan) (fun '(o3, scan) =>
            if hasError (o_err o3) then Val (Bad (o_err o3) scan)
            else Val (Three o1 o2 o3 scan)))).
(* asm_mc6800.cpp:187-211 encodeImpl *)
Definition mc6800_encodeImpl (cpuType : Z) (a : asm) (loc : Z) (name scan : text) (i : insn) : res (insn * text) :=
  bind (hasOperand cpuType name) (fun has =>
    bind (if has then parseOperands a loc scan else Val (Three no_operand no_operand no_operand scan)) (fun ops =>
      match ops with
      | Bad e scan => Val (i_seterr e i, scan)
      | Three o1 o2 o3 scan =>
        let scan := skipSpaces scan in
        bind (mc6800_searchName cpuType name (o_mode o1) (o_mode o2) (o_mode o3)) (fun '(e, found) =>
          let err := setErrorIfAt (i_err i) e in
          if negb (isOK err) then Val (i_seterr err i, scan)
          else
            match found with
            | None => Val (i, scan)                  (* not reached: an error has been returned *)
            | Some (prefix, e) =>
              let ai := mkAI i OK prefix (e_opc e) in
              bind (emitOperand (e_m1 e) o1 ai) (fun ai =>
                bind (emitOperand (e_m2 e) o2 ai) (fun ai =>
                  bind (emitOperand (e_m3 e) o3 ai) (fun ai =>
                    let ai := ai_emitInsn ai in
                    Val (i_seterr (ai_err ai) (ai_insn ai), scan))))
            end)
      end)).

(* asm_mc6800.cpp:31-40, asm_base.cpp: the directives; there are no special ones *)
Definition mc6800_directives : list name_table := [d_mc6800_PSEUDOS; d_base_PSEUDOS].
(* what the driver's symbol tables and the options give; 16-bit addresses, bytes, big endian
   (config_mc6800.h:33-34) *)
Definition mc6800_asm (symbol : text -> option value) (function : text -> option functor) (radix : Z) : asm :=
  mkA pl_motorola symbol function radix 16 1 true.
(* asm_base.cpp:79-103 encode of a line, at the address [addr], which is the current location *)
Definition mc6800_encode (cpuType : Z) (a : asm) (line : text) (addr : Z) : res M_Asm.line :=
  asm_encode a [] mc6800_directives (mc6800_encodeImpl cpuType a addr) line (new_insn addr).

(* ------------------------------------------------------------ disassembler *)
(* dis_mc6800.cpp:36-44 decodeDirectPage *)
Definition decodeDirectPage (d : disasm) (s : M_Dis.dstate) : res M_Dis.dstate :=
  let '(dir, s) := t_byte s in
  bind (da_lookup d dir 0) (fun label =>
    match label with
    | Some l => Val (t_put (fun out => out_rtext l (letter 60 out)) s)
    | None => t_print (outAbsAddr d dir 8) s
    end).
(* dis_mc6800.cpp:46-56 decodeExtended *)
Definition decodeExtended (d : disasm) (s : M_Dis.dstate) : res M_Dis.dstate :=
  let '(addr, s) := t_uint16Be s in
  bind (da_lookup d addr 0) (fun label =>
    match label with
    | Some l => Val (t_put (fun out => out_rtext l (letter 62 out)) s)
    | None => t_print (outAbsAddr d addr 0) (if addr <? 0x100 then t_put (letter 62) s else s)
    end).
(* dis_mc6800.cpp:58-64 decodeRelative *)
Definition decodeRelative (d : disasm) (s : M_Dis.dstate) : res M_Dis.dstate :=
  let '(v, s) := t_byte s in
  let delta := int8 v in
  let insn := d_insn (t_in s) in
  let base := u32 (i_addr insn + i_len insn) in
  let target := u32 (base + delta) in
  let s := t_setErrorIf (checkAddr (da_aw d) target false) s in
  t_print (outRelAddr d target (i_addr insn) 8) s.
(* dis_mc6800.cpp:68-74 bitNumber *)
Fixpoint bitNumber_loop (val : Z) (n : nat) (pos mask : Z) : Z :=
  match n with
  | O => -1
  | S n => if val =? mask then pos else bitNumber_loop val n (pos + 1) (u8 (Z.shiftl mask 1))
  end.
Definition bitNumber (val : Z) : Z := bitNumber_loop val 8 0 1.
(* dis_mc6800.cpp:78-88 decodeBitNumber *)
Definition decodeBitNumber (d : disasm) (cpuType prefix opc : Z) (s : M_Dis.dstate) : res M_Dis.dstate :=
  let '(val8, s) := t_byte s in
  let aim := Z.land opc 0xF =? 1 in
  let bitNum := bitNumber (u8 (if aim then Z.lnot val8 else val8)) in
  if 0 <=? bitNum then
    bind (searchOpCodeAlias cpuType prefix opc s) (fun s => t_print (dis_outHex d bitNum 3 true) s)
  else t_print (dis_outHex d val8 8 true) (t_put (letter 35) s).
(* dis_mc6800.cpp:90-142 decodeOperand *)
Definition decodeOperand (d : disasm) (cpuType prefix opc mode : Z) (s : M_Dis.dstate) : res M_Dis.dstate :=
  let gn := Z.land opc 0x30 in
  let dir := decodeDirectPage d s in
  let ext := decodeExtended d s in
  let idx :=
    let '(v, s) := t_byte s in
    bind (t_print (dis_outDec d v 8) s) (fun s =>
      Val (t_put (fun out => outRegName (if mode =? M_IDY then REG_Y else REG_X) (letter 44 out)) s)) in
  let im8 :=
    let s := t_put (letter 35) s in
    let '(v, s) := t_byte s in t_print (dis_outHex d v 8 true) s in
  let im16 :=
    let s := t_put (letter 35) s in
    let '(v, s) := t_uint16Be s in t_print (dis_outHex d v 16 true) s in
  let generic imm := if gn =? 0x10 then dir else if gn =? 0x20 then idx else if gn =? 0x30 then ext else imm in
  if mode =? M_DIR then dir
  else if mode =? M_GMEM then if Z.land opc 0xF0 =? 0x60 then idx else ext
  else if mode =? M_EXT then ext
  else if (mode =? M_IDX) || (mode =? M_IDY) then idx
  else if mode =? M_REL then decodeRelative d s
  else if mode =? M_GN8 then generic im8
  else if mode =? M_IM8 then im8
  else if mode =? M_GN16 then generic im16
  else if mode =? M_IM16 then im16
  else if mode =? M_BMM then decodeBitNumber d cpuType prefix opc s
  else Val s.

(* dis_mc6800.cpp:144-166 decodeImpl, after the opcode has been read.  Simplification: modes 2
   and 3 are those of the entry found first; in the program the alias of a bit instruction has then
   replaced it, and it has the same modes 2 and 3 (P_Mc6800.alias_modes). *)
Definition decode_opcode (d : disasm) (cpuType prefix opc : Z) (s : M_Dis.dstate) : res M_Dis.dstate :=
  bind (searchOpCodeImpl cpuType prefix opc s) (fun '(r, s) =>
    match r with
    | None => Val s
    | Some (_, _, e) =>
      bind (decodeOperand d cpuType prefix opc (e_m1 e) s) (fun s =>
        if e_m2 e =? M_NONE then Val s
        else
          bind (decodeOperand d cpuType prefix opc (e_m2 e) (t_put comma s)) (fun s =>
            if e_m3 e =? M_NONE then Val s
            else decodeOperand d cpuType prefix opc (e_m3 e) (t_put comma s)))
    end).
Definition mc6800_decodeImpl (d : disasm) (cpuType : Z) (s : M_Dis.dstate) : res M_Dis.dstate :=
  let '(opc, s) := t_byte s in
  bind (mc6800_isPrefix cpuType opc) (fun pfx =>
    if pfx then
      let '(opc2, s) := t_byte s in
      if negb (isOK (d_err (t_in s))) then Val s
      else decode_opcode d cpuType opc opc2 s
    else decode_opcode d cpuType 0 opc s).

(* dis_mc6800.cpp:27-34: Motorola number notation unless the options say otherwise; 16-bit addresses *)
Definition mc6800_dis (upperhex uppercase octal relative cstyle intelhex : bool) (cursym : Z)
    (symtab : option (value -> option text)) : disasm :=
  mkDA fp_motorola upperhex uppercase octal relative cstyle intelhex cursym symtab 16.
(* dis_base.cpp:138-150 decode *)
Definition mc6800_decode (d : disasm) (cpuType : Z) (mem : list Z) (addr size : Z) : res decoded :=
  dis_decode d (mc6800_decodeImpl d cpuType) mem addr size.
