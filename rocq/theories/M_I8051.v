(** Model of the assembler and disassembler of the 8051: src/asm_i8051.cpp, src/dis_i8051.cpp,
    src/reg_i8051.cpp, src/table_i8051.cpp, src/insn_i8051.h.  The tables are T_I8051.v.
    Simplification: where in the line an error is reported is not modelled. *)
From Coq Require Import String ZArith List Bool.
From Verif Require Import M_Char M_Error M_Value M_Text M_StrBuffer M_Format M_Insn M_Config M_Operators M_Parsers
  M_Expr M_Directive M_Table T_Tables M_Asm M_Dis M_I8051Defs T_I8051.
Import ListNotations.
Open Scope string_scope.
Open Scope list_scope.
Local Open Scope Z_scope.

Definition u8 (z : Z) : Z := z mod 2^8.
Definition u16 (z : Z) : Z := z mod 2^16.

(* ------------------------------------------------------------ registers *)
Definition name_text (r : string * Z) : text := s2l (fst r).
(* reg_i8051.cpp:52-55 parseRegName *)
Definition parseRegName (s : text) : res (Z * text) :=
  bind (searchText name_text s REG_ENTRIES) (fun '(k, t) =>
    match k with
    | Some k => bind (item_at REG_ENTRIES k) (fun r => Val (snd r, t))
    | None => Val (REG_UNDEF, t)
    end).
(* reg_base.cpp:59-61 searchName; [None] is nullptr *)
Definition name_of (n : Z) (entries : list (string * Z)) : option text :=
  match searchByNumber snd n entries with
  | Some k => match nth_error entries k with Some r => Some (name_text r) | None => None end
  | None => None
  end.
(* reg_i8051.cpp:57-60 outRegName *)
Definition outRegName (n : Z) (out : sbuf) : sbuf :=
  match name_of n REG_ENTRIES with
  | Some t => out_text t out
  | None => out
  end.
(* reg_i8051.cpp:62-65 isRReg *)
Definition isRReg (n : Z) : bool := (0 <=? n) && (n <? 8).
(* reg_i8051.cpp:67-69 encodeRRegName *)
Definition encodeRRegName (n : Z) : Z := u8 n.

(* ------------------------------------------------------------ table *)
(* table_i8051.cpp:275-277 cpu: the only one *)
Definition cpu_pages : res (list epage) := bind (item_at CPU_TABLE 0) (fun c => Val (snd c)).
(* entry_table.h:140-170 searchName with a test of the operands *)
Definition search_entry (name : text) (accept : entry -> bool) : res (err * option entry) :=
  bind cpu_pages (fun pages =>
    bind (searchName entry_name name (fun _ => accept) pages) (fun r =>
      match r with
      | Miss e => Val (e, None)
      | Hit pg i =>
        bind (item_at pages pg) (fun p => bind (item_at (p_items p) i) (fun e => Val (OK, Some e)))
      end)).
(* table_i8051.cpp:279-287 acceptMode *)
Definition acceptMode (opr table : Z) : bool :=
  if opr =? table then true
  else if opr =? M_IMM16 then table =? M_IMM8
  else if opr =? M_ADR16 then (table =? M_ADR8) || (table =? M_ADR11) || (table =? M_REL) || (table =? M_BITAD)
  else false.
(* table_i8051.cpp:289-293 acceptModes *)
Definition acceptModes (m1 m2 m3 : Z) (e : entry) : bool :=
  acceptMode m1 (e_m1 e) && acceptMode m2 (e_m2 e) && acceptMode m3 (e_m3 e).
(* table_i8051.cpp:295-298 searchName *)
Definition i8051_searchName (name : text) (m1 m2 m3 : Z) : res (err * option entry) :=
  search_entry name (acceptModes m1 m2 m3).
(* table_i8051.cpp:300-313 matchOpCode; [~] of an opcode_t is an int *)
Definition matchOpCode (opc : Z) (e : entry) : bool :=
  let dst := e_m1 e in
  let src := e_m2 e in
  let opc :=
    if (dst =? M_RREG) || (src =? M_RREG) then Z.land opc (Z.lnot 7)
    else if (dst =? M_IDIRR) || (src =? M_IDIRR) then Z.land opc (Z.lnot 1)
    else if dst =? M_ADR11 then Z.land opc (Z.lnot 0xE0)
    else opc in
  opc =? e_opc e.
(* table_i8051.cpp:315-318 searchOpCode, entry_table.h:189-226 *)
Definition find_opcode (opc : Z) : res (option entry) :=
  bind cpu_pages (fun pages =>
    match searchOpCode (fun _ => true) (fun _ => matchOpCode opc) pages with
    | Miss _ => Val None
    | Hit pg i => bind (item_at pages pg) (fun p => bind (item_at (p_items p) i) (fun e => Val (Some e)))
    end).
(* table_i8051.cpp:320-323 invalidDirect; the address is a uint16_t *)
Definition invalidDirect (opc addr : Z) : bool := (opc =? 0xE5) && (u16 addr =? 0xE0).

(* ------------------------------------------------------------ assembler *)
(* insn_i8051.h:36-41 Operand *)
Record operand := mkOp { o_mode : Z; o_reg : Z; o_val : value; o_err : err }.
Definition no_operand : operand := mkOp M_NONE REG_UNDEF v_undef OK.
(* op.setError(e): the operand as it was when the error was found *)
Definition bad_operand (e : err) : operand := mkOp M_NONE REG_UNDEF v_undef e.
(* insn_i8051.h:43-61 AsmInsn *)
Record ainsn := mkAI { ai_insn : insn; ai_err : err; ai_opc : Z }.
Definition ai_setErrorIf (e : err) (i : ainsn) : ainsn := mkAI (ai_insn i) (setErrorIfAt (ai_err i) e) (ai_opc i).
Definition ai_seterr (e : err) (i : ainsn) : ainsn := mkAI (ai_insn i) e (ai_opc i).
(* insn_base.h: embed, setOpCode *)
Definition ai_embed (v : Z) (i : ainsn) : ainsn := mkAI (ai_insn i) (ai_err i) (u8 (Z.lor (ai_opc i) v)).
Definition ai_setOpCode (opc : Z) (i : ainsn) : ainsn := mkAI (ai_insn i) (ai_err i) opc.
Definition ai_set (i : insn) (a : ainsn) : ainsn := mkAI i (ai_err a) (ai_opc a).
(* insn_i8051.h:54-60 operandPos *)
Definition ai_operandPos (i : ainsn) : Z :=
  let pos := i_len (ai_insn i) in if pos =? 0 then 1 else pos.
(* insn_i8051.h:50-51 emitOperand8, emitOperand16; what they return is ignored *)
Definition ai_emitOperand8 (v : Z) (i : ainsn) : ainsn :=
  ai_set (snd (emitByte_at (u8 v) (ai_operandPos i) (ai_insn i))) i.
Definition ai_emitOperand16 (v : Z) (i : ainsn) : ainsn :=
  ai_set (snd (emitUint16Be_at (u16 v) (ai_operandPos i) (ai_insn i))) i.
(* insn_i8051.h:49 emitInsn *)
Definition ai_emitInsn (i : ainsn) : ainsn := ai_set (snd (emitByte_at (ai_opc i) 0 (ai_insn i))) i.

(* asm_i8051.cpp:66-114 parseOperand: a register has been read; [p] is after it *)
Definition register_operand (indir : bool) (reg : Z) (scan p : text) : res (operand * text) :=
  let op mode := Val (mkOp mode reg v_undef OK, p) in
  let bad := Val (bad_operand UNKNOWN_OPERAND, p) in
  match (if indir && (reg =? REG_A) then expect_char 43 p else None) with
  | Some p =>
    bind (parseRegName p) (fun '(base, p) =>
      if base =? REG_DPTR then Val (mkOp M_INDXD reg v_undef OK, p)
      else if base =? REG_PC then Val (mkOp M_INDXP reg v_undef OK, p)
      else Val (bad_operand UNKNOWN_OPERAND, scan))
  | None =>
    if indir then
      if (reg =? REG_R0) || (reg =? REG_R1) then op M_IDIRR
      else if reg =? REG_DPTR then op M_IDIRD
      else bad
    else if isRReg reg then op M_RREG
    else if reg =? REG_A then op M_AREG
    else if reg =? REG_C then op M_CREG
    else if reg =? REG_DPTR then op M_DREG
    else if reg =? REG_AB then op M_ABREG
    else bad
  end.
(* asm_i8051.cpp:118-144 parseOperand: an address, a bit of one or the complement of a bit.  ~0x0F
   and ~0x78 are ints, converted to uint32_t *)
Definition address_operand (a : asm) (loc : Z) (scan p : text) : res (operand * text) :=
  let '(bitNot, p) := match expect_char 47 p with Some p => (true, p) | None => (false, p) end in
  bind (parseInteger a loc (skipSpaces p) OK 46) (fun '(val, e, p) =>
    if hasError e then Val (bad_operand e, scan)
    else
      match expect_char 46 p with
      | Some p =>
        let val := if isOK e then val else setUnsigned 0x20 in
        bind (parseInteger a loc p OK 0) (fun '(bitNo, be, p) =>
          let e := setErrorIfAt e be in
          if overflow bitNo 7 0 then Val (bad_operand ILLEGAL_BIT_NUMBER, scan)
          else
            let bitAddr := getUnsigned val in
            if (Z.ldiff bitAddr 0x0F =? 0x20) || (Z.ldiff bitAddr 0x78 =? 0x80) then
              let bitAddr := if Z.land bitAddr 0x80 =? 0 then Z.shiftl (Z.land bitAddr 0xF) 3 else bitAddr in
              Val (mkOp (if bitNot then M_NOTAD else M_BITAD) REG_UNDEF (setUnsigned (Z.lor bitAddr (getUnsigned bitNo))) e, p)
            else Val (bad_operand NOT_BIT_ADDRESSABLE, scan))
      | None => Val (mkOp (if bitNot then M_NOTAD else M_ADR16) REG_UNDEF val e, p)
      end).
(* asm_i8051.cpp:50-145 parseOperand: the operand (with its error) and the new scanner; the error
   returned is OK or that of the operand *)
Definition parseOperand (a : asm) (loc : Z) (scan : text) : res (operand * text) :=
  let scan := skipSpaces scan in          (* scan.skipSpaces() moves the scanner itself *)
  let '(eol, p) := p_eol (a_pl a) scan in
  if eol then Val (no_operand, scan)
  else
    match expect_char 35 p with
    | Some p =>
      bind (parseInteger a loc p OK 0) (fun '(v, e, t) =>
        if hasError e then Val (bad_operand e, scan) else Val (mkOp M_IMM16 REG_UNDEF v e, t))
    | None =>
      let '(indir, p) := match expect_char 64 p with Some p => (true, p) | None => (false, p) end in
      if indir && is_space (peek p) then Val (bad_operand UNKNOWN_OPERAND, scan)
      else
        bind (parseRegName p) (fun '(reg, q) =>
          if negb (reg =? REG_UNDEF) then register_operand indir reg scan q
          else if indir then Val (bad_operand UNKNOWN_OPERAND, scan)
          else address_operand a loc scan p)
    end.

(* asm_i8051.cpp:147-155 encodeRelative; addresses have 16 bits (config_i8051.h:29) *)
Definition encodeRelative (op : operand) (i : ainsn) : res ainsn :=
  let len := i_len (ai_insn i) in
  let base := u32 (i_addr (ai_insn i) + (if len =? 0 then 1 else len) + 1) in
  let target := if negb (isOK (o_err op)) then base else getUnsigned (o_val op) in
  match branchDelta 16 base target (ai_err i) with
  | None => UB
  | Some (delta, e) =>
    match overflowDelta delta 8 with
    | None => UB
    | Some far =>
      let i := ai_seterr e i in
      let i := if far then ai_setErrorIf OPERAND_TOO_FAR i else i in
      Val (ai_emitOperand8 delta i)
    end
  end.
(* asm_i8051.cpp:159-164 block, page, on uint16_t *)
Definition block (addr : Z) : Z := Z.ldiff (u16 addr) 0x7FF.
Definition page (addr : Z) : Z := Z.land (u16 addr) 0x7FF.
(* asm_i8051.cpp:166-169 *)
Definition AJMP : Z := 0x01.
Definition ACALL : Z := 0x11.
Definition LJMP : Z := 0x02.
Definition LCALL : Z := 0x12.
(* asm_i8051.cpp:171-174 maySmartBranch *)
Definition maySmartBranch (i : ainsn) : bool :=
  let opc := ai_opc i in (opc =? AJMP) || (opc =? ACALL) || (opc =? LJMP) || (opc =? LCALL).
(* asm_i8051.cpp:176-182 shortJump *)
Definition shortJump (i : ainsn) : ainsn :=
  let opc := ai_opc i in
  if opc =? LJMP then ai_setOpCode AJMP i else if opc =? LCALL then ai_setOpCode ACALL i else i.
(* asm_i8051.cpp:184-190 longJump *)
Definition longJump (i : ainsn) : ainsn :=
  let opc := ai_opc i in
  if opc =? AJMP then ai_setOpCode LJMP i else if opc =? ACALL then ai_setOpCode LCALL i else i.
(* asm_i8051.cpp:203-206 the label short_jump *)
Definition short_jump (target : Z) (i : ainsn) : ainsn :=
  ai_emitOperand8 target (ai_embed (Z.land (Z.shiftr (page target) 3) 0xE0) i).
(* asm_i8051.cpp:209-211 the label long_jump *)
Definition long_jump (op : operand) (i : ainsn) : ainsn := ai_emitOperand16 (getUnsigned (o_val op)) i.
(* asm_i8051.cpp:196-219 encodeJump *)
Definition encodeJump (smart : bool) (mode : Z) (op : operand) (i : ainsn) : ainsn :=
  let smartBranch := smart && maySmartBranch i in
  let base := u32 (i_addr (ai_insn i) + 2) in
  let target := if negb (isOK (o_err op)) then block base else getUnsigned (o_val op) in
  if (mode =? M_ADR11) && negb smartBranch then
    short_jump target (if negb (block base =? block target) then ai_setErrorIf OPERAND_TOO_FAR i else i)
  else if (mode =? M_ADR16) && negb smartBranch then long_jump op i
  else if negb (isOK (o_err op)) || negb (block base =? block target) then long_jump op (longJump i)
  else short_jump target (shortJump i).
(* asm_i8051.cpp:221-259 encodeOperand *)
Definition encodeOperand (smart : bool) (mode : Z) (op : operand) (i : ainsn) : res ainsn :=
  let i := ai_setErrorIf (o_err op) i in
  let val := getUnsigned (o_val op) in
  if mode =? M_REL then encodeRelative op i
  else if (mode =? M_RREG) || (mode =? M_IDIRR) then Val (ai_embed (encodeRRegName (o_reg op)) i)
  else if mode =? M_IMM8 then
    Val (ai_emitOperand8 val (if overflowUint8 (o_val op) then ai_setErrorIf OVERFLOW_RANGE i else i))
  else if (mode =? M_ADR11) || (mode =? M_ADR16) then Val (encodeJump smart mode op i)
  else if mode =? M_IMM16 then Val (ai_emitOperand16 val i)
  else if (mode =? M_ADR8) || (mode =? M_BITAD) || (mode =? M_NOTAD) then
    let i := if overflow (o_val op) 255 0
             then ai_setErrorIf (if mode =? M_ADR8 then OVERFLOW_RANGE else NOT_BIT_ADDRESSABLE) i else i in
    let i := if invalidDirect (ai_opc i) val then ai_setErrorIf OPERAND_NOT_ALLOWED i else i in
    Val (ai_emitOperand8 val i)
  else Val i.

(* asm_i8051.cpp:261-277: the operands, or the error of one and the scanner *)
Inductive operands := Bad (e : err) (scan : text) | Three (o1 o2 o3 : operand) (scan : text).
Definition parseOperands (a : asm) (loc : Z) (scan : text) : res operands :=
  bind (parseOperand a loc scan) (fun '(o1, scan) =>
    if hasError (o_err o1) then Val (Bad (o_err o1) scan)
    else
      let scan := skipSpaces scan in
      let more scan :=
        match expect_char 44 scan with
        | Some scan => bind (parseOperand a loc scan) (fun '(o, scan) => Val (o, if hasError (o_err o) then scan else skipSpaces scan))
        | None => Val (no_operand, scan)
        end in
      bind (more scan) (fun '(o2, scan) =>
        if hasError (o_err o2) then Val (Bad (o_err o2) scan)
        else
          bind (more scan) (fun '(o3, scan) =>
            if hasError (o_err o3) then Val (Bad (o_err o3) scan)
            else Val (Three o1 o2 o3 scan)))).
(* asm_i8051.cpp:261-296 encodeImpl *)
Definition i8051_encodeImpl (smart : bool) (a : asm) (loc : Z) (name scan : text) (i : insn) : res (insn * text) :=
  bind (parseOperands a loc scan) (fun ops =>
    match ops with
    | Bad e scan => Val (i_seterr e i, scan)
    | Three o1 o2 o3 scan =>
      bind (i8051_searchName name (o_mode o1) (o_mode o2) (o_mode o3)) (fun '(e, found) =>
        let err := setErrorIfAt (i_err i) e in
        if negb (isOK err) then Val (i_seterr err i, scan)
        else
          match found with
          | None => Val (i, scan)                  (* not reached: an error has been returned *)
          | Some e =>
            let ai := mkAI i OK (e_opc e) in
            let finish ai := let ai := ai_emitInsn ai in Val (i_seterr (ai_err ai) (ai_insn ai), scan) in
            if (e_m1 e =? M_ADR8) && (e_m2 e =? M_ADR8) then
              bind (encodeOperand smart (e_m2 e) o2 (ai_setErrorIf (o_err o1) ai)) (fun ai =>
                bind (encodeOperand smart (e_m1 e) o1 ai) finish)
            else
              bind (encodeOperand smart (e_m1 e) o1 ai) (fun ai =>
                bind (encodeOperand smart (e_m2 e) o2 ai) (fun ai =>
                  bind (encodeOperand smart (e_m3 e) o3 ai) finish))
          end)
    end).

(* asm_i8051.cpp:31-40, asm_base.cpp: the directives; there are no special ones *)
Definition i8051_directives : list name_table := [d_i8051_PSEUDOS; d_base_PSEUDOS].
(* what the driver's symbol tables and the options give; 16-bit addresses, bytes, big endian
   (config_i8051.h:29) *)
Definition i8051_asm (symbol : text -> option value) (function : text -> option functor) (radix : Z) : asm :=
  mkA pl_intel symbol function radix 16 1 true.
(* asm_base.cpp:79-103 encode of a line, at the address [addr], which is the current location *)
Definition i8051_encode (smart : bool) (a : asm) (line : text) (addr : Z) : res M_Asm.line :=
  asm_encode a [] i8051_directives (i8051_encodeImpl smart a addr) line (new_insn addr).

(* ------------------------------------------------------------ disassembler *)
(* dis_i8051.cpp:35-41 decodeRelative *)
Definition decodeRelative (d : disasm) (s : M_Dis.dstate) : res M_Dis.dstate :=
  let '(v, s) := t_byte s in
  let delta := int8 v in
  let insn := d_insn (t_in s) in
  let base := u32 (i_addr insn + i_len insn) in
  let target := u32 (base + delta) in
  let s := t_setErrorIf (checkAddr (da_aw d) target false) s in
  t_print (outRelAddr d target (i_addr insn) 8) s.
(* dis_i8051.cpp:43-51 decodeBitAddr *)
Definition decodeBitAddr (d : disasm) (mode : Z) (s : M_Dis.dstate) : res M_Dis.dstate :=
  let s := if mode =? M_NOTAD then t_put (letter 47) s else s in
  let '(val8, s) := t_byte s in
  let addr8 := u8 (if negb (Z.land val8 0x80 =? 0) then Z.ldiff val8 7 else Z.shiftr val8 3 + 0x20) in
  bind (t_print (outAbsAddr d addr8 8) s) (fun s =>
    t_print (dis_outHex d (Z.land val8 7) 3 true) (t_put (letter 46) s)).
(* dis_i8051.cpp:53-58 decodeRReg *)
Definition decodeRReg (opc mode : Z) (s : M_Dis.dstate) : M_Dis.dstate :=
  let reg := Z.land opc (if mode =? M_IDIRR then 1 else 7) in
  t_put (outRegName reg) (if mode =? M_IDIRR then t_put (letter 64) s else s).
(* dis_i8051.cpp:60-74 decodeAddress *)
Definition decodeAddress (d : disasm) (opc mode : Z) (s : M_Dis.dstate) : res M_Dis.dstate :=
  if mode =? M_ADR8 then
    let '(addr, s) := t_byte s in
    t_print (outAbsAddr d addr 8) (if invalidDirect opc addr then t_setErrorIf OPERAND_NOT_ALLOWED s else s)
  else if mode =? M_ADR11 then
    let '(val8, s) := t_byte s in
    let insn := d_insn (t_in s) in
    let addr := Z.lor (Z.land (u32 (i_addr insn + i_len insn)) 0xF800) (Z.shiftl (Z.land opc 0xE0) 3) in
    t_print (outAbsAddr d (Z.lor addr val8) 0) s
  else
    let '(addr, s) := t_uint16Be s in t_print (outAbsAddr d addr 0) s.
(* dis_i8051.cpp:76-83 decodeImmediate *)
Definition decodeImmediate (d : disasm) (mode : Z) (s : M_Dis.dstate) : res M_Dis.dstate :=
  let s := t_put (letter 35) s in
  if mode =? M_IMM8 then let '(v, s) := t_byte s in t_print (dis_outHex d v 8 true) s
  else let '(v, s) := t_uint16Be s in t_print (outAbsAddr d v 0) s.
(* dis_i8051.cpp:85-135 decodeOperand *)
Definition decodeOperand (d : disasm) (opc mode : Z) (s : M_Dis.dstate) : res M_Dis.dstate :=
  if mode =? M_REL then decodeRelative d s
  else if mode =? M_AREG then Val (t_put (outRegName REG_A) s)
  else if (mode =? M_RREG) || (mode =? M_IDIRR) then Val (decodeRReg opc mode s)
  else if mode =? M_CREG then Val (t_put (outRegName REG_C) s)
  else if mode =? M_IDIRD then Val (t_put (outRegName REG_DPTR) (t_put (letter 64) s))
  else if mode =? M_DREG then Val (t_put (outRegName REG_DPTR) s)
  else if mode =? M_ABREG then Val (t_put (outRegName REG_AB) s)
  else if (mode =? M_ADR8) || (mode =? M_ADR11) || (mode =? M_ADR16) then decodeAddress d opc mode s
  else if (mode =? M_NOTAD) || (mode =? M_BITAD) then decodeBitAddr d mode s
  else if (mode =? M_IMM8) || (mode =? M_IMM16) then decodeImmediate d mode s
  else if mode =? M_INDXD then Val (t_put (fun out => outRegName REG_DPTR (letter 43 (outRegName REG_A (letter 64 out)))) s)
  else if mode =? M_INDXP then Val (t_put (fun out => outRegName REG_PC (letter 43 (outRegName REG_A (letter 64 out)))) s)
  else Val s.

(* dis_i8051.cpp:137-163 decodeImpl; an error of the byte read first is kept, only where it is
   reported changes *)
Definition i8051_decodeImpl (d : disasm) (s : M_Dis.dstate) : res M_Dis.dstate :=
  let '(opc, s) := t_byte s in
  bind (find_opcode opc) (fun r =>
    let s := t_seterr OK s in          (* searchOpCode starts with insn.setOK() *)
    match r with
    | None => Val (t_setErrorIf UNKNOWN_INSTRUCTION s)
    | Some e =>
      let s := t_readName (entry_name e) s in
      if (e_m1 e =? M_ADR8) && (e_m2 e =? M_ADR8) then
        let '(src8, s) := t_byte s in
        let '(dst8, s) := t_byte s in
        bind (t_print (outAbsAddr d dst8 8) s) (fun s => t_print (outAbsAddr d src8 8) (t_put comma s))
      else if e_m1 e =? M_NONE then Val s
      else
        bind (decodeOperand d opc (e_m1 e) s) (fun s =>
          if e_m2 e =? M_NONE then Val s
          else
            bind (decodeOperand d opc (e_m2 e) (t_put comma s)) (fun s =>
              if e_m3 e =? M_NONE then Val s
              else decodeOperand d opc (e_m3 e) (t_put comma s)))
    end).

(* dis_i8051.cpp:27-33: Intel number notation unless the options say otherwise; 16-bit addresses *)
Definition i8051_dis (upperhex uppercase octal relative cstyle intelhex : bool) (cursym : Z)
    (symtab : option (value -> option text)) : disasm :=
  mkDA fp_intel upperhex uppercase octal relative cstyle intelhex cursym symtab 16.
(* dis_base.cpp:138-150 decode *)
Definition i8051_decode (d : disasm) (mem : list Z) (addr size : Z) : res decoded :=
  dis_decode d (i8051_decodeImpl d) mem addr size.
