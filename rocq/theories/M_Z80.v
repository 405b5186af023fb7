(** Model of the assembler and disassembler of the Z80: src/asm_z80.cpp, src/dis_z80.cpp,
    src/reg_z80.cpp, src/table_z80.cpp, src/insn_z80.h.  The tables are T_Z80.v.
    Simplification: where in the line an error is reported is not modelled. *)
From Coq Require Import String ZArith List Bool.
From Verif Require Import M_Char M_Error M_Value M_Text M_StrBuffer M_Format M_Insn M_Config M_Operators M_Parsers
  M_Expr M_Directive M_Table T_Tables M_Asm M_Dis M_Z80Defs T_Z80.
Import ListNotations.
Open Scope string_scope.
Open Scope list_scope.
Local Open Scope Z_scope.

Definition u8 (z : Z) : Z := z mod 2^8.
Definition u16 (z : Z) : Z := z mod 2^16.

(* ------------------------------------------------------------ registers *)
Definition name_text (r : string * Z) : text := s2l (fst r).
(* reg_z80.cpp:70-73 parseRegName *)
Definition parseRegName (s : text) : res (Z * text) :=
  bind (searchText name_text s REG_ENTRIES) (fun '(k, t) =>
    match k with
    | Some k => bind (item_at REG_ENTRIES k) (fun r => Val (snd r, t))
    | None => Val (REG_UNDEF, t)
    end).
(* reg_base.cpp:59-61 searchName, outText: [None] is nullptr *)
Definition name_of (n : Z) (entries : list (string * Z)) : option text :=
  match searchByNumber snd n entries with
  | Some k => match nth_error entries k with Some r => Some (name_text r) | None => None end
  | None => None
  end.
(* reg_z80.cpp:75-78 outRegName *)
Definition outRegName (n : Z) (out : sbuf) : sbuf :=
  match name_of n REG_ENTRIES with Some t => out_text t out | None => out end.
(* reg_z80.cpp:80-86 encodeDataReg *)
Definition encodeDataReg (r : Z) : Z := if r =? REG_HL then 6 else u8 (r - 8).
(* reg_z80.cpp:88-93 decodeDataReg *)
Definition decodeDataReg (num : Z) : Z :=
  let num := Z.land num 7 in if num =? 6 then REG_HL else num + 8.
(* reg_z80.cpp:95-97 encodePointerReg *)
Definition encodePointerReg (r : Z) : Z := u8 r.
(* reg_z80.cpp:99-101 encodePointerRegIx *)
Definition encodePointerRegIx (r ix : Z) : Z := encodePointerReg (if r =? ix then REG_HL else r).
(* reg_z80.cpp:132-138 decodeIndexReg *)
Definition decodeIndexReg (prefix : Z) : Z :=
  if prefix =? PREFIX_IX then REG_IX else if prefix =? PREFIX_IY then REG_IY else REG_UNDEF.
(* reg_z80.cpp:103-110 decodePointerReg *)
Definition decodePointerReg (num prefix : Z) : Z :=
  let name := Z.land num 3 in
  if name =? REG_HL then
    let ix := decodeIndexReg prefix in if ix =? REG_UNDEF then name else ix
  else name.
(* reg_z80.cpp:112-116 encodeStackReg *)
Definition encodeStackReg (r : Z) : Z := if r =? REG_AF then 3 else u8 r.
(* reg_z80.cpp:118-122 decodeStackReg *)
Definition decodeStackReg (num : Z) : Z := let num := Z.land num 3 in if num =? 3 then REG_AF else num.
(* reg_z80.cpp:124-126 encodeIndirectBase *)
Definition encodeIndirectBase (r : Z) : Z := u8 r.
(* reg_z80.cpp:128-130 decodeIndirectBase *)
Definition decodeIndirectBase (num : Z) : Z := Z.land num 1.
(* reg_z80.cpp:140-143 parseCcName *)
Definition parseCcName (s : text) : res (Z * text) :=
  bind (searchText name_text s CC_ENTRIES) (fun '(k, t) =>
    match k with
    | Some k => bind (item_at CC_ENTRIES k) (fun r => Val (snd r, t))
    | None => Val (CC_UNDEF, t)
    end).
(* reg_z80.cpp:145-148 outCcName *)
Definition outCcName (n : Z) (out : sbuf) : sbuf :=
  match name_of n CC_ENTRIES with Some t => out_text t out | None => out end.
(* reg_z80.cpp:150-161 *)
Definition isCc4Name (n : Z) : bool := (0 <=? n) && (n <? 4).
Definition encodeCcName (n : Z) : Z := u8 n.
Definition decodeCcName (num : Z) : Z := Z.land num 7.

(* ------------------------------------------------------------ table *)
(* table_z80.cpp:398-400 cpu: the only one *)
Definition cpu_pages : res (list epage) := bind (item_at CPU_TABLE 0) (fun c => Val (snd c)).
(* table_z80.cpp:402-430 acceptMode *)
Definition acceptMode (opr table : Z) : bool :=
  if opr =? table then true
  else if (opr =? M_SR8) || (opr =? R_A) then
    (table =? M_DR8) || (table =? M_SRC) || (table =? M_DST) || (table =? M_SR8)
  else if opr =? I_HL then (table =? M_SRC) || (table =? M_DST)
  else if opr =? R_C then
    (table =? M_SRC) || (table =? M_DST) || (table =? M_SR8) || (table =? M_DR8) || (table =? M_CC4) ||
    (table =? M_CC8)
  else if (opr =? R_BC) || (opr =? R_DE) then
    (table =? M_R16) || (table =? M_NOHL) || (table =? M_R16X) || (table =? M_STK)
  else if opr =? R_HL then (table =? M_R16) || (table =? M_STK)
  else if opr =? R_SP then (table =? M_R16) || (table =? M_NOHL) || (table =? M_R16X)
  else if opr =? R_AF then table =? M_STK
  else if opr =? R_IDX then table =? M_R16X
  else if opr =? M_IM16 then
    (table =? M_IM8) || (table =? M_REL) || (table =? M_BIT) || (table =? M_VEC) || (table =? M_IMMD)
  else if opr =? M_ABS then table =? M_IOA
  else if opr =? M_CC4 then table =? M_CC8
  else false.
(* table_z80.cpp:432-435 acceptModes *)
Definition acceptModes (dst src : Z) (e : entry) : bool := acceptMode dst (e_dst e) && acceptMode src (e_src e).
(* table_z80.cpp:437-440 searchName, entry_table.h:140-170: the entry and its prefix *)
Definition z80_searchName (name : text) (dst src : Z) : res (err * option (Z * entry)) :=
  bind cpu_pages (fun pages =>
    bind (searchName entry_name name (fun _ => acceptModes dst src) pages) (fun r =>
      match r with
      | Miss e => Val (e, None)
      | Hit pg i =>
        bind (item_at pages pg) (fun p => bind (item_at (p_items p) i) (fun e => Val (OK, Some (p_info p, e))))
      end)).
(* table_z80.cpp:442-482 matchOpCode; [~] of an int.  [None]: returned false *)
Definition mask_r8 (dst src opc : Z) : option Z :=
  match
    (if (dst =? M_DR8) || (src =? M_DR8) then
       if Z.land (Z.shiftr opc 3) 7 =? 6 then None else Some (Z.land opc (Z.lnot 0x38))
     else Some opc)
  with
  | None => None
  | Some opc =>
    let opc := if (dst =? M_DST) || (src =? M_DST) then Z.land opc (Z.lnot 0x38) else opc in
    match
      (if src =? M_SR8 then
         if Z.land opc 7 =? 6 then None else Some (Z.land opc (Z.lnot 7))
       else Some opc)
    with
    | None => None
    | Some opc => Some (if (dst =? M_SRC) || (src =? M_SRC) then Z.land opc (Z.lnot 7) else opc)
    end
  end.
Definition mask_other (dst src opc : Z) : option Z :=
  if (dst =? M_CC8) || (dst =? M_VEC) || (dst =? M_BIT) then Some (Z.land opc (Z.lnot 0x38))
  else if (dst =? M_R16) || (src =? M_R16) || (dst =? M_R16X) || (src =? M_R16X) || (dst =? M_STK) || (src =? M_STK)
  then Some (Z.land opc (Z.lnot 0x30))
  else if (dst =? M_NOHL) || (src =? M_NOHL) then
    if Z.land (Z.shiftr opc 4) 3 =? 2 then None else Some (Z.land opc (Z.lnot 0x30))
  else if (dst =? I_PTR) || (src =? I_PTR) then Some (Z.land opc (Z.lnot 0x10))
  else if dst =? M_CC4 then Some (Z.land opc (Z.lnot 0x18))
  else if dst =? M_IMMD then
    if Z.land (Z.shiftr opc 3) 3 =? 1 then None else Some (Z.land opc (Z.lnot 0x18))
  else Some opc.
Definition matchOpCode (opc : Z) (e : entry) : bool :=
  match mask_r8 (e_dst e) (e_src e) opc with
  | None => false
  | Some opc =>
    match mask_other (e_dst e) (e_src e) opc with
    | None => false
    | Some opc => opc =? e_opc e
    end
  end.
(* table_z80.cpp:484-487 searchOpCode, entry_table.h:189-226 *)
Definition z80_searchOpCode (prefix opc : Z) : res (option entry) :=
  bind cpu_pages (fun pages =>
    match searchOpCode (fun p => prefix =? p_info p) (fun _ => matchOpCode opc) pages with
    | Miss _ => Val None
    | Hit pg i => bind (item_at pages pg) (fun p => bind (item_at (p_items p) i) (fun e => Val (Some e)))
    end).
(* table_z80.cpp:489-491 isPrefix *)
Definition z80_isPrefix (code : Z) : res bool := bind cpu_pages (fun pages => Val (isPrefix pages code)).

(* ------------------------------------------------------------ assembler *)
(* insn_z80.h:35-40 Operand *)
Record operand := mkOp { o_mode : Z; o_reg : Z; o_val : value; o_err : err }.
Definition no_operand : operand := mkOp M_NONE REG_UNDEF v_undef OK.
(* insn_z80.h:42-66 AsmInsn *)
Record ainsn := mkAI { ai_insn : insn; ai_err : err; ai_prefix : Z; ai_opc : Z }.
Definition ai_setErrorIf (e : err) (i : ainsn) : ainsn :=
  mkAI (ai_insn i) (setErrorIfAt (ai_err i) e) (ai_prefix i) (ai_opc i).
Definition ai_seterr (e : err) (i : ainsn) : ainsn := mkAI (ai_insn i) e (ai_prefix i) (ai_opc i).
(* insn_base.h: embed, setOpCode, setPrefix *)
Definition ai_embed (v : Z) (i : ainsn) : ainsn :=
  mkAI (ai_insn i) (ai_err i) (ai_prefix i) (u8 (Z.lor (ai_opc i) v)).
Definition ai_setopc (v : Z) (i : ainsn) : ainsn := mkAI (ai_insn i) (ai_err i) (ai_prefix i) v.
Definition ai_setprefix (v : Z) (i : ainsn) : ainsn := mkAI (ai_insn i) (ai_err i) v (ai_opc i).
Definition ai_set (i : insn) (a : ainsn) : ainsn := mkAI i (ai_err a) (ai_prefix a) (ai_opc a).
(* insn_z80.h:57-65 operandPos *)
Definition ai_operandPos (i : ainsn) : Z :=
  let pos := i_len (ai_insn i) in
  if negb (ai_prefix i =? 0) && (pos <? 2) then 2 else if pos =? 0 then 1 else pos.
(* insn_z80.h:53-54 emitOperand8, emitOperand16; what they return is ignored *)
Definition ai_emitOperand8 (v : Z) (i : ainsn) : ainsn :=
  ai_set (snd (emitByte_at (u8 v) (ai_operandPos i) (ai_insn i))) i.
Definition ai_emitOperand16 (v : Z) (i : ainsn) : ainsn :=
  ai_set (snd (emitUint16Le_at (u16 v) (ai_operandPos i) (ai_insn i))) i.
(* insn_z80.h:47-52 emitInsn *)
Definition ai_emitInsn (i : ainsn) : ainsn :=
  let '(pos, i) := if negb (ai_prefix i =? 0)
                   then (1, ai_set (snd (emitByte_at (ai_prefix i) 0 (ai_insn i))) i) else (0, i) in
  ai_set (snd (emitByte_at (ai_opc i) pos (ai_insn i))) i.

(* asm_z80.cpp:61-68 encodeRelative; addresses have 16 bits (config_z80.h:29) *)
Definition encodeRelative (op : operand) (i : ainsn) : res ainsn :=
  let base := u32 (i_addr (ai_insn i) + 2) in
  let target := if negb (isOK (o_err op)) then base else getUnsigned (o_val op) in
  match branchDelta 16 base target (ai_err i) with
  | None => UB
  | Some (delta, e) =>
    match overflowDelta delta 8 with
    | None => UB
    | Some far =>
      let i := ai_seterr e i in
      let i := if far then ai_setErrorIf OPERAND_TOO_FAR i else i in
      Val (ai_emitOperand8 delta i)
    end
  end.
(* asm_z80.cpp:70-72 encodeIndexReg *)
Definition encodeIndexReg (reg : Z) (i : ainsn) : ainsn :=
  ai_setprefix (if reg =? REG_IX then PREFIX_IX else PREFIX_IY) i.
(* asm_z80.cpp:74-81 encodeIndexedBitOp *)
Definition encodeIndexedBitOp (op : operand) (i : ainsn) : ainsn :=
  let opc := ai_opc i in
  let i := ai_setopc (ai_prefix i) i in
  let i := encodeIndexReg (o_reg op) i in
  let i := ai_emitOperand8 (getUnsigned (o_val op)) i in
  let i := ai_emitOperand8 opc i in
  ai_emitInsn i.
(* asm_z80.cpp:83-174 encodeOperand; [ixbit]: indexBit() of the entry found *)
Definition encodeOperand (ixbit : bool) (op : operand) (mode : Z) (other : operand) (i : ainsn) : res ainsn :=
  let i := ai_setErrorIf (o_err op) i in
  let val := getUnsigned (o_val op) in
  let fail (b : bool) e i := if b then ai_setErrorIf e i else i in
  if mode =? M_IM8 then Val (ai_emitOperand8 val (fail (overflowUint8 (o_val op)) OVERFLOW_RANGE i))
  else if mode =? M_IOA then Val (ai_emitOperand8 val (fail (overflow (o_val op) 255 0) OVERFLOW_RANGE i))
  else if mode =? M_IDX then
    let i := fail (overflowInt8 (o_val op)) OVERFLOW_RANGE i in
    if ixbit then Val (encodeIndexedBitOp op i)
    else Val (encodeIndexReg (o_reg op) (ai_emitOperand8 val i))
  else if (mode =? R_IDX) || (mode =? I_IDX) then Val (encodeIndexReg (o_reg op) i)
  else if (mode =? M_IM16) || (mode =? M_ABS) then Val (ai_emitOperand16 val i)
  else if mode =? M_REL then encodeRelative op i
  else if (mode =? M_CC4) || (mode =? M_CC8) then Val (ai_embed (Z.shiftl (u8 val) 3) i)
  else if (mode =? M_R16) || (mode =? M_NOHL) then Val (ai_embed (Z.shiftl (encodePointerReg (o_reg op)) 4) i)
  else if mode =? M_R16X then Val (ai_embed (Z.shiftl (encodePointerRegIx (o_reg op) (o_reg other)) 4) i)
  else if mode =? M_STK then Val (ai_embed (Z.shiftl (encodeStackReg (o_reg op)) 4) i)
  else if mode =? I_PTR then Val (ai_embed (Z.shiftl (encodeIndirectBase (o_reg op)) 4) i)
  else if (mode =? M_SRC) || (mode =? M_SR8) then Val (ai_embed (encodeDataReg (o_reg op)) i)
  else if (mode =? M_DST) || (mode =? M_DR8) then Val (ai_embed (Z.shiftl (encodeDataReg (o_reg op)) 3) i)
  else if mode =? R_R then Val (ai_embed 0x08 i)
  else if mode =? M_VEC then
    if negb (Z.land val (Z.lnot 0x38) =? 0)
    then Val (ai_embed (Z.land val (Z.lnot 0x38)) (ai_setErrorIf ILLEGAL_OPERAND i))
    else Val (ai_embed val i)
  else if mode =? M_BIT then
    let i := fail (overflow (o_val op) 7 0) ILLEGAL_BIT_NUMBER i in
    Val (ai_embed (Z.shiftl (Z.land val 7) 3) i)
  else if mode =? M_IMMD then
    if val =? 0 then Val i
    else if val =? 1 then Val (ai_embed 0x10 i)
    else if val =? 2 then Val (ai_embed 0x18 i)
    else Val (ai_setErrorIf ILLEGAL_OPERAND i)
  else Val i.

(* asm_z80.cpp:196-222 the mode of a register *)
Definition reg_mode (reg : Z) : Z :=
  if (reg =? REG_IX) || (reg =? REG_IY) then R_IDX
  else if reg =? REG_I then R_I
  else if reg =? REG_R then R_R
  else if (reg =? REG_B) || (reg =? REG_D) || (reg =? REG_E) || (reg =? REG_H) || (reg =? REG_L) then M_SR8
  else reg + R_BASE.
(* asm_z80.cpp:176-282 parseOperand: the operand (with its error) and the new scanner; the error
   returned is OK or that of the operand *)
Definition parseOperand (a : asm) (loc : Z) (scan : text) : res (operand * text) :=
  let scan := skipSpaces scan in          (* scan.skipSpaces() moves the scanner itself *)
  let '(eol, p) := p_eol (a_pl a) scan in
  if eol then Val (no_operand, scan)
  else
    bind (parseRegName p) (fun '(reg, t) =>
      if reg =? REG_C then Val (mkOp R_C REG_C (setUnsigned (encodeCcName CC_C)) OK, t)
      else
        bind (parseCcName p) (fun '(cc, t) =>
          if negb (cc =? CC_UNDEF) then
            Val (mkOp (if isCc4Name cc then M_CC4 else M_CC8) REG_UNDEF (setUnsigned (encodeCcName cc)) OK, t)
          else
            bind (parseRegName p) (fun '(reg, t) =>
              if negb (reg =? REG_UNDEF) then Val (mkOp (reg_mode reg) reg v_undef OK, t)
              else
                match expect_char 40 p with
                | Some p =>
                  let p := skipSpaces p in
                  bind (parseRegName p) (fun '(reg, t) =>
                    if reg =? REG_UNDEF then
                      bind (parseInteger a loc p OK 41) (fun '(v, e, t) =>
                        if hasError e then Val (mkOp M_NONE REG_UNDEF v e, scan)
                        else
                          match expect_char 41 (skipSpaces t) with
                          | Some t => Val (mkOp M_ABS REG_UNDEF v e, t)
                          | None => Val (mkOp M_NONE REG_UNDEF v MISSING_CLOSING_PAREN, scan)
                          end)
                    else
                      let p := skipSpaces t in
                      match expect_char 41 p with
                      | Some t =>
                        if (reg =? REG_BC) || (reg =? REG_DE) then Val (mkOp I_PTR reg v_undef OK, t)
                        else if (reg =? REG_IX) || (reg =? REG_IY) then Val (mkOp I_IDX reg v_undef OK, t)
                        else if (reg =? REG_HL) || (reg =? REG_SP) || (reg =? REG_C)
                        then Val (mkOp (reg + I_BASE) reg v_undef OK, t)
                        else Val (mkOp M_NONE reg v_undef REGISTER_NOT_ALLOWED, scan)
                      | None =>
                        if ((peek p =? 43) || (peek p =? 45)) && ((reg =? REG_IX) || (reg =? REG_IY)) then
                          bind (parseInteger a loc p OK 41) (fun '(v, e, t) =>
                            if hasError e then Val (mkOp M_NONE reg v e, scan)
                            else
                              match expect_char 41 (skipSpaces t) with
                              | Some t => Val (mkOp M_IDX reg v e, t)
                              | None => Val (mkOp M_NONE reg v MISSING_CLOSING_PAREN, scan)
                              end)
                        else Val (mkOp M_NONE reg v_undef UNKNOWN_OPERAND, scan)
                      end)
                | None =>
                  bind (parseInteger a loc p OK 0) (fun '(v, e, t) =>
                    if hasError e then Val (mkOp M_NONE REG_UNDEF v e, scan)
                    else Val (mkOp M_IM16 REG_UNDEF v e, t))
                end))).

(* asm_z80.cpp:286-293: the operands *)
Inductive operands := Bad (e : err) (scan : text) | Two (dst src : operand) (scan : text).
Definition parseOperands (a : asm) (loc : Z) (scan : text) : res operands :=
  bind (parseOperand a loc scan) (fun '(dst, scan) =>
    if hasError (o_err dst) then Val (Bad (o_err dst) scan)
    else
      let scan := skipSpaces scan in
      match expect_char 44 scan with
      | Some scan =>
        bind (parseOperand a loc scan) (fun '(src, scan) =>
          if hasError (o_err src) then Val (Bad (o_err src) scan)
          else Val (Two dst src (skipSpaces scan)))
      | None => Val (Two dst no_operand scan)
      end).
(* asm_z80.cpp:284-303 encodeImpl *)
Definition z80_encodeImpl (a : asm) (loc : Z) (name scan : text) (i : insn) : res (insn * text) :=
  bind (parseOperands a loc scan) (fun ops =>
    match ops with
    | Bad e scan => Val (i_seterr e i, scan)
    | Two dst src scan =>
      bind (z80_searchName name (o_mode dst) (o_mode src)) (fun '(e, found) =>
        let err := setErrorIfAt (i_err i) e in
        if negb (isOK err) then Val (i_seterr err i, scan)
        else
          match found with
          | None => Val (i, scan)                  (* not reached: an error has been returned *)
          | Some (prefix, e) =>
            let ai := mkAI i OK prefix (e_opc e) in
            bind (encodeOperand (e_ixbit e) dst (e_dst e) src ai) (fun ai =>
              bind (encodeOperand (e_ixbit e) src (e_src e) dst ai) (fun ai =>
                let ai := if e_ixbit e then ai else ai_emitInsn ai in
                Val (i_seterr (ai_err ai) (ai_insn ai), scan)))
          end)
    end).

(* asm_z80.cpp:32-43, asm_base.cpp: the directives; there are no special ones *)
Definition z80_directives : list name_table := [d_z80_PSEUDOS; d_base_PSEUDOS].
(* what the driver's symbol tables and the options give; 16-bit addresses, bytes, little endian
   (config_z80.h:29) *)
Definition z80_asm (symbol : text -> option value) (function : text -> option functor) (radix : Z) : asm :=
  mkA pl_z80 symbol function radix 16 1 false.
(* asm_base.cpp:79-103 encode of a line, at the address [addr], which is the current location *)
Definition z80_encode (a : asm) (line : text) (addr : Z) : res M_Asm.line :=
  asm_encode a [] z80_directives (z80_encodeImpl a addr) line (new_insn addr).

(* ------------------------------------------------------------ disassembler *)
(* dis_z80.cpp:35-37 outIndirectReg *)
Definition outIndirectReg (reg : Z) (out : sbuf) : sbuf := letter 41 (outRegName reg (letter 40 out)).
(* dis_z80.cpp:45-49 outDataReg *)
Definition outDataReg (reg : Z) (out : sbuf) : sbuf :=
  if reg =? REG_HL then outIndirectReg reg out else outRegName reg out.
(* dis_z80.cpp:39-43 outIndexOffset, and the closing parenthesis after it *)
Definition outIndexOffset (d : disasm) (offset : Z) (s : M_Dis.dstate) : res M_Dis.dstate :=
  let s := if 0 <=? offset then t_put (letter 43) s else s in
  bind (t_print (dis_outDec d (u32 offset) (-8)) s) (fun s => Val (t_put (letter 41) s)).
(* dis_z80.cpp:51-77 decodeIndexedBitOp; [opc0]: the opcode so far, the 0xCB after the prefix.
   |ixBit| is a copy that shares the name and the bytes and has an error of its own, which
   searchOpCode sets to OK first, so that only whether the opcode is found matters. *)
Definition decodeIndexedBitOp (d : disasm) (prefix opc0 : Z) (s : M_Dis.dstate) : res M_Dis.dstate :=
  let '(v, s) := t_byte s in
  let offset := int8 v in
  let offsetError := d_err (t_in s) in
  let '(opc, s) := t_byte s in
  let noname s := mkDst (t_in s) [] (t_out s) in
  let s := noname s in
  bind (z80_searchOpCode opc0 opc) (fun r =>
    match r with
    | None => Val (t_setErrorIf UNKNOWN_INSTRUCTION s)
    | Some e =>
      let s := t_readName (entry_name e) s in
      if decodeDataReg opc =? REG_HL then
        bind (if e_dst e =? M_BIT
              then bind (t_print (dis_outHex d (Z.land (Z.shiftr opc 3) 7) 3 true) s) (fun s => Val (t_put comma s))
              else Val s) (fun s =>
          let s := t_put (fun out => outRegName (decodeIndexReg prefix) (letter 40 out)) s in
          let s := if negb (isOK offsetError) then t_setErrorIf offsetError s else s in
          outIndexOffset d offset s)
      else Val (t_setErrorIf UNKNOWN_INSTRUCTION (noname s))
    end).
(* dis_z80.cpp:79-85 decodeRelative *)
Definition decodeRelative (d : disasm) (s : M_Dis.dstate) : res M_Dis.dstate :=
  let '(v, s) := t_byte s in
  let delta := int8 v in
  let insn := d_insn (t_in s) in
  let base := u32 (i_addr insn + i_len insn) in
  let target := u32 (base + delta) in
  let s := t_setErrorIf (checkAddr (da_aw d) target false) s in
  t_print (outRelAddr d target (i_addr insn) 8) s.
(* dis_z80.cpp:87-172 decodeOperand *)
Definition decodeOperand (d : disasm) (prefix opc mode : Z) (s : M_Dis.dstate) : res M_Dis.dstate :=
  if mode =? M_IM8 then let '(v, s) := t_byte s in t_print (dis_outHex d v 8 true) s
  else if mode =? M_IM16 then let '(v, s) := t_uint16Le s in t_print (dis_outHex d v 16 true) s
  else if mode =? M_ABS then
    let s := t_put (letter 40) s in
    let '(v, s) := t_uint16Le s in
    bind (t_print (outAbsAddr d v 0) s) (fun s => Val (t_put (letter 41) s))
  else if mode =? M_IOA then
    let s := t_put (letter 40) s in
    let '(v, s) := t_byte s in
    bind (t_print (dis_outHex d v 8 true) s) (fun s => Val (t_put (letter 41) s))
  else if mode =? M_IDX then
    let s := t_put (fun out => outRegName (decodeIndexReg prefix) (letter 40 out)) s in
    let '(v, s) := t_byte s in
    outIndexOffset d (int8 v) s
  else if mode =? M_CC4 then Val (t_put (outCcName (decodeCcName (Z.land (Z.shiftr opc 3) 3))) s)
  else if mode =? M_CC8 then Val (t_put (outCcName (decodeCcName (Z.shiftr opc 3))) s)
  else if mode =? M_REL then decodeRelative d s
  else if (mode =? M_R16) || (mode =? M_NOHL) || (mode =? M_R16X) then
    Val (t_put (outRegName (decodePointerReg (Z.shiftr opc 4) prefix)) s)
  else if mode =? M_STK then Val (t_put (outRegName (decodeStackReg (Z.shiftr opc 4))) s)
  else if (mode =? M_SRC) || (mode =? M_SR8) then Val (t_put (outDataReg (decodeDataReg opc)) s)
  else if (mode =? M_DST) || (mode =? M_DR8) then Val (t_put (outDataReg (decodeDataReg (Z.shiftr opc 3))) s)
  else if mode =? M_VEC then t_print (dis_outHex d (Z.land opc 0x38) 8 true) s
  else if mode =? M_BIT then t_print (dis_outHex d (Z.land (Z.shiftr opc 3) 7) 3 true) s
  else if mode =? M_IMMD then
    let n := Z.land (Z.shiftr opc 3) 3 in
    Val (t_put (letter (if n =? 0 then 48 else n - 1 + 48)) s)
  else if mode =? R_IDX then Val (t_put (outRegName (decodeIndexReg prefix)) s)
  else if (mode =? R_A) || (mode =? R_DE) || (mode =? R_HL) || (mode =? R_SP) || (mode =? R_AF) || (mode =? R_AFP) ||
          (mode =? R_I) || (mode =? R_R) then Val (t_put (outRegName (mode - R_BASE)) s)
  else if mode =? I_PTR then Val (t_put (outIndirectReg (decodeIndirectBase (Z.shiftr opc 4))) s)
  else if mode =? I_IDX then Val (t_put (outIndirectReg (decodeIndexReg prefix)) s)
  else if (mode =? I_HL) || (mode =? I_SP) || (mode =? I_C) then Val (t_put (outIndirectReg (mode - I_BASE)) s)
  else Val s.

(* dis_z80.cpp:174-198 decodeImpl, after the opcode has been read *)
Definition decode_opcode (d : disasm) (prefix opc : Z) (s : M_Dis.dstate) : res M_Dis.dstate :=
  let s := t_seterr OK s in          (* searchOpCode starts with insn.setOK() *)
  bind (z80_searchOpCode prefix opc) (fun r =>
    match r with
    | None => Val (t_setErrorIf UNKNOWN_INSTRUCTION s)
    | Some e =>
      let s := t_readName (entry_name e) s in
      if e_dst e =? T_IXB then decodeIndexedBitOp d prefix opc s
      else if e_dst e =? M_NONE then Val s
      else
        bind (decodeOperand d prefix opc (e_dst e) s) (fun s =>
          if e_src e =? M_NONE then Val s
          else decodeOperand d prefix opc (e_src e) (t_put comma s))
    end).
Definition z80_decodeImpl (d : disasm) (s : M_Dis.dstate) : res M_Dis.dstate :=
  let '(opc, s) := t_byte s in
  bind (z80_isPrefix opc) (fun pfx =>
    if pfx then
      let '(opc2, s) := t_byte s in
      if negb (isOK (d_err (t_in s))) then Val s
      else decode_opcode d opc opc2 s
    else decode_opcode d 0 opc s).

(* dis_z80.cpp:27-29: Intel number notation unless the options say otherwise; 16-bit addresses *)
Definition z80_dis (upperhex uppercase octal relative cstyle intelhex : bool) (cursym : Z)
    (symtab : option (value -> option text)) : disasm :=
  mkDA fp_intel upperhex uppercase octal relative cstyle intelhex cursym symtab 16.
(* dis_base.cpp:138-150 decode *)
Definition z80_decode (d : disasm) (mem : list Z) (addr size : Z) : res decoded :=
  dis_decode d (z80_decodeImpl d) mem addr size.
