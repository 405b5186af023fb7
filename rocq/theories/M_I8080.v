(** Model of the assembler and disassembler of the 8080 family (8080, 8085, V30 emulation mode;
    Intel and Zilog syntax): src/asm_i8080.cpp, src/dis_i8080.cpp, src/reg_i8080.cpp,
    src/table_i8080.cpp, src/insn_i8080.h.  The tables are T_I8080.v.
    Simplification: where in the line an error is reported is not modelled. *)
From Coq Require Import String ZArith List Bool.
From Verif Require Import M_Char M_Error M_Value M_Text M_StrBuffer M_Format M_Insn M_Config M_Operators M_Parsers
  M_Expr M_Directive M_Table T_Tables M_Asm M_Dis M_I8080Defs T_I8080.
Import ListNotations.
Open Scope string_scope.
Open Scope list_scope.
Local Open Scope Z_scope.

Definition u8 (z : Z) : Z := z mod 2^8.
Definition u16 (z : Z) : Z := z mod 2^16.

(* ------------------------------------------------------------ registers *)
Definition name_text (r : string * Z) : text := s2l (fst r).
(* reg_i8080.cpp:81-84 parseRegName *)
Definition parseRegName (zilog : bool) (s : text) : res (Z * text) :=
  let entries := if zilog then ZILOG_ENTRIES else INTEL_ENTRIES in
  bind (searchText name_text s entries) (fun '(k, t) =>
    match k with
    | Some k => bind (item_at entries k) (fun r => Val (snd r, t))
    | None => Val (REG_UNDEF, t)
    end).
(* reg_base.cpp:59-61 searchName, outText: [None] is nullptr *)
Definition name_of (n : Z) (entries : list (string * Z)) : option text :=
  match searchByNumber snd n entries with
  | Some k => match nth_error entries k with Some r => Some (name_text r) | None => None end
  | None => None
  end.
(* reg_i8080.cpp:86-96 outRegName *)
Definition outRegName (n : Z) (indirect : bool) (out : sbuf) : sbuf :=
  match name_of n ZILOG_ENTRIES with
  | Some t =>
    let out := if indirect then letter 40 out else out in
    let out := out_text t out in
    if indirect then letter 41 out else out
  | None => out
  end.
(* reg_i8080.cpp:110-114 encodePointerReg *)
Definition encodePointerReg (r : Z) : Z := if REG_BC <=? r then u8 (r - 8) else u8 r / 2.
(* reg_i8080.cpp:128-134 encodeStackReg *)
Definition encodeStackReg (r : Z) : Z :=
  if (r =? REG_PSW) || (r =? REG_AF) then 3
  else if REG_BC <=? r then u8 (r - 8) else u8 r / 2.
(* reg_i8080.cpp:140-144 encodeIndexReg *)
Definition encodeIndexReg (r : Z) : Z := if REG_BC <=? r then u8 (r - 8) else u8 r / 2.
(* reg_i8080.cpp:151-155 encodeDataReg *)
Definition encodeDataReg (r : Z) : Z := if r =? REG_HL then u8 REG_M else u8 r.
(* reg_i8080.cpp:157-162 decodePointerReg *)
Definition decodePointerReg (num : Z) (zilog : bool) : Z :=
  let num := Z.land num 3 in
  if zilog then num + REG_BC else if num =? 3 then REG_SP else num * 2 + REG_B.
(* reg_i8080.cpp:164-169 decodeStackReg *)
Definition decodeStackReg (num : Z) (zilog : bool) : Z :=
  let num := Z.land num 3 in
  if num =? 3 then if zilog then REG_AF else REG_PSW
  else if zilog then num + REG_BC else num * 2 + REG_B.
(* reg_i8080.cpp:171-177 decodeIndexReg *)
Definition decodeIndexReg (num : Z) (zilog : bool) : Z :=
  if zilog then Z.land num 1 + REG_BC else Z.shiftl (Z.land num 1) 1.
(* reg_i8080.cpp:179-181 decodeDataReg *)
Definition decodeDataReg (num : Z) : Z := Z.land num 7.
(* reg_i8080.cpp:183-186 parseCcName *)
Definition parseCcName (s : text) : res (Z * text) :=
  bind (searchText name_text s CC_ENTRIES) (fun '(k, t) =>
    match k with
    | Some k => bind (item_at CC_ENTRIES k) (fun r => Val (snd r, t))
    | None => Val (CC_UNDEF, t)
    end).
(* reg_i8080.cpp:188-191 outCcName *)
Definition outCcName (n : Z) (out : sbuf) : sbuf :=
  match name_of n CC_ENTRIES with Some t => out_text t out | None => out end.
(* reg_i8080.cpp:193-199 *)
Definition encodeCcName (n : Z) : Z := u8 n.
Definition decodeCcName (num : Z) : Z := Z.land num 7.

(* ------------------------------------------------------------ table *)
(* table_i8080.cpp:419-422 cpu, entry_table.h:89-97; a missing entry would be a null pointer *)
Definition cpu_pages (cpuType : Z) (zilog : bool) : res (list epage) :=
  let cpus := if zilog then ZILOG_TABLE else INTEL_TABLE in
  match cpu_by_type (fun c => fst (fst c)) cpuType cpus with
  | Some k => bind (item_at cpus k) (fun c => Val (snd c))
  | None => UB
  end.
(* table_i8080.cpp:424-434 acceptIntelMode *)
Definition acceptIntelMode (opr table : Z) : bool :=
  if opr =? table then true
  else if opr =? M_SRC then table =? M_DST
  else if (opr =? M_IDX) || (opr =? R_H) then
    (table =? M_PTR) || (table =? M_STK) || (table =? M_SRC) || (table =? M_DST)
  else if opr =? M_IM16 then
    (table =? M_IM8) || (table =? M_ABS) || (table =? M_IOA) || (table =? M_VEC)
  else false.
(* table_i8080.cpp:442-464 acceptZilogMode *)
Definition acceptZilogMode (opr table : Z) : bool :=
  if opr =? table then true
  else if (opr =? M_SRC) || (opr =? R_A) then (table =? M_DST) || (table =? M_SRC)
  else if opr =? I_HL then (table =? M_SRC) || (table =? M_DST)
  else if opr =? R_C then (table =? M_SRC) || (table =? M_DST) || (table =? M_CC)
  else if (opr =? R_BC) || (opr =? R_DE) then (table =? M_PTR) || (table =? M_STK)
  else if opr =? R_HL then (table =? M_PTR) || (table =? M_STK)
  else if opr =? R_SP then table =? M_PTR
  else if opr =? R_AF then table =? M_STK
  else if opr =? M_IM16 then (table =? M_IM8) || (table =? M_VEC)
  else if opr =? M_ABS then table =? M_IOA
  else false.
(* table_i8080.cpp:436-440 acceptIntelModes, 466-475 acceptZilogModes: the answer *)
Definition acceptModes (zilog : bool) (dst src : Z) (e : entry) : bool :=
  let accept := if zilog then acceptZilogMode else acceptIntelMode in
  accept dst (e_dst e) && accept src (e_src e).
(* table_i8080.cpp:477-481 searchName, entry_table.h:140-170; the new error of the instruction
   (acceptZilogModes records OPERAND_NOT_ALLOWED for an undefined entry), prefix, and entry *)
Definition i8080_searchName (cpuType : Z) (zilog : bool) (name : text) (dst src : Z) : res (err * option (Z * entry)) :=
  bind (cpu_pages cpuType zilog) (fun pages =>
    bind (searchName entry_name name (fun _ => acceptModes zilog dst src) pages) (fun r =>
      match r with
      | Miss e => Val (e, None)
      | Hit pg i =>
        bind (item_at pages pg) (fun p =>
          bind (item_at (p_items p) i) (fun e =>
            Val (if zilog && e_undef e then OPERAND_NOT_ALLOWED else OK, Some (p_info p, e))))
      end)).
(* table_i8080.cpp:483-499 matchOpCode; [~] of an opcode_t is an int *)
Definition matchOpCode (opc : Z) (e : entry) : bool :=
  let dst := e_dst e in
  let src := e_src e in
  let opc := if (dst =? M_SRC) || (src =? M_SRC) then Z.land opc (Z.lnot 7) else opc in
  let opc := if dst =? M_DST then Z.land opc (Z.lnot 0x38) else opc in
  let opc :=
    if (dst =? M_PTR) || (dst =? M_STK) || (src =? M_PTR) || (dst =? M_STK) then Z.land opc (Z.lnot 0x30)
    else if (dst =? M_IDX) || (src =? M_IDX) then Z.land opc (Z.lnot 0x10)
    else if (dst =? M_CC) || (dst =? M_VEC) then Z.land opc (Z.lnot 0x38)
    else opc in
  opc =? e_opc e.
(* table_i8080.cpp:501-504 searchOpCode, entry_table.h:189-226 *)
Definition i8080_searchOpCode (cpuType : Z) (zilog : bool) (prefix opc : Z) : res (option entry) :=
  bind (cpu_pages cpuType zilog) (fun pages =>
    match searchOpCode (fun p => prefix =? p_info p) (fun _ => matchOpCode opc) pages with
    | Miss _ => Val None
    | Hit pg i => bind (item_at pages pg) (fun p => bind (item_at (p_items p) i) (fun e => Val (Some e)))
    end).
(* table_i8080.cpp:506-508 isPrefix *)
Definition i8080_isPrefix (cpuType code : Z) : bool := (cpuType =? V30EMU) && (code =? 0xED).

(* ------------------------------------------------------------ assembler *)
(* insn_i8080.h:34-39 Operand *)
Record operand := mkOp { o_mode : Z; o_reg : Z; o_val : value; o_err : err }.
Definition no_operand : operand := mkOp M_NONE REG_UNDEF v_undef OK.
(* insn_i8080.h:41-66 AsmInsn *)
Record ainsn := mkAI { ai_insn : insn; ai_err : err; ai_prefix : Z; ai_opc : Z }.
Definition ai_setErrorIf (e : err) (i : ainsn) : ainsn :=
  mkAI (ai_insn i) (setErrorIfAt (ai_err i) e) (ai_prefix i) (ai_opc i).
(* insn_base.h: embed *)
Definition ai_embed (v : Z) (i : ainsn) : ainsn :=
  mkAI (ai_insn i) (ai_err i) (ai_prefix i) (u8 (Z.lor (ai_opc i) v)).
Definition ai_set (i : insn) (a : ainsn) : ainsn := mkAI i (ai_err a) (ai_prefix a) (ai_opc a).
(* insn_i8080.h:58-63 operandPos *)
Definition ai_operandPos (i : ainsn) : Z :=
  let pos := i_len (ai_insn i) in
  if pos =? 0 then if negb (ai_prefix i =? 0) then 2 else 1 else pos.
(* insn_i8080.h:52-53 emitOperand8, emitOperand16; what they return is ignored *)
Definition ai_emitOperand8 (v : Z) (i : ainsn) : ainsn :=
  ai_set (snd (emitByte_at v (ai_operandPos i) (ai_insn i))) i.
Definition ai_emitOperand16 (v : Z) (i : ainsn) : ainsn :=
  ai_set (snd (emitUint16Le_at v (ai_operandPos i) (ai_insn i))) i.
(* insn_i8080.h:46-51 emitInsn *)
Definition ai_emitInsn (i : ainsn) : ainsn :=
  let '(pos, i) := if negb (ai_prefix i =? 0)
                   then (1, ai_set (snd (emitByte_at (ai_prefix i) 0 (ai_insn i))) i) else (0, i) in
  ai_set (snd (emitByte_at (ai_opc i) pos (ai_insn i))) i.

(* asm_i8080.cpp:75-130 encodeOperand *)
Definition encodeOperand (zilog : bool) (op : operand) (mode : Z) (i : ainsn) : ainsn :=
  let i := ai_setErrorIf (o_err op) i in
  let val16 := u16 (getUnsigned (o_val op)) in
  let im8 i :=
    let i := if overflowUint8 (o_val op) then ai_setErrorIf OVERFLOW_RANGE i else i in
    ai_emitOperand8 val16 i in
  if mode =? M_IOA then
    im8 (if overflow (o_val op) 255 0 then ai_setErrorIf OVERFLOW_RANGE i else i)
  else if mode =? M_IM8 then im8 i
  else if (mode =? M_IM16) || (mode =? M_ABS) then ai_emitOperand16 val16 i
  else if mode =? M_PTR then ai_embed (Z.shiftl (encodePointerReg (o_reg op)) 4) i
  else if mode =? M_STK then ai_embed (Z.shiftl (encodeStackReg (o_reg op)) 4) i
  else if mode =? M_IDX then ai_embed (Z.shiftl (encodeIndexReg (o_reg op)) 4) i
  else if mode =? M_SRC then ai_embed (encodeDataReg (o_reg op)) i
  else if mode =? M_DST then ai_embed (Z.shiftl (encodeDataReg (o_reg op)) 3) i
  else if mode =? M_VEC then
    if zilog then
      if negb (Z.land val16 (Z.lnot 0x38) =? 0)
      then ai_embed (Z.land val16 (Z.lnot 0x38)) (ai_setErrorIf ILLEGAL_OPERAND i)
      else ai_embed val16 i
    else
      let i := if overflow (o_val op) 7 0 then ai_setErrorIf OVERFLOW_RANGE i else i in
      ai_embed (Z.shiftl (Z.land val16 7) 3) i
  else if mode =? M_CC then ai_embed (Z.shiftl val16 3) i
  else i.

(* asm_i8080.cpp:132-206 parseZilogOperand: the operand (with its error) and the new scanner;
   the error returned is OK or that of the operand *)
Definition parseZilogOperand (a : asm) (loc : Z) (scan : text) : res (operand * text) :=
  let scan := skipSpaces scan in          (* scan.skipSpaces() moves the scanner itself *)
  let '(eol, p) := p_eol (a_pl a) scan in
  if eol then Val (no_operand, scan)
  else
    bind (parseRegName true p) (fun '(reg, t) =>
      if reg =? REG_C then Val (mkOp R_C REG_C (setUnsigned (encodeCcName CC_C)) OK, t)
      else
        bind (parseCcName p) (fun '(cc, t) =>
          if negb (cc =? CC_UNDEF) then Val (mkOp M_CC REG_UNDEF (setUnsigned (encodeCcName cc)) OK, t)
          else
            bind (parseRegName true p) (fun '(reg, t) =>
              if negb (reg =? REG_UNDEF) then
                let mode := if (reg =? REG_B) || (reg =? REG_D) || (reg =? REG_E) || (reg =? REG_H) || (reg =? REG_L)
                            then M_SRC else reg + R_BASE in
                Val (mkOp mode reg v_undef OK, t)
              else
                match expect_char 40 p with
                | Some p =>
                  let p := skipSpaces p in
                  bind (parseRegName true p) (fun '(reg, t) =>
                    if reg =? REG_UNDEF then
                      bind (parseInteger a loc p OK 41) (fun '(v, e, t) =>
                        if hasError e then Val (mkOp M_NONE REG_UNDEF v e, scan)
                        else
                          match expect_char 41 (skipSpaces t) with
                          | Some t => Val (mkOp M_ABS REG_UNDEF v e, t)
                          | None => Val (mkOp M_NONE REG_UNDEF v MISSING_CLOSING_PAREN, scan)
                          end)
                    else
                      match expect_char 41 (skipSpaces t) with
                      | Some t =>
                        if (reg =? REG_BC) || (reg =? REG_DE) then Val (mkOp M_IDX reg v_undef OK, t)
                        else if (reg =? REG_HL) || (reg =? REG_SP) then Val (mkOp (reg + I_BASE) reg v_undef OK, t)
                        else Val (mkOp M_NONE reg v_undef REGISTER_NOT_ALLOWED, scan)
                      | None => Val (mkOp M_NONE reg v_undef UNKNOWN_OPERAND, scan)
                      end)
                | None =>
                  bind (parseInteger a loc p OK 0) (fun '(v, e, t) =>
                    if hasError e then Val (mkOp M_NONE REG_UNDEF v e, scan)
                    else Val (mkOp M_IM16 REG_UNDEF v e, t))
                end))).

(* asm_i8080.cpp:208-241 parseIntelOperand, reached with Intel syntax only *)
Definition parseIntelOperand (a : asm) (loc : Z) (scan : text) : res (operand * text) :=
  let scan := skipSpaces scan in          (* scan.skipSpaces() moves the scanner itself *)
  let '(eol, p) := p_eol (a_pl a) scan in
  if eol then Val (no_operand, scan)
  else
    bind (parseRegName false p) (fun '(reg, t) =>
      if negb (reg =? REG_UNDEF) then
        let mode := if reg =? REG_H then R_H
                    else if reg =? REG_SP then M_PTR
                    else if reg =? REG_PSW then M_STK
                    else if (reg =? REG_B) || (reg =? REG_D) then M_IDX
                    else M_SRC in
        Val (mkOp mode reg v_undef OK, t)
      else
        bind (parseInteger a loc p OK 0) (fun '(v, e, t) =>
          if hasError e then Val (mkOp M_NONE REG_UNDEF v e, scan)
          else Val (mkOp M_IM16 REG_UNDEF v e, t))).

(* asm_i8080.cpp:243-245 parseOperand *)
Definition parseOperand (zilog : bool) (a : asm) (loc : Z) (scan : text) : res (operand * text) :=
  if zilog then parseZilogOperand a loc scan else parseIntelOperand a loc scan.

(* asm_i8080.cpp:256-276 encodeImpl.  The test of the second operand's error looks at the error of
   the instruction, which is still OK there, so it never ends the function. *)
Definition i8080_encodeImpl (cpuType : Z) (zilog : bool) (a : asm) (loc : Z) (name scan : text) (i : insn)
    : res (insn * text) :=
  bind (parseOperand zilog a loc scan) (fun '(dst, scan) =>
    if hasError (o_err dst) then Val (i_seterr (o_err dst) i, scan)
    else
      let scan := skipSpaces scan in
      bind (match expect_char 44 scan with
            | Some scan => bind (parseOperand zilog a loc scan) (fun '(src, scan) => Val (src, skipSpaces scan))
            | None => Val (no_operand, scan)
            end) (fun '(src, scan) =>
        bind (i8080_searchName cpuType zilog name (o_mode dst) (o_mode src)) (fun '(e, found) =>
          let err := setErrorIfAt (i_err i) e in
          if negb (isOK err) then Val (i_seterr err i, scan)
          else
            match found with
            | None => Val (i, scan)                  (* not reached: an error has been returned *)
            | Some (prefix, e) =>
              let ai := mkAI i OK prefix (e_opc e) in
              let ai := encodeOperand zilog dst (e_dst e) ai in
              let ai := encodeOperand zilog src (e_src e) ai in
              let ai := ai_emitInsn ai in
              Val (i_seterr (ai_err ai) (ai_insn ai), scan)
            end))).

(* asm_i8080.cpp:247-254 processPseudo *)
Definition i8080_specials : list text := [s2l "Z80SYNTAX"].
(* asm_i8080.cpp:31-43, asm_base.cpp: the directives *)
Definition i8080_directives : list name_table := [d_i8080_PSEUDOS; d_base_PSEUDOS].

(* what the driver's symbol tables and the options give; input radix 10, 16-bit addresses, bytes,
   little endian (config_i8080.h:32-34) *)
Definition i8080_asm (symbol : text -> option value) (function : text -> option functor) (radix : Z) : asm :=
  mkA pl_i8080 symbol function radix 16 1 false.
(* asm_base.cpp:79-103 encode of a line, at the address [addr], which is the current location *)
Definition i8080_encode (cpuType : Z) (zilog : bool) (a : asm) (line : text) (addr : Z) : res M_Asm.line :=
  asm_encode a i8080_specials i8080_directives
    (i8080_encodeImpl cpuType zilog a addr) line (new_insn addr).

(* ------------------------------------------------------------ disassembler *)
(* dis_i8080.cpp:47-54 outDataReg *)
Definition outDataReg (zilog : bool) (num : Z) (out : sbuf) : sbuf :=
  let num := Z.land num 7 in
  if (num =? 6) && zilog then outRegName REG_HL true out
  else outRegName (decodeDataReg num) false out.
Definition paren (zilog : bool) (c : Z) (out : sbuf) : sbuf := if zilog then letter c out else out.
(* dis_i8080.cpp:56-117 decodeOperand *)
Definition decodeOperand (d : disasm) (zilog : bool) (opc mode : Z) (s : M_Dis.dstate) : res M_Dis.dstate :=
  if mode =? M_IM8 then
    let '(v, s) := t_byte s in t_print (dis_outHex d v 8 true) s
  else if mode =? M_IOA then
    let s := t_put (paren zilog 40) s in
    let '(v, s) := t_byte s in
    bind (t_print (dis_outHex d v 8 false) s) (fun s => Val (t_put (paren zilog 41) s))
  else if mode =? M_IM16 then
    let '(v, s) := t_uint16Le s in t_print (dis_outHex d v 16 true) s
  else if mode =? M_ABS then
    let s := t_put (paren zilog 40) s in
    let '(v, s) := t_uint16Le s in
    bind (t_print (outAbsAddr d v 0) s) (fun s => Val (t_put (paren zilog 41) s))
  else if mode =? M_PTR then Val (t_put (outRegName (decodePointerReg (Z.shiftr opc 4) zilog) false) s)
  else if mode =? M_STK then Val (t_put (outRegName (decodeStackReg (Z.shiftr opc 4) zilog) false) s)
  else if mode =? M_IDX then Val (t_put (outRegName (decodeIndexReg (Z.shiftr opc 4) zilog) zilog) s)
  else if mode =? M_SRC then Val (t_put (outDataReg zilog opc) s)
  else if mode =? M_DST then Val (t_put (outDataReg zilog (Z.shiftr opc 3)) s)
  else if mode =? M_VEC then
    if zilog then t_print (dis_outHex d (Z.land (Z.shiftr opc 3) 7 * 8) 8 true) s
    else t_print (dis_outHex d (Z.land (Z.shiftr opc 3) 7) 3 true) s
  else if mode =? M_CC then Val (t_put (outCcName (decodeCcName (Z.shiftr opc 3))) s)
  else if (R_BASE <=? mode) && (mode <? I_BASE) then Val (t_put (outRegName (mode - R_BASE) false) s)
  else if I_BASE <=? mode then Val (t_put (outRegName (mode - I_BASE) true) s)
  else Val s.

(* dis_i8080.cpp:119-141 decodeImpl, after the opcode has been read *)
Definition decode_opcode (d : disasm) (cpuType : Z) (zilog : bool) (prefix opc : Z) (s : M_Dis.dstate) : res M_Dis.dstate :=
  let s := t_seterr OK s in          (* searchOpCode starts with insn.setOK() *)
  bind (i8080_searchOpCode cpuType zilog prefix opc) (fun r =>
    match r with
    | None => Val (t_setErrorIf UNKNOWN_INSTRUCTION s)
    | Some e =>
      let s := t_readName (entry_name e) s in
      if e_dst e =? M_NONE then Val s
      else
        bind (decodeOperand d zilog opc (e_dst e) s) (fun s =>
          if e_src e =? M_NONE then Val s
          else decodeOperand d zilog opc (e_src e) (t_put comma s))
    end).
Definition i8080_decodeImpl (d : disasm) (cpuType : Z) (zilog : bool) (s : M_Dis.dstate) : res M_Dis.dstate :=
  let '(opc, s) := t_byte s in
  if i8080_isPrefix cpuType opc then
    let '(opc2, s) := t_byte s in
    if negb (isOK (d_err (t_in s))) then Val s
    else decode_opcode d cpuType zilog opc opc2 s
  else decode_opcode d cpuType zilog 0 opc s.

(* dis_i8080.cpp:27-29: Intel number notation unless the options say otherwise; 16-bit addresses *)
Definition i8080_dis (upperhex uppercase octal relative cstyle intelhex : bool) (cursym : Z)
    (symtab : option (value -> option text)) : disasm :=
  mkDA fp_intel upperhex uppercase octal relative cstyle intelhex cursym symtab 16.
(* dis_base.cpp:138-150 decode *)
Definition i8080_decode (d : disasm) (cpuType : Z) (zilog : bool) (mem : list Z) (addr size : Z) : res decoded :=
  dis_decode d (i8080_decodeImpl d cpuType zilog) mem addr size.
