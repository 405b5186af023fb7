(** Model of the assembler and disassembler of the 8048 family: src/asm_i8048.cpp,
    src/dis_i8048.cpp, src/reg_i8048.cpp, src/table_i8048.cpp, src/insn_i8048.h.  The tables are
    T_I8048.v.  Simplification: where in the line an error is reported is not modelled. *)
From Coq Require Import String ZArith List Bool.
From Verif Require Import M_Char M_Error M_Value M_Text M_StrBuffer M_Format M_Insn M_Config M_Operators M_Parsers
  M_Expr M_Directive M_Table T_Tables M_Asm M_Dis M_I8048Defs T_I8048.
Import ListNotations.
Open Scope string_scope.
Open Scope list_scope.
Local Open Scope Z_scope.

Definition u8 (z : Z) : Z := z mod 2^8.
Definition u16 (z : Z) : Z := z mod 2^16.

(* ------------------------------------------------------------ registers *)
Definition name_text (r : string * Z) : text := s2l (fst r).
(* reg_i8048.cpp:71-74 parseRegName *)
Definition parseRegName (s : text) : res (Z * text) :=
  bind (searchText name_text s REG_ENTRIES) (fun '(k, t) =>
    match k with
    | Some k => bind (item_at REG_ENTRIES k) (fun r => Val (snd r, t))
    | None => Val (REG_UNDEF, t)
    end).
(* reg_base.cpp:59-61 searchName; [None] is nullptr *)
Definition name_of (n : Z) (entries : list (string * Z)) : option text :=
  match searchByNumber snd n entries with
  | Some k => match nth_error entries k with Some r => Some (name_text r) | None => None end
  | None => None
  end.
(* reg_i8048.cpp:76-79 outRegName *)
Definition outRegName (n : Z) (out : sbuf) : sbuf :=
  match name_of n REG_ENTRIES with
  | Some t => out_text t out
  | None => out
  end.
(* reg_i8048.cpp:81-84 isRReg *)
Definition isRReg (n : Z) : bool := (REG_R0 <=? n) && (n <=? REG_R7).
(* reg_i8048.cpp:96-98 encodeRRegName *)
Definition encodeRRegName (n : Z) : Z := u8 n.
(* reg_i8048.cpp:100-102 decodeRRegNum *)
Definition decodeRRegNum (num : Z) : Z := Z.land num 7.
(* reg_i8048.cpp:104-106 encodePortName *)
Definition encodePortName (n : Z) : Z := u8 (n - REG_BUS).
(* reg_i8048.cpp:108-110 decodePortNum *)
Definition decodePortNum (num : Z) : Z := Z.land num 7 + REG_BUS.

(* ------------------------------------------------------------ table *)
(* table_i8048.cpp:284-286 cpu, entry_table.h:89-97; a missing entry would be a null pointer *)
Definition cpu_pages (cpuType : Z) : res (list epage) :=
  match cpu_by_type (fun c => fst (fst c)) cpuType CPU_TABLE with
  | Some k => bind (item_at CPU_TABLE k) (fun c => Val (snd c))
  | None => UB
  end.
(* entry_table.h:140-170 searchName with a test of the operands *)
Definition search_entry (cpuType : Z) (name : text) (accept : entry -> bool) : res (err * option entry) :=
  bind (cpu_pages cpuType) (fun pages =>
    bind (searchName entry_name name (fun _ => accept) pages) (fun r =>
      match r with
      | Miss e => Val (e, None)
      | Hit pg i =>
        bind (item_at pages pg) (fun p => bind (item_at (p_items p) i) (fun e => Val (OK, Some e)))
      end)).
(* table_i8048.cpp:288-298 acceptMode *)
Definition acceptMode (opr table : Z) : bool :=
  if opr =? table then true
  else if opr =? M_IMM8 then table =? M_BIT8
  else if opr =? M_AD11 then (table =? M_AD08) || (table =? M_BITN)
  else if (opr =? M_P1) || (opr =? M_P2) then table =? M_P12
  else false.
(* table_i8048.cpp:300-303 acceptModes *)
Definition acceptModes (dst src : Z) (e : entry) : bool :=
  acceptMode dst (e_dst e) && acceptMode src (e_src e).
(* table_i8048.cpp:305-308 searchName *)
Definition i8048_searchName (cpuType : Z) (name : text) (dst src : Z) : res (err * option entry) :=
  search_entry cpuType name (acceptModes dst src).
(* table_i8048.cpp:310-332 matchOpCode; [~] of an opcode_t is an int *)
Definition matchOpCode (opc : Z) (e : entry) : bool :=
  let dst := e_dst e in
  let src := e_src e in
  if (dst =? M_R) || (src =? M_R) then Z.land opc (Z.lnot 7) =? e_opc e
  else if (dst =? M_IR) || (src =? M_IR) then Z.land opc (Z.lnot 1) =? e_opc e
  else if (dst =? M_PEXT) || (src =? M_PEXT) then Z.land opc (Z.lnot 3) =? e_opc e
  else if (dst =? M_AD11) || (dst =? M_BITN) then Z.land opc (Z.lnot 0xE0) =? e_opc e
  else if dst =? M_F then Z.land opc (Z.lnot 0x20) =? e_opc e
  else if (dst =? M_RB) || (dst =? M_MB) then Z.land opc (Z.lnot 0x10) =? e_opc e
  else if (dst =? M_P12) || (src =? M_P12) then (opc =? e_opc e + 1) || (opc =? e_opc e + 2)
  else opc =? e_opc e.
(* table_i8048.cpp:334-337 searchOpCode, entry_table.h:189-226 *)
Definition find_opcode (cpuType opc : Z) : res (option entry) :=
  bind (cpu_pages cpuType) (fun pages =>
    match searchOpCode (fun _ => true) (fun _ => matchOpCode opc) pages with
    | Miss _ => Val None
    | Hit pg i => bind (item_at pages pg) (fun p => bind (item_at (p_items p) i) (fun e => Val (Some e)))
    end).

(* ------------------------------------------------------------ assembler *)
(* insn_i8048.h:34-39 Operand *)
Record operand := mkOp { o_mode : Z; o_reg : Z; o_val : value; o_err : err }.
Definition no_operand : operand := mkOp M_NONE REG_UNDEF v_undef OK.
(* op.setError(e): the operand as it was when the error was found *)
Definition bad_operand (e : err) : operand := mkOp M_NONE REG_UNDEF v_undef e.
(* insn_i8048.h:41-48 AsmInsn *)
Record ainsn := mkAI { ai_insn : insn; ai_err : err; ai_opc : Z }.
Definition ai_setErrorIf (e : err) (i : ainsn) : ainsn := mkAI (ai_insn i) (setErrorIfAt (ai_err i) e) (ai_opc i).
(* insn_base.h: embed *)
Definition ai_embed (v : Z) (i : ainsn) : ainsn := mkAI (ai_insn i) (ai_err i) (u8 (Z.lor (ai_opc i) v)).
Definition ai_set (i : insn) (a : ainsn) : ainsn := mkAI i (ai_err a) (ai_opc a).
(* insn_i8048.h:46 emitOperand8; what it returns is ignored *)
Definition ai_emitOperand8 (v : Z) (i : ainsn) : ainsn := ai_set (snd (emitByte_at (u8 v) 1 (ai_insn i))) i.
(* insn_i8048.h:47 emitInsn *)
Definition ai_emitInsn (i : ainsn) : ainsn := ai_set (snd (emitByte_at (ai_opc i) 0 (ai_insn i))) i.

(* asm_i8048.cpp:72-155 parseOperand: a register has been read; [p] is after it *)
Definition register_operand (indir : bool) (reg : Z) (scan p : text) : res (operand * text) :=
  let op mode := Val (mkOp mode reg v_undef OK, p) in
  if indir then
    if reg =? REG_A then op M_IA
    else if (reg =? REG_R0) || (reg =? REG_R1) then op M_IR
    else if reg =? REG_R3 then op M_IR3
    else Val (bad_operand REGISTER_NOT_ALLOWED, scan)
  else if reg =? REG_BUS then op M_BUS
  else if reg =? REG_P then op M_P
  else if reg =? REG_P1 then op M_P1
  else if reg =? REG_P2 then op M_P2
  else if (reg =? REG_P4) || (reg =? REG_P5) || (reg =? REG_P6) || (reg =? REG_P7) then op M_PEXT
  else if reg =? REG_A then op M_A
  else if reg =? REG_PSW then op M_PSW
  else if (reg =? REG_F0) || (reg =? REG_F1) then op M_F
  else if reg =? REG_C then op M_C
  else if reg =? REG_I then op M_I
  else if (reg =? REG_RB0) || (reg =? REG_RB1) then op M_RB
  else if (reg =? REG_MB0) || (reg =? REG_MB1) then op M_MB
  else if reg =? REG_T then op M_T
  else if reg =? REG_CLK then op M_CLK
  else if reg =? REG_CNT then op M_CNT
  else if reg =? REG_TCNT then op M_TCNT
  else if reg =? REG_TCNTI then op M_TCNTI
  else if isRReg reg then op M_R
  else Val (bad_operand UNKNOWN_OPERAND, scan).
(* asm_i8048.cpp:51-166 parseOperand: the operand (with its error) and the new scanner; the error
   returned is OK or that of the operand *)
Definition parseOperand (a : asm) (loc : Z) (scan : text) : res (operand * text) :=
  let scan := skipSpaces scan in          (* scan.skipSpaces() moves the scanner itself *)
  let '(eol, p) := p_eol (a_pl a) scan in
  if eol then Val (no_operand, scan)
  else
    match expect_char 35 p with
    | Some p =>
      bind (parseInteger a loc p OK 0) (fun '(v, e, t) =>
        if hasError e then Val (bad_operand e, scan) else Val (mkOp M_IMM8 REG_UNDEF v e, t))
    | None =>
      let '(indir, p) := match expect_char 64 p with Some p => (true, p) | None => (false, p) end in
      if indir && is_space (peek p) then Val (bad_operand UNKNOWN_OPERAND, scan)
      else
        bind (parseRegName p) (fun '(reg, q) =>
          if negb (reg =? REG_UNDEF) then register_operand indir reg scan q
          else if indir then Val (bad_operand UNKNOWN_OPERAND, scan)
          else
            bind (parseInteger a loc p OK 0) (fun '(v, e, t) =>
              if hasError e then Val (bad_operand e, scan) else Val (mkOp M_AD11 REG_UNDEF v e, t)))
    end.

(* asm_i8048.cpp:172-174 page, on uint16_t *)
Definition page (addr : Z) : Z := Z.ldiff (u16 addr) 0xFF.
(* asm_i8048.cpp:178-191 encodeAddress; addresses have 12 bits (config_i8048.h:36) *)
Definition encodeAddress (mode : Z) (op : operand) (i : ainsn) : ainsn :=
  let target := getUnsigned (o_val op) in
  if mode =? M_AD08 then
    let base := u32 (i_addr (ai_insn i) + 1) in
    ai_emitOperand8 target (if negb (page target =? page base) then ai_setErrorIf OPERAND_TOO_FAR i else i)
  else
    let i := if negb (isOK (checkAddr 12 target false)) then ai_setErrorIf OVERFLOW_RANGE i else i in
    ai_emitOperand8 target (ai_embed (Z.land (Z.shiftr target 3) 0xE0) i).
(* asm_i8048.cpp:193-232 encodeOperand *)
Definition encodeOperand (mode : Z) (op : operand) (i : ainsn) : ainsn :=
  let i := ai_setErrorIf (o_err op) i in
  if (mode =? M_IR) || (mode =? M_IR3) || (mode =? M_R) then ai_embed (encodeRRegName (o_reg op)) i
  else if (mode =? M_P12) || (mode =? M_PEXT) then ai_embed (encodePortName (o_reg op)) i
  else if (mode =? M_AD08) || (mode =? M_AD11) then encodeAddress mode op i
  else if (mode =? M_IMM8) || (mode =? M_BIT8) then
    ai_emitOperand8 (getUnsigned (o_val op)) (if overflowUint8 (o_val op) then ai_setErrorIf OVERFLOW_RANGE i else i)
  else if mode =? M_BITN then
    ai_embed (Z.shiftl (Z.land (getUnsigned (o_val op)) 7) 5) (if overflow (o_val op) 7 0 then ai_setErrorIf ILLEGAL_BIT_NUMBER i else i)
  else if mode =? M_F then ai_embed (if o_reg op =? REG_F1 then 0x20 else 0) i
  else if mode =? M_RB then ai_embed (if o_reg op =? REG_RB1 then 0x10 else 0) i
  else if mode =? M_MB then ai_embed (if o_reg op =? REG_MB1 then 0x10 else 0) i
  else i.

(* asm_i8048.cpp:234-242: the operands, or the error of one and the scanner *)
Inductive operands := Bad (e : err) (scan : text) | Two (o1 o2 : operand) (scan : text).
Definition parseOperands (a : asm) (loc : Z) (scan : text) : res operands :=
  bind (parseOperand a loc scan) (fun '(o1, scan) =>
    if hasError (o_err o1) then Val (Bad (o_err o1) scan)
    else
      let scan := skipSpaces scan in
      match expect_char 44 scan with
      | Some scan =>
        bind (parseOperand a loc scan) (fun '(o2, scan) =>
          if hasError (o_err o2) then Val (Bad (o_err o2) scan) else Val (Two o1 o2 (skipSpaces scan)))
      | None => Val (Two o1 no_operand scan)
      end).
(* asm_i8048.cpp:234-251 encodeImpl *)
Definition i8048_encodeImpl (cpuType : Z) (a : asm) (loc : Z) (name scan : text) (i : insn) : res (insn * text) :=
  bind (parseOperands a loc scan) (fun ops =>
    match ops with
    | Bad e scan => Val (i_seterr e i, scan)
    | Two o1 o2 scan =>
      bind (i8048_searchName cpuType name (o_mode o1) (o_mode o2)) (fun '(e, found) =>
        let err := setErrorIfAt (i_err i) e in
        if negb (isOK err) then Val (i_seterr err i, scan)
        else
          match found with
          | None => Val (i, scan)                  (* not reached: an error has been returned *)
          | Some e =>
            let ai := ai_emitInsn (encodeOperand (e_src e) o2 (encodeOperand (e_dst e) o1 (mkAI i OK (e_opc e)))) in
            Val (i_seterr (setErrorIfAt (i_err (ai_insn ai)) (ai_err ai)) (ai_insn ai), scan)
          end)
    end).

(* asm_i8048.cpp:31-38, asm_base.cpp: the directives; there are no special ones *)
Definition i8048_directives : list name_table := [d_i8048_PSEUDOS; d_base_PSEUDOS].
(* what the driver's symbol tables and the options give; 12-bit addresses, bytes, big endian
   (config_i8048.h:36) *)
Definition i8048_asm (symbol : text -> option value) (function : text -> option functor) (radix : Z) : asm :=
  mkA pl_intel symbol function radix 12 1 true.
(* asm_base.cpp:79-103 encode of a line, at the address [addr], which is the current location *)
Definition i8048_encode (cpuType : Z) (a : asm) (line : text) (addr : Z) : res M_Asm.line :=
  asm_encode a [] i8048_directives (i8048_encodeImpl cpuType a addr) line (new_insn addr).

(* ------------------------------------------------------------ disassembler *)
(* dis_i8048.cpp:35-120 decodeOperand; ~0xFF is an int, converted to uint32_t *)
Definition decodeOperand (d : disasm) (opc mode : Z) (s : M_Dis.dstate) : res M_Dis.dstate :=
  let reg n s := Val (t_put (outRegName n) s) in
  if mode =? M_IA then reg REG_A (t_put (letter 64) s)
  else if mode =? M_A then reg REG_A s
  else if (mode =? M_IR) || (mode =? M_IR3) then reg (decodeRRegNum (Z.land opc 7)) (t_put (letter 64) s)
  else if mode =? M_R then reg (decodeRRegNum (Z.land opc 7)) s
  else if mode =? M_BUS then reg REG_BUS s
  else if (mode =? M_P12) || (mode =? M_PEXT) then reg (decodePortNum (Z.land opc 7)) s
  else if mode =? M_P then reg REG_P s
  else if mode =? M_P1 then reg REG_P1 s
  else if mode =? M_P2 then reg REG_P2 s
  else if mode =? M_AD08 then
    let base := u32 (i_addr (d_insn (t_in s)) + 1) in
    let '(v, s) := t_byte s in
    t_print (outAbsAddr d (Z.lor (Z.ldiff base 0xFF) v) 0) s
  else if mode =? M_AD11 then
    let '(v, s) := t_byte s in t_print (outAbsAddr d (Z.lor (Z.shiftl (Z.land opc 0xE0) 3) v) 0) s
  else if mode =? M_BITN then t_print (dis_outDec d (Z.shiftr (Z.land opc 0xE0) 5) 3) s
  else if mode =? M_IMM8 then
    let '(v, s) := t_byte (t_put (letter 35) s) in t_print (dis_outDec d v 8) s
  else if mode =? M_BIT8 then
    let '(v, s) := t_byte (t_put (letter 35) s) in t_print (dis_outHex d v 8 false) s
  else if mode =? M_PSW then reg REG_PSW s
  else if mode =? M_C then reg REG_C s
  else if mode =? M_F then reg (if negb (Z.land opc 0x20 =? 0) then REG_F1 else REG_F0) s
  else if mode =? M_RB then reg (if negb (Z.land opc 0x10 =? 0) then REG_RB1 else REG_RB0) s
  else if mode =? M_MB then reg (if negb (Z.land opc 0x10 =? 0) then REG_MB1 else REG_MB0) s
  else if mode =? M_I then reg REG_I s
  else if mode =? M_T then reg REG_T s
  else if mode =? M_CNT then reg REG_CNT s
  else if mode =? M_TCNT then reg REG_TCNT s
  else if mode =? M_TCNTI then reg REG_TCNTI s
  else if mode =? M_CLK then reg REG_CLK s
  else Val s.

(* dis_i8048.cpp:122-136 decodeImpl *)
Definition i8048_decodeImpl (d : disasm) (cpuType : Z) (s : M_Dis.dstate) : res M_Dis.dstate :=
  let '(opc, s) := t_byte s in
  bind (find_opcode cpuType opc) (fun r =>
    let s := t_seterr OK s in          (* searchOpCode starts with insn.setOK() *)
    match r with
    | None => Val (t_setErrorIf UNKNOWN_INSTRUCTION s)
    | Some e =>
      let s := t_readName (entry_name e) s in
      if e_dst e =? M_NONE then Val s
      else
        bind (decodeOperand d opc (e_dst e) s) (fun s =>
          if e_src e =? M_NONE then Val s
          else decodeOperand d opc (e_src e) (t_put comma s))
    end).

(* dis_i8048.cpp:27-33: Intel number notation unless the options say otherwise; 12-bit addresses *)
Definition i8048_dis (upperhex uppercase octal relative cstyle intelhex : bool) (cursym : Z)
    (symtab : option (value -> option text)) : disasm :=
  mkDA fp_intel upperhex uppercase octal relative cstyle intelhex cursym symtab 12.
(* dis_base.cpp:138-150 decode *)
Definition i8048_decode (d : disasm) (cpuType : Z) (mem : list Z) (addr size : Z) : res decoded :=
  dis_decode d (i8048_decodeImpl d cpuType) mem addr size.
