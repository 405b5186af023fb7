(** Model of the assembler and disassembler of the F8: src/asm_f3850.cpp, src/dis_f3850.cpp,
    src/reg_f3850.cpp, src/table_f3850.cpp, src/insn_f3850.h.  The tables are T_F3850.v.
    Simplification: where in the line an error is reported is not modelled. *)
From Coq Require Import String ZArith List Bool.
From Verif Require Import M_Char M_Error M_Value M_Text M_StrBuffer M_Format M_Insn M_Config M_Operators M_Parsers
  M_Expr M_Directive M_Table T_Tables M_Asm M_Dis M_F3850Defs T_F3850.
Import ListNotations.
Open Scope string_scope.
Open Scope list_scope.
Local Open Scope Z_scope.

Definition u8 (z : Z) : Z := z mod 2^8.
Definition u16 (z : Z) : Z := z mod 2^16.

(* ------------------------------------------------------------ registers *)
Definition name_text (r : string * Z) : text := s2l (fst r).
(* reg_f3850.cpp:59-62 parseRegName *)
Definition parseRegName (s : text) : res (Z * text) :=
  bind (searchText name_text s REG_ENTRIES) (fun '(k, t) =>
    match k with
    | Some k => bind (item_at REG_ENTRIES k) (fun r => Val (snd r, t))
    | None => Val (REG_UNDEF, t)
    end).
(* reg_f3850.cpp:64-71 decodeRegName *)
Definition decodeRegName (opc : Z) : Z :=
  let regno := Z.land opc 0xF in
  let regJ := REG_J - REG_alias in
  let regD := REG_D - REG_alias in
  if (regJ <=? regno) && (regno <=? regD) then regno + REG_alias else REG_UNDEF.
(* reg_base.cpp:59-61 searchName; [None] is nullptr *)
Definition name_of (n : Z) (entries : list (string * Z)) : option text :=
  match searchByNumber snd n entries with
  | Some k => match nth_error entries k with Some r => Some (name_text r) | None => None end
  | None => None
  end.
(* reg_f3850.cpp:73-76 outRegName *)
Definition outRegName (n : Z) (out : sbuf) : sbuf :=
  match name_of n REG_ENTRIES with
  | Some t => out_text t out
  | None => out
  end.

(* ------------------------------------------------------------ table *)
(* table_f3850.cpp:205-207 cpu: the only one *)
Definition cpu_pages : res (list epage) := bind (item_at CPU_TABLE 0) (fun c => Val (snd c)).
(* entry_table.h:140-170 searchName with a test of the operands *)
Definition search_entry (name : text) (accept : entry -> bool) : res (err * option entry) :=
  bind cpu_pages (fun pages =>
    bind (searchName entry_name name (fun _ => accept) pages) (fun r =>
      match r with
      | Miss e => Val (e, None)
      | Hit pg i =>
        bind (item_at pages pg) (fun p => bind (item_at (p_items p) i) (fun e => Val (OK, Some e)))
      end)).
(* table_f3850.cpp:209-216 acceptAll, hasOperand *)
Definition hasOperand (name : text) : res bool :=
  bind (search_entry name (fun _ => true)) (fun '(_, found) =>
    Val (match found with Some e => negb (e_m1 e =? M_NONE) | None => false end)).
(* table_f3850.cpp:218-228 acceptMode *)
Definition acceptMode (opr table : Z) : bool :=
  if opr =? table then true
  else if opr =? M_J then table =? M_REG
  else if (opr =? M_C1) || (opr =? M_C4) || (opr =? M_IM3) || (opr =? M_IM4) || (opr =? M_IM8) || (opr =? M_ADDR) then
    (table =? M_C1) || (table =? M_C4) || (table =? M_IM3) || (table =? M_IM4) || (table =? M_IM8) || (table =? M_ADDR) ||
    (table =? M_REL) || (table =? M_REG) || (table =? M_IOS) || (table =? M_IOA)
  else false.
(* table_f3850.cpp:230-233 acceptModes *)
Definition acceptModes (m1 m2 : Z) (e : entry) : bool := acceptMode m1 (e_m1 e) && acceptMode m2 (e_m2 e).
(* table_f3850.cpp:235-238 searchName *)
Definition f3850_searchName (name : text) (m1 m2 : Z) : res (err * option entry) :=
  search_entry name (acceptModes m1 m2).
(* table_f3850.cpp:240-251 matchOpCode; [~] of an opcode_t is an int *)
Definition matchOpCode (opc : Z) (e : entry) : bool :=
  let opc :=
    if (e_m1 e =? M_REG) || (e_m2 e =? M_REG) || (e_m1 e =? M_IM4) || (e_m1 e =? M_IOS) then Z.land opc (Z.lnot 0x0F)
    else if e_m1 e =? M_IM3 then Z.land opc (Z.lnot 0x07)
    else opc in
  opc =? e_opc e.
(* table_f3850.cpp:253-256 searchOpCode, entry_table.h:189-226 *)
Definition find_opcode (opc : Z) : res (option entry) :=
  bind cpu_pages (fun pages =>
    match searchOpCode (fun _ => true) (fun _ => matchOpCode opc) pages with
    | Miss _ => Val None
    | Hit pg i => bind (item_at pages pg) (fun p => bind (item_at (p_items p) i) (fun e => Val (Some e)))
    end).

(* ------------------------------------------------------------ assembler *)
(* insn_f3850.h:33-37 Operand *)
Record operand := mkOp { o_mode : Z; o_val : value; o_err : err }.
Definition no_operand : operand := mkOp M_NONE v_undef OK.
(* insn_f3850.h:39-47 AsmInsn *)
Record ainsn := mkAI { ai_insn : insn; ai_err : err; ai_opc : Z }.
Definition ai_setErrorIf (e : err) (i : ainsn) : ainsn := mkAI (ai_insn i) (setErrorIfAt (ai_err i) e) (ai_opc i).
Definition ai_seterr (e : err) (i : ainsn) : ainsn := mkAI (ai_insn i) e (ai_opc i).
(* insn_base.h: embed, setOpCode *)
Definition ai_embed (v : Z) (i : ainsn) : ainsn := mkAI (ai_insn i) (ai_err i) (u8 (Z.lor (ai_opc i) v)).
Definition ai_setopc (v : Z) (i : ainsn) : ainsn := mkAI (ai_insn i) (ai_err i) (u8 v).
Definition ai_set (i : insn) (a : ainsn) : ainsn := mkAI i (ai_err a) (ai_opc a).
(* insn_f3850.h:45-46 emitOperand8, emitOperand16, always after the opcode; what they return is ignored *)
Definition ai_emitOperand8 (v : Z) (i : ainsn) : ainsn := ai_set (snd (emitByte_at (u8 v) 1 (ai_insn i))) i.
Definition ai_emitOperand16 (v : Z) (i : ainsn) : ainsn := ai_set (snd (emitUint16Be_at (u16 v) 1 (ai_insn i))) i.
(* insn_f3850.h:44 emitInsn *)
Definition ai_emitInsn (i : ainsn) : ainsn := ai_set (snd (emitByte_at (ai_opc i) 0 (ai_insn i))) i.

(* asm_f3850.cpp:60-99 parseOperand: the error returned, the operand (with its error) and the new
   scanner.  [int8_t(reg) - int8_t(REG_alias)] is negative for the registers without a number. *)
Definition parseOperand (a : asm) (loc : Z) (scan : text) : res (err * operand * text) :=
  let p := skipSpaces scan in             (* scan.skipSpaces() moves the scanner itself *)
  let scan := p in
  bind (parseRegName p) (fun '(reg, t) =>
    if negb (reg =? REG_UNDEF) then
      let mode := if reg <? REG_alias then reg else if reg =? REG_J then M_J else M_REG in
      Val (OK, mkOp mode (setUnsigned (reg - REG_alias)) OK, t)
    else
      bind (parseInteger a loc (skipSpaces t) OK 0) (fun '(v, e, t) =>
        if hasError e then Val (e, mkOp M_NONE v e, scan)
        else
          let s := getSigned v in
          Val (OK, (if s =? 1 then mkOp M_C1 v e
                    else if s =? 4 then mkOp M_C4 v e
                    else if overflow v 7 0 then mkOp M_IM3 v e
                    else if overflow v 15 0 then mkOp M_IM4 v e
                    else if negb (overflowUint8 v) then mkOp M_IM8 v e
                    else if negb (overflowUint16 v) then mkOp M_ADDR v e
                    else mkOp M_NONE v OVERFLOW_RANGE), t))).

(* asm_f3850.cpp:101-108 emitRelative; addresses have 16 bits (config_f3850.h:29) *)
Definition emitRelative (op : operand) (i : ainsn) : res ainsn :=
  let base := u32 (i_addr (ai_insn i) + 1) in
  let target := if negb (isOK (o_err op)) then base else getUnsigned (o_val op) in
  match branchDelta 16 base target (ai_err i) with
  | None => UB
  | Some (delta, e) =>
    match overflowDelta delta 8 with
    | None => UB
    | Some far =>
      let i := ai_seterr e i in
      let i := if far then ai_setErrorIf OPERAND_TOO_FAR i else i in
      Val (ai_emitOperand8 delta i)
    end
  end.
(* asm_f3850.cpp:110-162 encodeOperand *)
Definition encodeOperand (mode : Z) (op : operand) (i : ainsn) : res ainsn :=
  let i := ai_setErrorIf (o_err op) i in
  let v := getUnsigned (o_val op) in
  let fail (b : bool) e i := if b then ai_setErrorIf e i else i in
  if mode =? M_REG then
    let i := fail (overflow (o_val op) 15 0) OVERFLOW_RANGE i in
    let i := fail (v =? 15) OPERAND_NOT_ALLOWED i in
    Val (ai_embed (Z.land v 0xF) i)
  else if mode =? M_C1 then
    if v =? 1 then Val i
    else if v =? 4 then Val (ai_setopc (ai_opc i + 2) i)
    else Val (ai_setErrorIf OPERAND_NOT_ALLOWED i)
  else if mode =? M_IM3 then
    let i := fail (overflow (o_val op) 7 0) OVERFLOW_RANGE i in
    Val (ai_embed (Z.land v 7) i)
  else if (mode =? M_IOS) || (mode =? M_IM4) then
    let i := fail ((mode =? M_IOS) && ((v =? 2) || (v =? 3))) OPERAND_NOT_ALLOWED i in
    let i := fail (overflow (o_val op) 15 0) OVERFLOW_RANGE i in
    Val (ai_embed (Z.land v 0xF) i)
  else if (mode =? M_IOA) || (mode =? M_IM8) then
    let i := fail ((mode =? M_IOA) && isOK (o_err op) && negb (overflow (o_val op) 3 0)) OPERAND_NOT_ALLOWED i in
    let i := fail (overflowUint8 (o_val op)) OVERFLOW_RANGE i in
    Val (ai_emitOperand8 v i)
  else if mode =? M_ADDR then Val (ai_emitOperand16 v i)
  else if mode =? M_REL then emitRelative op i
  else Val i.

(* asm_f3850.cpp:166-173: the operands *)
Inductive operands := Bad (e : err) (scan : text) | Two (o1 o2 : operand) (scan : text).
Definition parseOperands (a : asm) (loc : Z) (scan : text) : res operands :=
  bind (parseOperand a loc scan) (fun '(e1, o1, scan) =>
    if negb (isOK e1) && hasError (o_err o1) then Val (Bad (o_err o1) scan)
    else
      let scan := skipSpaces scan in
      match expect_char 44 scan with
      | Some scan =>
        bind (parseOperand a loc scan) (fun '(e2, o2, scan) =>
          if negb (isOK e2) && hasError (o_err o2) then Val (Bad (o_err o2) scan)
          else Val (Two o1 o2 scan))
      | None => Val (Two o1 no_operand scan)
      end).
(* asm_f3850.cpp:164-183 encodeImpl *)
Definition f3850_encodeImpl (a : asm) (loc : Z) (name scan : text) (i : insn) : res (insn * text) :=
  bind (hasOperand name) (fun has =>
    bind (if has then parseOperands a loc scan else Val (Two no_operand no_operand scan)) (fun ops =>
      match ops with
      | Bad e scan => Val (i_seterr e i, scan)
      | Two o1 o2 scan =>
        let scan := skipSpaces scan in
        bind (f3850_searchName name (o_mode o1) (o_mode o2)) (fun '(e, found) =>
          let err := setErrorIfAt (i_err i) e in
          if negb (isOK err) then Val (i_seterr err i, scan)
          else
            match found with
            | None => Val (i, scan)                  (* not reached: an error has been returned *)
            | Some e =>
              let ai := mkAI i OK (e_opc e) in
              bind (encodeOperand (e_m1 e) o1 ai) (fun ai =>
                bind (encodeOperand (e_m2 e) o2 ai) (fun ai =>
                  let ai := ai_emitInsn ai in
                  Val (i_seterr (ai_err ai) (ai_insn ai), scan)))
            end)
      end)).

(* asm_f3850.cpp:35-39, asm_base.cpp: the directives; there are no special ones *)
Definition f3850_directives : list name_table := [d_f3850_PSEUDOS; d_base_PSEUDOS].
(* what the driver's symbol tables and the options give; 16-bit addresses, bytes, big endian
   (config_f3850.h:29) *)
Definition f3850_asm (symbol : text -> option value) (function : text -> option functor) (radix : Z) : asm :=
  mkA pl_f3850 symbol function radix 16 1 true.
(* asm_base.cpp:79-103 encode of a line, at the address [addr], which is the current location *)
Definition f3850_encode (a : asm) (line : text) (addr : Z) : res M_Asm.line :=
  asm_encode a [] f3850_directives (f3850_encodeImpl a addr) line (new_insn addr).

(* ------------------------------------------------------------ disassembler *)
(* dis_f3850.cpp:37-43 decodeRelative *)
Definition decodeRelative (d : disasm) (s : M_Dis.dstate) : res M_Dis.dstate :=
  let '(v, s) := t_byte s in
  let delta := int8 v in
  let insn := d_insn (t_in s) in
  let base := u32 (i_addr insn + 1) in
  let target := u32 (base + delta) in
  let s := t_setErrorIf (checkAddr (da_aw d) target false) s in
  t_print (outRelAddr d target (i_addr insn) 8) s.
(* dis_f3850.cpp:45-100 decodeOperand *)
Definition decodeOperand (d : disasm) (opc mode : Z) (s : M_Dis.dstate) : res M_Dis.dstate :=
  let r := Z.land opc 0xF in
  let fail (b : bool) s := if b then t_setErrorIf OPERAND_NOT_ALLOWED s else s in
  if mode =? M_REG then
    let s := fail (r =? 15) s in
    let name := decodeRegName opc in
    if negb (name =? REG_UNDEF) then Val (t_put (outRegName name) s)
    else t_print (dis_outDec d r 4) s
  else if mode =? M_C1 then t_print (dis_outDec d 1 1) s
  else if mode =? M_C4 then t_print (dis_outDec d 4 3) s
  else if mode =? M_IM3 then t_print (dis_outHex d (Z.land opc 7) 3 true) s
  else if (mode =? M_IOS) || (mode =? M_IM4) then
    t_print (dis_outHex d r 4 true) (fail ((mode =? M_IOS) && ((r =? 2) || (r =? 3))) s)
  else if mode =? M_IOA then
    let '(ioa, s) := t_byte s in
    t_print (dis_outHex d ioa 8 true) (fail (ioa <? 4) s)
  else if mode =? M_IM8 then let '(v, s) := t_byte s in t_print (dis_outHex d v 8 true) s
  else if mode =? M_ADDR then let '(v, s) := t_uint16Be s in t_print (outAbsAddr d v 0) s
  else if mode =? M_REL then decodeRelative d s
  else if mode =? M_NONE then Val s
  else if mode =? M_J then Val (t_put (outRegName REG_J) s)
  else if mode <? M_REG then Val (t_put (outRegName mode) s)
  else Val s.
(* dis_f3850.cpp:102-116 decodeImpl; searchOpCode starts with insn.setOK() *)
Definition decode_opcode (d : disasm) (opc : Z) (s : M_Dis.dstate) : res M_Dis.dstate :=
  let s := t_seterr OK s in
  bind (find_opcode opc) (fun r =>
    match r with
    | None => Val (t_setErrorIf UNKNOWN_INSTRUCTION s)
    | Some e =>
      let s := t_readName (entry_name e) s in
      if e_m1 e =? M_NONE then Val s
      else
        bind (decodeOperand d opc (e_m1 e) s) (fun s =>
          if e_m2 e =? M_NONE then Val s
          else decodeOperand d opc (e_m2 e) (t_put comma s))
    end).
Definition f3850_decodeImpl (d : disasm) (s : M_Dis.dstate) : res M_Dis.dstate :=
  let '(opc, s) := t_byte s in decode_opcode d opc s.

(* dis_f3850.cpp:29-35: Fairchild number notation unless the options say otherwise; 16-bit addresses *)
Definition f3850_dis (upperhex uppercase octal relative cstyle intelhex : bool) (cursym : Z)
    (symtab : option (value -> option text)) : disasm :=
  mkDA fp_fairchild upperhex uppercase octal relative cstyle intelhex cursym symtab 16.
(* dis_base.cpp:138-150 decode *)
Definition f3850_decode (d : disasm) (mem : list Z) (addr size : Z) : res decoded :=
  dis_decode d (f3850_decodeImpl d) mem addr size.
