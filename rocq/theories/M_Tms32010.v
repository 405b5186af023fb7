(** Model of the assembler and disassembler of the TMS32010 family: src/asm_tms32010.cpp,
    src/dis_tms32010.cpp, src/reg_tms32010.cpp, src/table_tms32010.cpp, src/insn_tms32010.h.  The
    tables are T_Tms32010.v.
    Simplification: where in the line an error is reported is not modelled. *)
From Coq Require Import String ZArith List Bool.
From Verif Require Import M_Char M_Error M_Value M_Text M_StrBuffer M_Format M_Insn M_Config M_Operators M_Parsers
  M_Expr M_Directive M_Table T_Tables M_Asm M_Dis M_Tms32010Defs T_Tms32010.
Import ListNotations.
Open Scope string_scope.
Open Scope list_scope.
Local Open Scope Z_scope.

Definition u16 (z : Z) : Z := z mod 0x10000.

(* config_tms32010.h:34-36 dataMemoryLimit *)
Definition dataMemoryLimit (cpuType : Z) : Z := if cpuType =? TMS32010 then 0x8F else 0xFF.

(* ------------------------------------------------------------ registers *)
(* reg_tms32010.h:28-40 RegName: an auxiliary register or a port address *)
Inductive reg := R_AR (n : Z) | R_PA (n : Z).
(* reg_tms32010.cpp:34-51 parseRegName; [None] is REG_UNDEF *)
Definition parseRegName (s : text) : option (reg * text) :=
  match iexpectText (s2l "AR") s with
  | Some p =>
    match parseRegNumber p with
    | Some (n, t) => if (n <? 0) || (2 <=? n) then None else Some (R_AR n, t)
    | None => None
    end
  | None =>
    match iexpectText (s2l "PA") s with
    | Some p =>
      match parseRegNumber p with
      | Some (n, t) => if (n <? 0) || (8 <=? n) then None else Some (R_PA n, t)
      | None => None
      end
    | None => None
    end
  end.
(* reg_tms32010.cpp:53-57 outRegName *)
Definition outRegName (r : reg) (out : sbuf) : sbuf :=
  match r with
  | R_AR n => out_sdec n 0 (out_text (s2l "AR") out)
  | R_PA n => out_sdec n 0 (out_text (s2l "PA") out)
  end.

(* ------------------------------------------------------------ table *)
(* table_tms32010.cpp:174-176 cpu, entry_table.h: linear search on the CPU type; the pages of the CPU *)
Definition cpu_pages (cpuType : Z) : res (list epage) :=
  match find (fun c => fst (fst c) =? cpuType) CPU_TABLE with
  | Some c => Val (snd c)
  | None => OOB
  end.
(* table_tms32010.cpp:178-198 acceptMode *)
Definition acceptMode (opr table : Z) : bool :=
  if opr =? table then true
  else if opr =? M_NONE then (table =? M_LS0) || (table =? M_LS3) || (table =? M_LS4) || (table =? M_NARP)
  else if opr =? M_AR then (table =? M_ARK) || (table =? M_NARP)
  else if opr =? M_PA then false
  else if (opr =? M_ARP) || (opr =? M_INC) || (opr =? M_DEC) then table =? M_MAM
  else if (opr =? M_IM13) && (table =? M_PMA) then true
  else if (M_LS0 <=? table) && (table <=? M_IM13) then opr <=? table
  else false.
(* table_tms32010.cpp:200-204 acceptModes *)
Definition acceptModes (m1 m2 m3 : Z) (e : entry) : bool :=
  acceptMode m1 (e_m1 e) && acceptMode m2 (e_m2 e) && acceptMode m3 (e_m3 e).
(* table_tms32010.cpp:206-209 searchName, entry_table.h:140-170 *)
Definition tms32010_searchName (cpuType : Z) (name : text) (m1 m2 m3 : Z) : res (err * option entry) :=
  bind (cpu_pages cpuType) (fun pages =>
    bind (searchName entry_name name (fun _ => acceptModes m1 m2 m3) pages) (fun r =>
      match r with
      | Miss e => Val (e, None)
      | Hit pg i =>
        bind (item_at pages pg) (fun p => bind (item_at (p_items p) i) (fun e => Val (OK, Some e)))
      end)).
(* table_tms32010.cpp:211-250 matchOpCode; [~] of an int *)
Definition matchOpCode (opc : Z) (e : entry) : bool :=
  let m1 := e_m1 e in
  let m2 := e_m2 e in
  let masked :=
    if (m1 =? M_IM8) || (m2 =? M_IM8) then Some (Z.land opc (Z.lnot 0xFF))
    else if (m1 =? M_MAM) || (m2 =? M_MAM) then
      if Z.land opc 0x80 =? 0 then Some (Z.land opc (Z.lnot 0x7F))
      else if negb (Z.land opc 0x46 =? 0) then None
      else if Z.land (Z.shiftr opc 4) 3 =? 3 then None
      else if negb (Z.land opc 8 =? 0) && negb (Z.land opc 7 =? 0) then None
      else Some (Z.land opc (Z.lnot 0xB9))
    else if m1 =? M_IM13 then Some (Z.land opc (Z.lnot 0x1FFF))
    else Some opc in
  match masked with
  | None => false
  | Some opc =>
    let opc := if m1 =? M_AR then Z.land opc (Z.lnot 0x100) else opc in
    let opc := if (m1 =? M_ARK) || (m1 =? M_DPK) then Z.land opc (Z.lnot 1) else opc in
    let opc := if m2 =? M_LS4 then Z.land opc (Z.lnot 0xF00) else opc in
    let opc := if m2 =? M_PA then Z.land opc (Z.lnot 0x700) else opc in
    if m2 =? M_LS3 then
      let shift := Z.land (Z.shiftr opc 8) 7 in
      if (shift <? 2) || (shift =? 4) then Z.land opc (Z.lnot 0x700) =? e_opc e else false
    else opc =? e_opc e
  end.
(* table_tms32010.cpp:252-255 searchOpCode, entry_table.h:189-226 *)
Definition tms32010_searchOpCode (cpuType opc : Z) : res (option entry) :=
  bind (cpu_pages cpuType) (fun pages =>
    match searchOpCode (fun _ => true) (fun _ => matchOpCode opc) pages with
    | Miss _ => Val None
    | Hit pg i => bind (item_at pages pg) (fun p => bind (item_at (p_items p) i) (fun e => Val (Some e)))
    end).

(* ------------------------------------------------------------ assembler *)
(* insn_tms32010.h:38-43 Operand; the register is in the value *)
Record operand := mkOp { o_mode : Z; o_val : value; o_err : err }.
Definition no_operand : operand := mkOp M_NONE v_undef OK.
(* insn_tms32010.h:45-53 AsmInsn *)
Record ainsn := mkAI { ai_insn : insn; ai_err : err; ai_opc : Z }.
Definition ai_setErrorIf (e : err) (i : ainsn) : ainsn := mkAI (ai_insn i) (setErrorIfAt (ai_err i) e) (ai_opc i).
(* insn_base.h: embed, setOpCode; the opcode has 16 bits *)
Definition ai_embed (v : Z) (i : ainsn) : ainsn := mkAI (ai_insn i) (ai_err i) (Z.lor (ai_opc i) (u16 v)).
Definition ai_setopc (v : Z) (i : ainsn) : ainsn := mkAI (ai_insn i) (ai_err i) (u16 v).
(* insn_tms32010.h:50-52 emitInsn, emitOperand16; little endian; what emitUint16 returns is ignored *)
Definition ai_emitInsn (i : ainsn) : ainsn :=
  mkAI (snd (emitUint16Le_at (ai_opc i) 0 (ai_insn i))) (ai_err i) (ai_opc i).
Definition ai_emitOperand16 (v : Z) (i : ainsn) : ainsn :=
  mkAI (snd (emitUint16Le_at (u16 v) 2 (ai_insn i))) (ai_err i) (ai_opc i).

(* asm_tms32010.cpp:63-77 constantType; the parameter is a uint16_t *)
Definition constantType (v : Z) : Z :=
  let v := u16 v in
  if v =? 0 then M_LS0 else if v =? 1 then M_DPK else if v =? 4 then M_LS3 else if v <? 8 then M_IM3
  else if v <? 16 then M_LS4 else if v <? 0x100 then M_IM8 else M_IM13.
(* asm_tms32010.cpp:81-139 encodeOperand *)
Definition SST : Z := 0x7C00.
Definition encodeOperand (cpuType : Z) (op : operand) (mode : Z) (i : ainsn) : ainsn :=
  let i := ai_setErrorIf (o_err op) i in
  let v := getUnsigned (o_val op) in
  if mode =? M_MAM then
    if o_mode op =? M_ARP then ai_embed 0x88 i
    else if o_mode op =? M_INC then ai_embed 0xA8 i
    else if o_mode op =? M_DEC then ai_embed 0x98 i
    else
      let i := if dataMemoryLimit cpuType <? v then ai_setErrorIf OVERFLOW_RANGE i else i in
      let i := if (ai_opc i =? SST) && (v <? 0x80) then ai_setErrorIf OVERFLOW_RANGE i else i in
      ai_embed (Z.land v 0x7F) i
  else if (mode =? M_LS3) || (mode =? M_LS4) || (mode =? M_PA) then ai_embed (Z.shiftl v 8) i
  else if mode =? M_NARP then
    if o_mode op =? M_NONE then i else ai_embed v (ai_setopc (Z.land (ai_opc i) (Z.lnot 8)) i)
  else if mode =? M_AR then ai_embed (Z.shiftl v 8) i
  else if (mode =? M_ARK) || (mode =? M_DPK) || (mode =? M_IM8) then ai_embed v i
  else if mode =? M_IM13 then
    let i := if overflow (o_val op) 0x0FFF (-0x1000) then ai_setErrorIf OVERFLOW_RANGE i else i in
    ai_embed (Z.land v 0x1FFF) i
  else if mode =? M_PMA then
    let i := if overflow (o_val op) 0x0FFF 0 then ai_setErrorIf OVERFLOW_RANGE i else i in
    ai_emitOperand16 (Z.land v 0x0FFF) i
  else i.

(* asm_tms32010.cpp:141-177 parseOperand: the error returned, the operand (with its error) and the new scanner *)
Definition parseOperand (a : asm) (loc : Z) (scan : text) : res (err * operand * text) :=
  let scan := skipSpaces scan in          (* scan.skipSpaces() moves the scanner itself *)
  let '(eol, p) := p_eol (a_pl a) scan in
  if eol then Val (OK, no_operand, scan)
  else
    match expect_char 42 p with
    | Some p =>
      match expect_char 43 p with
      | Some p => Val (OK, mkOp M_INC v_undef OK, p)
      | None =>
        match expect_char 45 p with
        | Some p => Val (OK, mkOp M_DEC v_undef OK, p)
        | None => Val (OK, mkOp M_ARP v_undef OK, p)
        end
      end
    | None =>
      match parseRegName p with
      | Some (R_AR n, t) => Val (OK, mkOp M_AR (setUnsigned n) OK, t)
      | Some (R_PA n, t) => Val (OK, mkOp M_PA (setUnsigned n) OK, t)
      | None =>
        bind (parseInteger a loc p OK 0) (fun '(v, e, t) =>
          if hasError e then Val (e, mkOp M_NONE v e, scan)
          else Val (OK, mkOp (constantType (getUnsigned v)) v e, t))
      end
    end.
(* asm_tms32010.cpp:181-192: the operands *)
Inductive operands := Bad (e : err) (scan : text) | Three (o1 o2 o3 : operand) (scan : text).
Definition parseMore (a : asm) (loc : Z) (scan : text) : res (err * operand * text) :=
  match expect_char 44 scan with
  | Some scan => bind (parseOperand a loc scan) (fun '(e, o, scan) =>
      if negb (isOK e) && hasError (o_err o) then Val (e, o, scan) else Val (OK, o, skipSpaces scan))
  | None => Val (OK, no_operand, scan)
  end.
Definition parseOperands (a : asm) (loc : Z) (scan : text) : res operands :=
  bind (parseOperand a loc scan) (fun '(e1, o1, scan) =>
    if negb (isOK e1) && hasError (o_err o1) then Val (Bad (o_err o1) scan)
    else
      bind (parseMore a loc (skipSpaces scan)) (fun '(e2, o2, scan) =>
        if negb (isOK e2) then Val (Bad (o_err o2) scan)
        else
          bind (parseMore a loc scan) (fun '(e3, o3, scan) =>
            if negb (isOK e3) then Val (Bad (o_err o3) scan) else Val (Three o1 o2 o3 scan)))).
(* asm_tms32010.cpp:179-202 encodeImpl *)
Definition tms32010_encodeImpl (a : asm) (cpuType : Z) (loc : Z) (name scan : text) (i : insn) : res (insn * text) :=
  bind (parseOperands a loc scan) (fun ops =>
    match ops with
    | Bad e scan => Val (i_seterr e i, scan)
    | Three o1 o2 o3 scan =>
      bind (tms32010_searchName cpuType name (o_mode o1) (o_mode o2) (o_mode o3)) (fun '(e, found) =>
        let err := setErrorIfAt (i_err i) e in
        if negb (isOK err) then Val (i_seterr err i, scan)
        else
          match found with
          | None => Val (i, scan)                  (* not reached: an error has been returned *)
          | Some e =>
            let ai := encodeOperand cpuType o1 (e_m1 e) (mkAI i OK (e_opc e)) in
            let ai := encodeOperand cpuType o2 (e_m2 e) ai in
            let ai := encodeOperand cpuType o3 (e_m3 e) ai in
            let ai := ai_emitInsn ai in
            Val (i_seterr (setErrorIfAt err (ai_err ai)) (ai_insn ai), scan)
          end)
    end).

(* asm_tms32010.cpp:32-42, asm_base.cpp: the directives; there are no special ones *)
Definition tms32010_directives : list name_table := [d_tms32010_PSEUDOS; d_base_PSEUDOS].
(* what the driver's symbol tables and the options give; 12-bit addresses of words, little endian
   (config_tms32010.h:30-31) *)
Definition tms32010_asm (symbol : text -> option value) (function : text -> option functor) (radix : Z) : asm :=
  mkA pl_tms32010 symbol function radix 12 2 false.
(* asm_base.cpp:79-103 encode of a line, at the address [addr], which is the current location *)
Definition tms32010_encode (a : asm) (cpuType : Z) (line : text) (addr : Z) : res M_Asm.line :=
  asm_encode a [] tms32010_directives (tms32010_encodeImpl a cpuType addr) line (new_insn addr).

(* ------------------------------------------------------------ disassembler *)
Definition bit (n opc : Z) : bool := negb (Z.land opc (2^n) =? 0).
(* dis_tms32010.cpp:44-56 outDirect *)
Definition outDirect (d : disasm) (cpuType opc : Z) (s : M_Dis.dstate) : res M_Dis.dstate :=
  let dma := Z.land opc 0x7F in
  if Z.shiftr opc 8 =? 0x7C then
    let dma := Z.lor dma 0x80 in
    let s := if dataMemoryLimit cpuType <? dma then t_setErrorIf OVERFLOW_RANGE s else s in
    t_print (outAbsAddr d dma 8) s
  else t_print (outAbsAddr d dma 8) s.
(* dis_tms32010.cpp:58-65 outIndirect *)
Definition outIndirect (opc : Z) (out : sbuf) : sbuf :=
  let out := letter 42 out in
  if bit 5 opc then letter 43 out else if bit 4 opc then letter 45 out else out.
(* dis_tms32010.cpp:67-73 outNextArp *)
Definition outNextArp (opc : Z) (out : sbuf) : sbuf :=
  if bit 7 opc && negb (bit 3 opc) then outRegName (R_AR (if bit 0 opc then 1 else 0)) (comma out) else out.
(* dis_tms32010.cpp:75-83 outShiftCount *)
Definition outShiftCount (d : disasm) (count opc : Z) (s : M_Dis.dstate) : res M_Dis.dstate :=
  if negb (count =? 0) || (bit 7 opc && negb (bit 3 opc)) then t_print (dis_outDec d count 4) (t_put comma s)
  else Val s.
(* dis_tms32010.cpp:85-90 outProgramAddress; addresses have 12 bits *)
Definition outProgramAddress (d : disasm) (s : M_Dis.dstate) : res M_Dis.dstate :=
  let '(pma, s) := t_uint16Le s in
  let s := t_setErrorIf (checkAddr 12 pma false) s in
  t_print (outAbsAddr d pma (if isOK (d_err (t_in s)) then 0 else 16)) s.
(* dis_tms32010.cpp:92-137 decodeOperand *)
Definition decodeOperand (d : disasm) (cpuType opc mode : Z) (s : M_Dis.dstate) : res M_Dis.dstate :=
  if mode =? M_MAM then
    if bit 7 opc then Val (t_put (outIndirect opc) s) else outDirect d cpuType opc s
  else if mode =? M_NARP then Val (t_put (outNextArp opc) s)
  else if mode =? M_LS4 then outShiftCount d (Z.land (Z.shiftr opc 8) 0xF) opc s
  else if (mode =? M_LS3) || (mode =? M_LS0) then outShiftCount d (Z.land (Z.shiftr opc 8) 7) opc s
  else if mode =? M_AR then Val (t_put (outRegName (R_AR (if bit 8 opc then 1 else 0))) s)
  else if mode =? M_PA then Val (t_put (outRegName (R_PA (Z.land (Z.shiftr opc 8) 7))) s)
  else if mode =? M_ARK then Val (t_put (outRegName (R_AR (if bit 0 opc then 1 else 0))) s)
  else if mode =? M_DPK then Val (t_put (letter (if bit 0 opc then 49 else 48)) s)
  else if mode =? M_IM8 then t_print (dis_outDec d (opc mod 2^8) 8) s
  else if mode =? M_IM13 then
    match signExtend opc 13 with
    | None => UB                                    (* not reached: the width is 13 *)
    | Some v => t_print (dis_outDec d (u32 v) (-13)) s
    end
  else if mode =? M_PMA then outProgramAddress d s
  else Val s.
(* dis_tms32010.cpp:139-156 decodeImpl; searchOpCode starts with insn.setOK() *)
Definition silent (mode : Z) : bool := (mode =? M_LS4) || (mode =? M_LS3) || (mode =? M_LS0) || (mode =? M_NARP).
Definition decode_opcode (d : disasm) (cpuType opc : Z) (s : M_Dis.dstate) : res M_Dis.dstate :=
  let s := t_seterr OK s in
  bind (tms32010_searchOpCode cpuType opc) (fun r =>
    match r with
    | None => Val (t_setErrorIf UNKNOWN_INSTRUCTION s)
    | Some e =>
      let s := t_readName (entry_name e) s in
      bind (decodeOperand d cpuType opc (e_m1 e) s) (fun s =>
        if e_m2 e =? M_NONE then Val s
        else
          let s := if silent (e_m2 e) then s else t_put comma s in
          bind (decodeOperand d cpuType opc (e_m2 e) s) (fun s =>
            if e_m3 e =? M_NONE then Val s else decodeOperand d cpuType opc (e_m3 e) s))
    end).
Definition tms32010_decodeImpl (d : disasm) (cpuType : Z) (s : M_Dis.dstate) : res M_Dis.dstate :=
  let '(opc, s) := t_uint16Le s in decode_opcode d cpuType opc s.

(* dis_tms32010.cpp:29-42: its own number notation unless the options say otherwise; 12-bit addresses *)
Definition tms32010_dis (upperhex uppercase octal relative cstyle intelhex : bool) (cursym : Z)
    (symtab : option (value -> option text)) : disasm :=
  mkDA fp_tms32010 upperhex uppercase octal relative cstyle intelhex cursym symtab 12.
(* dis_base.cpp:138-150 decode *)
Definition tms32010_decode (d : disasm) (cpuType : Z) (mem : list Z) (addr size : Z) : res decoded :=
  dis_decode d (tms32010_decodeImpl d cpuType) mem addr size.
