(** Model of the assembler and disassembler of the 6502 family (6502, 65SC02, 65C02, W65C02S, 65816):
    src/asm_mos6502.cpp, src/dis_mos6502.cpp, src/reg_mos6502.cpp, src/table_mos6502.cpp,
    src/insn_mos6502.h.  The tables are T_Mos6502.v.
    Simplification: where in the line an error is reported is not modelled; how the directives LONGA
    and LONGI read their operand is not modelled, what they set is. *)
From Coq Require Import String ZArith List Bool.
From Verif Require Import M_Char M_Error M_Value M_Text M_StrBuffer M_Format M_Insn M_Config M_Operators M_Parsers
  M_Expr M_Directive M_Table T_Tables M_Asm M_Dis M_Mos6502Defs T_Mos6502.
Import ListNotations.
Open Scope string_scope.
Open Scope list_scope.
Local Open Scope Z_scope.

Definition u8 (z : Z) : Z := z mod 2^8.
Definition u16 (z : Z) : Z := z mod 2^16.

(* ------------------------------------------------------------ registers *)
Definition name_text (r : string * Z) : text := s2l (fst r).
(* reg_mos6502.cpp:45-48 parseRegName *)
Definition parseRegName (s : text) : res (Z * text) :=
  bind (searchText name_text s REG_ENTRIES) (fun '(k, t) =>
    match k with
    | Some k => bind (item_at REG_ENTRIES k) (fun r => Val (snd r, t))
    | None => Val (REG_UNDEF, t)
    end).
(* reg_base.cpp:59-61 searchName; [None] is nullptr *)
Definition name_of (n : Z) (entries : list (string * Z)) : option text :=
  match searchByNumber snd n entries with
  | Some k => match nth_error entries k with Some r => Some (name_text r) | None => None end
  | None => None
  end.
(* reg_mos6502.cpp:50-53 outRegName *)
Definition outRegName (n : Z) (out : sbuf) : sbuf :=
  match name_of n REG_ENTRIES with
  | Some t => out_text t out
  | None => out
  end.

(* ------------------------------------------------------------ the object *)
(* config_mos6502.h:36-40 bankModel, addressWidth *)
Definition bankModel (cpuType : Z) : bool := cpuType =? W65C816.
Definition addressWidth (cpuType : Z) : Z := if bankModel cpuType then 24 else 16.
(* asm_mos6502.h:35-42: the state of the assembler that outlives a line *)
Record state := mkState { st_cpu : Z; st_longa : bool; st_longi : bool }.
(* asm_mos6502.cpp:61-73: the constructor, reset *)
Definition initial_state : state := mkState MOS6502 false false.
(* asm_base.cpp:140-142 setCpu, config_base.h:182 setCpuType *)
Definition setCpuType (cpuType : Z) (st : state) : state := mkState cpuType (st_longa st) (st_longi st).
(* asm_mos6502.cpp:75-81 setLongAccumulator *)
Definition setLongAccumulator (enable : bool) (st : state) : err * state :=
  if st_cpu st =? W65C816 then (OK, mkState (st_cpu st) enable (st_longi st))
  else (if enable then OPERAND_NOT_ALLOWED else OK, mkState (st_cpu st) false (st_longi st)).
(* asm_mos6502.cpp:83-89 setLongIndex *)
Definition setLongIndex (enable : bool) (st : state) : err * state :=
  if st_cpu st =? W65C816 then (OK, mkState (st_cpu st) (st_longa st) enable)
  else (if enable then OPERAND_NOT_ALLOWED else OK, mkState (st_cpu st) (st_longa st) false).

(* ------------------------------------------------------------ table *)
(* table_mos6502.cpp:712-714 cpu, entry_table.h:89-97; a missing entry would be a null pointer *)
Definition cpu_pages (cpuType : Z) : res (list epage) :=
  match cpu_by_type (fun c => fst (fst c)) cpuType CPU_TABLE with
  | Some k => bind (item_at CPU_TABLE k) (fun c => Val (snd c))
  | None => UB
  end.
(* entry_table.h:140-170 searchName with a test of the operands *)
Definition search_entry (cpuType : Z) (name : text) (accept : entry -> bool) : res (err * option entry) :=
  bind (cpu_pages cpuType) (fun pages =>
    bind (searchName entry_name name (fun _ => accept) pages) (fun r =>
      match r with
      | Miss e => Val (e, None)
      | Hit pg i =>
        bind (item_at pages pg) (fun p => bind (item_at (p_items p) i) (fun e => Val (OK, Some e)))
      end)).
(* table_mos6502.cpp:716-723 acceptAll, hasOperand *)
Definition hasOperand (cpuType : Z) (name : text) : res bool :=
  bind (search_entry cpuType name (fun _ => true)) (fun '(_, found) =>
    Val (match found with Some e => negb (e_m1 e =? M_NONE) | None => false end)).
(* table_mos6502.cpp:725-742 acceptMode *)
Definition acceptMode (opr table : Z) : bool :=
  if opr =? table then true
  else if opr =? M_IMA then (table =? M_IMX) || (table =? M_IM8)
  else if opr =? M_DPG then (table =? M_ABS) || (table =? M_REL) || (table =? M_ABSL) || (table =? M_LREL) || (table =? M_BANK)
  else if opr =? M_ABS then (table =? M_REL) || (table =? M_ABSL) || (table =? M_LREL) || (table =? M_BANK)
  else if opr =? M_ABSL then (table =? M_REL) || (table =? M_LREL) || (table =? M_BANK)
  else if opr =? I_DPG then table =? I_ABS
  else if opr =? L_DPG then table =? L_ABS
  else false.
(* table_mos6502.cpp:744-748 acceptModes *)
Definition acceptModes (m1 m2 m3 : Z) (e : entry) : bool :=
  acceptMode m1 (e_m1 e) && acceptMode m2 (e_m2 e) && acceptMode m3 (e_m3 e).
(* table_mos6502.cpp:750-753 searchName *)
Definition mos6502_searchName (cpuType : Z) (name : text) (m1 m2 m3 : Z) : res (err * option entry) :=
  search_entry cpuType name (acceptModes m1 m2 m3).
(* table_mos6502.cpp:755-763 matchOpCode *)
Definition matchOpCode (allowIndirectLong : bool) (opc : Z) (e : entry) : bool :=
  if negb (opc =? e_opc e) || (e_opc e =? WDM) then false
  else if (e_m1 e =? L_ABS) || (e_m1 e =? L_DPG) then allowIndirectLong
  else true.
(* table_mos6502.cpp:765-768 searchOpCode, entry_table.h:189-226 *)
Definition find_opcode (allow : bool) (cpuType opc : Z) : res (option entry) :=
  bind (cpu_pages cpuType) (fun pages =>
    match searchOpCode (fun _ => true) (fun _ => matchOpCode allow opc) pages with
    | Miss _ => Val None
    | Hit pg i => bind (item_at pages pg) (fun p => bind (item_at (p_items p) i) (fun e => Val (Some e)))
    end).

(* ------------------------------------------------------------ assembler *)
(* insn_mos6502.h:39-47 Operand *)
Record operand := mkOp { o_mode : Z; o_val : value; o_err : err }.
Definition no_operand : operand := mkOp M_NONE v_undef OK.
(* insn_mos6502.h:44-47 embed *)
Definition embedFlags (flags mode : Z) : Z := Z.lor (indirectFlags flags) (baseMode mode).
(* insn_mos6502.h:49-64 AsmInsn *)
Record ainsn := mkAI { ai_insn : insn; ai_err : err; ai_opc : Z }.
Definition ai_setErrorIf (e : err) (i : ainsn) : ainsn := mkAI (ai_insn i) (setErrorIfAt (ai_err i) e) (ai_opc i).
Definition ai_seterr (e : err) (i : ainsn) : ainsn := mkAI (ai_insn i) e (ai_opc i).
Definition ai_setopc (v : Z) (i : ainsn) : ainsn := mkAI (ai_insn i) (ai_err i) v.
Definition ai_set (i : insn) (a : ainsn) : ainsn := mkAI i (ai_err a) (ai_opc a).
(* insn_mos6502.h:59-62 operandPos *)
Definition ai_operandPos (i : ainsn) : Z := let pos := i_len (ai_insn i) in if pos =? 0 then 1 else pos.
(* insn_mos6502.h:55-56 emitOperand8, emitOperand16; what they return is ignored; little endian
   (config_mos6502.h:33) *)
Definition ai_emitOperand8 (v : Z) (i : ainsn) : ainsn :=
  ai_set (snd (emitByte_at (u8 v) (ai_operandPos i) (ai_insn i))) i.
Definition ai_emitOperand16 (v : Z) (i : ainsn) : ainsn :=
  ai_set (snd (emitUint16Le_at (u16 v) (ai_operandPos i) (ai_insn i))) i.
(* insn_mos6502.h:54 emitInsn *)
Definition ai_emitInsn (i : ainsn) : ainsn := ai_set (snd (emitByte_at (ai_opc i) 0 (ai_insn i))) i.

(* asm_mos6502.cpp:97-98 *)
Definition BRA : Z := 0x80.
Definition BRL : Z := 0x82.
(* asm_mos6502.cpp:100-103 maySmartBranch *)
Definition maySmartBranch (cpuType : Z) (i : ainsn) : bool :=
  (cpuType =? W65C816) && ((ai_opc i =? BRA) || (ai_opc i =? BRL)).
(* asm_mos6502.cpp:120-121, 135-136 *)
Definition checkBank (cpuType target : Z) (i : ainsn) : ainsn :=
  if bankModel cpuType then ai_setErrorIf (checkAddr_in (addressWidth cpuType) target (i_addr (ai_insn i)) 16 false) i else i.
(* asm_mos6502.cpp:124-129 short_branch *)
Definition short_branch (cpuType base target : Z) (i : ainsn) : res ainsn :=
  match branchDelta (addressWidth cpuType) base target (ai_err i) with
  | None => UB
  | Some (delta, e) =>
    match overflowDelta delta 8 with
    | None => UB
    | Some far =>
      let i := ai_seterr e i in
      let i := if far then ai_setErrorIf OPERAND_TOO_FAR i else i in
      Val (ai_emitOperand8 delta i)
    end
  end.
(* asm_mos6502.cpp:132-139 long_branch *)
Definition long_branch (cpuType : Z) (op : operand) (i : ainsn) : res ainsn :=
  let base := u32 (i_addr (ai_insn i) + 3) in
  let target := if negb (isOK (o_err op)) then base else getUnsigned (o_val op) in
  let i := checkBank cpuType target i in
  match branchDelta (addressWidth cpuType) base target (ai_err i) with
  | None => UB
  | Some (delta, e) => Val (ai_emitOperand16 delta (ai_seterr e i))
  end.
(* asm_mos6502.cpp:116-148 encodeRelative *)
Definition encodeRelative (cpuType : Z) (smart : bool) (mode : Z) (op : operand) (i : ainsn) : res ainsn :=
  let len := i_len (ai_insn i) in
  let base := u32 (i_addr (ai_insn i) + (if len =? 0 then 1 else len) + 1) in
  let target := if negb (isOK (o_err op)) then base else getUnsigned (o_val op) in
  let i := checkBank cpuType target i in
  let smart := smart && maySmartBranch cpuType i in
  if (mode =? M_REL) && negb smart then short_branch cpuType base target i
  else if (mode =? M_LREL) && negb smart then long_branch cpuType op i
  else
    match branchDelta (addressWidth cpuType) base target (ai_err i) with
    | None => UB
    | Some (delta, e) =>
      match overflowDelta delta 8 with
      | None => UB
      | Some far =>
        let i := ai_seterr e i in
        if negb (isOK (o_err op)) || far then long_branch cpuType op (ai_seterr (o_err op) (ai_setopc BRL i))
        else short_branch cpuType base target (ai_setopc BRA i)
      end
    end.
(* asm_mos6502.cpp:150-160 emitImmediate *)
Definition emitImmediate (op : operand) (imm16 : bool) (i : ainsn) : ainsn :=
  if imm16 then
    let i := if overflowUint16 (o_val op) then ai_setErrorIf OVERFLOW_RANGE i else i in
    ai_emitOperand16 (getUnsigned (o_val op)) i
  else
    let i := if overflowUint8 (o_val op) then ai_setErrorIf OVERFLOW_RANGE i else i in
    ai_emitOperand8 (getUnsigned (o_val op)) i.
(* asm_mos6502.cpp:162-196 encodeOperand *)
Definition encodeOperand (st : state) (smart : bool) (modeAndFlags : Z) (op : operand) (i : ainsn) : res ainsn :=
  let mode := baseMode modeAndFlags in
  if mode =? M_IMA then Val (emitImmediate op (st_longa st) i)
  else if mode =? M_IMX then Val (emitImmediate op (st_longi st) i)
  else if mode =? M_ABS then
    Val (emitImmediate op true (if overflowUint16 (o_val op) then ai_setErrorIf OVERFLOW_RANGE i else i))
  else if mode =? M_ABSL then
    let v := getUnsigned (o_val op) in
    let i := if negb (isOK (checkAddr (addressWidth (st_cpu st)) v false)) then ai_setErrorIf OVERFLOW_RANGE i else i in
    Val (ai_emitOperand8 (Z.shiftr v 16) (ai_emitOperand16 v i))
  else if mode =? M_DPG then
    Val (emitImmediate op false (if overflowUint8 (o_val op) then ai_setErrorIf OVERFLOW_RANGE i else i))
  else if mode =? M_IM8 then Val (emitImmediate op false i)
  else if (mode =? M_REL) || (mode =? M_LREL) then encodeRelative (st_cpu st) smart mode op i
  else Val i.
(* asm_mos6502.cpp:198-214 selectMode, with the modes parseOperand gives it *)
Definition selectMode (size : Z) (v : value) (e : err) : Z :=
  if size =? 125 then M_ABSL
  else if size =? 62 then M_ABS
  else if size =? 60 then M_DPG
  else if overflow v 65535 0 && isOK e then M_ABSL
  else if overflow v 255 0 then M_ABS else M_DPG.
(* asm_mos6502.cpp:218-229 regName2AddrMode *)
Definition regName2AddrMode (reg : Z) : Z :=
  if reg =? REG_X then M_REGX else if reg =? REG_Y then M_REGY else if reg =? REG_S then M_REGS else M_REGA.
(* asm_mos6502.cpp:233-248 parseOpenIndirect: the scanner, the mode and [indirect]; [None] is an error *)
Definition parseOpenIndirect (scan : text) (indir : Z) : option (text * Z * Z) :=
  match expect_char 40 scan with
  | Some t => if negb (indir =? 0) then None else Some (t, I_FLAG, 41)
  | None =>
    match expect_char 91 scan with
    | Some t => if negb (indir =? 0) then None else Some (t, L_FLAG, 93)
    | None => Some (scan, if indir =? 0 then M_NONE else if indir =? 41 then I_FLAG else L_FLAG, indir)
    end
  end.
(* asm_mos6502.cpp:250-261 parseCloseIndirect: the scanner and [indirect]; [None] is an error *)
Definition parseCloseIndirect (scan : text) (indir : Z) : option (text * Z) :=
  let scan := skipSpaces scan in
  match expect_char 41 scan with
  | Some t => if negb (indir =? 41) then None else Some (t, 0)
  | None =>
    match expect_char 93 scan with
    | Some t => if negb (indir =? 93) then None else Some (t, 0)
    | None => Some (scan, indir)
    end
  end.
(* asm_mos6502.cpp:265-274 parseSizeOverride *)
Definition parseSizeOverride (p : text) : Z * text :=
  match expect_char 60 p with
  | Some p => (60, p)
  | None =>
    match expect_char 62 p with
    | Some p => match expect_char 62 p with Some p => (125, p) | None => (62, p) end
    | None => (0, p)
    end
  end.
(* asm_mos6502.cpp:278-318 parseOperand: the operand (with its error), the new scanner and
   [indirect]; the error returned is OK or that of the operand *)
Definition parseOperand (a : asm) (loc : Z) (scan : text) (indir : Z) : res (operand * text * Z) :=
  let scan := skipSpaces scan in              (* scan.skipSpaces() moves the scanner itself *)
  if fst (p_eol (a_pl a) scan) then Val (no_operand, scan, indir)
  else
    match expect_char 35 scan with
    | Some p =>
      let '(bop, p) :=
        match expect_char 60 p with
        | Some p => (60, p)
        | None => match expect_char 62 p with Some p => (62, p) | None => (0, p) end
        end in
      bind (parseInteger a loc p OK 0) (fun '(v, e, p) =>
        if hasError e then Val (mkOp M_NONE v e, scan, indir)
        else
          let v := if bop =? 60 then setUnsigned (Z.land (getUnsigned v) 0xFF) else v in
          let v := if bop =? 62 then setUnsigned (Z.land (Z.shiftr (getUnsigned v) 8) 0xFF) else v in
          Val (mkOp M_IMA v e, p, indir))
    | None =>
      match parseOpenIndirect scan indir with
      | None => Val (mkOp M_NONE v_undef UNKNOWN_OPERAND, scan, indir)
      | Some (p, flags, indir) =>
        bind (parseRegName (skipSpaces p)) (fun '(reg, p) =>
          let close (op : operand) p :=
            let op := mkOp (embedFlags flags (o_mode op)) (o_val op) (o_err op) in
            if indir =? 0 then Val (op, p, indir)
            else
              match parseCloseIndirect p indir with
              | None => Val (mkOp (o_mode op) (o_val op) UNKNOWN_OPERAND, scan, indir)
              | Some (p, indir) => Val (op, p, indir)
              end in
          if negb (reg =? REG_UNDEF) then close (mkOp (regName2AddrMode reg) v_undef OK) p
          else
            let '(size, p) := parseSizeOverride p in
            bind (parseInteger a loc p OK indir) (fun '(v, e, p) =>
              if hasError e then Val (mkOp flags v e, scan, indir)
              else close (mkOp (selectMode size v e) v e) p))
      end
    end.

(* asm_mos6502.cpp:348-363: the operands; [Bad]: an error and the scanner *)
Inductive operands := Bad (e : err) (scan : text) | Three (o1 o2 o3 : operand) (scan : text).
Definition parseOperands (a : asm) (loc : Z) (scan : text) : res operands :=
  bind (parseOperand a loc scan 0) (fun '(o1, scan, indir) =>
    if hasError (o_err o1) then Val (Bad (o_err o1) scan)
    else
      let more scan indir :=
        let scan := skipSpaces scan in
        match expect_char 44 scan with
        | Some scan => parseOperand a loc scan indir
        | None => Val (no_operand, scan, indir)
        end in
      bind (more scan indir) (fun '(o2, scan, indir) =>
        if hasError (o_err o2) then Val (Bad (o_err o2) scan)
        else if negb (indir =? 0) then
          Val (Bad (if indir =? 40 then MISSING_CLOSING_PAREN else MISSING_CLOSING_BRACKET) scan)
        else
          bind (more scan indir) (fun '(o3, scan, indir) =>
            if hasError (o_err o3) then Val (Bad (o_err o3) scan)
            else Val (Three o1 o2 o3 scan)))).
(* asm_mos6502.cpp:335-338 hasRegister *)
Definition hasRegister (mode : Z) : bool := (M_REGA <=? baseMode mode) && (baseMode mode <=? M_REGS).
(* asm_mos6502.cpp:366-376: the error of an instruction that was not found *)
Definition notFound (cpuType m1 m2 m3 : Z) (e : err) : err :=
  if err_eqb e OPERAND_NOT_ALLOWED &&
     (hasRegister m1 || (hasRegister m2 && negb ((cpuType =? W65C816) && hasRegister m3)) || hasRegister m3)
  then REGISTER_NOT_ALLOWED else e.
(* asm_mos6502.cpp:346-390 encodeImpl *)
Definition mos6502_encodeImpl (st : state) (smart : bool) (a : asm) (loc : Z) (name scan : text) (i : insn) : res (insn * text) :=
  bind (hasOperand (st_cpu st) name) (fun has =>
    bind (if has then parseOperands a loc scan else Val (Three no_operand no_operand no_operand scan)) (fun ops =>
      match ops with
      | Bad e scan => Val (i_seterr e i, scan)
      | Three o1 o2 o3 scan =>
        let scan := skipSpaces scan in
        bind (mos6502_searchName (st_cpu st) name (o_mode o1) (o_mode o2) (o_mode o3)) (fun '(e, found) =>
          if negb (isOK e) then Val (i_seterr (notFound (st_cpu st) (o_mode o1) (o_mode o2) (o_mode o3) e) i, scan)
          else
            match found with
            | None => Val (i, scan)                  (* not reached: an error has been returned *)
            | Some e =>
              let ai := ai_setErrorIf (o_err o2) (ai_setErrorIf (o_err o1) (mkAI i OK (e_opc e))) in
              bind (if (e_m1 e =? M_BANK) && (e_m2 e =? M_BANK) then
                      Val (ai_emitOperand8 (Z.shiftr (getUnsigned (o_val o1)) 16)
                             (ai_emitOperand8 (Z.shiftr (getUnsigned (o_val o2)) 16) ai))
                    else
                      bind (encodeOperand st smart (e_m1 e) o1 ai) (fun ai => encodeOperand st smart (e_m2 e) o2 ai)) (fun ai =>
                let ai := ai_emitInsn ai in
                Val (i_seterr (ai_err ai) (ai_insn ai), scan))
            end)
      end)).

(* asm_mos6502.cpp:36-47, asm_base.cpp: the directives *)
Definition mos6502_directives : list name_table := [d_mos6502_PSEUDOS; d_base_PSEUDOS].
(* asm_mos6502.cpp:320-331 processPseudo, text_mos6502.cpp: those it handles itself *)
Definition mos6502_specials : list text := [s2l "longa"; s2l "longi"].
(* what the driver's symbol tables and the options give; bytes, little endian (config_mos6502.h:33) *)
Definition mos6502_asm (cpuType : Z) (symbol : text -> option value) (function : text -> option functor) (radix : Z) : asm :=
  mkA pl_mos6502 symbol function radix (addressWidth cpuType) 1 false.
(* asm_base.cpp:79-103 encode of a line, at the address [addr], which is the current location *)
Definition mos6502_encode (st : state) (smart : bool) (a : asm) (line : text) (addr : Z) : res M_Asm.line :=
  asm_encode a mos6502_specials mos6502_directives (mos6502_encodeImpl st smart a addr) line (new_insn addr).

(* ------------------------------------------------------------ disassembler *)
(* dis_mos6502.h: the options of the disassembler *)
Record options := mkOpt { op_longa : bool; op_longi : bool; op_indirectLong : bool }.
(* dis_mos6502.cpp:87-95 longImmediate *)
Definition longImmediate (cpuType : Z) (o : options) (mode : Z) : bool :=
  if cpuType =? W65C816 then
    if mode =? M_IMA then op_longa o else if mode =? M_IMX then op_longi o else false
  else false.
(* dis_mos6502.cpp:97-102 decodeImmediate *)
Definition decodeImmediate (d : disasm) (imm16 : bool) (s : M_Dis.dstate) : res M_Dis.dstate :=
  let s := t_put (letter 35) s in
  let '(v, s) := if imm16 then t_uint16Le s else t_byte s in
  t_print (dis_outHex d v (if imm16 then 16 else 8) true) s.
(* dis_mos6502.cpp:104-122 decodeAbsoluteLong *)
Definition decodeAbsoluteLong (d : disasm) (opc : Z) (s : M_Dis.dstate) : res M_Dis.dstate :=
  let '(low, s) := t_uint16Le s in
  let '(bank, s) := t_byte s in
  let target := Z.lor low (Z.shiftl bank 16) in
  let s := t_setErrorIf (checkAddr (da_aw d) target false) s in
  if opc =? JSL then t_print (outAbsAddr d target 0) s
  else
    bind (da_lookup d target 0) (fun label =>
      match label with
      | Some l => Val (t_put (fun out => out_rtext l (letter 62 (letter 62 out))) s)
      | None =>
        t_print (outAbsAddr d target 0) (if target <? 0x10000 then t_put (fun out => letter 62 (letter 62 out)) s else s)
      end).
(* dis_mos6502.cpp:124-134 decodeAbsolute *)
Definition decodeAbsolute (d : disasm) (s : M_Dis.dstate) : res M_Dis.dstate :=
  let '(addr, s) := t_uint16Le s in
  bind (da_lookup d addr 0) (fun label =>
    match label with
    | Some l => Val (t_put (fun out => out_rtext l (letter 62 out)) s)
    | None => t_print (outAbsAddr d addr 16) (if addr <? 0x100 then t_put (letter 62) s else s)
    end).
(* dis_mos6502.cpp:136-144 decodeDirectPage *)
Definition decodeDirectPage (d : disasm) (s : M_Dis.dstate) : res M_Dis.dstate :=
  let '(zp, s) := t_byte s in
  bind (da_lookup d zp 0) (fun label =>
    match label with
    | Some l => Val (t_put (fun out => out_rtext l (letter 60 out)) s)
    | None => t_print (outAbsAddr d zp 8) s
    end).
Definition int16 (x : Z) : Z := (x + 32768) mod 65536 - 32768.
(* dis_mos6502.cpp:152-163 decodeRelative *)
Definition decodeRelative (d : disasm) (cpuType mode : Z) (s : M_Dis.dstate) : res M_Dis.dstate :=
  let '(delta, s) := if mode =? M_LREL then let '(v, s) := t_uint16Le s in (int16 v, s)
                     else let '(v, s) := t_byte s in (int8 v, s) in
  let insn := d_insn (t_in s) in
  let base := u32 (i_addr insn + i_len insn) in
  let target := u32 (base + delta) in
  let e := if bankModel cpuType then checkAddr_in (da_aw d) target (i_addr insn) 16 false else checkAddr (da_aw d) target false in
  t_print (outRelAddr d target (i_addr insn) (if mode =? M_REL then 8 else 16)) (t_setErrorIf e s).
(* dis_mos6502.cpp:165-175 decodeBlockMove *)
Definition decodeBlockMove (d : disasm) (s : M_Dis.dstate) : res M_Dis.dstate :=
  let '(dbank, s) := t_byte s in
  let dstError := d_err (t_in s) in
  let '(sbank, s) := t_byte s in
  bind (t_print (outAbsAddr d (Z.shiftl sbank 16) 0) s) (fun s =>
    let s := t_put comma s in
    let s := if negb (isOK dstError) then t_seterr dstError s else s in
    t_print (outAbsAddr d (Z.shiftl dbank 16) 0) s).
(* dis_mos6502.cpp:177-213 decodeOperand *)
Definition decodeOperand (d : disasm) (cpuType : Z) (o : options) (opc modeAndFlags : Z) (s : M_Dis.dstate) : res M_Dis.dstate :=
  let mode := baseMode modeAndFlags in
  if mode =? M_REGA then Val (t_put (outRegName REG_A) s)
  else if mode =? M_REGX then Val (t_put (outRegName REG_X) s)
  else if mode =? M_REGY then Val (t_put (outRegName REG_Y) s)
  else if mode =? M_REGS then Val (t_put (outRegName REG_S) s)
  else if (mode =? M_IMA) || (mode =? M_IMX) || (mode =? M_IM8) then decodeImmediate d (longImmediate cpuType o mode) s
  else if mode =? M_ABS then decodeAbsolute d s
  else if mode =? M_ABSL then decodeAbsoluteLong d opc s
  else if mode =? M_DPG then decodeDirectPage d s
  else if (mode =? M_REL) || (mode =? M_LREL) then decodeRelative d cpuType mode s
  else Val s.

(* dis_mos6502.cpp:215-258 decodeImpl, after the opcode has been read; searchOpCode starts with
   insn.setOK() *)
Definition put_if (b : bool) (c : Z) (s : M_Dis.dstate) : M_Dis.dstate := if b then t_put (letter c) s else s.
Definition decode_operands (d : disasm) (cpuType : Z) (o : options) (opc : Z) (e : entry) (s : M_Dis.dstate) : res M_Dis.dstate :=
  let m1 := e_m1 e in
  let m2 := e_m2 e in
  let m3 := e_m3 e in
  if m1 =? M_NONE then Val s
  else
    let s := put_if (longIndirect m1) 91 (put_if (indirect m1) 40 s) in
    bind (decodeOperand d cpuType o opc m1 s) (fun s =>
      let s := put_if (longIndirect m1 && negb (longIndirect m2)) 93 (put_if (indirect m1 && negb (indirect m2)) 41 s) in
      if m2 =? M_NONE then Val s
      else
        bind (decodeOperand d cpuType o opc m2 (t_put (letter 44) s)) (fun s =>
          let s := put_if (longIndirect m2) 93 (put_if (indirect m2) 41 s) in
          if m3 =? M_NONE then Val s
          else decodeOperand d cpuType o opc m3 (t_put (letter 44) s))).
Definition decode_opcode (d : disasm) (cpuType : Z) (o : options) (opc : Z) (s : M_Dis.dstate) : res M_Dis.dstate :=
  let s := t_seterr OK s in
  bind (find_opcode (op_indirectLong o) cpuType opc) (fun r =>
    match r with
    | None => Val (t_setErrorIf UNKNOWN_INSTRUCTION s)
    | Some e =>
      let s := t_readName (entry_name e) s in
      if (e_m1 e =? M_BANK) && (e_m2 e =? M_BANK) then decodeBlockMove d s
      else decode_operands d cpuType o opc e s
    end).
Definition mos6502_decodeImpl (d : disasm) (cpuType : Z) (o : options) (s : M_Dis.dstate) : res M_Dis.dstate :=
  let '(opc, s) := t_byte s in decode_opcode d cpuType o opc s.

(* dis_mos6502.cpp:38-45: Motorola hexadecimal numbers unless the options say otherwise *)
Definition mos6502_dis (cpuType : Z) (upperhex uppercase octal relative cstyle intelhex : bool) (cursym : Z)
    (symtab : option (value -> option text)) : disasm :=
  mkDA fp_mos6502 upperhex uppercase octal relative cstyle intelhex cursym symtab (addressWidth cpuType).
(* dis_base.cpp:138-150 decode *)
Definition mos6502_decode (d : disasm) (cpuType : Z) (o : options) (mem : list Z) (addr size : Z) : res decoded :=
  dis_decode d (mos6502_decodeImpl d cpuType o) mem addr size.
