(** Model of the disassembler's driver: driver/dis_driver.cpp disassemble and
    driver/dis_formatter.{h,cpp}, for any processor.
    Simplifications: the text of an error message is a parameter; the listing file of the
    disassembler is not modelled, only the output file (the source text). *)
From Coq Require Import String ZArith List Bool.
From Verif Require Import M_Char M_Error M_Value M_Text M_StrBuffer M_Format M_Insn M_Config M_Operators M_BinMemory M_Listing M_Dis.
Import ListNotations.
Open Scope string_scope.
Open Scope list_scope.
Local Open Scope Z_scope.

(* dis_base.cpp:138-150 decode, with what is left of the memory: DisMemory keeps its position *)
Definition dis_decode_from (d : disasm) (impl : dstate -> res dstate) (mem : list Z) (addr size : Z) : res (decoded * list Z) :=
  let i := new_insn addr in
  let e := checkAddr (da_aw d) addr false in
  if negb (isOK e) then Val (mkDec (i_seterr e i) [] [], mem)
  else
    bind (impl (mkDst (mkD i mem OK) [] (mkB [] (size - 1) OK (Some (da_uppercase d))))) (fun s =>
      let i := i_seterr (d_err (t_in s)) (d_insn (t_in s)) in
      let i := if isOK (i_err i) then i_seterr (b_err (t_out s)) i else i in
      Val (mkDec i (t_name s) (b_txt (t_out s)), d_mem (t_in s))).

(* what the driver uses of a disassembler *)
Record dops := mkDO {
  do_conf : lconf;                       (* config(): unit, opcode width, endian *)
  do_opts : lopts;                       (* listRadix, _upperHex *)
  do_dis : disasm;
  do_nameMax : Z;                        (* config().nameMax() *)
  do_cpu : text;                         (* config().cpu_P() *)
  do_comment : text;                     (* lineComment_P() *)
  do_impl : dstate -> res dstate;        (* decodeImpl *)
  do_message : err -> text               (* what formatError prints *)
}.
(* dis_formatter.h:62 _buffer[128]: _operands.capacity() when it is empty *)
Definition operands_capacity : Z := 127.
Definition do_decode (o : dops) (mem : list Z) (addr : Z) : res (decoded * list Z) :=
  dis_decode_from (do_dis o) (do_impl o) mem addr operands_capacity.
(* one decoded piece of memory *)
Record piece := mkPiece { pc_addr : Z; pc_dec : decoded }.

(* ------------------------------------------------------------ the loop *)
(* dis_driver.cpp:120-135: [mem] is what the reader still has, [size] its size at the start *)
Fixpoint dis_block (fuel : nat) (o : dops) (start size offset : Z) (mem : list Z) : res (list piece) :=
  match fuel with
  | O => FUEL
  | S fuel =>
    if offset <? size then
      let addr := u32 (start + offset / lc_unit (do_conf o)) in
      bind (do_decode o mem addr) (fun '(r, mem) =>
        bind (dis_block fuel o start size (u32 (offset + i_len (r_insn r))) mem) (fun ps => Val (mkPiece addr r :: ps)))
    else Val []
  end.
Definition block_start (o : dops) (b : block) : Z := b_base b / lc_unit (do_conf o).
(* dis_driver.cpp:112-136: for all blocks; a null or dangling pointer is [UB] *)
Fixpoint dis_blocks (fuel : nat) (o : dops) (bl : list block) : res (list (Z * list piece)) :=
  match bl with
  | [] => Val []
  | b :: bl' =>
    bind (dis_block fuel o (block_start o b) (u32 (dsize (b_data b))) 0 (b_data b)) (fun ps =>
      bind (dis_blocks fuel o bl') (fun l => Val ((block_start o b, ps) :: l)))
  end.
Definition dis_pieces (fuel : nat) (o : dops) (m : memory) : res (list (Z * list piece)) :=
  match mem_blocks m with None => UB | Some bl => dis_blocks fuel o bl end.

(* ------------------------------------------------------------ the output *)
(* dis_formatter.cpp:121-123, 134-146: [out] starts empty, 255 letters *)
Definition new_out : sbuf := mkB [] 255 OK None.
Definition name_width (o : dops) : Z := Z.max (do_nameMax o) 5 + 1.
Definition formatInsn (o : dops) (label : Z) (name operands : text) (out : sbuf) : sbuf :=
  let out := formatTab (b_mark out + label) out in
  let pos := b_mark out in
  let out := out_text name out in
  match operands with
  | [] => out
  | _ => out_rtext operands (formatTab (pos + name_width o) out)
  end.
(* dis_formatter.cpp:93-95 formatComment *)
Definition formatComment (o : dops) (out : sbuf) : sbuf := letter 32 (out_text (do_comment o) out).
(* dis_formatter.cpp:103-119 formatLine, the part before the instruction is written *)
Definition formatLine (o : dops) (r : decoded) (next : Z) (out : sbuf) : res (sbuf * Z) :=
  let li := listed_of (r_insn r) in
  let out := formatAddress (do_opts o) (u32 (li_addr li + next)) out in
  let pos := b_mark out in
  bind (formatBytes (do_conf o) (do_opts o) li next out) (fun '(out, n) =>
    let out := if (next =? 0) && negb (Nat.eqb (length (r_name r)) 0)
               then formatInsn o 8 (r_name r) (r_operands r) (formatTab (pos + bytesColumnWidth + 1) out) else out in
    Val (out, next + n)).
(* dis_formatter.cpp:121-152 getContent for an instruction with an error: after the message, the
   bytes in comments *)
Fixpoint error_lines (fuel : nat) (o : dops) (r : decoded) (next : Z) : res (list text) :=
  match fuel with
  | O => FUEL
  | S fuel =>
    bind (formatLine o r next (formatComment o new_out)) (fun '(out, next) =>
      if next <? i_len (r_insn r) then bind (error_lines fuel o r next) (fun ts => Val (b_txt out :: ts))
      else Val [b_txt out])
  end.
Definition insn_line (o : dops) (name operands : text) : text :=
  match name with [] => [] | _ => b_txt (formatInsn o 6 name operands new_out) end.
(* dis_driver.cpp:128-129: the lines of one decoded piece *)
Definition piece_lines (o : dops) (p : piece) : res (list text) :=
  let r := pc_dec p in
  if isOK (i_err (r_insn r)) then Val [insn_line o (r_name r) (r_operands r)]
  else bind (error_lines 65 o r 0) (fun ts =>
         Val (b_txt (out_text (do_message o (i_err (r_insn r))) (formatComment o new_out)) :: ts)).
(* dis_formatter.cpp:60-66 setCpu, 68-79 setOrigin: a name and its operand, in the letter case of
   instructions; the name buffer holds 11 letters, the operands buffer 127 *)
Definition case_text (up : bool) (t : text) : text := map (conv (Some up)) t.
Definition cpu_line (o : dops) : text :=
  let up := da_uppercase (do_dis o) in
  insn_line o (case_text up (s2l "CPU")) (b_txt (out_text (do_cpu o) (mkB [] 127 OK (Some up)))).
Definition org_line (o : dops) (origin : Z) : res text :=
  if negb (isOK (checkAddr (da_aw (do_dis o)) origin false)) then Val []
  else bind (outAbsAddr (do_dis o) origin 0 (mkB [] 127 OK None)) (fun b =>
         Val (insn_line o (case_text (da_uppercase (do_dis o)) (s2l "ORG")) (b_txt b))).
Fixpoint all_lines (f : piece -> res (list text)) (ps : list piece) : res (list text) :=
  match ps with
  | [] => Val []
  | p :: ps' => bind (f p) (fun a => bind (all_lines f ps') (fun b => Val (a ++ b)))
  end.
Fixpoint blocks_lines (o : dops) (l : list (Z * list piece)) : res (list text) :=
  match l with
  | [] => Val []
  | (start, ps) :: l' =>
    bind (org_line o start) (fun t =>
      bind (all_lines (piece_lines o) ps) (fun a => bind (blocks_lines o l') (fun b => Val (t :: a ++ b))))
  end.
(* dis_driver.cpp:97-139 disassemble: the lines of the output *)
Definition disassemble (fuel : nat) (o : dops) (m : memory) : res (list text) :=
  bind (dis_pieces fuel o m) (fun l => bind (blocks_lines o l) (fun ts => Val (cpu_line o :: ts))).
