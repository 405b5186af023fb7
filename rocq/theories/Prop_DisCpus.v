(** C15 on further processors: the disassembly of an image. *)
From Coq Require Import String ZArith List Bool Lia.
From Verif Require Import M_Char M_Error M_Value M_Text M_Insn M_Config M_Operators M_BinMemory M_Listing M_Dis
  M_DisDriver M_DisCpus S_ByteMap S_Memory S_DisDriver S_DisCpus P_DisCpus.
From Verif Require M_Mc6800Defs M_Mos6502Defs M_Mos6502 M_Cdp1802Defs M_I8048Defs M_Tms32010Defs P_DisTms.
Import ListNotations.
Open Scope string_scope.
Open Scope list_scope.
Local Open Scope Z_scope.

(* Whatever image of bytes at addresses of the processor: the run ends with an output text, and its
   pieces partition each block of the image, in order.
   Missing, here and below: addresses out of range (false: C15_out_of_range_refuted); a symbol table;
   relative addresses written with a location symbol the assembler does not read. *)
Theorem C15_covers_6800_partial : forall ty uh uc oc rel cs ih cur msg ws,
  In ty [M_Mc6800Defs.MC6800; M_Mc6800Defs.MB8861; M_Mc6800Defs.MC6801; M_Mc6800Defs.HD6301; M_Mc6800Defs.MC68HC11] ->
  (rel = true -> cur = 42) -> image_of 16 ws -> disassembled (dis_6800 ty uh uc oc rel cs ih cur msg) ws.
Proof. exact dis_6800_done. Qed.
Print Assumptions C15_covers_6800_partial.
Theorem C15_covers_f8_partial : forall uh uc oc rel cs ih cur msg ws,
  (rel = true -> In cur [42; 36; 46]) -> image_of 16 ws -> disassembled (dis_f8 uh uc oc rel cs ih cur msg) ws.
Proof. exact dis_f8_done. Qed.
Print Assumptions C15_covers_f8_partial.
Theorem C15_covers_z80_partial : forall uh uc oc rel cs ih cur msg ws,
  (rel = true -> cur = 36) -> image_of 16 ws -> disassembled (dis_z80 uh uc oc rel cs ih cur msg) ws.
Proof. exact dis_z80_done. Qed.
Print Assumptions C15_covers_z80_partial.
(* with addresses of 24 bits on the 65816; octal only with C or Intel numbers *)
Theorem C15_covers_6502_partial : forall ty opt uh uc oc rel cs ih cur msg ws,
  In ty [M_Mos6502Defs.MOS6502; M_Mos6502Defs.G65SC02; M_Mos6502Defs.R65C02; M_Mos6502Defs.W65C02S; M_Mos6502Defs.W65C816] ->
  (rel = true -> cur = 42) -> (oc = true -> cs = true \/ ih = true) ->
  image_of (if ty =? M_Mos6502Defs.W65C816 then 24 else 16) ws ->
  disassembled (dis_6502 ty opt uh uc oc rel cs ih cur msg) ws.
Proof. exact dis_6502_done. Qed.
Print Assumptions C15_covers_6502_partial.
(* octal only with C or Intel numbers *)
Theorem C15_covers_1802_partial : forall ty ur uh uc oc rel cs ih cur msg ws,
  In ty [M_Cdp1802Defs.CDP1802; M_Cdp1802Defs.CDP1804; M_Cdp1802Defs.CDP1804A] -> (oc = true -> (cs || ih)%bool = true) ->
  image_of 16 ws -> disassembled (dis_1802 ty ur uh uc oc rel cs ih cur msg) ws.
Proof. exact dis_1802_done. Qed.
Print Assumptions C15_covers_1802_partial.
Theorem C15_covers_8051_partial : forall uh uc oc rel cs ih cur msg ws,
  (rel = true -> cur = 36) -> image_of 16 ws -> disassembled (dis_8051 uh uc oc rel cs ih cur msg) ws.
Proof. exact dis_8051_done. Qed.
Print Assumptions C15_covers_8051_partial.
(* with addresses of 12 bits *)
Theorem C15_covers_8048_partial : forall ty uh uc oc rel cs ih cur msg ws,
  In ty [M_I8048Defs.I8048; M_I8048Defs.I8039; M_I8048Defs.I80C48; M_I8048Defs.I80C39; M_I8048Defs.MSM80C48; M_I8048Defs.MSM80C39] ->
  image_of 12 ws -> disassembled (dis_8048 ty uh uc oc rel cs ih cur msg) ws.
Proof. exact dis_8048_done. Qed.
Print Assumptions C15_covers_8048_partial.
(* with addresses of 12 bits, of words of two bytes; octal only with C or Intel numbers.  A block may
   start or end in the middle of a word. *)
Theorem C15_covers_32010_partial : forall ty uh uc oc rel cs ih cur msg ws,
  In ty [M_Tms32010Defs.TMS32010; M_Tms32010Defs.TMS32015] -> (oc = true -> (cs || ih)%bool = true) ->
  image_of 13 ws -> disassembled (dis_32010 ty uh uc oc rel cs ih cur msg) ws.
Proof. exact P_DisTms.dis_32010_done. Qed.
Print Assumptions C15_covers_32010_partial.

(* images, and the bytes of their pieces: instructions, an unknown opcode, one cut off by the end *)
Example C15_cpus_case : exists ws, ws = [(0x100, 0x7E); (0x102, 0x34); (0x101, 0x12); (0x103, 0x02); (0x104, 0x20); (0xFFE, 0x74); (0xFFF, 0x10)] /\
  image_of 12 ws /\ image_of 16 ws /\
  pieces_of (dis_6800 M_Mc6800Defs.MC6800 false false false false false false 42 (fun _ => [])) ws =
    Some [(0x100, [[0x7E; 0x12; 0x34]; [0x02]; [0x20]]); (0xFFE, [[0x74; 0x10]])] /\
  pieces_of (dis_z80 false false false false false false 36 (fun _ => [])) ws =
    Some [(0x100, [[0x7E]; [0x12]; [0x34]; [0x02]; [0x20]]); (0xFFE, [[0x74]; [0x10]])] /\
  pieces_of (dis_6502 M_Mos6502Defs.MOS6502 (M_Mos6502.mkOpt false false false) false false false false false false 42 (fun _ => [])) ws =
    Some [(0x100, [[0x7E; 0x12; 0x34]; [0x02]; [0x20]]); (0xFFE, [[0x74]; [0x10]])] /\
  pieces_of (dis_8051 false false false false false false 36 (fun _ => [])) ws =
    Some [(0x100, [[0x7E; 0x12]; [0x34; 0x02]; [0x20]]); (0xFFE, [[0x74; 0x10]])] /\
  pieces_of (dis_8048 M_I8048Defs.I8048 false false false false false false 36 (fun _ => [])) ws =
    Some [(0x100, [[0x7E]; [0x12; 0x34]; [0x02]; [0x20]]); (0xFFE, [[0x74; 0x10]])] /\
  pieces_of (dis_32010 M_Tms32010Defs.TMS32010 false false false false false false 36 (fun _ => [])) ws =
    Some [(0x80, [[0x7E; 0x12]; [0x34; 0x02]; [0x20]]); (0x7FF, [[0x74; 0x10]])].
Proof.
  eexists. split; [reflexivity|].
  assert (W : Forall is_write [(0x100, 0x7E); (0x102, 0x34); (0x101, 0x12); (0x103, 0x02); (0x104, 0x20); (0xFFE, 0x74); (0xFFF, 0x10)]) by (repeat constructor; cbn; lia).
  split; [|split].
  1, 2: split; [exact W|]; cbn; intros a v H; repeat destruct H as [H|H]; try (injection H as <- <-; lia); destruct H.
  repeat split; vm_compute; reflexivity.
Qed.
