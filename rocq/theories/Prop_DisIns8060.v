(** C15: the disassembly of an image, on the SC/MP. *)
From Coq Require Import String ZArith List Bool Lia.
From Verif Require Import M_Char M_Error M_Value M_Text M_StrBuffer M_Format M_Insn M_Config M_Operators M_BinMemory M_Listing
  M_Dis M_DisDriver M_DisCpus S_ByteMap S_Memory S_DisDriver S_DisCpus M_Ins8060 M_DisIns8060 P_DisIns8060.
Import ListNotations.
Open Scope list_scope.
Local Open Scope Z_scope.

(* Whatever image of bytes at addresses of the processor and whatever options: the run ends with an
   output text, and its pieces partition each block of the image, in order.
   Missing: addresses out of range (false: C15_out_of_range_refuted); a symbol table. *)
Theorem C15_covers_scmp_partial : forall uh uc oc rel cs ih cur msg ws,
  image_of 16 ws -> disassembled (dis_scmp uh uc oc rel cs ih cur msg) ws.
Proof. exact dis_scmp_done. Qed.
Print Assumptions C15_covers_scmp_partial.
(* an instruction, an undefined code, one cut off by the end *)
Example C15_scmp_case : exists ws, ws = [(0x100, 0xC4); (0x101, 0x12); (0x102, 0xCC); (0x103, 0x08); (0x104, 0x90)] /\ image_of 16 ws /\
  pieces_of (dis_scmp false false false false false false 36 (fun _ => [])) ws = Some [(0x100, [[0xC4; 0x12]; [0xCC]; [0x08]; [0x90]])].
Proof.
  eexists. split; [reflexivity|]. split; [|vm_compute; reflexivity]. split; [repeat constructor; cbn; lia|].
  cbn; intros a v H; repeat destruct H as [H|H]; try (injection H as <- <-; lia); destruct H.
Qed.
