(** What it means that the disassembly of an image is complete. *)
From Coq Require Import ZArith List Bool.
From Verif Require Import M_Char M_Error M_Insn M_Config M_Operators M_BinMemory M_Listing M_Dis M_DisDriver S_ByteMap S_Memory S_DisDriver.
Import ListNotations.
Local Open Scope Z_scope.

(* the run of the disassembler [o] on the image the writes [ws] make ends with an output text, and
   its pieces partition each block of the image, in order *)
Definition disassembled (o : dops) (ws : list (Z * Z)) : Prop :=
  exists bl n l lines, mem_blocks (writes ws) = Some bl /\
    (forall fuel, (n <= fuel)%nat -> dis_pieces fuel o (writes ws) = Val l /\ disassemble fuel o (writes ws) = Val lines) /\
    covers (lc_unit (do_conf o)) bl l.
(* writes of bytes to a memory of 2^[bits] bytes *)
Definition image_of (bits : Z) (ws : list (Z * Z)) : Prop :=
  Forall is_write ws /\ forall a v, In (a, v) ws -> a < 2 ^ bits.
(* the bytes of the pieces of each block, with the address of the block *)
Definition pieces_of (o : dops) (ws : list (Z * Z)) : option (list (Z * list (list Z))) :=
  match dis_pieces 20 o (writes ws) with
  | Val l => Some (map (fun sp => (fst sp, map piece_bytes (snd sp))) l)
  | _ => None
  end.
