(** Vocabulary for stating properties of memory images through their API. *)
From Coq Require Import ZArith List.
From Verif Require Import M_BinMemory.
Import ListNotations.
Local Open Scope Z_scope.

(* The image after a history of [writeByte] calls on an empty image, oldest first. *)
Definition writes (ws : list (Z * Z)) : memory :=
  fold_left (fun m w => writeByte m (fst w) (snd w)) ws empty.

(* What a block reports through base()/data()/size(). *)
Definition block_seg (b : block) : Z * list Z := (b_base b, b_data b).
