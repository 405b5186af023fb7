(** Specification vocabulary for byte maps: what a history of byte writes means. *)
From Coq Require Import ZArith List Bool.
Import ListNotations.
Local Open Scope Z_scope.

(* An address is a 32-bit unsigned number, a byte an 8-bit one. *)
Definition is_addr (a : Z) : Prop := 0 <= a < 2^32.
Definition is_byte (v : Z) : Prop := 0 <= v < 256.
Definition is_write (w : Z * Z) : Prop := is_addr (fst w) /\ is_byte (snd w).

(* [last_write ws a]: the value of the last write to [a] in the history [ws] (oldest first). *)
Definition last_write (ws : list (Z * Z)) (a : Z) : option Z :=
  fold_left (fun acc w => if fst w =? a then Some (snd w) else acc) ws None.

(* The byte at address [a] of a segment list: [(base, bytes)] covers base, base+1, ... *)
Definition seg_at (s : Z * list Z) (a : Z) : option Z :=
  if a <? fst s then None else nth_error (snd s) (Z.to_nat (a - fst s)).

Fixpoint segs_at (l : list (Z * list Z)) (a : Z) : option Z :=
  match l with
  | [] => None
  | s :: t => match seg_at s a with Some v => Some v | None => segs_at t a end
  end.

(* Sorted, non-empty, and separated by at least one absent byte. *)
Fixpoint separated (l : list (Z * list Z)) : Prop :=
  match l with
  | [] => True
  | (b, d) :: t =>
    d <> [] /\
    match t with
    | [] => True
    | (b2, _) :: _ => b + Z.of_nat (length d) < b2
    end /\ separated t
  end.
