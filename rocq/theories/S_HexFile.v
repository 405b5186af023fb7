(** Specification vocabulary for the object file properties. *)
From Coq Require Import ZArith List.
From Verif Require Import S_ByteMap.
Import ListNotations.
Local Open Scope Z_scope.

(* The checksum of an Intel HEX extended linear address record for the 64 KiB page [e]:
   two's complement of length 2, offset 0, type 4 and the two bytes of [e]. *)
Definition ela_checksum (e : Z) : Z := (- (2 + 4 + e / 256 + e mod 256)) mod 256.

(* Every run of written bytes that reaches across a 64 KiB boundary starts a whole number of
   records before the boundary. *)
Definition no_straddle (ws : list (Z * Z)) (rs : Z) : Prop :=
  forall s bnd, bnd mod 65536 = 0 -> s < bnd ->
    last_write ws (s - 1) = None -> (forall a, s <= a <= bnd -> last_write ws a <> None) ->
    (bnd - s) mod rs = 0.

(* [replace_at l i c]: [l] with its [i]-th element replaced by [c] *)
Definition replace_at (l : list Z) (i : nat) (c : Z) : list Z :=
  firstn i l ++ [c] ++ skipn (S i) l.

(* value of a hexadecimal digit character *)
Definition digit_value (c : Z) : Z :=
  if c <=? 57 then c - 48 else if c <=? 70 then c - 55 else c - 87.
Definition hex_char (c : Z) : Prop := 48 <= c <= 57 \/ 65 <= c <= 70 \/ 97 <= c <= 102.
