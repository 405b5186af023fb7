(** Characters are their codes; texts are NUL-free lists of codes 1..127 (bytes from 128 on, whose
    classification depends on the signedness of [char], are outside the model).
    The classification functions are those of <ctype.h> in the "C" locale. *)
From Coq Require Import ZArith List Bool String Ascii.
Import ListNotations.
Local Open Scope Z_scope.

Definition text := list Z.

(* Literals: the codes of a Coq string. *)
Definition c2z (c : ascii) : Z := Z.of_N (N_of_ascii c).
Fixpoint s2l (s : string) : text :=
  match s with EmptyString => [] | String c t => c2z c :: s2l t end.

Definition is_digit (c : Z) : bool := (48 <=? c) && (c <=? 57).
Definition is_upper (c : Z) : bool := (65 <=? c) && (c <=? 90).
Definition is_lower (c : Z) : bool := (97 <=? c) && (c <=? 122).
Definition is_alpha (c : Z) : bool := is_upper c || is_lower c.
Definition is_alnum (c : Z) : bool := is_alpha c || is_digit c.
Definition is_xdigit (c : Z) : bool :=
  is_digit c || ((65 <=? c) && (c <=? 70)) || ((97 <=? c) && (c <=? 102)).
(* ' ', '\t', '\n', '\v', '\f', '\r' *)
Definition is_space (c : Z) : bool := (c =? 32) || ((9 <=? c) && (c <=? 13)).
Definition to_upper (c : Z) : Z := if is_lower c then c - 32 else c.
Definition to_lower (c : Z) : Z := if is_upper c then c + 32 else c.

(* str_scanner.h:53-57 operator* : the head, or 0 at the end. *)
Definition peek (s : text) : Z := match s with [] => 0 | c :: _ => c end.

(* str_scanner.h:121-130 expect(predicate) : None stands for a 0 result *)
Definition expect (p : Z -> bool) (s : text) : option (Z * text) :=
  match s with c :: t => if p c then Some (c, t) else None | [] => None end.
