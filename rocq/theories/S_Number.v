(** Specification vocabulary for printed numbers. *)
From Coq Require Import ZArith List Bool.
From Verif Require Import M_Char M_Error M_Value M_StrBuffer M_Number S_Value.
Import ListNotations.
Local Open Scope Z_scope.

(* The number that [bits] bits of [val] stand for: unsigned, or two's complement when [bits] is
   negative. *)
Definition shown (val bits : Z) : Z :=
  if 0 <? bits then val mod 2 ^ bits
  else let u := val mod 2 ^ (- bits) in if u <? 2 ^ (- bits - 1) then u else u - 2 ^ (- bits).

(* What may follow a number in a line: the end, or a character that cannot belong to it. *)
Definition boundary (rest : text) : Prop :=
  match rest with
  | [] => True
  | c :: _ => is_alnum c = false /\ c <> 39 /\ c <> 46
  end.

(* Printing with [format] never garbles a number: if no error was reported then the buffer was
   extended by a text (a minus sign first if negative) which [parser], with default radix [dr],
   reads as the absolute value of the number shown, stopping exactly at the end of that text. *)
Definition reads_back (format : Z -> Z -> sbuf -> sbuf) (parser : number_parser) (dr : Z) : Prop :=
  forall val bits b rest,
  0 <= val < 2^32 -> 1 <= Z.abs bits <= 32 -> boundary rest ->
  b_err (format val bits b) = OK ->
  exists t,
    b_txt (format val bits b) = b_txt b ++ (if shown val bits <? 0 then [45] else []) ++ t /\
    parser (t ++ rest) dr = (OK, mkV V_UNSIGNED (Z.abs (shown val bits)), rest).
