(** Specification of the listing of a source line. *)
From Coq Require Import ZArith List Bool.
From Verif Require Import M_Char M_Listing S_Value.
Import ListNotations.
Local Open Scope Z_scope.

(* the number [v] written with exactly [n] digits in radix [r] *)
Definition spelled (r n v : Z) (t : text) : Prop :=
  Forall (is_digit_in r) t /\ positional r t = v /\ Z.of_nat (length t) = n.
(* how many digits of radix 8 or 16 a field of [w] bits takes *)
Definition field_digits (r w : Z) : Z := if r =? 8 then (w + 2) / 3 else (w + 3) / 4.

(* Two bytes as one word *)
Definition word_of (big : bool) (b b' : Z) : Z := if big then b * 256 + b' else b + 256 * b'.
Definition blanks (n : Z) : text := repeat 32 (Z.to_nat n).
(* The column of bytes: [shows c r odd bs t] says that the text [t] shows exactly the bytes [bs],
   in this order, the first one being at an odd address if [odd].  A byte of an 8-bit machine is a
   cell of its own; other machines show two bytes as one word.  Where a machine that addresses
   bytes has only one byte of a word, only that half of the cell is filled (a last high byte of a
   big endian word has nothing after it). *)
Inductive shows (c : lconf) (r : Z) : bool -> list Z -> text -> Prop :=
| shows_nothing odd : shows c r odd [] []
| shows_byte odd b bs t t' : lc_width c = 8 ->
    spelled r (field_digits r 8) b t -> shows c r (negb odd) bs t' -> shows c r odd (b :: bs) (32 :: t ++ t')
| shows_word odd b b' bs t t' : lc_width c <> 8 -> (lc_unit c = 2 \/ lc_width c = 12 \/ odd = false) ->
    spelled r (field_digits r (lc_width c)) (word_of (lc_big c) b b') t -> shows c r odd bs t' ->
    shows c r odd (b :: b' :: bs) (32 :: t ++ t')
| shows_second b bs t t' gap : lc_width c = 16 -> lc_unit c = 1 ->
    spelled r (field_digits r 8) b t -> gap = blanks (field_digits r 16 - field_digits r 8) ->
    shows c r false bs t' ->
    shows c r true (b :: bs) (32 :: (if lc_big c then gap ++ t else t ++ gap) ++ t')
| shows_last b t gap : lc_width c = 16 -> lc_unit c = 1 ->
    spelled r (field_digits r 8) b t -> gap = blanks (field_digits r 16 - field_digits r 8) ->
    shows c r false [b] (32 :: if lc_big c then t else gap ++ t).

(* the address, at the right end of 8 columns unless it is longer, without leading zeros *)
Definition address_shown (r addr : Z) (t : text) : Prop :=
  exists ds n, 1 <= n /\ t = blanks (8 - n) ++ ds /\ spelled r n addr ds /\ (hd 0 ds = 48 -> ds = [48]).

(* what precedes the address: on the first line how deep the line is included and, if asked for,
   its line number; blanks of the same width on the others *)
Definition decimal (v : Z) (t : text) : Prop :=
  exists n, 1 <= n /\ spelled 10 n v t /\ (hd 0 t = 48 -> t = [48]).
Definition lead_shown (nest : Z) (lineno : option Z) (first : bool) (t : text) : Prop :=
  if first then
    exists a b, t = a ++ b /\
      (if 1 <? nest then exists ds, decimal (nest - 1) ds /\ a = [40] ++ ds ++ [41] else a = blanks 3) /\
      match lineno with
      | Some n => exists ds, decimal n ds /\ b = blanks (5 - Z.of_nat (length ds)) ++ ds ++ [47]
      | None => b = []
      end
  else t = blanks (match lineno with Some _ => 9 | None => 3 end).
(* what follows the column of bytes: on the first line the source, from a tab stop at column 20,
   24, 28, ... of the column of bytes, as far as the line buffer reaches *)
Definition source_shown (source : text) (first : bool) (col t : text) : Prop :=
  if first && (0 <? Z.of_nat (length source)) then
    exists k n, t = firstn n (blanks k ++ source) /\ 1 <= k /\ 20 <= Z.of_nat (length col) + k /\
      (Z.of_nat (length col) + k) mod 4 = 0 /\ (Z.of_nat (length col) + k = 20 \/ k <= 4)
  else t = [].

Section Listing.
Variable l : aline.
Let r : Z := list_radix (al_opts l).
Let c : lconf := al_conf l.
Let start : Z := li_addr (al_insn l).
(* the address of the byte [offset] of the generated code *)
Definition byte_address (offset : Z) : Z := (start + offset / lc_unit c) mod 2^32.
(* a line of the listing shows the bytes [bs], which start [offset] bytes into the code *)
Definition line_shows (offset : Z) (bs : list Z) (t : text) : Prop :=
  exists lead addr col tail, t = lead ++ addr ++ [32; 58] ++ col ++ tail /\
    lead_shown (al_nest l) (al_lineno l) (offset =? 0) lead /\
    address_shown r (byte_address offset) addr /\
    shows c r ((start + offset) mod 2 =? 1) bs col /\
    source_shown (al_source l) (offset =? 0) col tail.
(* the lines of a listing together show the bytes [bs], each line at least one of several *)
Inductive listing_shows : Z -> list Z -> list text -> Prop :=
| one_line offset bs t : line_shows offset bs t -> listing_shows offset bs [t]
| more_lines offset bs bs' t ts : bs <> [] -> bs' <> [] -> line_shows offset bs t ->
    listing_shows (offset + Z.of_nat (length bs)) bs' ts -> listing_shows offset (bs ++ bs') (t :: ts).
End Listing.

(* an instruction with [code] as its bytes, which is what is listed *)
Definition has_code (i : listed_insn) (code : list Z) : Prop :=
  length (li_bytes i) = 64%nat /\ li_size i = Z.of_nat (length code) /\ firstn (length code) (li_bytes i) = code /\
  (length code <= 64)%nat /\ Forall (fun b => 0 <= b < 256) code /\ 0 <= li_addr i < 2^32.
(* the machines: 8-bit codes; 16-bit codes; 12-bit codes in words.  Codes of a machine that
   addresses words are whole words, 12-bit ones less than 4096. *)
Definition machine_code (c : lconf) (code : list Z) : Prop :=
  (lc_width c = 8 /\ lc_unit c = 1) \/
  (lc_width c = 16 /\ lc_unit c = 1) \/
  (lc_width c = 16 /\ lc_unit c = 2 /\ Nat.Even (length code)) \/
  (lc_width c = 12 /\ lc_unit c = 2 /\ lc_big c = true /\ Nat.Even (length code) /\
   forall n, Nat.Even n -> nth n code 0 < 16).
