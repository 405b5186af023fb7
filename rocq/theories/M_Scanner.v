(** Model of src/str_scanner.{h,cpp} at the level of pointers: a scanner is two positions in a
    character array that ends with a NUL.  Reading outside the array is the outcome [OOB].
    Simplification: positions are integers, so forming (not reading) a pointer far outside the
    array is not an error. *)
From Coq Require Import ZArith List Bool.
From Verif Require Import M_Char M_Operators.
Import ListNotations.
Local Open Scope Z_scope.

(* the array: the characters of a C string and its terminator *)
Definition rd (buf : text) (i : Z) : res Z :=
  if i <? 0 then OOB else match nth_error (buf ++ [0]) (Z.to_nat i) with Some c => Val c | None => OOB end.

(* str_scanner.h:172-174 _str, _end *)
Record scanner := mkSc { sc_str : Z; sc_end : Z }.
(* str_scanner.h:30 construct from C-string: strlen stops at the first NUL *)
Fixpoint strlen (buf : text) : Z :=
  match buf with [] => 0 | c :: t => if c =? 0 then 0 else 1 + strlen t end.
Definition sc_new (buf : text) : scanner := mkSc 0 (strlen buf).
(* str_scanner.h:51 size: size_t of the difference, 64-bit host *)
Definition sc_size (s : scanner) : Z := (sc_end s - sc_str s) mod 2 ^ 64.
(* str_scanner.h:54-57 operator[], operator* *)
Definition sc_at (buf : text) (s : scanner) (delta : Z) : res Z :=
  if sc_str s + delta <? sc_end s then rd buf (sc_str s + delta) else Val 0.
(* str_scanner.h:80-86 operator+=; 59-77 the increments and decrements are += 1 and += -1 *)
Definition sc_advance (s : scanner) (delta : Z) : scanner :=
  let p := sc_str s + delta in mkSc (if sc_end s <=? p then sc_end s else p) (sc_end s).

(* str_scanner.h:89-94 trimStart: at most [n] = _end - _str characters *)
Fixpoint trim_start (n : nat) (buf : text) (p : Z -> bool) (i : Z) : res Z :=
  match n with
  | O => Val i
  | S n' => bind (rd buf i) (fun c => if p c then trim_start n' buf p (i + 1) else Val i)
  end.
Definition room (s : scanner) : nat := Z.to_nat (sc_end s - sc_str s).
Definition sc_trimStart (buf : text) (p : Z -> bool) (s : scanner) : res scanner :=
  bind (trim_start (room s) buf p (sc_str s)) (fun i => Val (mkSc i (sc_end s))).
(* str_scanner.h:97-102 trimEnd *)
Fixpoint trim_end (n : nat) (buf : text) (p : Z -> bool) (i : Z) : res Z :=
  match n with
  | O => Val i
  | S n' => bind (rd buf (i - 1)) (fun c => if p c then trim_end n' buf p (i - 1) else Val i)
  end.
Definition sc_trimEnd (buf : text) (p : Z -> bool) (s : scanner) : res scanner :=
  bind (trim_end (room s) buf p (sc_end s)) (fun i => Val (mkSc (sc_str s) i)).
(* str_scanner.h:108-116 takeWhile: the shortened scanner and the continuation *)
Definition sc_takeWhile (buf : text) (p : Z -> bool) (s : scanner) : res (scanner * scanner) :=
  bind (trim_start (room s) buf p (sc_str s)) (fun i => Val (mkSc (sc_str s) i, mkSc i (sc_end s))).
(* str_scanner.h:123-130 expect(predicate): the character is read before the end is tested *)
Definition sc_expect (buf : text) (p : Z -> bool) (s : scanner) : res (Z * scanner) :=
  bind (rd buf (sc_str s)) (fun c =>
    if (sc_str s <? sc_end s) && p c then Val (c, mkSc (sc_str s + 1) (sc_end s)) else Val (0, s)).
(* str_scanner.h:133-140 expect(char), iexpect(char) *)
Definition sc_expect_char (buf : text) (c : Z) := sc_expect buf (fun s => s =? c).
Definition sc_iexpect (buf : text) (c : Z) := sc_expect buf (fun s => to_upper s =? to_upper c).

(* strncasecmp(_str, text, len) == 0 for a [text] of [len] characters: stops at the first difference
   and at a NUL in both *)
Fixpoint strncase (buf : text) (i : Z) (w : text) : res bool :=
  match w with
  | [] => Val true
  | a :: w' => bind (rd buf i) (fun b =>
      if to_lower a =? to_lower b then (if b =? 0 then Val true else strncase buf (i + 1) w') else Val false)
  end.
(* str_scanner.cpp:33-43 iexpectText_P: does not look at the end *)
Definition sc_iexpectText (buf w : text) (s : scanner) : res (bool * scanner) :=
  bind (strncase buf (sc_str s) w) (fun b =>
    Val (if b then (true, mkSc (sc_str s + Z.of_nat (length w)) (sc_end s)) else (false, s))).
(* str_scanner.cpp:45-51 iexpectWord_P: reads the next character directly, not up to the end *)
Definition sc_iexpectWord (buf w : text) (s : scanner) : res (bool * scanner) :=
  bind (sc_iexpectText buf w s) (fun r =>
    if fst r then bind (rd buf (sc_str (snd r))) (fun c => Val (if is_alnum c || (c =? 95) then (false, s) else (true, snd r)))
    else Val (false, s)).
(* str_scanner.cpp:53-61 expectTrue, expectFalse *)
Fixpoint sc_oneOf (buf : text) (ws : list text) (s : scanner) : res (bool * scanner) :=
  match ws with
  | [] => Val (false, s)
  | w :: ws' => bind (sc_iexpectWord buf w s) (fun r => if fst r then Val r else sc_oneOf buf ws' s)
  end.
(* str_scanner.cpp:23-31 iequals, iequals_P *)
Definition sc_iequals (buf buf' : text) (s s' : scanner) : res bool :=
  if sc_size s =? sc_size s' then
    (fix go (n : nat) (i j : Z) : res bool :=
       match n with
       | O => Val true
       | S n' => bind (rd buf i) (fun a => bind (rd buf' j) (fun b =>
           if to_lower a =? to_lower b then (if a =? 0 then Val true else go n' (i + 1) (j + 1)) else Val false))
       end) (Z.to_nat (sc_size s)) (sc_str s) (sc_str s')
  else Val false.
