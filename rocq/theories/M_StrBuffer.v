(** Model of src/str_buffer.{h,cpp} (and the case converting buffer).
    First the buffer as memory cells; a write or read outside the buffer is the outcome [None].
    Then the same operations on the text written so far; P_StrBuffer.v proves that the two agree.
    Not modelled: the floating point output functions. *)
From Coq Require Import ZArith List Bool String.
From Verif Require Import M_Char M_Error.
Import ListNotations.
Local Open Scope Z_scope.

(* str_buffer.h:191-194 (StrCaseBuffer): the virtual [letter] converts the case.
   [None] is a plain StrBuffer. *)
Definition conv (k : option bool) (c : Z) : Z :=
  match k with
  | None => c
  | Some true => to_upper c
  | Some false => to_lower c
  end.

(** ** Cells *)

(* str_buffer.h:150-153: [c_mem] are the bytes of the caller's buffer, [c_out] the offset of
   [_out] in it, [c_end] the offset of [_end]. *)
Record cells := mkC { c_mem : list Z; c_out : Z; c_end : Z; c_err : err; c_case : option bool }.

(* storing one byte at an offset *)
Fixpoint set_nth (l : list Z) (n : nat) (c : Z) : option (list Z) :=
  match l, n with
  | [], _ => None
  | _ :: t, O => Some (c :: t)
  | x :: t, S n' => match set_nth t n' c with Some t' => Some (x :: t') | None => None end
  end.
Definition store (l : list Z) (i c : Z) : option (list Z) :=
  if i <? 0 then None else set_nth l (Z.to_nat i) c.
Definition load (l : list Z) (i : Z) : option Z :=
  if i <? 0 then None else nth_error l (Z.to_nat i).

(* str_buffer.cpp:22-25 StrBuffer(buffer, size): the caller's buffer has [size] bytes *)
Definition c_new (mem : list Z) (k : option bool) : option cells :=
  match store mem 0 0 with
  | Some m => Some (mkC m 0 (Z.of_nat (List.length mem) - 1) OK k)
  | None => None
  end.

(* str_buffer.cpp:32-36 reset *)
Definition c_reset (b : cells) : option cells :=
  match store (c_mem b) 0 0 with
  | Some m => Some (mkC m 0 (c_end b) OK (c_case b))
  | None => None
  end.

(* str_buffer.cpp:46-54 rletter *)
Definition c_rletter (c : Z) (b : cells) : option cells :=
  if c_out b <? c_end b then
    match store (c_mem b) (c_out b) c with
    | Some m =>
      match store m (c_out b + 1) 0 with
      | Some m' => Some (mkC m' (c_out b + 1) (c_end b) (c_err b) (c_case b))
      | None => None
      end
    | None => None
    end
  else Some (mkC (c_mem b) (c_out b) (c_end b) BUFFER_OVERFLOW (c_case b)).
(* str_buffer.cpp:56-58, str_buffer.h:191-194 letter *)
Definition c_letter (c : Z) (b : cells) : option cells := c_rletter (conv (c_case b) c) b.
(* str_buffer.cpp:60-107 text, rtext and their variants *)
Fixpoint c_text (t : text) (b : cells) : option cells :=
  match t with
  | [] => Some b
  | c :: t' => match c_letter c b with Some b' => c_text t' b' | None => None end
  end.
Fixpoint c_rtext (t : text) (b : cells) : option cells :=
  match t with
  | [] => Some b
  | c :: t' => match c_rletter c b with Some b' => c_rtext t' b' | None => None end
  end.

(* str_buffer.cpp:147-158 reverse: the swapping loop.  [fuel] is at least the number of swaps. *)
Fixpoint swap_loop (fuel : nat) (m : list Z) (i j : Z) : option (list Z) :=
  match fuel with
  | O => None
  | S f =>
    if i <? j then
      match load m i, load m j with
      | Some a, Some z =>
        match store m i z with
        | Some m1 => match store m1 j a with Some m2 => swap_loop f m2 (i + 1) (j - 1) | None => None end
        | None => None
        end
      | _, _ => None
      end
    else Some m
  end.
Definition c_reverse (start : Z) (b : cells) : option cells :=
  if c_out b <? start then Some (mkC (c_mem b) (c_out b) (c_end b) OVERWRAP_SEGMENT (c_case b))
  else match swap_loop (S (List.length (c_mem b))) (c_mem b) start (c_out b - 1) with
       | Some m => Some (mkC m (c_out b) (c_end b) (c_err b) (c_case b))
       | None => None
       end.

(** ** Texts *)

(* [b_txt] the letters from [_str] to [_out], [b_max] is size() = _end - _str *)
Record sbuf := mkB { b_txt : text; b_max : Z; b_err : err; b_case : option bool }.

(* str_buffer.h:50 mark(), as an offset *)
Definition b_mark (b : sbuf) : Z := Z.of_nat (List.length (b_txt b)).
Definition b_seterr (e : err) (b : sbuf) : sbuf := mkB (b_txt b) (b_max b) e (b_case b).
(* str_buffer.cpp:46-54 *)
Definition rletter (c : Z) (b : sbuf) : sbuf :=
  if b_mark b <? b_max b then mkB (b_txt b ++ [c]) (b_max b) (b_err b) (b_case b)
  else b_seterr BUFFER_OVERFLOW b.
(* str_buffer.cpp:56-58 *)
Definition letter (c : Z) (b : sbuf) : sbuf := rletter (conv (b_case b) c) b.
(* str_buffer.cpp:60-107 *)
Definition out_text (t : text) (b : sbuf) : sbuf := fold_left (fun b c => letter c b) t b.
Definition out_rtext (t : text) (b : sbuf) : sbuf := fold_left (fun b c => rletter c b) t b.
(* str_buffer.cpp:32-36 *)
Definition b_reset (b : sbuf) : sbuf := mkB [] (b_max b) OK (b_case b).
(* str_buffer.cpp:143-145 *)
Definition comma (b : sbuf) : sbuf := rletter 32 (rletter 44 b).
(* str_buffer.cpp:147-158 *)
Definition reverse (start : Z) (b : sbuf) : sbuf :=
  if b_mark b <? start then b_seterr OVERWRAP_SEGMENT b
  else let n := Z.to_nat start in
       mkB (firstn n (b_txt b) ++ rev (skipn n (b_txt b))) (b_max b) (b_err b) (b_case b).

(* str_buffer.h:186-187 StrCaseBuffer(const StrBuffer &, uppercase) *)
Definition case_buf (upper : bool) (b : sbuf) : sbuf := mkB (b_txt b) (b_max b) (b_err b) (Some upper).
(* str_buffer.cpp:38-44 over(heir) *)
Definition over (b heir : sbuf) : sbuf := mkB (b_txt b) (b_max b) (b_err b) (b_case heir).

(* str_buffer.h:80-95 hex<T>(v, prec): [n] is 2*sizeof(T), the number of digits written first *)
Fixpoint hex_loop (n : nat) (prec u : Z) (b : sbuf) : Z * sbuf :=
  match n with
  | O => (prec, b)
  | S n' =>
    let d := u mod 16 in
    let b := letter (d + (if d <? 10 then 48 else 55)) b in
    if 0 <? prec
    then if prec - 1 =? 0 then (0, b) else hex_loop n' (prec - 1) (u / 16) b
    else hex_loop n' prec (u / 16) b
  end.
Fixpoint zeros (n : nat) (b : sbuf) : sbuf :=
  match n with O => b | S n' => zeros n' (letter 48 b) end.
Definition out_hex (n : nat) (v prec : Z) (b : sbuf) : sbuf :=
  let start := b_mark b in
  let (p, b) := hex_loop n prec v b in
  reverse start (zeros (Z.to_nat p) b).

(* str_buffer.h:98-116 dec<T>(v, prec) for an unsigned T *)
Fixpoint dec_loop (fuel : nat) (prec u : Z) (b : sbuf) : Z * sbuf :=
  match fuel with
  | O => (prec, b)
  | S f =>
    let b := letter (u mod 10 + 48) b in
    let prec := if 0 <? prec then prec - 1 else prec in
    if u / 10 =? 0 then (prec, b) else dec_loop f prec (u / 10) b
  end.
Definition out_dec (v prec : Z) (b : sbuf) : sbuf :=
  let start := b_mark b in
  let (p, b) := dec_loop (S (Z.to_nat (Z.log2 v))) prec v b in
  reverse start (zeros (Z.to_nat p) b).
(* str_buffer.h:98-116 dec<T>(v, prec) for a signed T, v not the least value of T *)
Definition out_sdec (v prec : Z) (b : sbuf) : sbuf :=
  if v <? 0 then out_dec (- v) prec (letter 45 b) else out_dec v prec b.
