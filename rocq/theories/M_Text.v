(** Model of src/str_scanner.{h,cpp} at the level of texts: a scanner is the text between its
    two pointers.  Simplification: a scanner ends at the end of the underlying C string, which is
    how the assembler creates them ([iexpectText_P] does not look at the end pointer; M_Scanner.v is
    the pointer level model, and C29_scanner_shows_text in Prop_Scanner.v relates the two). *)
From Coq Require Import ZArith List Bool String.
From Verif Require Import M_Char.
Import ListNotations.
Local Open Scope Z_scope.

(* str_scanner.h:57 operator[] for a non-negative offset *)
Definition peek_at (n : nat) (s : text) : Z := nth n s 0.

(* str_scanner.h:89-94 trimStart *)
Fixpoint trimStart (p : Z -> bool) (s : text) : text :=
  match s with
  | [] => []
  | c :: t => if p c then trimStart p t else s
  end.

(* str_scanner.h:108-116 takeWhile: the letters taken and the continuation *)
Fixpoint takeWhile (p : Z -> bool) (s : text) : text * text :=
  match s with
  | [] => ([], [])
  | c :: t => if p c then let (a, b) := takeWhile p t in (c :: a, b) else ([], s)
  end.

(* str_scanner.h:119 skipSpaces *)
Definition skipSpaces (s : text) : text := trimStart is_space s.

(* str_scanner.h:133-135 expect(char) *)
Definition expect_char (c : Z) (s : text) : option text :=
  match s with d :: t => if d =? c then Some t else None | [] => None end.
(* str_scanner.h:138-140 iexpect(char) *)
Definition iexpect (c : Z) (s : text) : option text :=
  match s with d :: t => if to_upper d =? to_upper c then Some t else None | [] => None end.

(* str_scanner.cpp:33-43 iexpectText_P: strncasecmp compares lower-cased letters *)
Fixpoint iexpectText (w : text) (s : text) {struct w} : option text :=
  match w with
  | [] => Some s
  | a :: w' =>
    match s with
    | b :: s' => if to_lower a =? to_lower b then iexpectText w' s' else None
    | [] => None
    end
  end.

(* str_scanner.cpp:45-51 iexpectWord_P *)
Definition iexpectWord (w : text) (s : text) : option text :=
  match iexpectText w s with
  | Some r => if is_alnum (peek r) || (peek r =? 95) then None else Some r
  | None => None
  end.

(* str_scanner.cpp:23-31 iequals, iequals_P *)
Fixpoint iequals (a b : text) {struct a} : bool :=
  match a, b with
  | [], [] => true
  | x :: a', y :: b' => (to_lower x =? to_lower y) && iequals a' b'
  | _, _ => false
  end.
