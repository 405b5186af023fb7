(** Specification for C29: what it means that a scanner stays in its text. *)
From Coq Require Import ZArith List Bool.
From Verif Require Import M_Char M_Operators M_Scanner.
Import ListNotations.
Local Open Scope Z_scope.

(* the operations that move a scanner; takeWhile yields two scanners, so it is two operations *)
Inductive op :=
| Advance (delta : Z) | TrimStart (p : Z -> bool) | TrimEnd (p : Z -> bool) | Taken (p : Z -> bool) | Continuation (p : Z -> bool)
| Expect (p : Z -> bool) | Text (w : text) | Word (w : text) | OneOf (ws : list text).

Definition apply (buf : text) (o : op) (s : scanner) : res scanner :=
  match o with
  | Advance d => Val (sc_advance s d)
  | TrimStart p => sc_trimStart buf p s
  | TrimEnd p => sc_trimEnd buf p s
  | Taken p => bind (sc_takeWhile buf p s) (fun r => Val (fst r))
  | Continuation p => bind (sc_takeWhile buf p s) (fun r => Val (snd r))
  | Expect p => bind (sc_expect buf p s) (fun r => Val (snd r))
  | Text w => bind (sc_iexpectText buf w s) (fun r => Val (snd r))
  | Word w => bind (sc_iexpectWord buf w s) (fun r => Val (snd r))
  | OneOf ws => bind (sc_oneOf buf ws s) (fun r => Val (snd r))
  end.
Fixpoint apply_all (buf : text) (os : list op) (s : scanner) : res scanner :=
  match os with [] => Val s | o :: os' => bind (apply buf o s) (apply_all buf os') end.

(* the scanner [s] lies in the part of the array from [lo] to [hi] *)
Definition inside (lo hi : Z) (s : scanner) : Prop := lo <= sc_str s /\ sc_str s <= sc_end s /\ sc_end s <= hi.
(* the text a scanner shows *)
Definition view (buf : text) (s : scanner) : text :=
  firstn (Z.to_nat (sc_end s - sc_str s)) (skipn (Z.to_nat (sc_str s)) buf).
(* a C string: no NUL before its end *)
Definition c_string (t : text) : Prop := ~ In 0 t.

(* operations that look at one character at a time and never go back *)
Definition by_character (o : op) : Prop :=
  match o with Advance d => 0 <= d | Text _ | Word _ | OneOf _ => False | _ => True end.
(* operations that leave the end where it is and never go back; texts are C strings *)
Definition keeps_end (o : op) : Prop :=
  match o with
  | Advance d => 0 <= d
  | TrimEnd _ | Taken _ => False
  | Text w | Word w => c_string w
  | OneOf ws => Forall c_string ws
  | _ => True
  end.
