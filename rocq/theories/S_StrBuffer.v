(** Specification vocabulary for text output: histories of operations on a caller's buffer. *)
From Coq Require Import ZArith List Bool.
From Verif Require Import M_Char M_Error M_StrBuffer.
Import ListNotations.
Local Open Scope Z_scope.

(* the operations of the output API *)
Inductive outop :=
| OLetter (c : Z)          (* letter(c), case converting *)
| ORLetter (c : Z)         (* rletter(c), as is *)
| OText (t : text)         (* text(t) *)
| ORText (t : text)        (* rtext(t) *)
| OReset                   (* reset() *)
| OReverse (start : Z).    (* reverse(str() + start) *)

Definition run_op (o : outop) (b : cells) : option cells :=
  match o with
  | OLetter c => c_letter c b
  | ORLetter c => c_rletter c b
  | OText t => c_text t b
  | ORText t => c_rtext t b
  | OReset => c_reset b
  | OReverse s => c_reverse s b
  end.
Fixpoint run_ops (os : list outop) (b : cells) : option cells :=
  match os with
  | [] => Some b
  | o :: os' => match run_op o b with Some b' => run_ops os' b' | None => None end
  end.

(* a reversal starts inside the buffer *)
Definition valid_op (o : outop) : Prop := match o with OReverse s => 0 <= s | _ => True end.

(* the same operations on an unlimited text; an appended letter is case converted or not *)
Definition unbounded_op (k : option bool) (o : outop) (t : text) : text :=
  match o with
  | OLetter c => t ++ [conv k c]
  | ORLetter c => t ++ [c]
  | OText s => t ++ map (conv k) s
  | ORText s => t ++ s
  | OReset => []
  | OReverse s => firstn (Z.to_nat s) t ++ rev (skipn (Z.to_nat s) t)
  end.
Definition unbounded (k : option bool) (os : list outop) (t : text) : text :=
  fold_left (fun t o => unbounded_op k o t) os t.

(* the C string in the buffer: the bytes before the first NUL *)
Fixpoint c_string (m : list Z) : option text :=
  match m with
  | [] => None                  (* not terminated *)
  | c :: t => if c =? 0 then Some [] else match c_string t with Some s => Some (c :: s) | None => None end
  end.
(* texts written by the operations are C strings *)
Definition nul_free (o : outop) : Prop :=
  match o with
  | OLetter c | ORLetter c => 1 <= c <= 127
  | OText t | ORText t => Forall (fun c => 1 <= c <= 127) t
  | _ => True
  end.
(* operations that only append *)
Definition appending (o : outop) : Prop :=
  match o with OLetter _ | ORLetter _ | OText _ | ORText _ => True | _ => False end.
