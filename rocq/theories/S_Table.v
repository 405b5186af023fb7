(** What the table searches have to do, without reference to how they do it. *)
From Coq Require Import ZArith List Bool String.
From Verif Require Import M_Char.
Import ListNotations.
Local Open Scope Z_scope.

(* two letters are the same up to case *)
Definition same_letter (x y : Z) : Prop :=
  x = y \/ (65 <= x <= 90 /\ y = x + 32) \/ (65 <= y <= 90 /\ x = y + 32).
(* two names are the same up to case *)
Definition same_name (a b : text) : Prop := Forall2 same_letter a b.

(* a C string *)
Definition cstring (s : text) : Prop := Forall (fun c => 1 <= c <= 127) s.

(* dictionary order, ignoring case: [fold] maps capital letters to small ones *)
Definition fold (c : Z) : Z := if (65 <=? c) && (c <=? 90) then c + 32 else c.
Inductive before : text -> text -> Prop :=
| before_end y b : before [] (y :: b)
| before_head x a y b : fold x < fold y -> before (x :: a) (y :: b)
| before_tail x a y b : fold x = fold y -> before a b -> before (x :: a) (y :: b).

(* a table in dictionary order *)
Definition in_order {A} (nm : A -> text) (items : list A) : Prop :=
  forall i j a b, (i < j)%nat -> nth_error items i = Some a -> nth_error items j = Some b ->
    ~ before (nm b) (nm a).

(* an index of a table: it lists positions of the table in dictionary order, positions of the same
   name in increasing order, and misses no item but those preceded by a listed item of the same name
   which [alike] does not distinguish from it *)
Definition indexes {A} (nm : A -> text) (alike : A -> A -> Prop) (items : list A) (index : list Z) : Prop :=
  (forall k, In k index -> 0 <= k < Z.of_nat (List.length items)) /\
  (forall i j k l a b, (i < j)%nat -> nth_error index i = Some k -> nth_error index j = Some l ->
     nth_error items (Z.to_nat k) = Some a -> nth_error items (Z.to_nat l) = Some b ->
     before (nm a) (nm b) \/ (same_name (nm a) (nm b) /\ k < l)) /\
  (forall j b, nth_error items j = Some b ->
     exists i a, (i <= j)%nat /\ In (Z.of_nat i) index /\ nth_error items i = Some a /\
       same_name (nm a) (nm b) /\ (i = j \/ alike a b)).

(* the name occurs in a table *)
Definition occurs {A} (nm : A -> text) (s : text) (items : list A) : Prop :=
  exists a, In a items /\ same_name s (nm a).
(* the item at position [i] is the first one which has the name [s] and is acceptable *)
Definition first_acceptable {A} (nm : A -> text) (s : text) (accept : A -> bool) (items : list A)
    (i : nat) : Prop :=
  (exists a, nth_error items i = Some a /\ same_name s (nm a) /\ accept a = true) /\
  (forall j b, (j < i)%nat -> nth_error items j = Some b -> same_name s (nm b) -> accept b = false).
(* no item has the name [s] and is acceptable *)
Definition none_acceptable {A} (nm : A -> text) (s : text) (accept : A -> bool) (items : list A) : Prop :=
  forall a, In a items -> same_name s (nm a) -> accept a = false.

(* a register number as written: decimal digits without superfluous zeros *)
Fixpoint decimal (acc : Z) (ds : text) : Z :=
  match ds with [] => acc | d :: t => decimal (acc * 10 + (d - 48)) t end.
Definition canonical (ds : text) : Prop :=
  Forall (fun d => 48 <= d <= 57) ds /\ (ds = [48] \/ exists d t, ds = d :: t /\ d <> 48).
(* what may not follow a number *)
Definition word_letter (c : Z) : Prop :=
  65 <= c <= 90 \/ 97 <= c <= 122 \/ 48 <= c <= 57 \/ c = 95.
