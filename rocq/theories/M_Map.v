(** Model of the parts of [std::map<uint32_t, T>] used by the driver.
    A map is the list of its nodes in ascending order of key; an iterator is the
    key of the node it designates ([None] is [end()]).  Nodes of a [std::map] are
    stable, so the key of a node also stands for a pointer to its value.
    Simplification: the red-black tree is not modelled (C++ standard library). *)
From Coq Require Import ZArith List Bool.
Import ListNotations.
Local Open Scope Z_scope.

Section Map.
  Context {T : Type}.

  Definition map_t := list (Z * T).

  (* std::map::begin(): iterator to the first node, end() when empty. *)
  Definition m_begin (m : map_t) : option Z :=
    match m with [] => None | (k, _) :: _ => Some k end.

  (* std::map::lower_bound(a): first node whose key is not less than [a]. *)
  Fixpoint m_lower_bound (m : map_t) (a : Z) : option Z :=
    match m with
    | [] => None
    | (k, _) :: t => if a <=? k then Some k else m_lower_bound t a
    end.

  (* std::map::find(k) / dereferencing an iterator. *)
  Fixpoint m_find (m : map_t) (a : Z) : option T :=
    match m with
    | [] => None
    | (k, v) :: t => if k =? a then Some v else m_find t a
    end.

  (* ++it *)
  Fixpoint m_next (m : map_t) (a : Z) : option Z :=
    match m with
    | [] => None
    | (k, _) :: t => if k =? a then m_begin t else m_next t a
    end.

  (* --it ; [None] stands for end(), whose predecessor is the last node. *)
  Fixpoint m_prev (m : map_t) (it : option Z) : option Z :=
    match m with
    | [] => None
    | (k, _) :: t =>
      match t, it with
      | [], None => Some k
      | [], Some _ => None
      | (k2, _) :: _, Some a => if k2 =? a then Some k else m_prev t it
      | _, None => m_prev t it
      end
    end.

  (* std::map::emplace(k, v): inserts unless the key is present. *)
  Fixpoint m_emplace (m : map_t) (a : Z) (v : T) : map_t :=
    match m with
    | [] => [(a, v)]
    | (k, w) :: t =>
      if a <? k then (a, v) :: (k, w) :: t
      else if a =? k then (k, w) :: t
      else (k, w) :: m_emplace t a v
    end.

  (* Assignment through an iterator/reference to the node with key [a]. *)
  Fixpoint m_update (m : map_t) (a : Z) (f : T -> T) : map_t :=
    match m with
    | [] => []
    | (k, w) :: t => if k =? a then (k, f w) :: t else (k, w) :: m_update t a f
    end.

  (* std::map::erase(it) *)
  Fixpoint m_erase (m : map_t) (a : Z) : map_t :=
    match m with
    | [] => []
    | (k, w) :: t => if k =? a then t else (k, w) :: m_erase t a
    end.
End Map.
Arguments map_t : clear implicits.
