(** Model of [libasm::driver::BinMemory] (driver/bin_memory.h, driver/bin_memory.cpp).
    [uint32_t] addresses are [Z] in [0, 2^32); bytes are [Z] in [0, 256). *)
From Coq Require Import ZArith List Bool.
From Verif Require Import M_Map.
Import ListNotations.
Local Open Scope Z_scope.

(* bin_memory.h:49-78 struct Block.  [b_next] models the raw pointer [_next]: the key
   of the map node pointed to. *)
Record block := mkBlock { b_base : Z; b_data : list Z; b_next : option Z }.

(* bin_memory.h:81-82 using Blocks = std::map<uint32_t, Block>; Blocks _blocks. *)
Definition memory := map_t block.

(* bin_memory.cpp:25 BinMemory::BinMemory *)
Definition empty : memory := [].

(* std::vector<uint8_t>::size() as Z *)
Definition dsize (d : list Z) : Z := Z.of_nat (length d).

(* bin_memory.h:64 inside: [_base + _data.size()] is computed in size_t (64 bits): no wrap. *)
Definition inside (b : block) (a : Z) : bool :=
  (b_base b <=? a) && (a <? b_base b + dsize (b_data b)).

(* bin_memory.h:65 atEnd *)
Definition atEnd (b : block) (a : Z) : bool := a =? b_base b + dsize (b_data b).

(* bin_memory.h:66 read (only called when inside) *)
Definition b_read (b : block) (a : Z) : Z := nth (Z.to_nat (a - b_base b)) (b_data b) 0.

(* _data[n] = v *)
Fixpoint list_set (l : list Z) (n : nat) (v : Z) : list Z :=
  match l, n with
  | [], _ => []
  | _ :: t, O => v :: t
  | h :: t, S n' => h :: list_set t n' v
  end.

(* bin_memory.h:67 write (only called when inside) *)
Definition b_write (a v : Z) (b : block) : block :=
  mkBlock (b_base b) (list_set (b_data b) (Z.to_nat (a - b_base b)) v) (b_next b).

(* bin_memory.h:68 append *)
Definition b_append (v : Z) (b : block) : block :=
  mkBlock (b_base b) (b_data b ++ [v]) (b_next b).

(* bin_memory.cpp:165-169 Block::aggregate *)
Definition b_aggregate (other b : block) : block :=
  mkBlock (b_base b) (b_data b ++ b_data other) (b_next other).

(* bin_memory.h:70 connect *)
Definition b_connect (n : option Z) (b : block) : block :=
  mkBlock (b_base b) (b_data b) n.

(* bin_memory.cpp:27-47 BinMemory::find (both overloads) *)
Definition find (m : memory) (addr : Z) : option Z :=
  match m with
  | [] => None                                        (* _blocks.empty() *)
  | _ =>
    let it := m_lower_bound m addr in
    match it, m_begin m with
    | Some k, Some k0 =>
      match m_find m k with
      | Some b =>
        if k =? k0 then                               (* it == _blocks.begin() *)
          if addr <? b_base b then None else it
        else if addr <? b_base b then m_prev m it else it
      | None => None (* unreachable: k is a key *)
      end
    | None, _ => m_prev m None                        (* it == _blocks.end() *)
    | Some _, None => None (* unreachable: m not empty *)
    end
  end.

(* bin_memory.cpp:49-52 hasByte *)
Definition hasByte (m : memory) (addr : Z) : bool :=
  match find m addr with
  | Some k => match m_find m k with Some b => inside b addr | None => false end
  | None => false
  end.

(* bin_memory.cpp:71-79 readByte *)
Definition readByte (m : memory) (addr : Z) : Z :=
  match find m addr with
  | Some k => match m_find m k with
              | Some b => if inside b addr then b_read b addr else 0
              | None => 0
              end
  | None => 0
  end.

(* bin_memory.cpp:145-159 aggregate(block).  The argument is the block's base.
   Note: [prev--] on begin() is undefined by the C++ standard; libstdc++ yields end(),
   which is not used because the comparison is made first.  Modelled as no effect. *)
Definition aggregate (m : memory) (base : Z) : memory :=
  match m_find m base with                            (* it = _blocks.find(block.base()) *)
  | None => m
  | Some _ =>
    let m1 :=
      match m_next m base with                        (* ++next != end() *)
      | Some kn =>
        match m_find m base, m_find m kn with
        | Some b, Some n =>
          if atEnd b (b_base n)
          then m_erase (m_update m base (b_aggregate n)) kn
          else m
        | _, _ => m
        end
      | None => m
      end in
    match m_begin m1 with
    | Some k0 =>
      if base =? k0 then m1                           (* prev-- != begin() *)
      else match m_prev m1 (Some base) with
           | Some kp =>
             match m_find m1 kp, m_find m1 base with
             | Some p, Some b =>
               if atEnd p (b_base b)
               then m_erase (m_update m1 kp (b_aggregate b)) base
               else m1
             | _, _ => m1
             end
           | None => m1
           end
    | None => m1
    end
  end.

(* bin_memory.cpp:132-143 createBlock *)
Definition createBlock (m : memory) (addr v : Z) : memory :=
  let m1 := m_emplace m addr (mkBlock addr [] None) in
  let m2 := match m_next m1 addr with
            | Some kn => m_update m1 addr (b_connect (Some kn))
            | None => m1
            end in
  let m3 := match m_begin m2 with
            | Some k0 => if addr =? k0 then m2
                         else match m_prev m2 (Some addr) with
                              | Some kp => m_update m2 kp (b_connect (Some addr))
                              | None => m2
                              end
            | None => m2
            end in
  let m4 := m_update m3 addr (b_append v) in
  match m_find m4 addr with
  | Some b => aggregate m4 (b_base b)
  | None => m4
  end.

(* bin_memory.cpp:54-69 writeByte *)
Definition writeByte (m : memory) (addr v : Z) : memory :=
  match find m addr with
  | None => createBlock m addr v
  | Some k =>
    match m_find m k with
    | Some b =>
      if inside b addr then m_update m k (b_write addr v)
      else if atEnd b addr then aggregate (m_update m k (b_append v)) (b_base b)
      else createBlock m addr v
    | None => m (* unreachable: k is a key *)
    end
  end.

(* std::vector<uint8_t> equality *)
Fixpoint list_eqb (a b : list Z) : bool :=
  match a, b with
  | [], [] => true
  | x :: a', y :: b' => (x =? y) && list_eqb a' b'
  | _, _ => false
  end.

(* bin_memory.cpp:161-163 Block::operator== (the next pointer is not compared) *)
Definition block_eqb (a b : block) : bool :=
  (b_base a =? b_base b) && list_eqb (b_data a) (b_data b).

(* bin_memory.cpp:81-83 BinMemory::operator==, i.e. std::map equality: same size and
   pairwise equal (key, Block). *)
Fixpoint mem_eqb (a b : memory) : bool :=
  match a, b with
  | [], [] => true
  | (k, x) :: a', (l, y) :: b' => (k =? l) && block_eqb x y && mem_eqb a' b'
  | _, _ => false
  end.

(* Following the raw [next()] pointers from a node: bin_encoder.cpp:38, bin_reader.h:57,64.
   [None] is undefined behaviour (a dangling pointer) or a walk longer than [fuel]. *)
Fixpoint walk (fuel : nat) (m : memory) (p : option Z) : option (list block) :=
  match p with
  | None => Some []
  | Some k =>
    match fuel with
    | O => None
    | S f =>
      match m_find m k with
      | None => None
      | Some b => option_map (cons b) (walk f m (b_next b))
      end
    end
  end.

(* bin_memory.cpp:89-91 begin(), then next() until nullptr.  A walk without a cycle
   visits at most [length m] nodes. *)
Definition mem_blocks (m : memory) : option (list block) := walk (length m) m (m_begin m).

(* bin_memory.cpp:97-106 startAddress / endAddress *)
Definition startAddress (m : memory) : Z :=
  match m with [] => 0 | (_, b) :: _ => b_base b end.
Definition endAddress (m : memory) : Z :=
  match rev m with
  | [] => 0
  | (_, b) :: _ => (b_base b + dsize (b_data b) - 1) mod 2^32
  end.

(* bin_memory.cpp:171-175 trimStart *)
Definition trimStart (start : Z) (b : block) : block :=
  mkBlock start (skipn (Z.to_nat (start - b_base b)) (b_data b)) (b_next b).

(* bin_memory.cpp:177-180 trimEnd: removes the last [delta] bytes *)
Definition trimEnd (end_ : Z) (b : block) : block :=
  let delta := b_base b + dsize (b_data b) - 1 - end_ in
  mkBlock (b_base b) (firstn (length (b_data b) - Z.to_nat delta) (b_data b)) (b_next b).

(* bin_memory.cpp:112-127 the loop of setRange over the nodes; [s] and [e] are read once
   before the trims, as in the source. *)
Fixpoint range_loop (m : memory) (start end_ : Z) : memory :=
  match m with
  | [] => []
  | (k, b) :: t =>
    let s := b_base b in
    let e := (b_base b + dsize (b_data b) - 1) mod 2^32 in
    if (e <? start) || (end_ <? s) then range_loop t start end_
    else
      let b1 := if (s <? start) && (start <=? e) then trimStart start b else b in
      let b2 := if (s <? end_) && (end_ <=? e) then trimEnd end_ b1 else b1 in
      (k, b2) :: range_loop t start end_
  end.

(* bin_memory.cpp:125,128-129: [b] is the last block kept, b->connect(nullptr) *)
Fixpoint disconnect_last (m : memory) : memory :=
  match m with
  | [] => []
  | [(k, b)] => [(k, b_connect None b)]
  | x :: t => x :: disconnect_last t
  end.

(* bin_memory.cpp:108-130 setRange *)
Definition setRange (m : memory) (start end_ : Z) : memory :=
  if end_ <? start then m else disconnect_last (range_loop m start end_).
