(** Specification vocabulary for instruction bytes. *)
From Coq Require Import ZArith List Bool.
From Verif Require Import M_Char M_Error M_Insn.
Import ListNotations.
Local Open Scope Z_scope.

Inductive size := S8 | S16 | S32 | S64.
Definition nbytes (s : size) : Z := match s with S8 => 1 | S16 => 2 | S32 => 4 | S64 => 8 end.

(* the [n] bytes of [v], least significant first *)
Fixpoint le_bytes (n : nat) (v : Z) : list Z :=
  match n with O => [] | S n' => v mod 256 :: le_bytes n' (v / 256) end.
Definition data_bytes (big : bool) (s : size) (v : Z) : list Z :=
  let l := le_bytes (Z.to_nat (nbytes s)) v in if big then rev l else l.

(* the emit operations of the API, at a position or appending *)
Definition emit_at (s : size) (big : bool) (v pos : Z) (i : insn) : err * insn :=
  match s, big with
  | S8, _ => emitByte_at v pos i
  | S16, true => emitUint16Be_at v pos i
  | S16, false => emitUint16Le_at v pos i
  | S32, true => emitUint32Be_at v pos i
  | S32, false => emitUint32Le_at v pos i
  | S64, true => emitUint64Be_at v pos i
  | S64, false => emitUint64Le_at v pos i
  end.
Definition emit (s : size) (big : bool) (v : Z) (i : insn) : err * insn :=
  match s, big with
  | S8, _ => emitByte v i
  | S16, true => emitUint16Be v i
  | S16, false => emitUint16Le v i
  | S32, true => emitUint32Be v i
  | S32, false => emitUint32Le v i
  | S64, true => emitUint64Be v i
  | S64, false => emitUint64Le v i
  end.
Inductive emission := At (s : size) (big : bool) (v pos : Z) | Append (s : size) (big : bool) (v : Z) | Reset (addr len : Z).
Definition do_emission (o : emission) (i : insn) : insn :=
  match o with
  | At s big v pos => snd (emit_at s big v pos i)
  | Append s big v => snd (emit s big v i)
  | Reset a n => i_reset a n i
  end.
Definition legal (o : emission) : Prop :=
  match o with
  | At s _ v pos => 0 <= v < 256 ^ nbytes s /\ 0 <= pos <= 255
  | Append s _ v => 0 <= v < 256 ^ nbytes s
  | Reset a n => 0 <= a < 2^32 /\ 0 <= n <= 255
  end.

(* a sound buffer: 64 bytes, no access outside, a length that fits *)
Definition sound (i : insn) : Prop :=
  length (i_bytes i) = 64%nat /\ i_ub i = false /\ 0 <= i_len i <= 64 /\ Forall (fun b => 0 <= b < 256) (i_bytes i).

Definition byte_at (i : insn) (p : Z) : Z := nth (Z.to_nat p) (i_bytes i) 0.

(* what emitting [bs] at [pos] has to do *)
Definition emitted (bs : list Z) (pos : Z) (i : insn) (e : err) (i' : insn) : Prop :=
  let n := Z.of_nat (length bs) in
  (forall p, 0 <= p < 64 -> byte_at i' p = if (pos <=? p) && (p <? pos + n) then nth (Z.to_nat (p - pos)) bs 0 else byte_at i p) /\
  i_len i' = (if pos <? 64 then Z.max (i_len i) (Z.min 64 (pos + n)) else i_len i) /\
  (e = OK <-> pos + n <= 64) /\
  i_err i' = (if pos + n <=? 64 then i_err i else if isOK (i_err i) then NO_MEMORY else i_err i) /\
  i_addr i' = i_addr i.

Definition read_data (s : size) (big : bool) (d : dinsn) : Z * dinsn :=
  match s, big with
  | S8, _ => readByte d
  | S16, true => readUint16Be d
  | S16, false => readUint16Le d
  | S32, true => readUint32Be d
  | S32, false => readUint32Le d
  | S64, true => readUint64Be d
  | S64, false => readUint64Le d
  end.
