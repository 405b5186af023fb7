(** Model of src/insn_base.{h,cpp} and src/dis_memory.h: the instruction buffer of assembler and
    disassembler.
    Simplifications: the name buffer of an instruction is not part of this record (see
    M_StrBuffer.v for its operations); emitting and reading floating point data is not modelled. *)
From Coq Require Import ZArith List Bool.
From Verif Require Import M_Char M_Error.
Import ListNotations.
Local Open Scope Z_scope.

(* insn_base.h:130 MAX_CODE *)
Definition MAX_CODE : Z := 64.

(* insn_base.h:36,121-131 struct Insn.  [i_ub] records that an element outside the array has been
   accessed (undefined behaviour). *)
Record insn : Set := mkI { i_addr : Z; i_len : Z; i_bytes : list Z; i_err : err; i_ub : bool }.

Fixpoint set_at (n : nat) (v : Z) (l : list Z) : list Z :=
  match n, l with
  | _, [] => []
  | O, _ :: t => v :: t
  | S n', x :: t => x :: set_at n' v t
  end.
(* the array store [_bytes[pos] = val] *)
Definition store_byte (pos val : Z) (i : insn) : insn :=
  if (0 <=? pos) && (pos <? Z.of_nat (length (i_bytes i))) then
    mkI (i_addr i) (i_len i) (set_at (Z.to_nat pos) val (i_bytes i)) (i_err i) (i_ub i)
  else mkI (i_addr i) (i_len i) (i_bytes i) (i_err i) true.

Definition i_seterr (e : err) (i : insn) : insn := mkI (i_addr i) (i_len i) (i_bytes i) e (i_ub i).
Definition i_setlen (n : Z) (i : insn) : insn := mkI (i_addr i) n (i_bytes i) (i_err i) (i_ub i).
Definition i_setaddr (a : Z) (i : insn) : insn := mkI a (i_len i) (i_bytes i) (i_err i) (i_ub i).

Definition zero_bytes (n : Z) : list Z := repeat 0 (Z.to_nat n).

(* insn_base.cpp:23-25 Insn(addr) *)
Definition new_insn (addr : Z) : insn := mkI addr 0 (zero_bytes MAX_CODE) OK false.

(* insn_base.cpp:27-36 reset(addr, length) *)
Definition i_reset (addr length : Z) (i : insn) : insn :=
  let n := if MAX_CODE <=? length then MAX_CODE else length in
  mkI addr n (firstn (Z.to_nat n) (i_bytes i) ++ zero_bytes (MAX_CODE - n)) OK (i_ub i).

(* insn_base.cpp:38-43 align(step); [None]: division by zero *)
Definition i_align (step : Z) (i : insn) : option insn :=
  if step =? 0 then None
  else
    let rem := i_addr i mod step in
    Some (if rem =? 0 then i else i_setaddr ((i_addr i + (step - rem)) mod 2^32) i).

(* insn_base.cpp:45-52 emitByte(val, pos); [val] and [pos] are uint8_t *)
Definition emitByte_at (val pos : Z) (i : insn) : err * insn :=
  let val := val mod 2^8 in
  let pos := pos mod 2^8 in
  if MAX_CODE <=? pos then
    let e := setErrorIf (i_err i) NO_MEMORY in (e, i_seterr e i)
  else
    let i := store_byte pos val i in
    let pos := (pos + 1) mod 2^8 in
    (OK, if i_len i <? pos then i_setlen pos i else i).

(* insn_base.cpp:54-82; [data >> n] and the conversion of [pos + n] to uint8_t *)
Definition emitUint16Be_at (data pos : Z) (i : insn) : err * insn :=
  let '(_, i) := emitByte_at (Z.shiftr data 8) (pos + 0) i in
  emitByte_at (Z.shiftr data 0) (pos + 1) i.
Definition emitUint16Le_at (data pos : Z) (i : insn) : err * insn :=
  let '(_, i) := emitByte_at (Z.shiftr data 0) (pos + 0) i in
  emitByte_at (Z.shiftr data 8) (pos + 1) i.
Definition emitUint32Be_at (data pos : Z) (i : insn) : err * insn :=
  let '(_, i) := emitUint16Be_at (Z.shiftr data 16 mod 2^16) (pos + 0) i in
  emitUint16Be_at (Z.shiftr data 0 mod 2^16) (pos + 2) i.
Definition emitUint32Le_at (data pos : Z) (i : insn) : err * insn :=
  let '(_, i) := emitUint16Le_at (Z.shiftr data 0 mod 2^16) (pos + 0) i in
  emitUint16Le_at (Z.shiftr data 16 mod 2^16) (pos + 2) i.
Definition emitUint64Be_at (data pos : Z) (i : insn) : err * insn :=
  let '(_, i) := emitUint32Be_at (Z.shiftr data 32 mod 2^32) (pos + 0) i in
  emitUint32Be_at (Z.shiftr data 0 mod 2^32) (pos + 4) i.
Definition emitUint64Le_at (data pos : Z) (i : insn) : err * insn :=
  let '(_, i) := emitUint32Le_at (Z.shiftr data 0 mod 2^32) (pos + 0) i in
  emitUint32Le_at (Z.shiftr data 32 mod 2^32) (pos + 4) i.

(* insn_base.h:52-70: the versions without position append *)
Definition emitByte (val : Z) (i : insn) := emitByte_at val (i_len i) i.
Definition emitUint16Be (v : Z) (i : insn) := emitUint16Be_at v (i_len i) i.
Definition emitUint16Le (v : Z) (i : insn) := emitUint16Le_at v (i_len i) i.
Definition emitUint32Be (v : Z) (i : insn) := emitUint32Be_at v (i_len i) i.
Definition emitUint32Le (v : Z) (i : insn) := emitUint32Le_at v (i_len i) i.
Definition emitUint64Be (v : Z) (i : insn) := emitUint64Be_at v (i_len i) i.
Definition emitUint64Le (v : Z) (i : insn) := emitUint64Le_at v (i_len i) i.

(* insn_base.h:36 bytes() and length(): what the caller sees *)
Definition i_code (i : insn) : list Z := firstn (Z.to_nat (i_len i)) (i_bytes i).

(* insn_base.h:241-302 DisInsnBase: the instruction, the memory still to be read (dis_memory.h,
   as the list of the following bytes) and the error state *)
Record dinsn : Set := mkD { d_insn : insn; d_mem : list Z; d_err : err }.

(* insn_base.cpp:129-138 readByte *)
Definition readByte (d : dinsn) : Z * dinsn :=
  match d_mem d with
  | [] => (0, mkD (d_insn d) [] (setErrorIfAt (d_err d) NO_MEMORY))
  | c :: m =>
    let '(e, i) := emitByte c (d_insn d) in
    (c, mkD i m (if isOK e then d_err d else setErrorIfAt (d_err d) NO_MEMORY))
  end.
(* insn_base.cpp:140-174 *)
Definition readUint16Be (d : dinsn) : Z * dinsn :=
  let '(msb, d) := readByte d in let '(lsb, d) := readByte d in (Z.lor (Z.shiftl msb 8) lsb, d).
Definition readUint16Le (d : dinsn) : Z * dinsn :=
  let '(lsb, d) := readByte d in let '(msb, d) := readByte d in (Z.lor (Z.shiftl msb 8) lsb, d).
Definition readUint32Be (d : dinsn) : Z * dinsn :=
  let '(msw, d) := readUint16Be d in let '(lsw, d) := readUint16Be d in (Z.lor (Z.shiftl msw 16) lsw, d).
Definition readUint32Le (d : dinsn) : Z * dinsn :=
  let '(lsw, d) := readUint16Le d in let '(msw, d) := readUint16Le d in (Z.lor (Z.shiftl msw 16) lsw, d).
Definition readUint64Be (d : dinsn) : Z * dinsn :=
  let '(msw, d) := readUint32Be d in let '(lsw, d) := readUint32Be d in (Z.lor (Z.shiftl msw 32) lsw, d).
Definition readUint64Le (d : dinsn) : Z * dinsn :=
  let '(lsw, d) := readUint32Le d in let '(msw, d) := readUint32Le d in (Z.lor (Z.shiftl msw 32) lsw, d).
