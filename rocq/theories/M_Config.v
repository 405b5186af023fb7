(** Model of src/config_base.{h,cpp} and of Assembler::branchDelta. [None] is undefined behaviour
    (a shift by a negative or too large count, or overflow of a signed 32-bit integer). *)
From Coq Require Import ZArith List Bool.
From Verif Require Import M_Char M_Error.
Import ListNotations.
Local Open Scope Z_scope.

Definition u32 (z : Z) : Z := z mod 2^32.
Definition s32 (z : Z) : Z := let u := u32 z in if u <? 2^31 then u else u - 2^32.

(* config_base.cpp:21-24 overflowDelta: [INT32_C(1) << (bitw - 1)] gives INT32_MIN for 32, whose
   negation overflows *)
Definition overflowDelta (d w : Z) : option bool :=
  if (w <? 1) || (32 <=? w) then None
  else let sign := Z.shiftl 1 (w - 1) in Some ((d <? - sign) || (sign <=? d)).

(* config_base.cpp:26-30 signExtend *)
Definition signExtend (u w : Z) : option Z :=
  if (w <? 1) || (32 <? w) then None
  else
    let sign := u32 (Z.shiftl 1 (w - 1)) in
    let mask := u32 (u32 (Z.shiftl sign 1) - 1) in
    Some (s32 (Z.land (u32 (u + sign)) mask - sign)).

(* config_base.cpp:32-40 checkAddr(addr, align); [aw] is the address width of the CPU *)
Definition checkAddr (aw addr : Z) (align : bool) : err :=
  let max := u32 (Z.shiftl 1 aw) in
  if negb (Z.land addr (2^32 - 1 - u32 (max - 1)) =? 0) then OVERFLOW_RANGE
  else if align && negb (addr mod 2 =? 0) then OPERAND_NOT_ALIGNED
  else OK.

(* config_base.cpp:42-48 checkAddr(addr, base, width, align); [width] is below 64 *)
Definition checkAddr_in (aw addr base width : Z) (align : bool) : err :=
  let e := checkAddr aw addr align in
  if negb (isOK e) then e
  else
    let mask := u32 (2^64 - 1 - (Z.shiftl 1 width - 1)) in
    if Z.land addr mask =? Z.land base mask then OK else OVERWRAP_SEGMENT.

(* asm_base.cpp:126-133 branchDelta: the distance and the new error state *)
Definition branchDelta (aw base target : Z) (e : err) : option (Z * err) :=
  let e := setErrorIfAt e (checkAddr aw target false) in
  match signExtend (u32 (target - base)) aw with
  | None => None
  | Some delta =>
    Some (delta,
          if ((0 <=? delta) && (target <? base)) || ((delta <? 0) && (base <=? target))
          then setErrorIfAt e OVERFLOW_RANGE else e)
  end.
