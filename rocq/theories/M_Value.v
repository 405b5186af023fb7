(** Model of src/value.{h,cpp} (host configuration: 64-bit integers, floats enabled).
    Undefined behaviour of C++ (negating or overflowing a signed integer) is the outcome [None].
    Simplification: floating point numbers have no payload here; an operation with a float
    operand yields a [V_FLOAT] value and float comparisons are not modelled (false). *)
From Coq Require Import ZArith List Bool.
From Verif Require Import M_Char M_Error.
Import ListNotations.
Local Open Scope Z_scope.

(* value.h:145-150 ValueType *)
Inductive vtype : Set := V_UNDEF | V_UNSIGNED | V_SIGNED | V_FLOAT.

(* value.h:152-159: the union holds 64 bits, [v_bits] is their unsigned reading *)
Record value : Set := mkV { v_type : vtype; v_bits : Z }.

Definition u64 (z : Z) : Z := z mod 2^64.
(* reading 64 bits as signed_t *)
Definition s64 (u : Z) : Z := if u <? 2^63 then u else u - 2^64.
Definition v_signed (v : value) : Z := s64 (v_bits v).

(* unary minus on signed_t: undefined for INT64_MIN *)
Definition neg64 (s : Z) : option Z := if s =? - 2^63 then None else Some (- s).

(* value.h:51 Value() *)
Definition v_undef : value := mkV V_UNDEF 0.

(* value.h:71-75 *)
Definition isUndefined (v : value) : bool := match v_type v with V_UNDEF => true | _ => false end.
Definition isUnsigned (v : value) : bool :=
  match v_type v with V_UNSIGNED | V_UNDEF => true | _ => false end.
Definition isSigned (v : value) : bool := match v_type v with V_SIGNED => true | _ => false end.
Definition isFloat (v : value) : bool := match v_type v with V_FLOAT => true | _ => false end.
Definition isInteger (v : value) : bool := negb (isFloat v).

(* value.h:82-83 getSigned / getUnsigned: truncation to 32 bits *)
Definition getUnsigned (v : value) : Z := v_bits v mod 2^32.
Definition getSigned (v : value) : Z :=
  let u := v_bits v mod 2^32 in if u <? 2^31 then u else u - 2^32.
(* value.h:85 getInteger *)
Definition getInteger (v : value) : Z := v_signed v.

(* value.cpp:111-114 setU *)
Definition setU (u : Z) : value := mkV V_UNSIGNED (u64 u).
(* value.cpp:102-109 setS *)
Definition setS (s : Z) : value := if 0 <=? s then setU s else mkV V_SIGNED (u64 s).
(* value.cpp:116-138 setSigned/setUnsigned/setInteger/setUinteger *)
Definition setSigned (s : Z) : value := setS s.
Definition setUnsigned (u : Z) : value := setU (u mod 2^32).
Definition setInteger (s : Z) : value := setS s.
Definition setUinteger (u : Z) : value := setU u.
Definition setFloat : value := mkV V_FLOAT 0.

(* value.cpp:241-251 isZero (integers) *)
Definition isZero (v : value) : bool := if isUndefined v then false else v_bits v =? 0.
(* value.cpp:253-259 isNegative (integers) *)
Definition isNegative (v : value) : bool := isSigned v && (v_signed v <? 0).

(* value.cpp:192-204 overflowInt32 *)
Definition overflowInt32 (v : value) : bool :=
  if isUnsigned v then 2^31 - 1 <? v_bits v
  else (2^31 - 1 <? v_signed v) || (v_signed v <? - 2^31).
(* value.cpp:206-216 overflowUint32 *)
Definition overflowUint32 (v : value) : bool :=
  if isUnsigned v then 2^32 - 1 <? v_bits v
  else (2^32 - 1 <? v_signed v) || (v_signed v <? - 2^31).
(* value.cpp:218-231 overflow(max, min) *)
Definition overflow (v : value) (max min : Z) : bool :=
  if overflowUint32 v then true
  else if isUnsigned v then
    let u := v_bits v mod 2^32 in (max <? u) || ((0 <? min) && (u <? min))
  else if 0 <=? v_signed v then
    let u := v_signed v mod 2^32 in (max <? u) || ((0 <? min) && (u <? min))
  else
    let s := v_signed v in ((max <=? 2^31 - 1) && (max <? s)) || (s <? min).
(* value.cpp:176-190 *)
Definition overflowInt8 (v : value) : bool := overflow v 127 (-128).
Definition overflowUint8 (v : value) : bool := overflow v 255 (-128).
Definition overflowInt16 (v : value) : bool := overflow v 32767 (-32768).
Definition overflowUint16 (v : value) : bool := overflow v 65535 (-32768).

(* value.cpp:271-279 operator== *)
Definition v_eqb (a b : value) : bool :=
  if isInteger a && isInteger b then v_bits a =? v_bits b else false.
(* value.cpp:281-301 operator< *)
Definition v_ltb (a b : value) : bool :=
  if isInteger a && isInteger b then
    if isUnsigned a then
      if isUnsigned b then v_bits a <? v_bits b
      else let s := v_signed b in (0 <=? s) && (v_bits a <? u64 s)
    else
      if isSigned b then v_signed a <? v_signed b
      else (v_signed a <? 0) || (u64 (v_signed a) <? v_bits b)
  else false.

(* value.cpp:303-317 operator bool, !, &&, || *)
Definition v_not (v : value) : bool := isInteger v && (v_bits v =? 0).
Definition v_land (a b : value) : bool := negb (v_not a) && negb (v_not b).
Definition v_lor (a b : value) : bool := negb (v_not a) || negb (v_not b).

(* value.cpp:319-335 negate *)
Definition v_neg (v : value) : option value :=
  if isInteger v then
    if isNegative v then option_map (fun s => setU (u64 s)) (neg64 (v_signed v))
    else option_map setS (neg64 (s64 (v_bits v)))
  else Some setFloat.

(* value.cpp:337-339 absolute *)
Definition v_absolute (v : value) : option Z :=
  if isNegative v then option_map u64 (neg64 (v_signed v)) else Some (v_bits v).

(* [v.setS(-static_cast<signed_t>(u))] *)
Definition setNeg (u : Z) : option value := option_map setS (neg64 (s64 u)).

(* value.cpp:341-376 operator+ *)
Definition v_add (a b : value) : option value :=
  if isInteger a && isInteger b then
    match v_absolute a, v_absolute b with
    | Some l, Some r =>
      if Bool.eqb (isNegative a) (isNegative b) then
        let s := u64 (l + r) in
        if isNegative a then setNeg s else Some (setU s)
      else if r <=? l then
        let u := u64 (l - r) in
        if isNegative a then setNeg u else Some (setU u)
      else
        let u := u64 (r - l) in
        if isNegative a then Some (setU u) else setNeg u
    | _, _ => None
    end
  else Some setFloat.

(* value.cpp:378-380 operator- *)
Definition v_sub (a b : value) : option value :=
  match v_neg b with Some nb => v_add a nb | None => None end.

(* value.cpp:382-399 operator* *)
Definition v_mul (a b : value) : option value :=
  if isInteger a && isInteger b then
    match v_absolute a, v_absolute b with
    | Some l, Some r =>
      let p := u64 (l * r) in
      if Bool.eqb (isNegative a) (isNegative b) then Some (setU p) else setNeg p
    | _, _ => None
    end
  else Some setFloat.

(* value.cpp:401-420 operator/ *)
Definition v_div (a b : value) : option value :=
  if isZero b || isUndefined b then Some v_undef
  else if isInteger a && isInteger b then
    match v_absolute a, v_absolute b with
    | Some l, Some r =>
      let q := l / r in
      if Bool.eqb (isNegative a) (isNegative b) then Some (setU q) else setNeg q
    | _, _ => None
    end
  else Some setFloat.

(* value.cpp:422-436 operator% *)
Definition v_mod (a b : value) : option value :=
  if isZero b || isUndefined b then Some v_undef
  else if isInteger a && isInteger b then
    match v_absolute a, v_absolute b with
    | Some l, Some r =>
      let m := l mod r in if isNegative a then setNeg m else Some (setU m)
    | _, _ => None
    end
  else Some v_undef.

(* value.cpp:438-446 operator~ *)
Definition v_lnot (v : value) : value :=
  if isInteger v then setS (s64 (2^64 - 1 - v_bits v)) else v_undef.
(* value.cpp:448-473 operator& | ^ *)
Definition v_and (a b : value) : value :=
  if isInteger a && isInteger b then setS (s64 (Z.land (v_bits a) (v_bits b))) else v_undef.
Definition v_or (a b : value) : value :=
  if isInteger a && isInteger b then setS (s64 (Z.lor (v_bits a) (v_bits b))) else v_undef.
Definition v_xor (a b : value) : value :=
  if isInteger a && isInteger b then setS (s64 (Z.lxor (v_bits a) (v_bits b))) else v_undef.

(* value.cpp:475-486 operator<< *)
Definition v_shl (a b : value) : value :=
  if isInteger a && isInteger b then
    let c := getUnsigned b in
    if 64 <=? c then setU 0 else setU (u64 (Z.shiftl (v_bits a) c))
  else v_undef.
(* value.cpp:488-505 operator>> *)
Definition v_shr (a b : value) : value :=
  if isInteger a && isInteger b then
    let c := getUnsigned b in
    if 64 <=? c then if isSigned a && isNegative a then setS (-1) else setU 0
    else if isNegative a then setS (Z.shiftr (v_signed a) c) else setU (Z.shiftr (v_bits a) c)
  else v_undef.

(* value.cpp:507-518 power<BASE>: [mul] is the multiplication of the BASE type; the exponent is
   positive here, an exponent of 0 returns 1 at once. *)
Fixpoint power_loop (mul : Z -> Z -> option Z) (prod base : Z) (exp : positive) : option Z :=
  match exp with
  | xH => mul prod base
  | xO e => match mul base base with Some b => power_loop mul prod b e | None => None end
  | xI e =>
    match mul prod base with
    | Some p => match mul base base with Some b => power_loop mul p b e | None => None end
    | None => None
    end
  end.
Definition power (mul : Z -> Z -> option Z) (base exp : Z) : option Z :=
  match exp with Zpos e => power_loop mul 1 base e | _ => Some 1 end.
Definition mulS (a b : Z) : option Z :=
  let p := a * b in if (- 2^63 <=? p) && (p <? 2^63) then Some p else None.
Definition mulU (a b : Z) : option Z := Some (u64 (a * b)).

(* value.cpp:521-532 exponential *)
Definition v_exp (a b : value) : option value :=
  if isInteger a && isInteger b then
    if isNegative a then option_map setS (power mulS (v_signed a) (v_bits b))
    else option_map setU (power mulU (v_bits a) (v_bits b))
  else Some v_undef.

(* ------------------------------------------------------------ reading digits *)
(* number_parser.h/value.h enum Radix : uint8_t; a radix is its numeric value, since the PDP-11
   operators store any uint8_t in it *)
Definition RADIX_NONE : Z := 0.
Definition RADIX_2 : Z := 2.
Definition RADIX_8 : Z := 8.
Definition RADIX_10 : Z := 10.
Definition RADIX_16 : Z := 16.

(* value.cpp:26-30 isValidDigit *)
Definition isValidDigit (c r : Z) : bool :=
  if r =? RADIX_16 then is_xdigit c else (48 <=? c) && (c <? 48 + r).

(* value.cpp:32-36 toNumber (uint8_t) *)
Definition toNumber (c r : Z) : Z :=
  if (r =? RADIX_16) && (65 <=? c) then (Z.ldiff c 32 - 65 + 10) mod 256 else (c - 48) mod 256.

(* value.cpp:38-58 the loop of strToNumber *)
Fixpoint digits_loop (r : Z) (s : text) (v : Z) (e : err) : err * Z * text :=
  match s with
  | [] => (e, v, [])
  | c :: t =>
    if isValidDigit c r then
      let n := toNumber c r in
      let limit := (2^64 - 1) / r in
      let limit_digit := (2^64 - 1) mod r in
      let e := if (limit <? v) || ((v =? limit) && (limit_digit <? n)) then OVERFLOW_RANGE else e in
      digits_loop r t (u64 (u64 (v * r) + n)) e
    else (e, v, s)
  end.
(* value.cpp:38-63 strToNumber, Value::read(scan, radix, value): error, value, rest *)
Definition read_digits (s : text) (r : Z) : err * Z * text :=
  if isValidDigit (peek s) r then digits_loop r s 0 OK else (NOT_AN_EXPECTED, 0, s).

(* value.cpp:65-71 Value::read: error, value, rest *)
Definition v_read (s : text) (r : Z) : err * value * text :=
  let '(e, u, rest) := read_digits s r in
  (e, if isOK e then mkV V_UNSIGNED u else v_undef, rest).
