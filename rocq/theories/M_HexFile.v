(** Model of the object file formats: driver/bin_encoder.cpp, driver/bin_decoder.cpp,
    driver/intel_hex.{h,cpp}, driver/moto_srec.{h,cpp}.
    A file is the list of its lines without the terminating newline.
    Simplification: the [int] byte count returned by decode is an unbounded [Z]. *)
From Coq Require Import String ZArith List Bool.
From Verif Require Import M_Char M_Map M_BinMemory.
Import ListNotations.
Local Open Scope Z_scope.

(* ------------------------------------------------------------ text of numbers *)

(* digit of printf %X *)
Definition hexd (d : Z) : Z := if d <? 10 then 48 + d else 55 + d.

(* printf "%0nX" of an argument below 16^n (all arguments are cast to types that fit). *)
Fixpoint hexn (n : nat) (v : Z) : text :=
  match n with O => [] | S n' => hexn n' (v / 16) ++ [hexd (v mod 16)] end.

(* printf "%2X" of an 8-bit argument: padded with a blank *)
Definition hex2_blank (v : Z) : text := if v <? 16 then [32; hexd v] else hexn 2 v.

(* bin_decoder.cpp:51-53 parseHex (uint8_t) *)
Definition parseHex (c : Z) : Z := if is_digit c then c - 48 else to_upper c - 65 + 10.

(* bin_decoder.cpp:55-65 parseByte *)
Definition parseByte (line : text) : option (Z * text) :=
  match expect is_xdigit line with
  | None => None
  | Some (c1, l1) =>
    match expect is_xdigit l1 with
    | None => None
    | Some (c2, l2) => Some (Z.lor ((parseHex c1 * 16) mod 256) (parseHex c2), l2)
    end
  end.

(* bin_decoder.cpp:67-76 parseUint16 *)
Definition parseUint16 (line : text) : option (Z * text) :=
  match parseByte line with
  | None => None
  | Some (h, l1) =>
    match parseByte l1 with
    | None => None
    | Some (l, l2) => Some (Z.lor (h * 256) l, l2)
    end
  end.

(* bin_decoder.cpp:78-88 parseUint24 *)
Definition parseUint24 (line : text) : option (Z * text) :=
  match parseByte line with
  | None => None
  | Some (h, l1) =>
    match parseUint16 l1 with
    | None => None
    | Some (l, l2) => Some (Z.lor (h * 65536) l, l2)
    end
  end.

(* bin_decoder.cpp:90-99 parseUint32 *)
Definition parseUint32 (line : text) : option (Z * text) :=
  match parseUint16 line with
  | None => None
  | Some (h, l1) =>
    match parseUint16 l1 with
    | None => None
    | Some (l, l2) => Some (Z.lor (h * 65536) l, l2)
    end
  end.

(* ------------------------------------------------------------ checksum *)
(* intel_hex.h:47-56, moto_srec.h:38-51 addSum8/16/24/32 on a uint8_t accumulator *)
Definition addSum8 (s d : Z) : Z := (s + d mod 256) mod 256.
Definition addSum16 (s d : Z) : Z := addSum8 (addSum8 s (d / 256)) d.
Definition addSum24 (s d : Z) : Z := addSum16 (addSum8 s (d / 65536)) d.
Definition addSum32 (s d : Z) : Z := addSum16 (addSum16 s (d / 65536)) d.

(* ------------------------------------------------------------ encoding *)

(* bin_encoder.cpp:22-29 addressSize *)
Definition addressSize (bits : Z) : Z :=
  if bits <=? 16 then 2 else if bits <=? 24 then 3 else 4.

(* bin_encoder.cpp:39-44 the records of one block: [rest] is the data from offset [i];
   [None] when [fuel] iterations do not finish the loop. *)
Fixpoint block_records (fuel : nat) (rs base i : Z) (rest : list Z) : option (list (Z * list Z)) :=
  match rest with
  | [] => Some []                                   (* i < block->size() is false *)
  | _ =>
    match fuel with
    | O => None
    | S f =>
      let size := if dsize rest <=? rs then dsize rest else rs in
      option_map (cons ((base + i) mod 2^32, firstn (Z.to_nat size) rest))
                 (block_records f rs base (i + rs) (skipn (Z.to_nat rs) rest))
    end
  end.

(* bin_encoder.cpp:36-48 the loop over blocks: the sequence of (addr, data) handed to the
   virtual encode(); [None]: a dangling next pointer or a loop that does not end within
   [fuel] iterations. *)
Fixpoint all_records (fuel : nat) (rs : Z) (bl : list block) : option (list (Z * list Z)) :=
  match bl with
  | [] => Some []
  | b :: t =>
    match block_records fuel rs (b_base b) 0 (b_data b), all_records fuel rs t with
    | Some r, Some rt => Some (r ++ rt)
    | _, _ => None
    end
  end.

Definition mem_records (fuel : nat) (rs : Z) (m : memory) : option (list (Z * list Z)) :=
  match mem_blocks m with Some bl => all_records fuel rs bl | None => None end.

(* ---- Intel HEX: intel_hex.cpp ---- *)
Record ihex := mkIhex { ih_last : Z; ih_next : Z }.

(* intel_hex.cpp:99-102 reset *)
Definition ih_reset : ihex := mkIhex (2^32 - 1) 0.

(* intel_hex.cpp:32-34 getSum *)
Definition ih_getSum (s : Z) : Z := (- s) mod 256.

(* intel_hex.cpp:64-78 formatEla *)
Definition formatEla (aw addr : Z) : list text :=
  if addressSize aw <=? 2 then []
  else
    let ela := (addr / 65536) mod 65536 in
    let s := addSum16 (addSum8 (addSum16 (addSum8 0 2) 0) 4) ela in
    [s2l ":" ++ hexn 2 2 ++ hexn 4 0 ++ hexn 2 4 ++ hexn 4 ela ++ hex2_blank (ih_getSum s)].

(* intel_hex.cpp:80-93 encodeLine; [addr] is converted to uint16_t by the call *)
Definition encodeLine (addr : Z) (data : list Z) (size : Z) : text :=
  let addr := addr mod 65536 in
  let d := firstn (Z.to_nat size) data in
  let s := addSum8 (addSum16 (addSum8 0 size) addr) 0 in
  let s := fold_left addSum8 d s in
  s2l ":" ++ hexn 2 size ++ hexn 4 addr ++ hexn 2 0 ++ flat_map (hexn 2) d ++ hexn 2 (ih_getSum s).

(* intel_hex.cpp:41-61 encode *)
Definition ih_encode (aw : Z) (st : ihex) (addr : Z) (data : list Z) (size : Z) : list text * ihex :=
  let pre := if negb (addr =? ih_next st) || negb (Z.lxor addr (ih_last st) / 65536 =? 0)
             then formatEla aw addr else [] in
  let end_ := (addr + size) mod 2^32 in
  if negb (Z.lxor addr end_ / 65536 =? 0) then       (* (addr ^ end) & ~0xFFFF *)
    let chunk := ((end_ / 65536 * 65536) - addr) mod 256 in
    let l1 := encodeLine addr data chunk in
    let addr2 := (addr + chunk) mod 2^32 in
    let size2 := (size - chunk) mod 256 in
    if size2 =? 0 then (pre ++ [l1], mkIhex addr addr2)
    else (pre ++ [l1; encodeLine addr2 (skipn (Z.to_nat chunk) data) size2],
          mkIhex addr2 ((addr2 + size2) mod 2^32))
  else (pre ++ [encodeLine addr data size], mkIhex addr ((addr + size) mod 2^32)).

Fixpoint ih_lines (aw : Z) (st : ihex) (rs : list (Z * list Z)) : list text :=
  match rs with
  | [] => []
  | (a, d) :: t => let '(ls, st') := ih_encode aw st a d (dsize d) in ls ++ ih_lines aw st' t
  end.

(* intel_hex.cpp:36-39 reset, bin_encoder.cpp:36-48 encode with intel_hex.cpp:95-97 end *)
Definition ih_file (fuel : nat) (aw rs : Z) (m : memory) : option (list text) :=
  option_map (fun r => ih_lines aw ih_reset r ++ [s2l ":00000001FF"]) (mem_records fuel rs m).

(* ---- Motorola S-record: moto_srec.cpp ---- *)
(* moto_srec.cpp:32-34 getSum *)
Definition sr_getSum (s : Z) : Z := 255 - s.

(* moto_srec.cpp:40-65 encode *)
Definition sr_encode (aw addr : Z) (data : list Z) (size : Z) : text :=
  let asz := addressSize aw in
  let len := (asz + size + 1) mod 256 in
  let s := addSum8 0 len in
  let d := firstn (Z.to_nat size) data in
  let '(head, s) :=
    if asz =? 2 then (s2l "S1" ++ hexn 2 len ++ hexn 4 (addr mod 65536), addSum16 s addr)
    else if asz =? 3 then
      (s2l "S2" ++ hexn 2 len ++ hexn 2 (addr / 65536 mod 256) ++ hexn 4 (addr mod 65536),
       addSum24 s addr)
    else (s2l "S3" ++ hexn 2 len ++ hexn 8 addr, addSum32 s addr) in
  head ++ flat_map (hexn 2) d ++ hexn 2 (sr_getSum (fold_left addSum8 d s)).

(* moto_srec.cpp:67-78 end *)
Definition sr_end (aw : Z) : text :=
  if addressSize aw =? 2 then s2l "S9030000FC"
  else if addressSize aw =? 3 then s2l "S804000000FB" else s2l "S70500000000FA".

(* moto_srec.cpp:36-38 begin, bin_encoder.cpp:36-48 *)
Definition sr_file (fuel : nat) (aw rs : Z) (m : memory) : option (list text) :=
  option_map (fun r => s2l "S0030000FC" :: map (fun x => sr_encode aw (fst x) (snd x) (dsize (snd x))) r
                       ++ [sr_end aw])
             (mem_records fuel rs m).

(* ------------------------------------------------------------ decoding *)

(* intel_hex.cpp:138-144, moto_srec.cpp:121-127: the data loop.  [None] as the first
   component: a byte could not be parsed; the memory keeps what was written before. *)
Fixpoint decode_data (n : nat) (addr i : Z) (line : text) (s : Z) (m : memory)
  : option (text * Z) * memory :=
  match n with
  | O => (Some (line, s), m)
  | S n' =>
    match parseByte line with
    | None => (None, m)
    | Some (d, l1) =>
      decode_data n' addr (i + 1) l1 (addSum8 s d) (writeByte m ((addr + i) mod 2^32) d)
    end
  end.

(* intel_hex.cpp:104-153 decode: result code, new _next_addr, memory *)
Definition ih_decode (next : Z) (line : text) (m : memory) : Z * Z * memory :=
  match expect (Z.eqb 58) line with
  | None => (-1, next, m)
  | Some (_, l0) =>
    match parseByte l0 with
    | None => (-1, next, m)
    | Some (len, l1) =>
      let s := addSum8 0 len in
      match parseUint16 l1 with
      | None => (-1, next, m)
      | Some (addr, l2) =>
        let s := addSum16 s addr in
        match parseByte l2 with
        | None => (-1, next, m)
        | Some (type, l3) =>
          let s := addSum8 s type in
          if type =? 4 then
            match parseUint16 l3 with
            | None => (-1, next, m)
            | Some (ela, l4) =>
              let s := addSum16 s ela in
              let next := (ela * 65536) mod 2^32 in
              match parseByte l4 with
              | None => (-1, next, m)
              | Some (sum, _) => if addSum8 s sum =? 0 then (0, next, m) else (-1, next, m)
              end
            end
          else if negb (type =? 0) then (0, next, m)
          else
            let ela_addr := Z.lor next addr in
            match decode_data (Z.to_nat len) ela_addr 0 l3 s m with
            | (None, m') => (-1, next, m')
            | (Some (l4, s'), m') =>
              match parseByte l4 with
              | None => (-1, next, m')
              | Some (sum, _) => if addSum8 s' sum =? 0 then (len, next, m') else (-1, next, m')
              end
            end
        end
      end
    end
  end.

(* moto_srec.cpp:118-136: after the address; [len] counts data and checksum *)
Definition sr_decode_tail (addr len : Z) (line : text) (s : Z) (m : memory) : Z * memory :=
  if len <? 1 then (-2, m)
  else
    let size := len - 1 in
    match decode_data (Z.to_nat size) addr 0 line s m with
    | (None, m') => (-1, m')
    | (Some (l, s'), m') =>
      match parseByte l with
      | None => (-1, m')
      | Some (v, _) => if v =? sr_getSum s' then (size, m') else (-1, m')
      end
    end.

(* moto_srec.cpp:80-136 decode *)
Definition sr_decode (line : text) (m : memory) : Z * memory :=
  match expect (Z.eqb 83) line with
  | None => (-1, m)
  | Some (_, l0) =>
    let type := peek l0 in
    let l0 := tl l0 in
    if type =? 48 then (0, m)
    else if (type =? 57) || (type =? 56) || (type =? 55) then (0, m)
    else if (type =? 53) || (type =? 54) then (0, m)
    else if negb (type =? 49) && negb (type =? 50) && negb (type =? 51) then (-1, m)
    else
      match parseByte l0 with
      | None => (-1, m)
      | Some (len, l1) =>
        let s := addSum8 0 len in
        if type =? 49 then
          if len <? 2 then (-1, m)
          else match parseUint16 l1 with
               | None => (-1, m)
               | Some (a, l2) => sr_decode_tail a (len - 2) l2 (addSum16 s a) m
               end
        else if type =? 50 then
          if len <? 3 then (-1, m)
          else match parseUint24 l1 with
               | None => (-1, m)
               | Some (a, l2) => sr_decode_tail a (len - 3) l2 (addSum24 s a) m
               end
        else
          if len <? 4 then (-1, m)
          else match parseUint32 l1 with
               | None => (-1, m)
               | Some (a, l2) => sr_decode_tail a (len - 4) l2 (addSum32 s a) m
               end
      end
  end.

(* bin_decoder.cpp:29-48 with decoder = IntelHex *)
Fixpoint ih_decode_lines (next : Z) (ls : list text) (size : Z) (m : memory) {struct ls} : Z * memory :=
  match ls with
  | [] => (size, m)
  | l :: t =>
    match ih_decode next l m with
    | (r, next', m') => if r <? 0 then (r, m') else ih_decode_lines next' t (size + r) m'
    end
  end.

(* bin_decoder.cpp:29-48 with decoder = MotoSrec *)
Fixpoint sr_decode_lines (ls : list text) (size : Z) (m : memory) {struct ls} : Z * memory :=
  match ls with
  | [] => (size, m)
  | l :: t =>
    match sr_decode l m with
    | (r, m') => if r <? 0 then (r, m') else sr_decode_lines t (size + r) m'
    end
  end.

(* bin_decoder.cpp:25-49 decode: the decoder is chosen by the first line *)
Definition decode_file (ls : list text) (m : memory) : Z * memory :=
  match ls with
  | [] => (0, m)
  | l :: _ =>
    if peek l =? 83 then sr_decode_lines ls 0 m
    else if peek l =? 58 then ih_decode_lines (ih_next ih_reset) ls 0 m
    else (-1, m)
  end.
