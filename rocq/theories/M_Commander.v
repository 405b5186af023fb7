(** Model of the object file output of cli/asm_commander.cpp. *)
From Coq Require Import ZArith List Bool.
From Verif Require Import M_Char M_BinMemory M_HexFile.
Import ListNotations.
Local Open Scope Z_scope.

(* dynamic type of an encoder object (driver/intel_hex.h:27, driver/moto_srec.h:27) *)
Inductive format := IntelHexFormat | MotoSrecFormat.

(* driver/bin_encoder.h:28-43: an encoder object has a dynamic type and the two fields of the
   base class.  (The further fields of IntelHex are set by reset().) *)
Record encoder := mkEncoder { e_format : format; e_addr_width : Z; e_record_size : Z }.

(* The implicit BinEncoder::operator=: assigning through a base class reference copies the
   base class fields only; the dynamic type of the left hand side stays. *)
Definition base_assign (dst src : encoder) : encoder :=
  mkEncoder (e_format dst) (e_addr_width src) (e_record_size src).

(* bin_encoder.cpp:31-34 reset *)
Definition e_reset (e : encoder) (aw rs : Z) : encoder := mkEncoder (e_format e) aw rs.

(* intel_hex.cpp:26-29, moto_srec.cpp:26-29 encoder(): the two static objects.  Their field
   values before reset() do not matter; 0 here. *)
Definition intel_hex_encoder : encoder := mkEncoder IntelHexFormat 0 0.
Definition moto_srec_encoder : encoder := mkEncoder MotoSrecFormat 0 0.

(* bin_encoder.cpp:36-48 encode through the virtual functions of the dynamic type *)
Definition e_encode (fuel : nat) (e : encoder) (m : memory) : option (list text) :=
  match e_format e with
  | IntelHexFormat => ih_file fuel (e_addr_width e) (e_record_size e) m
  | MotoSrecFormat => sr_file fuel (e_addr_width e) (e_record_size e) m
  end.

(* asm_commander.cpp:98-114: write the object file.  [opt] is the letter of the -S / -H
   option, 0 when none was given; [default] is what defaultEncoder() of the current CPU's
   directives returns. *)
Definition write_object (fuel : nat) (default : encoder) (opt aw rs : Z) (m : memory)
  : option (list text) :=
  let e := default in
  let e := if opt =? 83 (* 'S' *) then base_assign e moto_srec_encoder
           else if opt =? 72 (* 'H' *) then base_assign e intel_hex_encoder else e in
  e_encode fuel (e_reset e aw rs) m.

(* asm_commander.cpp:259-271: the record length given with -S<n> or -H<n> (already converted
   by strtoul); without <n> it stays 32 (asm_commander.cpp:231). *)
Definition record_bytes_option (v : option Z) : option Z :=
  match v with None => Some 32 | Some v => if 64 <? v then None else Some v end.
