(** What the SC/MP manual says about instructions and addresses.  Nothing here comes from the program. *)
From Coq Require Import ZArith List Bool.
From Verif Require Import M_Char M_Error M_Value M_Number S_Number.
Import ListNotations.
Open Scope list_scope.
Local Open Scope Z_scope.

(* a code with the highest bit set is followed by a byte, the others are not *)
Definition has_byte (code : Z) : bool := 128 <=? code.
(* a byte as a displacement *)
Definition displacement (x : Z) : Z := if x <? 128 then x else x - 256.
(* Memory is in pages of 4096 bytes and the program counter never leaves its page by itself.  It
   points to the displacement when the effective address is formed: data is there plus the
   displacement.  A jump loads it with such an address, and it is incremented before the next
   fetch. *)
Definition in_page (addr off : Z) : Z := addr / 4096 * 4096 + off mod 4096.
Definition data_address (addr x : Z) : Z := in_page addr (addr mod 4096 + 1 + displacement x).
Definition jump_address (addr x : Z) : Z := in_page addr (addr mod 4096 + 2 + displacement x).
(* JMP, JP, JZ, JNZ and the memory references, relative to the program counter *)
Definition jump_codes : list Z := [0x90; 0x94; 0x98; 0x9C].
Definition data_codes : list Z := [0xA8; 0xB8; 0xC0; 0xC8; 0xD0; 0xD8; 0xE0; 0xE8; 0xF0; 0xF8].
(* the codes the manual does not define *)
Definition undef_scmp : list (list Z) :=
  map (fun c => [c]) (filter (fun c => negb (existsb (Z.eqb c)
    (* extension register, pointers, shifts, miscellaneous *)
    ([0x40; 0x50; 0x58; 0x60; 0x68; 0x70; 0x78; 0x30; 0x31; 0x32; 0x33; 0x34; 0x35; 0x36; 0x37; 0x3C; 0x3D; 0x3E; 0x3F;
      0x19; 0x1C; 0x1D; 0x1E; 0x1F; 0x00; 0x01; 0x02; 0x03; 0x04; 0x05; 0x06; 0x07; 0x08; 0x8F] ++
    (* jumps, increment and decrement *)
     [0x90; 0x91; 0x92; 0x93; 0x94; 0x95; 0x96; 0x97; 0x98; 0x99; 0x9A; 0x9B; 0x9C; 0x9D; 0x9E; 0x9F;
      0xA8; 0xA9; 0xAA; 0xAB; 0xB8; 0xB9; 0xBA; 0xBB])) && ((c <? 0xC0) || (c =? 0xCC)))
    (map Z.of_nat (seq 0 256))).
(* the text [t] is a number of value [n] for the assemblers of National *)
Definition numeral_scmp (t : text) (n : Z) : Prop := forall r, boundary r -> np_ins80xx (t ++ r) 10 = (OK, mkV V_UNSIGNED n, r).
