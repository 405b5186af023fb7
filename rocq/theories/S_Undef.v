(** Codes that the manuals of the manufacturers leave undefined.  Nothing here comes from the tables
    of the program. *)
From Coq Require Import ZArith List Bool.
Import ListNotations.
Open Scope list_scope.
Local Open Scope Z_scope.

(* all bytes but these *)
Definition except (l : list Z) : list Z := filter (fun c => negb (existsb (Z.eqb c) l)) (map Z.of_nat (seq 0 256)).
(* the bytes from [a] to [b] *)
Definition span (a b : Z) : list Z := map (fun k => a + Z.of_nat k) (seq 0 (Z.to_nat (b - a + 1))).
Definition after (prefix l : list Z) : list (list Z) := map (fun c => prefix ++ [c]) l.

(* ------------------------------------------------------------ Intel 8080, 8085, NEC V30 *)
Definition undef_8080 : list (list Z) := after [] [0x08; 0x10; 0x18; 0x20; 0x28; 0x30; 0x38; 0xCB; 0xD9; 0xDD; 0xED; 0xFD].
Definition undef_8085 : list (list Z) := after [] [0x08; 0x10; 0x18; 0x28; 0x38; 0xCB; 0xD9; 0xDD; 0xED; 0xFD].
Definition undef_v30 : list (list Z) :=
  after [] [0x08; 0x10; 0x18; 0x20; 0x28; 0x30; 0x38; 0xCB; 0xD9; 0xDD; 0xFD] ++ after [0xED] (except [0xED; 0xFD]).

(* ------------------------------------------------------------ Zilog Z80 *)
Definition indexed : list Z :=
  [0x09; 0x19; 0x29; 0x39; 0x21; 0x22; 0x23; 0x2A; 0x2B; 0x34; 0x35; 0x36; 0x46; 0x4E; 0x56; 0x5E; 0x66; 0x6E; 0x7E;
   0x70; 0x71; 0x72; 0x73; 0x74; 0x75; 0x77; 0x86; 0x8E; 0x96; 0x9E; 0xA6; 0xAE; 0xB6; 0xBE; 0xCB; 0xE1; 0xE3; 0xE5; 0xE9; 0xF9].
Definition undef_z80 : list (list Z) :=
  after [0xCB] (span 0x30 0x37) ++
  after [0xED] (except (span 0x40 0x4B ++ [0x4D; 0x4F] ++ span 0x50 0x53 ++ span 0x56 0x5B ++ [0x5E; 0x5F] ++ span 0x60 0x63 ++ span 0x67 0x6B ++ [0x6F; 0x72; 0x73] ++
    span 0x78 0x7B ++ span 0xA0 0xA3 ++ span 0xA8 0xAB ++ span 0xB0 0xB3 ++ span 0xB8 0xBB)) ++
  after [0xDD] (except indexed) ++ after [0xFD] (except indexed).
(* after DD CB or FD CB and a displacement: only those of (HL) *)
Definition undef_bit : list Z := filter (fun c => negb (c mod 8 =? 6) || (c =? 0x36)) (span 0 255).

(* ------------------------------------------------------------ Motorola 6800, 6801, Hitachi 6301, Motorola 68HC11 *)
Definition undef_6801_ : list Z :=
  [0x00; 0x02; 0x03; 0x12; 0x13; 0x14; 0x15; 0x18; 0x1A; 0x1C; 0x1D; 0x1E; 0x1F; 0x41; 0x42; 0x45; 0x4B; 0x4E; 0x51; 0x52; 0x55; 0x5B; 0x5E;
   0x61; 0x62; 0x65; 0x6B; 0x71; 0x72; 0x75; 0x7B; 0x87; 0x8F; 0xC7; 0xCD; 0xCF].
Definition undef_6801 : list (list Z) := after [] undef_6801_.
Definition undef_6800 : list (list Z) :=
  after [] (undef_6801_ ++ [0x04; 0x05; 0x21; 0x38; 0x3A; 0x3C; 0x3D; 0x83; 0x93; 0x9D; 0xA3; 0xB3; 0xC3; 0xCC; 0xD3; 0xDC; 0xDD; 0xE3; 0xEC; 0xED; 0xF3; 0xFC; 0xFD]).
Definition undef_6301 : list (list Z) :=
  after [] [0x00; 0x02; 0x03; 0x12; 0x13; 0x14; 0x15; 0x1C; 0x1D; 0x1E; 0x1F; 0x41; 0x42; 0x45; 0x4B; 0x4E; 0x51; 0x52; 0x55; 0x5B; 0x5E; 0x87; 0x8F; 0xC7; 0xCD; 0xCF].
(* TEST, 00 of the 68HC11, is an instruction in test mode only *)
Definition undef_hc11 : list (list Z) :=
  after [] [0x41; 0x42; 0x45; 0x4B; 0x4E; 0x51; 0x52; 0x55; 0x5B; 0x5E; 0x61; 0x62; 0x65; 0x6B; 0x71; 0x72; 0x75; 0x7B; 0x87; 0xC7] ++
  after [0x18] (except ([0x08; 0x09; 0x1C; 0x1D; 0x1E; 0x1F; 0x30; 0x35; 0x38; 0x3A; 0x3C; 0x60; 0x63; 0x64; 0x66; 0x67; 0x68; 0x69; 0x6A; 0x6C; 0x6D; 0x6E; 0x6F; 0x8C; 0x8F; 0x9C] ++
    span 0xA0 0xAF ++ [0xBC; 0xCE; 0xDE; 0xDF] ++ span 0xE0 0xEF ++ [0xFE; 0xFF])) ++
  after [0x1A] (except [0x83; 0x93; 0xA3; 0xB3; 0xAC; 0xEE; 0xEF]) ++ after [0xCD] (except [0xA3; 0xAC; 0xEE; 0xEF]).

(* ------------------------------------------------------------ MOS 6502, GTE 65SC02, Rockwell 65C02, WDC 65C02S, 65816 *)
Definition undef_6502 : list (list Z) :=
  after [] (filter (fun c => c mod 4 =? 3) (span 0 255) ++
    [0x02; 0x12; 0x22; 0x32; 0x42; 0x52; 0x62; 0x72; 0x82; 0x92; 0xB2; 0xC2; 0xD2; 0xE2; 0xF2; 0x1A; 0x3A; 0x5A; 0x7A; 0xDA; 0xFA; 0x9E;
     0x80; 0x89; 0x04; 0x14; 0x34; 0x44; 0x54; 0x64; 0x74; 0xD4; 0xF4; 0x0C; 0x1C; 0x3C; 0x5C; 0x7C; 0x9C; 0xDC; 0xFC]).
Definition undef_65sc02 : list (list Z) :=
  after [] (filter (fun c => c mod 4 =? 3) (span 0 255) ++ [0x02; 0x22; 0x42; 0x62; 0x82; 0xC2; 0xE2; 0x44; 0x54; 0xD4; 0xF4; 0x5C; 0xDC; 0xFC]).
Definition undef_65c02 : list (list Z) :=
  after [] (filter (fun c => (c mod 8 =? 3)) (span 0 255) ++ [0x02; 0x22; 0x42; 0x62; 0x82; 0xC2; 0xE2; 0x44; 0x54; 0xD4; 0xF4; 0x5C; 0xDC; 0xFC]).
(* CB and DB are WAI and STP *)
Definition undef_65c02s : list (list Z) :=
  after [] (filter (fun c => (c mod 8 =? 3) && negb (c =? 0xCB) && negb (c =? 0xDB)) (span 0 255) ++ [0x02; 0x22; 0x42; 0x62; 0x82; 0xC2; 0xE2; 0x44; 0x54; 0xD4; 0xF4; 0x5C; 0xDC; 0xFC]).

(* ------------------------------------------------------------ Fairchild F8 *)
Definition undef_f8 : list (list Z) := after [] [0x2D; 0x2E; 0x2F].

(* ------------------------------------------------------------ RCA 1802, 1804, 1804A *)
Definition undef_1802 : list (list Z) := after [] [0x68].
Definition undef_1804 : list (list Z) := after [0x68] (span 0x0E 0x3D ++ span 0x40 0x5F ++ span 0x70 0x7F ++ span 0xD0 0xFF).
Definition undef_1804a : list (list Z) :=
  after [0x68] (span 0x0E 0x1F ++ span 0x30 0x3D ++ span 0x40 0x5F ++ span 0x70 0x73 ++ [0x75] ++ span 0x78 0x7B ++ [0x7D; 0x7E] ++ span 0xD0 0xF3 ++ [0xF5; 0xF6] ++ span 0xF8 0xFB ++ [0xFD; 0xFE]).

(* ------------------------------------------------------------ Texas Instruments TMS32010: words 7Fxx *)
Definition undef_32010 : list (list Z) := map (fun c => [c; 0x7F]) (span 0 0x7F ++ span 0x83 0x87 ++ span 0x91 0x9B ++ span 0x9E 0xFF).

(* ------------------------------------------------------------ Intel 8051 *)
Definition undef_8051 : list (list Z) := after [] [0xA5].

(* ------------------------------------------------------------ Intel 8048, OKI *)
Definition undef_oki_48 : list Z := [0x06; 0x0B; 0x22; 0x33; 0x38; 0x3B; 0x66; 0x87; 0x8B; 0x9B; 0xA6; 0xB7; 0xD6].
Definition undef_cmos_48 : list Z := undef_oki_48 ++ [0x63; 0x73; 0x82; 0xA2; 0xC0; 0xC1; 0xC2; 0xC3; 0xE0; 0xE1; 0xE2; 0xF3].
(* without the BUS as a port *)
Definition undef_bus : list Z := [0x02; 0x08; 0x88; 0x98].
