(** What a disassembly of an image means. *)
From Coq Require Import ZArith List Bool.
From Verif Require Import M_Char M_Error M_Insn M_Config M_Operators M_BinMemory M_Listing M_Dis M_DisDriver.
Import ListNotations.
Local Open Scope Z_scope.

(* the bytes of a decoded piece *)
Definition piece_bytes (p : piece) : list Z := i_code (r_insn (pc_dec p)).
(* the pieces [ps] partition [bs], which starts at the address [a]: each has at least one byte, and
   is listed at the address of its first byte; no byte is left, skipped or visited twice *)
Fixpoint partition (unit a : Z) (bs : list Z) (ps : list piece) : Prop :=
  match ps with
  | [] => bs = []
  | p :: ps' =>
    piece_bytes p <> [] /\ pc_addr p = a / unit /\ i_addr (r_insn (pc_dec p)) = a / unit /\
    exists rest, bs = piece_bytes p ++ rest /\ partition unit (a + Z.of_nat (length (piece_bytes p))) rest ps'
  end.
(* the pieces of every block of an image partition it *)
Definition covers (unit : Z) (bl : list block) (l : list (Z * list piece)) : Prop :=
  Forall2 (fun b sp => fst sp = b_base b / unit /\ partition unit (b_base b) (b_data b) (snd sp)) bl l.
(* a disassembler of [unit] bytes an address that takes, at each address below [top], some bytes
   (of a whole number of addresses) from the memory it is given *)
Definition takes_some (o : dops) (top : Z) : Prop := forall mem addr,
  (forall x, In x mem -> 0 <= x < 256) -> mem <> [] -> 0 <= addr < top ->
  exists r rest, do_decode o mem addr = Val (r, rest) /\ mem = i_code (r_insn r) ++ rest /\ i_code (r_insn r) <> [] /\
    i_len (r_insn r) = Z.of_nat (length (i_code (r_insn r))) /\ i_addr (r_insn r) = addr /\
    (rest = [] \/ i_len (r_insn r) mod lc_unit (do_conf o) = 0).
