(** C81: what a disassembly prints besides instructions is understood by the assembler of the same
    processor. *)
From Coq Require Import String ZArith List Bool Lia.
From Verif Require Import M_Char M_Error M_Value M_Text M_Insn M_Config M_Operators M_Listing M_Parsers M_Expr M_Directive M_Table T_Tables M_Asm
  M_AsmLine M_AsmDriver M_AsmRows M_Dis M_DisDriver M_DisI8080 M_DisCpus S_Expr S_Directive S_DisLines P_AsmText P_DisLines.
From Verif Require M_Mos6502 M_Mos6502Defs M_Mc6800Defs M_Tms32010Defs.
Import ListNotations.
Open Scope string_scope.
Open Scope list_scope.
Local Open Scope Z_scope.

(* Whatever place of an image was decoded with an error, and whatever its bytes: every line that the
   disassembler prints for it - the message and the listing of the bytes - is taken by the assembler of
   the same family as a comment.  No code, no label, no error, and the location stays. *)
Theorem C81_comments {O} name o p pc ts l (v : env O) k obj i d src :
  disassembler name o -> In p assemblers -> as_name p = name ->
  i_err (r_insn (pc_dec pc)) <> OK -> piece_lines o pc = Val ts -> In l ts -> op_pl (e_ops v) obj = as_pl p ->
  dir_encode v k obj l i d src = Val (mkEnc OK OK v_undef i (i_addr i) d src).
Proof. exact (comment_line name o p pc ts l v k obj i d src). Qed.
Print Assumptions C81_comments.

(* The line a disassembler prints at the start of a block sets, in the assembler of the same family, the
   location to exactly the address of the block, wherever the location was, without code or error; for
   every address of the processor, and every choice of the options but octal numbers where the family has
   no notation for them. *)
Theorem C81_origin {O} (common own : list (string * option_of O)) special impl obj name o p symbol function addr a l :
  disassembler name o -> octal_notation name o -> In p assemblers -> as_name p = name ->
  0 <= a < 2 ^ as_aw p -> 0 <= addr -> total_functions (mkC addr symbol function 0) -> org_line o a = Val l ->
  exists i, encode_line (as_asm p symbol function) (as_specials p) (as_tables p) common own special impl addr l (new_insn addr) obj = Val (i, a, obj) /\
    i_addr i = a /\ i_code i = [] /\ i_err i = OK.
Proof. intros D OC I N. exact (origin_fits common own special impl obj o p symbol function addr a l I (rows name o p D OC I N)). Qed.
Print Assumptions C81_origin.

Definition ex_message (e : err) : text := s2l "Unknown instruction".
Definition ex_6502 (octal : bool) : dops :=
  dis_6502 M_Mos6502Defs.MOS6502 (M_Mos6502.mkOpt false false false) true true octal false false false 42 ex_message.
Definition ex_row (name : string) : assembler :=
  match find (fun p => String.eqb (as_name p) name) assemblers with Some p => p | None => mkAs "" pl_default 0 0 true [] [] end.
Definition ex_origin (name : string) (o : dops) (a : Z) : res (text * (list Z * Z * Z * err)) :=
  let p := ex_row name in
  bind (org_line o a) (fun l =>
    bind (encode_line (O := unit) (as_asm p (fun _ => None) (fun _ => None)) (as_specials p) (as_tables p) [] []
      (fun _ s o => Val (s, o)) (fun _ t i => Val (i, t)) 0 l (new_insn 0) tt)
      (fun '(i, loc, _) => Val (l, (i_code i, i_addr i, loc, i_err i)))).
(* With octal numbers the TMS32010 prints the start of a block at 512 as 1000, which its assembler reads as
   a thousand; the 6502 prints the start of a block at 8000H as 100000, which its assembler refuses. *)
Theorem C81_octal_refuted :
  (exists o p l i, disassembler "tms32010" o /\ In p assemblers /\ as_name p = "tms32010" /\ org_line o 512 = Val l /\
    encode_line (O := unit) (as_asm p (fun _ => None) (fun _ => None)) (as_specials p) (as_tables p) [] []
      (fun _ s o => Val (s, o)) (fun _ t i => Val (i, t)) 0 l (new_insn 0) tt = Val (i, 1000, tt) /\ i_err i = OK) /\
  (exists o p l i loc, disassembler "mos6502" o /\ In p assemblers /\ as_name p = "mos6502" /\ org_line o 0x8000 = Val l /\
    encode_line (O := unit) (as_asm p (fun _ => None) (fun _ => None)) (as_specials p) (as_tables p) [] []
      (fun _ s o => Val (s, o)) (fun _ t i => Val (i, t)) 0 l (new_insn 0) tt = Val (i, loc, tt) /\ i_err i = OVERFLOW_RANGE).
Proof.
  split.
  - exists (dis_32010 M_Tms32010Defs.TMS32010 true true true false false false 42 ex_message), (nth 20 assemblers (mkAs "" pl_default 0 0 true [] [])). do 2 eexists.
    split; [constructor|]. split; [apply nth_In, Nat.ltb_lt; reflexivity|]. split; [reflexivity|].
    split; [vm_compute; reflexivity|]. split; [vm_compute; reflexivity|reflexivity].
  - exists (ex_6502 true), (nth 15 assemblers (mkAs "" pl_default 0 0 true [] [])). do 3 eexists.
    split; [apply Dis_6502; discriminate|]. split; [apply nth_In, Nat.ltb_lt; reflexivity|]. split; [reflexivity|].
    split; [vm_compute; reflexivity|]. split; [vm_compute; reflexivity|reflexivity].
Qed.
Print Assumptions C81_octal_refuted.

Definition ex_6800 : dops := dis_6800 M_Mc6800Defs.MC6800 true true false false false false 42 ex_message.
Example C81_case :
  disassembler "mc6800" ex_6800 /\ octal_notation "mc6800" ex_6800 /\ as_name (ex_row "mc6800") = "mc6800" /\ In (ex_row "mc6800") assemblers /\
  disassembler "mos6502" (ex_6502 false) /\ octal_notation "mos6502" (ex_6502 false) /\
  (exists r rest, do_decode ex_6800 [0x02; 0x01] 0x100 = Val (r, rest) /\ i_err (r_insn r) <> OK /\
    piece_lines ex_6800 (mkPiece 0x100 r) = Val [s2l "* Unknown instruction"; s2l "*      100 : 02"] /\
    fst (p_line (as_pl (ex_row "mc6800")) (s2l "*      100 : 02")) = true) /\
  ex_origin "mc6800" ex_6800 0xABCD = Val (s2l "      ORG   $ABCD", ([], 0xABCD, 0xABCD, OK)) /\
  ex_origin "mos6502" (ex_6502 false) 512 = Val (s2l "      ORG   $0200", ([], 512, 512, OK)).
Proof.
  split; [constructor|]. split; [intros X; discriminate|]. split; [reflexivity|]. split; [apply (nth_In assemblers (ex_row "mc6800") (n := 9)), Nat.ltb_lt; reflexivity|].
  split; [apply Dis_6502; discriminate|]. split; [intros X; discriminate|].
  split; [do 2 eexists; split; [vm_compute; reflexivity|split; [discriminate|split; vm_compute; reflexivity]]|]. split; vm_compute; reflexivity.
Qed.
