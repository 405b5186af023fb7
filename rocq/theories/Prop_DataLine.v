(** C80: the data, space, origin and alignment lines of the assemblers. *)
From Coq Require Import String ZArith List Bool Arith.
From Verif Require Import M_Char M_Error M_Value M_Text M_Insn M_Config M_Operators M_Parsers M_Expr M_Directive M_Table M_Asm M_AsmLine M_AsmRows S_Value S_Insn S_Expr S_ExprTree S_Directive S_Table S_Data P_DataLine P_ExprCase P_Data.
From Verif Require M_Mos6502Defs M_I8080 M_Z80 M_Mc6800 M_Mos6502 M_F3850 M_Cdp1802 M_Tms32010 M_I8051 M_I8048.
Import ListNotations.
Open Scope string_scope.
Open Scope list_scope.
Local Open Scope Z_scope.

(* Every assembler has a manual, and its syntax is one whose expressions and strings are specified. *)
Theorem C80_every_assembler : forall p, In p assemblers ->
  (exists man, In (as_name p, man) manuals) /\ (exists f, In f data_families /\ fam_pl f = as_pl p).
Proof. exact every_assembler. Qed.
Print Assumptions C80_every_assembler.

(* A line with a data directive, in any spelling and with any blanks, emits the bytes of its items in
   order, in the target's byte order and from the next even address if the directive asks for it; the
   first 64 bytes are kept and more of them are an error. It changes neither the state of the
   assembler nor anything else, whatever the other symbols, functions, options and instructions. *)
Theorem C80_data : forall O (common own : list (string * option_of O)) special impl o p man f symbol function addr indent name gap t w ty even its,
  In p assemblers -> In (as_name p, man) manuals -> In f data_families -> fam_pl f = as_pl p ->
  In (w, Data ty even) (m_words man) -> same_name name (s2l w) -> integer_type ty = true ->
  blanks indent -> blanks gap -> (gap <> [] \/ t = []) ->
  0 <= addr -> space_start even addr < 2^32 -> total_functions (mkC (space_start even addr) symbol function 0) ->
  data_text f (mkC (space_start even addr) symbol function 0) (has_string ty) its t ->
  let all := flat_map (item_bytes (m_big man) (m_unit man) ty) its in
  exists i, encode_line (as_asm p symbol function) (as_specials p) (as_tables p) common own special impl addr
      (indent ++ name ++ gap ++ t) (new_insn addr) o = Val (i, space_start even addr, o) /\
    i_addr i = space_start even addr /\ i_code i = firstn 64 all /\
    i_err i = (if Z.of_nat (length all) <=? 64 then OK else NO_MEMORY).
Proof. intros. now apply (data_line common own special impl o p man f symbol function addr indent name gap t) with (w := w). Qed.
Print Assumptions C80_data.
(* Strings between delimiters *)
Theorem C80_strings : forall O (common own : list (string * option_of O)) special impl o p man symbol function addr indent name gap t w ls,
  In p assemblers -> In (as_name p, man) manuals ->
  In (w, Strings) (m_words man) -> same_name name (s2l w) ->
  blanks indent -> blanks gap -> (gap <> [] \/ t = []) -> 0 <= addr -> delimited_text ls t ->
  let all := map (fun c => c mod 256) (concat ls) in
  exists i, encode_line (as_asm p symbol function) (as_specials p) (as_tables p) common own special impl addr
      (indent ++ name ++ gap ++ t) (new_insn addr) o = Val (i, addr, o) /\
    i_addr i = addr /\ i_code i = firstn 64 all /\ i_err i = (if Z.of_nat (length all) <=? 64 then OK else NO_MEMORY).
Proof. intros. now apply (string_line common own special impl o p man symbol function addr indent name gap t) with (w := w). Qed.
Print Assumptions C80_strings.
(* Space for n elements: the location behind them, and an error when that is no address *)
Theorem C80_space : forall O (common own : list (string * option_of O)) special impl o p man f symbol function addr indent name gap t w ty even n to,
  In p assemblers -> In (as_name p, man) manuals -> In f data_families -> fam_pl f = as_pl p ->
  In (w, Space ty even) (m_words man) -> same_name name (s2l w) ->
  blanks indent -> blanks gap -> (gap <> [] \/ t = []) -> 0 <= addr -> 0 <= n < 2^16 ->
  data_text f (mkC addr symbol function 0) false [IConst n] t ->
  to = space_start even addr + n * space_unit ty / m_unit man -> to < 2^32 ->
  exists i, encode_line (as_asm p symbol function) (as_specials p) (as_tables p) common own special impl addr
      (indent ++ name ++ gap ++ t) (new_insn addr) o = Val (i, to, o) /\
    i_addr i = space_start even addr /\ i_code i = [] /\ i_err i = checkAddr (m_bits man) to even.
Proof. intros. now apply (space_line common own special impl o p man f symbol function addr indent name gap t) with (w := w) (ty := ty) (n := n). Qed.
Print Assumptions C80_space.
(* The origin: the location becomes the operand if that is an address, else an error is reported *)
Theorem C80_origin : forall O (common own : list (string * option_of O)) special impl o p man f symbol function addr indent name gap t w n,
  In p assemblers -> In (as_name p, man) manuals -> In f data_families -> fam_pl f = as_pl p ->
  In (w, Origin) (m_words man) -> same_name name (s2l w) ->
  blanks indent -> blanks gap -> (gap <> [] \/ t = []) -> 0 <= addr -> 0 <= n < 2^(m_bits man) ->
  data_text f (mkC addr symbol function 0) false [IConst n] t ->
  exists i, encode_line (as_asm p symbol function) (as_specials p) (as_tables p) common own special impl addr
      (indent ++ name ++ gap ++ t) (new_insn addr) o = Val (i, n, o) /\ i_addr i = n /\ i_code i = [] /\ i_err i = OK.
Proof. intros. now apply (origin_line common own special impl o p man f symbol function addr indent name gap t) with (w := w). Qed.
Print Assumptions C80_origin.
Theorem C80_origin_refused : forall O (common own : list (string * option_of O)) special impl o p man f symbol function addr indent name gap t w n,
  In p assemblers -> In (as_name p, man) manuals -> In f data_families -> fam_pl f = as_pl p ->
  In (w, Origin) (m_words man) -> same_name name (s2l w) ->
  blanks indent -> blanks gap -> (gap <> [] \/ t = []) -> 0 <= addr -> 2^(m_bits man) <= n < 2^32 ->
  data_text f (mkC addr symbol function 0) false [IConst n] t ->
  exists i loc, encode_line (as_asm p symbol function) (as_specials p) (as_tables p) common own special impl addr
      (indent ++ name ++ gap ++ t) (new_insn addr) o = Val (i, loc, o) /\ i_addr i = addr /\ i_err i = OVERFLOW_RANGE.
Proof. intros. now apply (origin_refused common own special impl o p man f symbol function addr indent name gap t) with (w := w) (n := n). Qed.
Print Assumptions C80_origin_refused.
(* Alignment to a multiple of the operand, and to an even address *)
Theorem C80_align : forall O (common own : list (string * option_of O)) special impl o p man f symbol function addr indent name gap t w n m,
  In p assemblers -> In (as_name p, man) manuals -> In f data_families -> fam_pl f = as_pl p ->
  In (w, Align) (m_words man) -> same_name name (s2l w) ->
  blanks indent -> blanks gap -> (gap <> [] \/ t = []) -> 0 <= addr -> 1 <= n <= 255 ->
  data_text f (mkC addr symbol function 0) false [IConst n] t -> least_multiple n addr m -> m < 2^32 ->
  exists i, encode_line (as_asm p symbol function) (as_specials p) (as_tables p) common own special impl addr
      (indent ++ name ++ gap ++ t) (new_insn addr) o = Val (i, m, o) /\
    i_addr i = m /\ i_code i = [] /\ i_err i = (if m <? 2^(m_bits man) then OK else OVERFLOW_RANGE).
Proof. intros. now apply (align_line common own special impl o p man f symbol function addr indent name gap t) with (w := w) (n := n). Qed.
Print Assumptions C80_align.
Theorem C80_even : forall O (common own : list (string * option_of O)) special impl o p man symbol function addr indent name gap t w m,
  In p assemblers -> In (as_name p, man) manuals ->
  In (w, Even) (m_words man) -> same_name name (s2l w) ->
  blanks indent -> blanks gap -> (gap <> [] \/ t = []) -> 0 <= addr -> least_multiple 2 addr m -> m < 2^32 ->
  exists i, encode_line (as_asm p symbol function) (as_specials p) (as_tables p) common own special impl addr
      (indent ++ name ++ gap ++ t) (new_insn addr) o = Val (i, m, o) /\
    i_addr i = m /\ i_code i = [] /\ i_err i = (if m <? 2^(m_bits man) then OK else OVERFLOW_RANGE).
Proof. intros. now apply (even_line common own special impl o p man symbol function addr indent name gap t) with (w := w). Qed.
Print Assumptions C80_even.

(* The assemblers whose instructions are modelled are configured as the ones of this file. *)
Theorem C80_same_assemblers : forall symbol function,
  let same name a specials tables := exists p, In p assemblers /\ as_name p = name /\ as_asm p symbol function = a /\
    as_specials p = specials /\ as_tables p = tables in
  same "i8080" (M_I8080.i8080_asm symbol function 10) M_I8080.i8080_specials M_I8080.i8080_directives /\
  same "z80" (M_Z80.z80_asm symbol function 10) [] M_Z80.z80_directives /\
  same "mc6800" (M_Mc6800.mc6800_asm symbol function 10) [] M_Mc6800.mc6800_directives /\
  same "mos6502" (M_Mos6502.mos6502_asm M_Mos6502Defs.MOS6502 symbol function 10) M_Mos6502.mos6502_specials M_Mos6502.mos6502_directives /\
  same "w65816" (M_Mos6502.mos6502_asm M_Mos6502Defs.W65C816 symbol function 10) M_Mos6502.mos6502_specials M_Mos6502.mos6502_directives /\
  same "f3850" (M_F3850.f3850_asm symbol function 10) [] M_F3850.f3850_directives /\
  same "cdp1802" (M_Cdp1802.cdp1802_asm symbol function 10) [] M_Cdp1802.cdp1802_directives /\
  same "tms32010" (M_Tms32010.tms32010_asm symbol function 10) [] M_Tms32010.tms32010_directives /\
  same "i8051" (M_I8051.i8051_asm symbol function 10) [] M_I8051.i8051_directives /\
  same "i8048" (M_I8048.i8048_asm symbol function 10) [] M_I8048.i8048_directives.
Proof.
  intros symbol function same. unfold same.
  assert (R : forall n, (n <? length assemblers)%nat = true -> In (nth n assemblers (mkAs "" pl_default 0 0 true [] [])) assemblers)
    by (intros n L; apply nth_In, Nat.ltb_lt, L).
  split; [eexists; split; [exact (R 4%nat eq_refl)|repeat split; reflexivity]|].
  split; [eexists; split; [exact (R 26%nat eq_refl)|repeat split; reflexivity]|].
  split; [eexists; split; [exact (R 9%nat eq_refl)|repeat split; reflexivity]|].
  split; [eexists; split; [exact (R 15%nat eq_refl)|repeat split; reflexivity]|].
  split; [eexists; split; [exact (R 16%nat eq_refl)|repeat split; reflexivity]|].
  split; [eexists; split; [exact (R 1%nat eq_refl)|repeat split; reflexivity]|].
  split; [eexists; split; [exact (R 0%nat eq_refl)|repeat split; reflexivity]|].
  split; [eexists; split; [exact (R 20%nat eq_refl)|repeat split; reflexivity]|].
  split; [eexists; split; [exact (R 3%nat eq_refl)|repeat split; reflexivity]|].
  eexists; split; [exact (R 2%nat eq_refl)|repeat split; reflexivity].
Qed.
Print Assumptions C80_same_assemblers.

(* DW on the 8051, at 100H, with the list of C33_case; and lines of other targets *)
Definition ex_encode (name : string) (addr : Z) (line : string) : option (res (list Z * Z * Z * err)) :=
  match find (fun p => String.eqb (as_name p) name) assemblers with
  | Some p => Some (bind (encode_line (O := unit) (as_asm p (fun _ => None) (fun _ => None)) (as_specials p) (as_tables p) [] []
      (fun _ s o => Val (s, o)) (fun _ t i => Val (i, t)) addr (s2l line) (new_insn addr) tt) (fun '(i, loc, _) => Val (i_code i, i_addr i, loc, i_err i)))
  | None => None
  end.
Example C80_case :
  (exists p man, In p assemblers /\ as_name p = "i8051" /\ In (as_name p, man) manuals /\ fam_pl ex_fam = as_pl p /\
    In ("DW", Data DATA_WORD false) (m_words man) /\ same_name (s2l "dW") (s2l "DW") /\ m_big man = true /\ m_unit man = 1) /\
  data_text ex_fam ex_cx true [IConst (-250); IStr (s2l "A'B"); IConst 2] (s2l " 10 - 2*( MASK-3) -$,'A''B' , 2 ; x") /\
  flat_map (item_bytes true 1 DATA_WORD) [IConst (-250); IStr (s2l "A'B"); IConst 2] = [0xFF; 0x06; 0x41; 0x27; 0x42; 0x00; 0x00; 0x02] /\
  ex_encode "i8051" 0x100 " dW 1234H, 'ab'" = Some (Val ([0x12; 0x34; 0x61; 0x62], 0x100, 0x100, OK)) /\
  ex_encode "z80" 0x100 " Dw 1234H, 'ab'" = Some (Val ([0x34; 0x12; 0x61; 0x62], 0x100, 0x100, OK)) /\
  ex_encode "mc68000" 0x101 "  dc.W $1234" = Some (Val ([0x12; 0x34], 0x102, 0x102, OK)) /\
  ex_encode "mc68000" 0x101 "  ds.L 3" = Some (Val ([], 0x102, 0x10E, OK)) /\
  ex_encode "mc6809" 0x100 " FCC /a,b/" = Some (Val (s2l "a,b", 0x100, 0x100, OK)) /\
  ex_encode "mn1610" 0x100 " ds 3" = Some (Val ([], 0x100, 0x103, OK)) /\
  ex_encode "tms9900" 0x101 " even" = Some (Val ([], 0x102, 0x102, OK)) /\
  ex_encode "i8048" 0x100 " org 1000H" = Some (Val ([], 0x100, 0x1000, OVERFLOW_RANGE)) /\
  ex_encode "z8001" 0x101 " align 16" = Some (Val ([], 0x110, 0x110, OK)).
Proof.
  split.
  - exists (nth 3 assemblers (mkAs "" pl_default 0 0 true [] [])), (snd (nth 3 manuals ("", mkMan true 0 0 []))).
    split; [right; right; right; left; reflexivity|]. split; [reflexivity|]. split; [right; right; right; left; reflexivity|].
    split; [reflexivity|]. split; [right; left; reflexivity|]. split; [|split; reflexivity].
    constructor; [right; right; split; vm_compute; [split; discriminate|reflexivity]|]. constructor; [left; reflexivity|constructor].
  - split; [exact C33_example|]. repeat split; vm_compute; reflexivity.
Qed.
