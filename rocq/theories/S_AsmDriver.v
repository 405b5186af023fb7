(** What the passes of the assembler mean. *)
From Coq Require Import ZArith List Bool.
From Verif Require Import M_Char M_Error M_Value M_Text M_Insn M_Config M_Operators M_Parsers M_Expr M_BinMemory M_Symbols M_Sources
  M_AsmDriver S_Sources S_Memory S_Insn.
Import ListNotations.
Local Open Scope Z_scope.

(* the statement of a line: after the label and blanks, if it is neither a comment nor empty *)
Definition statement (pl : plugins) (line : text) : option text :=
  if fst (p_line pl line) then None
  else
    let '(eol, scan) := p_eol pl (skipSpaces (match readLabel (p_symbol pl) line with Some (_, p) => p | None => line end)) in
    if eol then None else Some scan.
(* the label of a line *)
Definition label_of (pl : plugins) (line : text) : text := match readLabel (p_symbol pl) line with Some (l, _) => l | None => [] end.
(* the pseudo instruction of a line and its operands *)
Definition pseudo_of (pl : plugins) (ps : pseudos) (line : text) : option (pseudo * text) :=
  match statement pl line with
  | None => None
  | Some scan =>
    let '(name, p) := match readInstruction (p_symbol pl) scan with Some r => r | None => ([], scan) end in
    match pseudo_find name ps with Some h => Some (h, skipSpaces p) | None => None end
  end.
(* the file an INCLUDE line names *)
Definition file_named (pl : plugins) (ps : pseudos) (line : text) : option text :=
  match pseudo_of pl ps line with
  | Some (P_INCLUDE, operand) => match include_name operand with (OK, name, _) => Some name | _ => None end
  | _ => None
  end.
(* a line read as [ev] is listed as [t]: the same line; it was sent to no file, or to the file it
   names; a refusal is reported *)
Definition listed {O} (f : ops O) (ev : event) (t : item) : Prop :=
  it_line t = fst ev /\
  match snd ev with
  | Plain => exists o, file_named (op_pl f o) (op_pseudos f o) (fst ev) = None
  | Included name => exists o, file_named (op_pl f o) (op_pseudos f o) (fst ev) = Some name
  | Refused name => (exists o, file_named (op_pl f o) (op_pseudos f o) (fst ev) = Some name) /\
                    (it_err t = TOO_MANY_INCLUDE \/ it_err t = NO_INCLUDE_FOUND)
  end.
(* a comment parser answers with letters of the text it was given *)
Definition eol_within {O} (f : ops O) : Prop := forall o t, incl (snd (p_eol (op_pl f o) t)) t.

(* ------------------------------------------------------------ the image of a pass *)
(* an assembler that keeps the instruction buffer sound *)
Definition emits_sound {O} (f : ops O) : Prop := forall o symbol function loc line i i' loc' o',
  op_encode f o symbol function loc line i = Val (i', loc', o') -> sound i -> sound i'.
(* the bytes [bs] at the addresses from [a] on; addresses have 32 bits *)
Fixpoint placed (a : Z) (bs : list Z) : list (Z * Z) :=
  match bs with [] => [] | b :: bs' => (a mod 2^32, b) :: placed (a + 1) bs' end.
(* every line of the listing puts its bytes at its address, counted in bytes *)
Definition image_of (ts : list item) : list (Z * Z) :=
  flat_map (fun t => placed (it_addr t * it_unit t) (it_bytes t)) ts.

(* ------------------------------------------------------------ passes *)
(* the driver as a pass finds it: no functions, the processor of the command line *)
Definition at_start {O} (f : ops O) (cpu : option text) (d d' : drv O) : Prop :=
  exists d1, d1 = mkDrv (dr_objs d) (dr_cur d) (clearFunctions (dr_store d)) /\
    (select_cpu f cpu d1 = Some d' \/ select_cpu f cpu d1 = None /\ d' = d1).
(* [p] is what a pass over the input yields that finds the driver [d] *)
Definition one_pass {O} (fuel depth : nat) (f : ops O) (fs : files) (cpu : option text) (input : text) (report : bool)
    (d : drv O) (p : pass O) : Prop :=
  exists src d', open fs input [] = (OK, src) /\ at_start f cpu d d' /\ assemble fuel (mkEnv f fs depth report) d' src = Val p.
(* [p] is the [n]-th pass: only the first one lets undefined symbols pass, and each later one finds
   the driver as the one before has left it *)
Inductive nth_pass {O} (fuel depth : nat) (f : ops O) (fs : files) (cpu : option text) (input : text) (d0 : drv O)
  : nat -> pass O -> Prop :=
| NP_first p : one_pass fuel depth f fs cpu input false d0 p -> nth_pass fuel depth f fs cpu input d0 1 p
| NP_next n q p : nth_pass fuel depth f fs cpu input d0 n q -> one_pass fuel depth f fs cpu input true (ps_drv q) p ->
    nth_pass fuel depth f fs cpu input d0 (S n) p.
(* both tables know the same names, with the same values (as 64 bits) *)
Definition same_symbols (s s' : store) : Prop := forall name,
  match lookupSymbol name s, lookupSymbol name s' with
  | None, None => True
  | Some a, Some b => v_bits a = v_bits b
  | _, _ => False
  end.
Definition same_image (m m' : memory) : Prop := forall a, hasByte m a = hasByte m' a /\ M_BinMemory.readByte m a = M_BinMemory.readByte m' a.
