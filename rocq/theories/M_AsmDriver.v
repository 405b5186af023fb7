(** Model of the assembler's driver: driver/asm_directive.{h,cpp}, driver/asm_driver.{h,cpp} and
    the pass loop of cli/asm_commander.cpp, for any set of processors.
    Simplifications: where in the line an error is reported is not modelled (only the error code
    is); the text of the listing is modelled in M_Listing.v, here a line of the listing is the
    record of what is listed; options given on the command line and the option -v are left out. *)
From Coq Require Import String ZArith List Bool.
From Verif Require Import M_Char M_Error M_Value M_Text M_Insn M_Config M_Operators M_Parsers M_Expr M_Directive M_Table
  M_BinMemory M_Symbols M_Sources.
Import ListNotations.
Open Scope string_scope.
Open Scope list_scope.
Local Open Scope Z_scope.

(* ------------------------------------------------------------ pseudo instructions *)
Inductive pseudo := P_CPU | P_INCLUDE | P_END | P_CONSTANT | P_VARIABLE | P_SETVAR | P_FUNCTION.
Definition pseudos := list (text * pseudo).
(* std::map with strcasecmp: a name found first was registered first *)
Fixpoint pseudo_find (name : text) (ps : pseudos) : option pseudo :=
  match ps with
  | [] => None
  | (n, h) :: ps' => if strcasecmp name n =? 0 then Some h else pseudo_find name ps'
  end.
(* asm_directive.cpp:128-132 registerPseudo: emplace keeps a name already there, and a name with a
   leading period is registered without it too *)
Definition registerPseudo (name : string) (h : pseudo) (ps : pseudos) : pseudos :=
  let n := s2l name in
  ps ++ [(n, h)] ++ (if peek n =? 46 then [(tl_ n, h)] else []).
(* asm_directive.cpp:134-138 disablePseudo *)
Definition erase (n : text) (ps : pseudos) : pseudos := filter (fun p => negb (strcasecmp n (fst p) =? 0)) ps.
Definition disablePseudo (name : string) (ps : pseudos) : pseudos :=
  let n := s2l name in
  let ps := erase n ps in
  if peek n =? 46 then erase (tl_ n) ps else ps.
(* asm_directive.cpp:30-38 *)
Definition base_pseudos : pseudos :=
  registerPseudo ".function" P_FUNCTION (registerPseudo ".set" P_VARIABLE (registerPseudo ".equ" P_CONSTANT
  (registerPseudo ".end" P_END (registerPseudo ".include" P_INCLUDE (registerPseudo ".cpu" P_CPU []))))).
(* asm_directive.cpp:272-317 *)
Definition motorola_pseudos := base_pseudos.
Definition intel_pseudos := base_pseudos.
Definition mostek_pseudos := registerPseudo ":=" P_CONSTANT (registerPseudo "=" P_CONSTANT motorola_pseudos).
Definition z8_pseudos := registerPseudo ".set" P_SETVAR (registerPseudo "var" P_SETVAR (disablePseudo ".set" intel_pseudos)).
Definition zilog_pseudos := registerPseudo "var" P_VARIABLE (registerPseudo "defl" P_VARIABLE (disablePseudo ".set" intel_pseudos)).
Definition rca_pseudos := registerPseudo "=" P_CONSTANT intel_pseudos.
Definition national_pseudos :=
  registerPseudo ".set" P_SETVAR (registerPseudo "=" P_CONSTANT (disablePseudo ".set" intel_pseudos)).
Definition fairchild_pseudos := base_pseudos.
Definition dec_pseudos := registerPseudo "=" P_CONSTANT base_pseudos.

(* ------------------------------------------------------------ assemblers *)
(* what the driver uses of an assembler object, for any type [O] of such objects: *)
Record ops (O : Type) := mkOps {
  op_pl : O -> plugins;                          (* parser() *)
  op_unit : O -> Z;                              (* config().addressUnit() *)
  op_pseudos : O -> pseudos;                     (* _pseudos of its AsmDirective *)
  op_setCpu : text -> O -> option O;             (* setCpu(name): [None] is false *)
  op_listRadix : O -> Z;
  op_setListRadix : Z -> O -> O;
  (* encode(line, insn, symtab), given the symbols, the functions and _currentLocation; the
     instruction with its error, the new _currentLocation and the object *)
  op_encode : O -> (text -> option value) -> (text -> option functor) -> Z -> text -> insn -> res (insn * Z * O)
}.
Arguments mkOps {O}.
Arguments op_pl {O}. Arguments op_unit {O}. Arguments op_pseudos {O}. Arguments op_setCpu {O}.
Arguments op_listRadix {O}. Arguments op_setListRadix {O}. Arguments op_encode {O}.

(* what a pass runs with: the assemblers' methods, the file system, how deep calls of user functions
   may nest before the model gives up (outcome FUEL), and reportError *)
Record env (O : Type) := mkEnv { e_ops : ops O; e_files : files; e_depth : nat; e_report : bool }.
Arguments mkEnv {O}. Arguments e_ops {O}. Arguments e_files {O}. Arguments e_depth {O}. Arguments e_report {O}.
(* asm_directive.h:55-59 Context *)
Definition reportDuplicate {O} (v : env O) : bool := negb (e_report v).
Definition reportUndefined {O} (v : env O) : bool := e_report v.

(* asm_driver.h:59-64: the assemblers, which one is current, and the symbols *)
Record drv (O : Type) := mkDrv { dr_objs : list O; dr_cur : nat; dr_store : store }.
Arguments mkDrv {O}. Arguments dr_objs {O}. Arguments dr_cur {O}. Arguments dr_store {O}.
Fixpoint obj_set {O} (n : nat) (o : O) (l : list O) : list O :=
  match l, n with
  | [], _ => []
  | _ :: l', 0%nat => o :: l'
  | x :: l', S n' => x :: obj_set n' o l'
  end.
(* asm_driver.cpp:74-84 setCpu *)
Fixpoint find_cpu {O} (f : ops O) (cpu : text) (l : list O) (n : nat) : option (nat * O) :=
  match l with
  | [] => None
  | o :: l' => match op_setCpu f cpu o with Some o' => Some (n, o') | None => find_cpu f cpu l' (S n) end
  end.
Definition drv_setCpu {O} (f : ops O) (cpu : text) (d : drv O) : option (drv O) :=
  match find_cpu f cpu (dr_objs d) 0 with
  | None => None
  | Some (n, o) =>
    let l := obj_set n o (dr_objs d) in
    let o := match nth_error l (dr_cur d) with Some prev => op_setListRadix f (op_listRadix f prev) o | None => o end in
    Some (mkDrv (obj_set n o l) n (dr_store d))
  end.

(* ------------------------------------------------------------ one line *)
(* what the handling of a pseudo instruction works on: the error of the AsmDirective, the rest of
   the line, label and value of the context, the driver and the open files *)
Record lst (O : Type) := mkLst {
  l_err : err; l_scan : text; l_label : text; l_value : value; l_drv : drv O; l_sources : sources }.
Arguments mkLst {O}. Arguments l_err {O}. Arguments l_scan {O}. Arguments l_label {O}. Arguments l_value {O}.
Arguments l_drv {O}. Arguments l_sources {O}.
Definition l_store {O} (s : lst O) : store := dr_store (l_drv s).
Definition ls_err {O} (e : err) (s : lst O) : lst O := mkLst e (l_scan s) (l_label s) (l_value s) (l_drv s) (l_sources s).
Definition ls_scan {O} (t : text) (s : lst O) : lst O := mkLst (l_err s) t (l_label s) (l_value s) (l_drv s) (l_sources s).
Definition ls_label {O} (t : text) (s : lst O) : lst O := mkLst (l_err s) (l_scan s) t (l_value s) (l_drv s) (l_sources s).
Definition ls_value {O} (x : value) (s : lst O) : lst O := mkLst (l_err s) (l_scan s) (l_label s) x (l_drv s) (l_sources s).
Definition ls_store {O} (t : store) (s : lst O) : lst O :=
  mkLst (l_err s) (l_scan s) (l_label s) (l_value s) (mkDrv (dr_objs (l_drv s)) (dr_cur (l_drv s)) t) (l_sources s).
Definition ls_drv {O} (d : drv O) (s : lst O) : lst O := mkLst (l_err s) (l_scan s) (l_label s) (l_value s) d (l_sources s).
Definition ls_sources {O} (x : sources) (s : lst O) : lst O := mkLst (l_err s) (l_scan s) (l_label s) (l_value s) (l_drv s) x.

(* symbols and functions as an expression sees them *)
Definition functions_of (depth : nat) (st : store) (loc : Z) (delim : Z) : text -> option functor :=
  fun n => user_function depth (st_functions st) loc (fun n => lookupSymbol n st) delim n.
Definition symbols_of (st : store) : text -> option value := fun n => lookupSymbol n st.

(* asm_directive.cpp:183-212 defineSymbol *)
Definition defineSymbol {O} (v : env O) (pl : plugins) (loc : Z) (symbol : text) (variable : bool) (s : lst O) : res (lst O) :=
  let st := l_store s in
  if reportDuplicate v && ((negb variable && hasValue symbol false st) || hasValue symbol (negb variable) st || hasFunction symbol st)
  then Val (ls_err DUPLICATE_LABEL s)
  else
    bind (eval pl (mkC loc (symbols_of st) (functions_of (e_depth v) st loc 0) 0) (l_scan s) 10 OK) (fun '(val, e, scan, _) =>
      let s := ls_value val (ls_scan scan s) in
      if hasError e then Val (ls_err e (ls_value v_undef s))
      else if reportUndefined v && err_eqb e UNDEFINED_SYMBOL then Val (ls_err e s)
      else
        let '(e, st) := internSymbol val symbol variable st in
        Val (ls_store st (ls_err (setErrorIfAt (l_err s) e) s))).
(* asm_directive.cpp:154-164 defineConstant, defineVariable *)
Definition defineLabel {O} (v : env O) (pl : plugins) (loc : Z) (variable : bool) (s : lst O) : res (err * lst O) :=
  bind (defineSymbol v pl loc (l_label s) variable s) (fun s => Val (l_err s, ls_label [] s)).
(* asm_directive.cpp:166-181 setVariable *)
Definition setVariable {O} (v : env O) (pl : plugins) (loc : Z) (s : lst O) : res (err * lst O) :=
  if negb (Nat.eqb (length (l_label s)) 0) then Val (ILLEGAL_LABEL, ls_err ILLEGAL_LABEL s)
  else match readSymbol (p_symbol pl) (l_scan s) with
       | None => Val (MISSING_LABEL, ls_err MISSING_LABEL s)
       | Some (symbol, p) =>
         match expect_char 44 (skipSpaces p) with
         | None => Val (MISSING_COMMA, ls_err MISSING_COMMA s)
         | Some p =>
           bind (defineSymbol v pl loc symbol true (ls_scan (skipSpaces p) s)) (fun s => Val (l_err s, s))
         end
       end.
(* asm_directive.cpp:214-233 includeFile: the file name and what follows it, or the error *)
Definition include_name (scan : text) : err * text * text :=
  let '(quote, scan) := match expect_char DQUOTE scan with
                        | Some t => (DQUOTE, t)
                        | None => match expect_char QUOTE scan with Some t => (QUOTE, t) | None => (0, scan) end
                        end in
  if quote =? 0 then let '(name, p) := takeWhile (fun c => negb (is_space c)) scan in (OK, name, p)
  else
    let '(name, p) := takeWhile (fun c => negb (c =? quote)) scan in
    match expect_char quote p with
    | Some p => (OK, name, p)
    | None => (missing_closing quote, name, scan)
    end.
Definition includeFile {O} (v : env O) (s : lst O) : err * lst O :=
  let '(e, name, p) := include_name (l_scan s) in
  if negb (isOK e) then (e, ls_err e s)
  else
    let '(e, src) := open (e_files v) name (l_sources s) in
    (e, ls_scan p (ls_sources src (ls_err (setErrorIfAt (l_err s) e) s))).
(* asm_directive.cpp:240-257: the parameters and the body *)
Fixpoint function_params (fuel : nat) (pl : plugins) (scan : text) : list text * text :=
  match fuel with
  | O => ([], scan)
  | S fuel =>
    let scan := skipSpaces scan in
    match readSymbol (p_symbol pl) scan with
    | None => ([], scan)
    | Some (param, p) =>
      match expect_char 44 (skipSpaces p) with
      | None => ([], scan)
      | Some p => let '(ps, body) := function_params fuel pl p in (param :: ps, body)
      end
    end
  end.
(* asm_directive.cpp:235-258 defineFunction *)
Definition defineFunction {O} (v : env O) (pl : plugins) (s : lst O) : err * lst O :=
  if Nat.eqb (length (l_label s)) 0 then (MISSING_LABEL, ls_err MISSING_LABEL s)
  else
    let '(params, body) := function_params (S (length (l_scan s))) pl (l_scan s) in
    let s := ls_scan body s in
    let name := l_label s in
    let '(e, s) :=
      if reportDuplicate v && hasSymbol name (l_store s) then (DUPLICATE_LABEL, s)
      else let '(e, st) := internFunction name params body pl (l_store s) in (e, ls_scan [] (ls_store st s)) in
    let e := setErrorIfAt (l_err s) e in
    (e, ls_label [] (ls_err e s)).
(* asm_directive.cpp:260-267 switchCpu *)
Definition switchCpu {O} (v : env O) (s : lst O) : err * lst O :=
  let '(cpu, scan) := takeWhile (fun c => negb (is_space c)) (l_scan s) in
  let s := ls_scan scan s in
  match drv_setCpu (e_ops v) (until_nul cpu) (l_drv s) with
  | None => (UNSUPPORTED_CPU, ls_err UNSUPPORTED_CPU s)
  | Some d => (OK, ls_err OK (ls_drv d s))
  end.
(* asm_directive.cpp:140-146 processPseudo *)
Definition processPseudo {O} (v : env O) (pl : plugins) (ps : pseudos) (loc : Z) (name : text) (s : lst O) : res (err * lst O) :=
  match pseudo_find name ps with
  | None => Val (UNKNOWN_DIRECTIVE, s)
  | Some P_CPU => Val (switchCpu v s)
  | Some P_INCLUDE => Val (includeFile v s)
  | Some P_END => Val (END_ASSEMBLE, s)
  | Some P_CONSTANT => defineLabel v pl loc false s
  | Some P_VARIABLE => defineLabel v pl loc true s
  | Some P_SETVAR => setVariable v pl loc s
  | Some P_FUNCTION => Val (defineFunction v pl s)
  end.

(* the answer of [encode]: the error returned, the error kept in the directive, the value, the
   instruction, _currentLocation, the driver and the open files *)
Record encoded (O : Type) := mkEnc {
  n_ret : err; n_err : err; n_value : value; n_insn : insn; n_loc : Z; n_drv : drv O; n_sources : sources }.
Arguments mkEnc {O}. Arguments n_ret {O}. Arguments n_err {O}. Arguments n_value {O}. Arguments n_insn {O}.
Arguments n_loc {O}. Arguments n_drv {O}. Arguments n_sources {O}.
(* asm_directive.cpp:83-126 encode, of the assembler object [k] *)
Definition dir_encode {O} (v : env O) (k : nat) (o : O) (line : text) (i : insn) (d : drv O) (src : sources) : res (encoded O) :=
  let pl := op_pl (e_ops v) o in
  let loc := i_addr i in
  if fst (p_line pl line) then Val (mkEnc OK OK v_undef i loc d src)
  else
    let '(label, scan) := match readLabel (p_symbol pl) line with Some r => r | None => ([], line) end in
    let '(eol, scan) := p_eol pl (skipSpaces scan) in
    let s := mkLst OK scan label v_undef d src in
    bind (if eol then Val (OK, s)
          else
            let '(name, p) := match readInstruction (p_symbol pl) scan with Some r => r | None => ([], scan) end in
            bind (processPseudo v pl (op_pseudos (e_ops v) o) loc name (ls_scan (skipSpaces p) s)) (fun '(e, s) =>
              let '(eol, p) := p_eol pl (l_scan s) in
              let s := if isOK e && negb eol then ls_err GARBAGE_AT_END s else s in
              Val (e, s)))
      (fun '(e, s) =>
        let s :=
          if Nat.eqb (length (l_label s)) 0 then s
          else if reportDuplicate v && hasSymbol (l_label s) (l_store s) then ls_err (setErrorIfAt (l_err s) DUPLICATE_LABEL) s
          else ls_store (snd (internSymbol (setUnsigned (i_addr i)) (l_label s) false (l_store s))) s in
        if negb (err_eqb e UNKNOWN_DIRECTIVE) then
          Val (mkEnc (l_err s) (l_err s) (l_value s) i loc (l_drv s) (l_sources s))
        else
          let '(eol, scan) := p_eol pl scan in
          if eol then Val (mkEnc OK OK (l_value s) i loc (l_drv s) (l_sources s))
          else
            let st := l_store s in
            bind (op_encode (e_ops v) o (symbols_of st) (functions_of (e_depth v) st loc 0) loc scan i) (fun '(i, loc, o) =>
              let e := i_err i in
              let e := if negb (reportUndefined v) && err_eqb e UNDEFINED_SYMBOL then OK else e in
              let d := mkDrv (obj_set k o (dr_objs (l_drv s))) (dr_cur (l_drv s)) (dr_store (l_drv s)) in
              Val (mkEnc e e (l_value s) i loc d (l_sources s)))).

(* ------------------------------------------------------------ a pass *)
(* a line of the listing: the source line, the error, the value shown, address, bytes and unit *)
Record item := mkItem { it_line : text; it_err : err; it_value : value; it_addr : Z; it_bytes : list Z; it_unit : Z }.
(* asm_formatter.cpp:54-56 hasError *)
Definition it_hasError (t : item) : bool := negb (isOK (it_err t)) && negb (err_eqb (it_err t) END_ASSEMBLE).
(* asm_driver.cpp:126-129 *)
Fixpoint write_bytes (base : Z) (bytes : list Z) (m : memory) : memory :=
  match bytes with
  | [] => m
  | b :: bytes' => write_bytes (u32 (base + 1)) bytes' (writeByte m base b)
  end.
(* the state of a pass *)
Record pass (O : Type) := mkPass {
  ps_drv : drv O; ps_sources : sources; ps_memory : memory; ps_origin : Z; ps_insn : insn; ps_items : list item }.
Arguments mkPass {O}. Arguments ps_drv {O}. Arguments ps_sources {O}. Arguments ps_memory {O}. Arguments ps_origin {O}.
Arguments ps_insn {O}. Arguments ps_items {O}.
(* asm_driver.cpp:116-151: one line, [None] when current() is no assembler; the items are listed
   last first *)
Definition pass_line {O} (v : env O) (line : text) (p : pass O) : res (err * pass O) :=
  let d := ps_drv p in
  match nth_error (dr_objs d) (dr_cur d) with
  | None => OOB
  | Some o =>
    let i := i_reset (ps_origin p) 0 (ps_insn p) in
    bind (dir_encode v (dr_cur d) o line i d (ps_sources p)) (fun n =>
      match nth_error (dr_objs (n_drv n)) (dr_cur d) with
      | None => OOB
      | Some o =>
        let unit := op_unit (e_ops v) o in
        let i := n_insn n in
        let code := i_code i in
        let m := write_bytes (u32 (i_addr i * unit)) code (ps_memory p) in
        let origin := if i_len i =? 0 then n_loc n else u32 (i_addr i + i_len i / unit) in
        let t := mkItem line (n_err n) (n_value n) (i_addr i) code unit in
        Val (n_ret n, mkPass (n_drv n) (n_sources n) m origin i (t :: ps_items p))
      end)
  end.
Fixpoint pass_lines {O} (fuel : nat) (v : env O) (p : pass O) : res (pass O) :=
  match fuel with
  | O => FUEL
  | S fuel =>
    bind (readLine (ps_sources p)) (fun '(l, src) =>
      let p := mkPass (ps_drv p) src (ps_memory p) (ps_origin p) (ps_insn p) (ps_items p) in
      match l with
      | None => Val p
      | Some line =>
        bind (pass_line v line p) (fun '(e, p) =>
          if err_eqb e END_ASSEMBLE then Val p else pass_lines fuel v p)
      end)
  end.
(* asm_driver.cpp:109-154 assemble; memory and listing are empty before (asm_commander.cpp:63-65) *)
Definition assemble {O} (fuel : nat) (v : env O) (d : drv O) (src : sources) : res (pass O) :=
  pass_lines fuel v (mkPass d src M_BinMemory.empty 0 (new_insn 0) []).
Definition ps_errors {O} (p : pass O) : bool := existsb it_hasError (ps_items p).

(* ------------------------------------------------------------ the passes *)
(* the outcome of the command: cannot open, or the last pass *)
Inductive result (O : Type) := R_unknown_cpu | R_no_input | R_done (passes : nat) (last : pass O).
Arguments R_unknown_cpu {O}. Arguments R_no_input {O}. Arguments R_done {O}.
Definition select_cpu {O} (f : ops O) (cpu : option text) (d : drv O) : option (drv O) :=
  match cpu with None => Some d | Some c => drv_setCpu f c d end.
(* asm_commander.cpp:52-76: [n] passes were done, leaving [prev] and the driver [d] *)
Fixpoint pass_loop {O} (passes fuel : nat) (v : env O) (cpu : option text) (input : text) (n : nat) (prev : memory) (d : drv O)
  : res (result O) :=
  match passes with
  | O => FUEL
  | S passes =>
    match open (e_files v) input [] with
    | (OK, src) =>
      let symbols := copy_store (dr_store d) in
      let d := mkDrv (dr_objs d) (dr_cur d) (clearFunctions (dr_store d)) in
      let d := match select_cpu (e_ops v) cpu d with Some d => d | None => d end in
      bind (assemble fuel (mkEnv (e_ops v) (e_files v) (e_depth v) (negb (Nat.eqb n 0))) d src) (fun p =>
        if negb (ps_errors p) && (negb (mem_eqb (ps_memory p) prev) || negb (store_eqb symbols (dr_store (ps_drv p))))
        then pass_loop passes fuel v cpu input (S n) (ps_memory p) (ps_drv p)
        else Val (R_done (S n) p))
    | _ => Val R_no_input
    end
  end.
(* asm_commander.cpp:37-77; the driver starts with the assemblers [objs], the first one current *)
Definition run_asm {O} (passes fuel depth : nat) (f : ops O) (fs : files) (cpu : option text) (input : text) (objs : list O)
  : res (result O) :=
  match select_cpu f cpu (mkDrv objs 0 empty_store) with
  | None => Val R_unknown_cpu
  | Some d => pass_loop passes fuel (mkEnv f fs depth false) cpu input 0 M_BinMemory.empty (mkDrv (dr_objs d) (dr_cur d) empty_store)
  end.
