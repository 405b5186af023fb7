(** Model of the directives of src/asm_base.{h,cpp}: origin, alignment, space and data.
    Simplifications: where an error is reported in the line is not modelled (only the error code
    is); floating point data ([DATA_FLOAT32], [DATA_FLOAT64]) leaves the model (outcome [FLOAT]). *)
From Coq Require Import ZArith String List Bool.
From Verif Require Import M_Char M_Error M_Value M_Text M_Insn M_Config M_Operators M_Parsers M_Expr.
Import ListNotations.
Open Scope list_scope.
Local Open Scope Z_scope.

(* asm_base.h:101-108, config_base.h: what a directive needs to know about the assembler *)
Record asm := mkA {
  a_pl : plugins;
  a_symbol : text -> option value;      (* _symtab *)
  a_function : text -> option functor;
  a_radix : Z;                          (* _inputRadix *)
  a_aw : Z;                             (* config().addressWidth() *)
  a_unit : Z;                           (* config().addressUnit(): 1 or 2 *)
  a_big : bool                          (* config().endian() == ENDIAN_BIG *)
}.
(* asm_base.h:109 _currentLocation, the line still to be read, and the instruction *)
Record dstate := mkDS { ds_loc : Z; ds_scan : text; ds_insn : insn }.
Definition ds_seterr (e : err) (s : dstate) : dstate := mkDS (ds_loc s) (ds_scan s) (i_seterr e (ds_insn s)).
Definition ds_set_scan (t : text) (s : dstate) : dstate := mkDS (ds_loc s) t (ds_insn s).
Definition ds_set_insn (i : insn) (s : dstate) : dstate := mkDS (ds_loc s) (ds_scan s) i.

(* asm_base.cpp:75-77 setCurrentLocation *)
Definition setCurrentLocation (a : asm) (loc : Z) (align : bool) (s : dstate) : err * dstate :=
  (checkAddr (a_aw a) loc align, mkDS loc (ds_scan s) (ds_insn s)).

(* asm_base.cpp:121-124 parseExpr, with a fresh error; the default radix of the context is a copy *)
Definition parseExpr (a : asm) (s : dstate) (delim : Z) : res (value * err * text) :=
  bind (eval (a_pl a) (mkC (ds_loc s) (a_symbol a) (a_function a) delim) (ds_scan s) (a_radix a) OK)
       (fun '(v, e, t, _) => Val (v, e, t)).

(* [insn.setErrorIf(at, e)]: the new error, which is also returned *)
Definition insn_setErrorIf (e : err) (s : dstate) : err * dstate :=
  let e' := setErrorIfAt (i_err (ds_insn s)) e in (e', ds_seterr e' s).

(* asm_base.cpp:176-188 defineOrigin *)
Definition defineOrigin (a : asm) (s : dstate) : res (err * dstate) :=
  bind (parseExpr a s 0) (fun '(v, e, p) =>
    if negb (isOK e) then Val (e, ds_seterr e s)
    else
      let addr := getUnsigned v in
      let '(e, s) := setCurrentLocation a addr false s in
      let '(e, s) := insn_setErrorIf e s in
      if negb (isOK e) then Val (e, s)
      else Val (OK, mkDS (ds_loc s) p (i_reset addr 0 (ds_insn s)))).

(* asm_base.h:84-88 AlignStep *)
Definition ALIGN_VAR : Z := 0.
Definition ALIGN_ODD : Z := 1.
Definition ALIGN_EVEN : Z := 2.
(* asm_base.cpp:211-212 *)
Definition align_to (a : asm) (step : Z) (s : dstate) : res (err * dstate) :=
  match i_align step (ds_insn s) with
  | None => UB
  | Some i =>
    let s := ds_set_insn i s in
    let '(e, s) := setCurrentLocation a (i_addr i) false s in
    Val (insn_setErrorIf e s)
  end.
(* asm_base.cpp:190-213 alignOrigin *)
Definition alignOrigin (a : asm) (step : Z) (s : dstate) : res (err * dstate) :=
  if step =? ALIGN_ODD then
    let i := ds_insn s in
    let s := if i_addr i mod 2 =? 0 then ds_set_insn (i_reset ((i_addr i + 1) mod 2^32) (i_len i) i) s else s in
    let '(e, s) := setCurrentLocation a (i_addr (ds_insn s)) false s in
    Val (insn_setErrorIf e s)
  else if step =? ALIGN_VAR then
    bind (parseExpr a s 0) (fun '(v, e, p) =>
      if negb (isOK e) then Val (e, ds_seterr e s)
      else if overflow v 255 0 then Val (OVERFLOW_RANGE, ds_seterr OVERFLOW_RANGE s)
      else align_to a (getUnsigned v mod 2^8) (ds_set_scan p s))
  else align_to a step s.

(* asm_base.h:91-102 DataType *)
Inductive dtype := DATA_BYTE | DATA_BYTE_OR_WORD | DATA_BYTE_IN_WORD | DATA_BYTE_NO_STRING | DATA_WORD
  | DATA_WORD_NO_STRING | DATA_LONG | DATA_FLOAT32 | DATA_FLOAT64.

(* asm_base.cpp:225-234 *)
Definition space_unit (ty : dtype) : Z := match ty with DATA_WORD => 2 | DATA_LONG => 4 | _ => 1 end.
(* asm_base.cpp:215-240 allocateSpaces; [align]: DATA_ALIGN2 is set *)
Definition allocateSpaces (a : asm) (ty : dtype) (align : bool) (s : dstate) : res (err * dstate) :=
  let i := ds_insn s in
  match (if align && negb (i_addr i mod 2 =? 0) then i_align 2 i else Some i) with
  | None => UB
  | Some i =>
    let s := ds_set_insn i s in
    bind (parseExpr a s 0) (fun '(v, e, p) =>
      if negb (isOK e) then Val (e, ds_seterr e s)
      else if overflowUint16 v then Val (OVERFLOW_RANGE, ds_seterr OVERFLOW_RANGE s)
      else
        let bytes := u32 (getUnsigned v * space_unit ty) in
        let addr := u32 (i_addr i + bytes / a_unit a) in
        let '(e, s) := setCurrentLocation a addr align s in
        let '(_, s) := insn_setErrorIf e s in
        Val (OK, ds_set_scan p s))
  end.

(* ------------------------------------------------------ strings *)
Definition endOfLine (a : asm) : eol_parser := p_eol (a_pl a).
(* letter_parser.h: [stringPrefix(p);] with the answer ignored *)
Definition skip_prefix (l : letters) (p : text) : text := match l_string_prefix l p with Some p => p | None => p end.
(* asm_base.cpp:272-286: the position of the closing delimiter, or the error *)
Fixpoint string_end (fuel : nat) (a : asm) (delim : Z) (p : text) : res (err * text) :=
  match fuel with
  | O => FUEL
  | S fuel =>
    if peek p =? 0 then Val (missing_closing delim, p)
    else
      let closing :=
        if peek p =? delim then
          let '(eol, q) := endOfLine a (tl_ p) in eol || (peek q =? 44)
        else false in
      if closing then Val (OK, p)
      else
        let '(e, _, p) := l_read (p_letter (a_pl a)) delim p in
        if isOK e then string_end fuel a delim p else Val (e, p)
  end.
(* asm_base.cpp:260-291 isString: [scan] at the closing delimiter when OK *)
Definition isString (a : asm) (scan : text) : res (err * text) :=
  match l_string_delim (p_letter (a_pl a)) (skip_prefix (p_letter (a_pl a)) scan) with
  | None => Val (NOT_AN_EXPECTED, scan)
  | Some (delim, p) => string_end (S (length p)) a delim p
  end.

(* asm_base.cpp:299-305: the instruction, the error and the number of letters *)
Fixpoint string_bytes (fuel : nat) (a : asm) (delim : Z) (p stop : text) (i : insn) (e : err) (count : Z)
  : res (insn * err * Z) :=
  match fuel with
  | O => FUEL
  | S fuel =>
    if Nat.ltb (length stop) (length p) then
      let '(_, c, p) := l_read (p_letter (a_pl a)) delim p in
      let '(ee, i) := emitByte c i in
      string_bytes fuel a delim p stop i (setErrorIfAt e ee) ((count + 1) mod 2^8)
    else Val (i, e, count)
  end.
(* asm_base.cpp:308-325: padding *)
Definition pad1 (st : insn * err) : insn * err :=
  let '(i, e) := st in let '(ee, i) := emitByte 0 i in (i, setErrorIfAt e ee).
Definition string_padding (a : asm) (ty : dtype) (count : Z) (st : insn * err) : insn * err :=
  match ty with
  | DATA_WORD => if count mod 2 =? 0 then st else pad1 st
  | DATA_LONG =>
    match count mod 4 with 1 => pad1 (pad1 (pad1 st)) | 2 => pad1 (pad1 st) | 3 => pad1 st | _ => st end
  | _ => if (a_unit a =? 2) && negb (count mod 2 =? 0) then pad1 st else st
  end.
(* asm_base.cpp:293-326 generateString: the instruction, the error and the text left *)
Definition generateString (a : asm) (ty : dtype) (scan stop : text) (i : insn) (e : err) : res (insn * err * text) :=
  let l := p_letter (a_pl a) in
  let p := skip_prefix l scan in
  let '(delim, p) := match l_string_delim l p with Some r => r | None => (0, p) end in
  bind (string_bytes (S (length p)) a delim p stop i e 0) (fun '(i, e, count) =>
    let scan := match l_string_delim l stop with Some (_, q) => q | None => stop end in
    let '(i, e) := string_padding a ty count (i, e) in
    Val (i, e, scan)).

(* ------------------------------------------------------ data constants *)
(* asm_base.cpp:361-408: emit one constant *)
Definition emit_word (a : asm) (v : Z) (i : insn) := if a_big a then emitUint16Be (v mod 2^16) i else emitUint16Le (v mod 2^16) i.
Definition emit_long (a : asm) (v : Z) (i : insn) := if a_big a then emitUint32Be v i else emitUint32Le v i.
Definition emit_constant (a : asm) (ty : dtype) (val : value) (i : insn) : res (err * insn) :=
  let v := getUnsigned val in
  match ty with
  | DATA_BYTE_OR_WORD => Val (if overflowUint8 val then emit_word a v i else emitByte v i)
  | DATA_BYTE | DATA_BYTE_NO_STRING => Val (emitByte v i)
  | DATA_BYTE_IN_WORD => Val (emit_word a (Z.land v 0xFF) i)
  | DATA_WORD | DATA_WORD_NO_STRING => Val (emit_word a v i)
  | DATA_LONG => Val (emit_long a v i)
  | DATA_FLOAT32 | DATA_FLOAT64 => FLOAT
  end.
Definition has_string (ty : dtype) : bool := match ty with DATA_BYTE_NO_STRING | DATA_WORD_NO_STRING => false | _ => true end.

(* the end of one round: the error so far and whether to go on *)
Inductive round := Stop (e : err) (s : dstate) | More (e : err) (s : dstate).
(* asm_base.cpp:347-411: an expression; [str] is the error of the string reader *)
Definition data_expr (a : asm) (ty : dtype) (e str : err) (s : dstate) : res round :=
  bind (parseExpr a s 0) (fun '(v, ee, p) =>
    let '(eol, p) := endOfLine a p in
    if negb eol && negb (peek p =? 44) then
      Val (Stop (setErrorIfAt e (if negb (isOK str) then str else ILLEGAL_CONSTANT)) s)
    else if hasError ee then
      Val (Stop (setErrorIfAt e (if negb (isOK str) then str else ee)) s)
    else
      bind (emit_constant a ty v (ds_insn s)) (fun '(em, i) =>
        let e := setErrorIfAt e (setErrorIfAt ee em) in
        let s := mkDS (ds_loc s) p i in
        if err_eqb e NO_MEMORY then Val (Stop e s) else Val (More e s))).
(* asm_base.cpp:336-346 *)
Definition data_item (a : asm) (ty : dtype) (e : err) (s : dstate) : res round :=
  let scan := skipSpaces (ds_scan s) in
  let s := ds_set_scan scan s in
  if has_string ty then
    bind (isString a scan) (fun '(se, stop) =>
      if isOK se then
        bind (generateString a ty scan stop (ds_insn s) OK) (fun '(i, se, p) =>
          let e := setErrorIfAt e se in
          let s := mkDS (ds_loc s) p i in
          if err_eqb e NO_MEMORY then Val (Stop e s) else Val (More e s))
      else data_expr a ty e (if err_eqb se NOT_AN_EXPECTED then OK else se) s)
  else data_expr a ty e OK s.
(* asm_base.cpp:335-412: [while (scan.skipSpaces().expect(','))] *)
Fixpoint data_items (fuel : nat) (a : asm) (ty : dtype) (e : err) (s : dstate) : res (err * dstate) :=
  match fuel with
  | O => FUEL
  | S fuel =>
    bind (data_item a ty e s) (fun r =>
      match r with
      | Stop e s => Val (e, s)
      | More e s =>
        let t := skipSpaces (ds_scan s) in
        match expect_char 44 t with
        | Some t => data_items fuel a ty e (ds_set_scan t s)
        | None => Val (e, ds_set_scan t s)
        end
      end)
  end.
(* asm_base.cpp:328-414 defineDataConstant; [align]: DATA_ALIGN2 is set *)
Definition defineDataConstant (a : asm) (ty : dtype) (align : bool) (s : dstate) : res (err * dstate) :=
  match (if align then i_align 2 (ds_insn s) else Some (ds_insn s)) with
  | None => UB
  | Some i =>
    let s := ds_set_insn i s in
    let s := if align then snd (setCurrentLocation a (i_addr i) false s) else s in
    bind (data_items (S (length (ds_scan s))) a ty OK s) (fun '(e, s) => Val (e, ds_seterr e s))
  end.

(* ------------------------------------------------------ delimited strings *)
(* asm_base.cpp:246-253: letters up to the delimiter *)
Fixpoint delimited (delim : Z) (p : text) (i : insn) (e : err) : option (insn * err * text) * insn :=
  match p with
  | [] => (None, i)
  | c :: t =>
    if c =? delim then (Some (i, e, t), i)
    else if c =? 0 then (None, i)
    else let '(ee, i) := emitByte c i in delimited delim t i (setErrorIfAt e ee)
  end.
(* asm_base.cpp:242-258 defineString *)
Fixpoint string_list (fuel : nat) (s : dstate) (e : err) : res (err * dstate) :=
  match fuel with
  | O => FUEL
  | S fuel =>
    let t := skipSpaces (ds_scan s) in
    let delim := peek t in
    let p := tl_ t in
    match delimited delim p (ds_insn s) e with
    | (None, i) => let '(e, s) := insn_setErrorIf MISSING_CLOSING_DELIMITER (mkDS (ds_loc s) p i) in Val (e, s)
    | (Some (i, e, t), _) =>
      let t := skipSpaces t in
      match expect_char 44 t with
      | Some t => string_list fuel (mkDS (ds_loc s) t i) e
      | None => Val (e, ds_seterr e (mkDS (ds_loc s) t i))
      end
    end
  end.
Definition defineString (s : dstate) : res (err * dstate) := string_list (S (length (ds_scan s))) s OK.
