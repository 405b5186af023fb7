(** Model of src/table_base.h, src/entry_table.h, src/reg_base.cpp and src/pseudos.h: the searches
    in the instruction, register and directive tables.  A table is a list of items, a pointer into
    it is a position; reading outside the table is the outcome [OOB].  The functions which decide
    whether an entry fits the operands or the opcode are parameters.
    Simplification: those functions may record something in the instruction (none of them changes
    its name); here they only answer. *)
From Coq Require Import ZArith String List Bool.
From Verif Require Import M_Char M_Error M_Text M_Operators.
Import ListNotations.
Open Scope string_scope.
Open Scope list_scope.
Local Open Scope Z_scope.

(* <strings.h> strcasecmp: the difference of the first lower-cased letters that differ, where a
   text ends with a NUL *)
Fixpoint strcasecmp (a b : text) {struct a} : Z :=
  match a, b with
  | [], [] => 0
  | [], y :: _ => 0 - to_lower y
  | x :: _, [] => to_lower x
  | x :: a', y :: b' =>
    let d := to_lower x - to_lower y in
    if d =? 0 then strcasecmp a' b' else d
  end.
(* <strings.h> strncasecmp: at most [n] letters *)
Fixpoint strncasecmp (a b : text) (n : nat) {struct n} : Z :=
  match n with
  | O => 0
  | S n' =>
    match a, b with
    | [], [] => 0
    | [], y :: _ => 0 - to_lower y
    | x :: _, [] => to_lower x
    | x :: a', y :: b' =>
      let d := to_lower x - to_lower y in
      if d =? 0 then strncasecmp a' b' n' else d
    end
  end.

(* reading through a pointer to a table item *)
Definition item_at {A} (items : list A) (i : nat) : res A :=
  match nth_error items i with Some a => Val a | None => OOB end.

(* table_base.h:47-55 Table::linearSearch; [None] is nullptr *)
Fixpoint linearSearch_from {A} (matcher : A -> bool) (items : list A) (i : nat) : option nat :=
  match items with
  | [] => None
  | a :: t => if matcher a then Some i else linearSearch_from matcher t (S i)
  end.
Definition linearSearch {A} (matcher : A -> bool) (items : list A) : option nat :=
  linearSearch_from matcher items 0.

(* table_base.h:60-81 Table::binarySearch: the loop; [comparator] compares the data with an item *)
Fixpoint binarySearch_loop {A} (comparator : A -> Z) (items : list A) (fuel head tail : nat)
    (found : option nat) {struct fuel} : res (option nat) :=
  match fuel with
  | O => FUEL
  | S f =>
    if Nat.eqb head tail then Val found
    else
      let middle := (head + Nat.div (tail - head) 2)%nat in
      bind (item_at items middle) (fun item =>
        let r := comparator item in
        if 0 <? r then binarySearch_loop comparator items f (S middle) tail found
        else if r <? 0 then binarySearch_loop comparator items f head middle found
        else binarySearch_loop comparator items f head middle (Some middle))
  end.
Definition binarySearch {A} (comparator : A -> Z) (items : list A) : res (option nat) :=
  binarySearch_loop comparator items (S (length items)) 0 (length items) None.

(* table_base.h:115,146-147: nullptr, the marker (the end of the items), or an item *)
Inductive found := NotFound | NotExact | Found (i : nat).

(* table_base.h:158-166 IndexedTable::itemAt; a byte index *)
Definition itemAt {A} (items : list A) (index : list Z) (i : nat) : res (nat * A) :=
  bind (item_at index i) (fun k => bind (item_at items (Z.to_nat k)) (fun a => Val (Z.to_nat k, a))).

(* table_base.h:120-135 IndexedTable::binarySearch: the first loop *)
Fixpoint lowerBound {A} (comparator : A -> Z) (items : list A) (index : list Z)
    (fuel head tail : nat) {struct fuel} : res nat :=
  match fuel with
  | O => FUEL
  | S f =>
    if Nat.eqb head tail then Val head
    else
      let middle := (head + Nat.div (tail - head) 2)%nat in
      bind (itemAt items index middle) (fun '(_, item) =>
        if 0 <? comparator item then lowerBound comparator items index f (S middle) tail
        else lowerBound comparator items index f head middle)
  end.
(* table_base.h:136-152 IndexedTable::binarySearch: the second loop *)
Fixpoint matchScan {A} (comparator : A -> Z) (matcher2 : A -> bool) (items : list A) (index : list Z)
    (fuel head : nat) (r : found) {struct fuel} : res found :=
  match fuel with
  | O => FUEL
  | S f =>
    if Nat.ltb head (length index) then
      bind (itemAt items index head) (fun '(k, item) =>
        if negb (comparator item =? 0) then Val r
        else if matcher2 item then Val (Found k)
        else matchScan comparator matcher2 items index f (S head) NotExact)
    else Val r
  end.
(* table_base.h:117-153 IndexedTable::binarySearch *)
Definition indexedSearch {A} (comparator : A -> Z) (matcher2 : A -> bool) (items : list A)
    (index : list Z) : res found :=
  bind (lowerBound comparator items index (S (length index)) 0 (length index)) (fun head =>
    matchScan comparator matcher2 items index (S (length index)) head NotFound).

(* entry_table.h:33-78 TableBase, PrefixTableBase; [p_info] is what a page has besides its tables
   (prefix, ...) *)
Record page (I A : Type) := mkPage { p_info : I; p_items : list A; p_index : list Z }.
Arguments mkPage {I A} _ _ _.
Arguments p_info {I A} _.
Arguments p_items {I A} _.
Arguments p_index {I A} _.

(* entry_table.h:149-170 CpuBase::searchName: page number and item, or an error; [name] is
   entry_P->name_P(), [accept] is acceptOperands after pageSetup *)
Inductive lookup := Hit (pg : nat) (i : nat) | Miss (e : err).
Fixpoint searchName_from {I A} (nm : A -> text) (s : text) (accept : page I A -> A -> bool)
    (pages : list (page I A)) (n : nat) (seen : bool) {struct pages} : res lookup :=
  match pages with
  | [] => Val (Miss (if seen then OPERAND_NOT_ALLOWED else UNKNOWN_INSTRUCTION))
  | p :: ps =>
    bind (indexedSearch (fun a => strcasecmp s (nm a)) (accept p) (p_items p) (p_index p)) (fun r =>
      match r with
      | NotExact => searchName_from nm s accept ps (S n) true
      | Found i => Val (Hit n i)
      | NotFound => searchName_from nm s accept ps (S n) seen
      end)
  end.
Definition searchName {I A} (nm : A -> text) (s : text) (accept : page I A -> A -> bool)
    (pages : list (page I A)) : res lookup :=
  searchName_from nm s accept pages 0 false.

(* entry_table.h:202-226 CpuBase::searchOpCode *)
Fixpoint searchOpCode_from {I A} (pageMatcher : page I A -> bool) (matchCode : page I A -> A -> bool)
    (pages : list (page I A)) (n : nat) {struct pages} : lookup :=
  match pages with
  | [] => Miss UNKNOWN_INSTRUCTION
  | p :: ps =>
    if pageMatcher p then
      match linearSearch (matchCode p) (p_items p) with
      | Some i => Hit n i
      | None => searchOpCode_from pageMatcher matchCode ps (S n)
      end
    else searchOpCode_from pageMatcher matchCode ps (S n)
  end.
Definition searchOpCode {I A} (pageMatcher : page I A -> bool) (matchCode : page I A -> A -> bool)
    (pages : list (page I A)) : lookup :=
  searchOpCode_from pageMatcher matchCode pages 0.

(* entry_table.h:113-123 CpuBase::isPrefix; the page's information is its prefix *)
Definition isPrefix {A} (pages : list (page Z A)) (code : Z) : bool :=
  existsb (fun p => if p_info p =? 0 then false else p_info p =? code) pages.

(* entry_table.h:89-97 CpuBase::search by type; :99-106 by name *)
Definition cpu_by_type {C} (ty : C -> Z) (cpuType : Z) (cpus : list C) : option nat :=
  linearSearch (fun c => cpuType =? ty c) cpus.
Definition cpu_by_name {C} (nm : C -> text) (s : text) (cpus : list C) : option nat :=
  linearSearch (fun c => iequals s (nm c)) cpus.

(* pseudos.h:67-75 Pseudos::search *)
Definition pseudoSearch {A} (nm : A -> text) (s : text) (items : list A) : res (option nat) :=
  binarySearch (fun a => strcasecmp s (nm a)) items.

(* reg_base.cpp:32-40 textMatcher: [s] is the line from the symbol on, [n] the symbol's length *)
Definition textMatcher (s : text) (n : nat) (name : text) : Z :=
  let r := strncasecmp s name n in
  if negb (r =? 0) then r
  else if Nat.ltb n (length name) then -1 else 0.
(* reg_base.cpp:45-51 isNameLetter, isPrefixLetter *)
Definition isNameLetter (c : Z) : bool := is_alnum c || (c =? 39).
Definition isPrefixLetter (c : Z) : bool := is_alpha c.
(* reg_base.cpp:71-80 NameTable::searchSymbol; the position found and the text still to be read *)
Definition searchSymbol {A} (nm : A -> text) (p : Z -> bool) (s : text) (items : list A)
  : res (option nat * text) :=
  let (sym, next) := takeWhile p s in
  if Nat.eqb (length sym) 0 then Val (None, s)
  else
    bind (binarySearch (fun a => textMatcher s (length sym) (nm a)) items) (fun r =>
      match r with
      | Some i => Val (Some i, next)
      | None => Val (None, s)
      end).
(* reg_base.cpp:63-69 NameTable::searchText, searchPrefix *)
Definition searchText {A} (nm : A -> text) (s : text) (items : list A) : res (option nat * text) :=
  searchSymbol nm isNameLetter s items.
Definition searchPrefix {A} (nm : A -> text) (s : text) (items : list A) : res (option nat * text) :=
  searchSymbol nm isPrefixLetter s items.
(* reg_base.cpp:28-30,59-61 nameMatcher, NameTable::searchName *)
Definition searchByNumber {A} (num : A -> Z) (n : Z) (items : list A) : option nat :=
  linearSearch (fun a => n =? num a) items.

(* reg_base.h:31-33 isIdLetter *)
Definition isIdLetter (c : Z) : bool := is_alnum c || (c =? 95).
(* conversion to int8_t *)
Definition int8 (z : Z) : Z := (z + 128) mod 256 - 128.
(* reg_base.cpp:82-100 parseRegNumber: the loop, then the checks; [None] is -1 *)
Fixpoint regNumber_loop (p : text) (val leading_zero : Z) {struct p} : Z * Z * text :=
  match p with
  | c :: t =>
    if is_digit c && (val <? 1000) then
      regNumber_loop t (val * 10 + (c - 48))
        (if (val =? 0) && (c =? 48) then int8 (leading_zero + 1) else leading_zero)
    else (val, leading_zero, p)
  | [] => (val, leading_zero, p)
  end.
Definition parseRegNumber (s : text) : option (Z * text) :=
  let '(val, lz, p) := regNumber_loop s 0 0 in
  (* [c] is the letter the loop stopped at *)
  if isIdLetter (peek p) then None
  else if ((val =? 0) && negb (lz =? 1)) || (negb (val =? 0) && (1 <=? lz)) then None
  else Some (val, p).

(** The tables of the program (T_Tables.v) *)
(* an instruction: mnemonic and operands *)
Definition row := (string * string)%type.
Definition row_name (r : row) : text := s2l (fst r).
Record insn_table := mkIT { it_items : list row; it_index : list Z }.
Definition name_table := list row.
Record processor := mkPr { pr_label : string; pr_name : string; pr_tables : list insn_table;
  pr_directives : list name_table }.
Definition page_of (t : insn_table) : page unit row := mkPage tt (it_items t) (it_index t).
Definition pages_of (p : processor) : list (page unit row) := map page_of (pr_tables p).
