(** Model of the symbol and function stores: driver/symbol_store.{h,cpp}, driver/function_store.{h,cpp}.
    A [std::map<std::string, T>] is the list of its elements in the order of the keys. *)
From Coq Require Import ZArith List Bool.
From Verif Require Import M_Char M_Error M_Value M_Text M_Operators M_Parsers M_Expr.
Import ListNotations.
Local Open Scope Z_scope.

(* ------------------------------------------------------------ std::map *)
Definition key := text.
(* std::string comparison: letter by letter, then by length *)
Fixpoint key_ltb (a b : key) : bool :=
  match a, b with
  | _, [] => false
  | [], _ :: _ => true
  | x :: a', y :: b' => (x <? y) || ((x =? y) && key_ltb a' b')
  end.
Fixpoint key_eqb (a b : key) : bool :=
  match a, b with
  | [], [] => true
  | x :: a', y :: b' => (x =? y) && key_eqb a' b'
  | _, _ => false
  end.
Definition smap (A : Type) := list (key * A).
(* find *)
Fixpoint m_find {A} (k : key) (m : smap A) : option A :=
  match m with
  | [] => None
  | (k', v) :: m' => if key_eqb k k' then Some v else m_find k m'
  end.
(* map[key] = value *)
Fixpoint m_set {A} (k : key) (v : A) (m : smap A) : smap A :=
  match m with
  | [] => [(k, v)]
  | (k', v') :: m' =>
    if key_eqb k k' then (k, v) :: m'
    else if key_ltb k k' then (k, v) :: m
    else (k', v') :: m_set k v m'
  end.
(* emplace: nothing happens if the key is present *)
Definition m_emplace {A} (k : key) (v : A) (m : smap A) : smap A :=
  match m_find k m with Some _ => m | None => m_set k v m end.
(* operator==: the same number of elements, equal in order *)
Fixpoint m_eqb {A} (eqv : A -> A -> bool) (a b : smap A) : bool :=
  match a, b with
  | [], [] => true
  | (k, v) :: a', (k', v') :: b' => key_eqb k k' && eqv v v' && m_eqb eqv a' b'
  | _, _ => false
  end.
(* for (auto &it : other) map.emplace(it.first, it.second), from an empty map *)
Definition m_copy {A} (other : smap A) : smap A := fold_left (fun m '(k, v) => m_emplace k v m) other [].

(* ------------------------------------------------------------ functions *)
(* function_store.h:57-74 Function: body, paramsAt, parser *)
Record fundef := mkFD { fd_body : text; fd_params : smap Z; fd_parser : plugins }.
(* function_store.cpp:28-30 operator== *)
Definition fd_eqb (a b : fundef) : bool :=
  key_eqb (fd_body a) (fd_body b) && m_eqb Z.eqb (fd_params a) (fd_params b).
(* function_store.cpp:66-68: position from the top of the stack; a name given twice keeps the first *)
Fixpoint params_at (params : list text) (argc : Z) (m : smap Z) : smap Z :=
  match params with
  | [] => m
  | p :: ps => params_at ps (argc - 1) (m_emplace p (argc - 1) m)
  end.
Definition paramsAt (params : list text) : smap Z := params_at params (Z.of_nat (length params)) [].

(* ------------------------------------------------------------ the store *)
(* symbol_store.h:66-68 *)
Record store := mkS { st_symbols : smap value; st_variables : smap value; st_functions : smap fundef }.
Definition empty_store : store := mkS [] [] [].
(* symbol_store.cpp:24-27 operator== *)
Definition store_eqb (a b : store) : bool :=
  m_eqb v_eqb (st_symbols a) (st_symbols b) && m_eqb v_eqb (st_variables a) (st_variables b) &&
  m_eqb fd_eqb (st_functions a) (st_functions b).
(* symbol_store.cpp:29-36 copy, function_store.cpp:38-42 *)
Definition copy_store (other : store) : store :=
  mkS (m_copy (st_symbols other)) (m_copy (st_variables other)) (m_copy (st_functions other)).
(* symbol_store.cpp:44-46 clearFunctions *)
Definition clearFunctions (s : store) : store := mkS (st_symbols s) (st_variables s) [].
Definition the_map (s : store) (variable : bool) : smap value := if variable then st_variables s else st_symbols s.
(* symbol_store.cpp:63-67 hasValue *)
Definition hasValue (name : text) (variable : bool) (s : store) : bool :=
  match m_find name (the_map s variable) with Some _ => true | None => false end.
(* symbol_store.cpp:48-50 hasSymbol *)
Definition hasSymbol (name : text) (s : store) : bool := hasValue name false s || hasValue name true s.
(* symbol_store.cpp:52-61 lookupSymbol *)
Definition lookupSymbol (name : text) (s : store) : option value :=
  match m_find name (st_symbols s) with
  | Some v => Some v
  | None => m_find name (st_variables s)
  end.
(* symbol_store.cpp:69-79 internSymbol; the comparison of a float with 32 bits is outside the model:
   [overflowUint32] takes its (absent) bits *)
Definition internSymbol (v : value) (name : text) (variable : bool) (s : store) : err * store :=
  if hasValue name (negb variable) s then (DUPLICATE_LABEL, s)
  else if overflowUint32 v then (OVERFLOW_RANGE, s)
  else (OK, if variable then mkS (st_symbols s) (m_set name v (st_variables s)) (st_functions s)
            else mkS (m_set name v (st_symbols s)) (st_variables s) (st_functions s)).
(* symbol_store.cpp:81-83, function_store.cpp:48-55 hasFunction *)
Definition hasFunction (name : text) (s : store) : bool :=
  match m_find name (st_functions s) with Some _ => true | None => false end.
(* function_store.cpp:57-70 internFunction *)
Definition internFunction (name : text) (params : list text) (body : text) (parser : plugins) (s : store) : err * store :=
  if hasFunction name s then (DUPLICATE_FUNCTION, s)
  else (OK, mkS (st_symbols s) (st_variables s) (m_emplace name (mkFD body (paramsAt params) parser) (st_functions s))).

(* ------------------------------------------------------------ calls *)
(* stack.at(pos): from the top; [None] is a read outside the stack *)
Definition vs_at (s : vstack) (pos : Z) : option value := if pos <? 0 then None else nth_error s (Z.to_nat pos).
Fixpoint vs_drop (n : nat) (s : vstack) : vstack := match n with O => s | S n' => vs_drop n' (snd (vs_pop s)) end.
(* function_store.cpp:77-82 Binding::lookupSymbol; reading outside the stack, which can happen
   only for a function with a parameter named twice, is modelled as an undefined value *)
Definition binding (params : smap Z) (stack : vstack) (parent : text -> option value) (n : text) : option value :=
  match m_find n params with
  | Some pos => match vs_at stack pos with Some v => Some v | None => Some v_undef end
  | None => parent n
  end.
(* function_store.cpp:48-55 lookupFunction, 88-104 Function::eval; calls may nest at most [depth]
   deep, deeper ones are the outcome [FUEL].  The context is that of the caller.
   Simplification: fewer than 128 parameters (nargs() is a signed 8-bit number). *)
Fixpoint user_function (depth : nat) (fns : smap fundef) (loc : Z) (symbol : text -> option value) (delim : Z)
    (name : text) : option functor :=
  match m_find name fns with
  | None => None
  | Some fd =>
    let nargs := Z.of_nat (length (fd_params fd)) in
    Some (mkF nargs (fun stack rdx =>
      match depth with
      | O => FUEL
      | S depth' =>
        let symbol' := binding (fd_params fd) stack symbol in
        bind (eval (fd_parser fd) (mkC loc symbol' (user_function depth' fns loc symbol' delim) delim) (fd_body fd) rdx OK)
          (fun '(v, e, _, _) =>
             bind (vs_push (vs_drop (Z.to_nat nargs) stack) v) (fun s => Val (e, s)))
      end))
  end.
