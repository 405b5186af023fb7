(** Model of the source files: cli/file_reader.cpp, cli/file_sources.h, driver/asm_sources.h.
    A file is the list of its characters.  Simplifications: reading never fails before the end of
    the file; memory allocation never fails; a file does not change while it is read. *)
From Coq Require Import ZArith List Bool.
From Verif Require Import M_Char M_Error M_Text M_Config M_Operators.
Import ListNotations.
Local Open Scope Z_scope.

(* ------------------------------------------------------------ lines of a file *)
(* the C library's fgets: at most [room] letters, up to and with the first line feed *)
Fixpoint fgets_letters (room : nat) (input : text) : text * text :=
  match room, input with
  | S room, c :: input' =>
    if c =? 10 then ([c], input')
    else let '(a, b) := fgets_letters room input' in (c :: a, b)
  | _, _ => ([], input)
  end.
(* fgets(p, max, input): [None] is a null pointer; [max] is an int *)
Definition fgets (max : Z) (input : text) : option (text * text) :=
  let max := s32 max in
  if max <=? 0 then None
  else if max =? 1 then Some ([], input)
  else match input with
       | [] => None
       | _ => Some (fgets_letters (Z.to_nat (max - 1)) input)
       end.
(* strlen of the buffer: up to the first NUL *)
Fixpoint until_nul (t : text) : text :=
  match t with [] => [] | c :: t' => if c =? 0 then [] else c :: until_nul t' end.
(* the text before the last letter, when that is a line feed *)
Definition chomp (t : text) : option text :=
  if (0 <? Z.of_nat (length t)) && (last t 0 =? 10) then Some (removelast t) else None.
(* file_reader.cpp:25-40 getLine; [acc] is lineptr[0..len-1], [n] the size of the buffer; the answer
   is the line ([None] for -1), the size of the buffer and the rest of the file. Every round reads a
   letter, so the rounds are bounded by the length of the file *)
Fixpoint getLine_rounds (fuel : nat) (acc : text) (max n : Z) (input : text) : res (option text * Z * text) :=
  match fuel with
  | O => FUEL
  | S fuel =>
    match fgets max input with
    | None => Val (None, n, input)
    | Some (chunk, rest) =>
      if Z.of_nat (length acc) + Z.of_nat (length chunk) + 1 <=? n then
        let buf := until_nul (acc ++ chunk) in
        match chomp buf with
        | Some line => Val (Some line, n, rest)
        | None => getLine_rounds fuel buf 128 (n + 128) rest
        end
      else OOB
    end
  end.
Definition getLine (n : Z) (input : text) : res (option text * Z * text) :=
  getLine_rounds (S (length input)) [] (n - 1) n input.

(* file_reader.h: name, _file ([None] when closed), _lineno, _line_len *)
Record reader := mkR { r_name : text; r_file : option text; r_lineno : Z; r_len : Z }.
(* file_reader.cpp:42-45 *)
Definition new_reader (name : text) : reader := mkR name None 0 80.
(* file_reader.cpp:52-60 readLine *)
Definition reader_readLine (r : reader) : res (option text * reader) :=
  match r_file r with
  | None => Val (None, r)
  | Some input =>
    bind (getLine (r_len r) input) (fun '(l, n, rest) =>
      match l with
      | None => Val (None, mkR (r_name r) None (r_lineno r) n)
      | Some l => Val (Some l, mkR (r_name r) (Some rest) (r_lineno r + 1) n)
      end)
  end.

(* ------------------------------------------------------------ the stack of open files *)
(* the file system: the contents of a path, if it can be opened *)
Definition files := text -> option text.
(* file_sources.h _sources: the last opened first *)
Definition sources := list reader.
Definition SLASH : Z := 47.
(* std::string::find_last_of('/') and substr(0, pos + 1) *)
Fixpoint directory (name : text) : option text :=
  match name with
  | [] => None
  | c :: t => match directory t with
              | Some d => Some (c :: d)
              | None => if c =? SLASH then Some [c] else None
              end
  end.
Definition source_path (parent : option reader) (name : text) : text :=
  match parent with
  | None => name
  | Some r => match directory (r_name r) with
              | None => name
              | Some d => if peek name =? SLASH then name else d ++ name
              end
  end.
Definition MAX_INCLUDES : Z := 4.
(* file_sources.h:31-49 open; the name handed to fopen ends at its first NUL *)
Definition open (fs : files) (name : text) (s : sources) : err * sources :=
  if MAX_INCLUDES <=? Z.of_nat (length s) then (TOO_MANY_INCLUDE, s)
  else
    let path := source_path (hd_error s) name in
    match fs (until_nul path) with
    | Some content => (OK, mkR path (Some content) 0 80 :: s)
    | None => (NO_INCLUDE_FOUND, s)
    end.
(* asm_sources.h:34-43 readLine *)
Fixpoint readLine (s : sources) : res (option text * sources) :=
  match s with
  | [] => Val (None, [])
  | r :: s' =>
    bind (reader_readLine r) (fun '(l, r') =>
      match l with
      | Some l => Val (Some l, r' :: s')
      | None => readLine s'
      end)
  end.
(* asm_sources.h:46-52 nest *)
Definition nest (s : sources) : Z :=
  match s with
  | [] => 0
  | r :: _ => if r_lineno r =? 0 then Z.of_nat (length s) - 1 else Z.of_nat (length s)
  end.
(* asm_driver.cpp:151-152: while (sources.nest()) sources.closeCurrent() *)
Fixpoint close_all (s : sources) : sources :=
  match s with
  | [] => []
  | r :: s' => if nest s =? 0 then s else close_all s'
  end.
