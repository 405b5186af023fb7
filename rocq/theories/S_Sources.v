(** What reading source files means. *)
From Coq Require Import ZArith List Bool.
From Verif Require Import M_Char M_Text M_Sources.
Import ListNotations.
Local Open Scope Z_scope.

(* a line of text: no line feed and no NUL in it *)
Definition text_line (l : text) : Prop := Forall (fun c => c <> 10 /\ c <> 0) l.
(* a file made of lines, each ended by a line feed, and possibly a last line that is not *)
Definition file_of (ls : list text) (tail : text) : text := flat_map (fun l => l ++ [10]) ls ++ tail.
Definition file_lines (content : text) (ls : list text) (tail : text) : Prop :=
  content = file_of ls tail /\ Forall text_line ls /\ text_line tail.
(* a file of a size the host can hold in its buffer (just under 1 GiB) *)
Definition readable (content : text) : Prop := Z.of_nat (length content) < 2^30 - 100.
(* every file of the system is a readable text *)
Definition text_files (fs : files) : Prop := forall p c, fs p = Some c -> readable c /\ ~ In 0 c.
(* where a name given in the file [path] leads: names that do not start with a slash are taken from
   the directory of [path] *)
Inductive leads : text -> text -> text -> Prop :=
| L_plain path name : ~ In 47 path -> leads path name name
| L_absolute path rest : leads path (47 :: rest) (47 :: rest)
| L_relative dir base name : ~ In 47 base -> (forall rest, name <> 47 :: rest) ->
    leads (dir ++ 47 :: base) name (dir ++ 47 :: name).
(* what becomes of a line that was read: it names no file, or it names a file and that is refused,
   or included *)
Inductive fate := Plain | Refused (name : text) | Included (name : text).
Definition event := (text * fate)%type.
(* the order in which lines are read: [expands fs d path ls ev]: the lines [ls] of the file
   [path], with [d] files open, are read as [ev] *)
Inductive expands (fs : files) : nat -> text -> list text -> list event -> Prop :=
| E_end d path : expands fs d path [] []
| E_plain d path l ls ev : expands fs d path ls ev -> expands fs d path (l :: ls) ((l, Plain) :: ev)
| E_refused d path l ls name p ev : leads path name p -> (4 <= d)%nat \/ fs p = None ->
    expands fs d path ls ev -> expands fs d path (l :: ls) ((l, Refused name) :: ev)
| E_include d path l ls name p content ls' tail ev1 ev2 : (d < 4)%nat -> leads path name p ->
    fs p = Some content -> file_lines content ls' tail ->
    expands fs (S d) p ls' ev1 -> expands fs d path ls ev2 ->
    expands fs d path (l :: ls) ((l, Included name) :: ev1 ++ ev2).
(* reading all lines that are left *)
Inductive reads_all : sources -> list text -> Prop :=
| RA_end s s' : readLine s = M_Operators.Val (None, s') -> reads_all s []
| RA_line s s' l ls : readLine s = M_Operators.Val (Some l, s') -> reads_all s' ls -> reads_all s (l :: ls).
