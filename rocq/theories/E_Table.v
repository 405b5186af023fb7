(** The hypotheses of the theorems of Prop_Table.v are met by concrete cases. *)
From Coq Require Import String ZArith List Bool Lia.
From Verif Require Import M_Char M_Error M_Text M_Operators M_Table S_Table T_Tables P_Table P_TableData P_TableProps Prop_Table.
Import ListNotations.
Open Scope string_scope.
Open Scope list_scope.
Local Open Scope Z_scope.
Definition find_processor (l : string) : processor :=
  match find (fun p => String.eqb (pr_label p) l) processors with Some p => p | None => mkPr "" "" [] [] end.
Lemma find_processor_in : forall l, pr_label (find_processor l) <> "" -> In (find_processor l) processors.
Proof.
  intros l H. unfold find_processor in *. destruct (find _ processors) as [p|] eqn:E.
  - exact (proj1 (find_some _ _ E)).
  - contradiction H; reflexivity.
Qed.
Example z80_in : In (find_processor "z80 Z80") processors.
Proof. apply find_processor_in. vm_compute. discriminate. Qed.
(* "ld" in lower case, accepting one pair of operands only *)
Example z80_ld :
  searchName row_name (s2l "ld") (fun _ r => String.eqb (snd r) "E2(R_SP,M_IX)") (pages_of (find_processor "z80 Z80"))
  = Val (Miss OPERAND_NOT_ALLOWED).
Proof. vm_compute. reflexivity. Qed.
Example z80_ldir :
  searchName row_name (s2l "lDiR") (fun _ _ => true) (pages_of (find_processor "z80 Z80")) = Val (Hit 3 18).
Proof. vm_compute. reflexivity. Qed.
Example z80_unknown :
  searchName row_name (s2l "LDX") (fun _ _ => true) (pages_of (find_processor "z80 Z80")) = Val (Miss UNKNOWN_INSTRUCTION).
Proof. vm_compute. reflexivity. Qed.
Example af' : searchText row_name (s2l "af',1") r_z80_REG_ENTRIES = Val (Some 2%nat, s2l ",1").
Proof. vm_compute. reflexivity. Qed.
Example afx : searchText row_name (s2l "afx,1") r_z80_REG_ENTRIES = Val (None, s2l "afx,1").
Proof. vm_compute. reflexivity. Qed.
Example db : pseudoSearch row_name (s2l "DB") d_i8080_PSEUDOS = Val (Some 0%nat) /\ In d_i8080_PSEUDOS directive_tables.
Proof. split; [vm_compute; reflexivity|]. unfold directive_tables. do 5 right. left. reflexivity. Qed.
Example reg12 : parseRegNumber (s2l "12,3") = Some (12, s2l ",3") /\ parseRegNumber (s2l "012") = None /\ parseRegNumber (s2l "12a") = None.
Proof. repeat split; reflexivity. Qed.
(* a tiny table meets the hypotheses of the general theorem, an unordered index does not find *)
Example small : indexedSearch (fun a => strcasecmp (s2l "b") (s2l a)) (fun _ => true) ["C"; "A"; "B"] [1; 2; 0] = Val (Found 2).
Proof. vm_compute. reflexivity. Qed.
Example misplaced : indexedSearch (fun a => strcasecmp (s2l "c") (s2l a)) (fun _ => true) ["C"; "A"; "B"] [0; 1; 2] = Val NotFound.
Proof. vm_compute. reflexivity. Qed.
