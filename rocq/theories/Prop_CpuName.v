(** C82: the names of processors. *)
From Coq Require Import String ZArith List Bool Lia.
From Verif Require Import M_Char M_Text M_CpuName S_Table S_CpuName P_Table P_CpuName.
From Verif Require M_AsmI8080 M_AsmMc6800 M_DisDriver M_DisI8080 M_DisCpus M_I8080Defs M_Mc6800Defs M_Mos6502Defs M_Cdp1802Defs M_I8048Defs M_Tms32010Defs.
Import ListNotations.
Open Scope string_scope.
Open Scope list_scope.
Local Open Scope Z_scope.

(* Whatever text is given for the processor: the programs choose a processor exactly when the text is one
   of its names, in any letter case - so no name is taken by two families, and nothing else is taken. *)
Theorem C82_names : forall w fam ty, choose commander w = Some (fam, ty) <-> named w fam ty.
Proof. exact chosen. Qed.
Print Assumptions C82_names.

(* Every processor has a name that is printed for it, and this name, in any letter case, chooses it
   again. *)
Theorem C82_printed :
  (forall fam ty names, In (fam, ty, names) processors ->
     exists t n, In t commander /\ ct_name t = fam /\ cpu_name ty (ct_cpus t) = Some n) /\
  (forall t ty n w, In t commander -> cpu_name ty (ct_cpus t) = Some n -> same_name w (s2l n) -> choose commander w = Some (ct_name t, ty)).
Proof.
  split.
  - assert (A : forallb (fun e : string * string * list string => let '(fam, ty, _) := e in
      existsb (fun t => String.eqb (ct_name t) fam && match cpu_name ty (ct_cpus t) with Some _ => true | None => false end) commander) processors = true) by (vm_compute; reflexivity).
    rewrite forallb_forall in A. intros fam ty names I. specialize (A _ I). cbv beta iota in A. apply existsb_exists in A. destruct A as (t & J & A).
    apply andb_true_iff in A. destruct A as [F A]. apply String.eqb_eq in F. destruct (cpu_name ty (ct_cpus t)) as [n|] eqn:E; [|discriminate].
    exists t, n. auto.
  - assert (A : forallb (fun t => forallb (fun e : string * string => match cpu_name (fst e) (ct_cpus t) with
      | Some n => match choose commander (s2l n) with Some (f, u) => String.eqb f (ct_name t) && String.eqb u (fst e) | None => false end
      | None => false end) (ct_cpus t)) commander = true) by (vm_compute; reflexivity).
    intros t ty n w I E S. apply same_low in S. rewrite (choose_low _ _ S). rewrite forallb_forall in A. specialize (A _ I). rewrite forallb_forall in A.
    assert (J : exists m, In (ty, m) (ct_cpus t)).
    { revert E. generalize (ct_cpus t). induction l as [|[u m] l IH]; cbn [cpu_name]; [discriminate|]. destruct (String.eqb_spec ty u) as [->|].
      - intros _. exists m. now left.
      - intros X. destruct (IH X) as (k & K). exists k. now right. }
    destruct J as (m & J). specialize (A _ J). cbn [fst] in A. rewrite E in A. destruct (choose commander (s2l n)) as [[f u]|]; [|discriminate].
    apply andb_true_iff in A. destruct A as [F U]. apply String.eqb_eq in F, U. now subst.
Qed.
Print Assumptions C82_printed.

(* The list of the help: every name on it is the name of a processor, every processor is on it, no
   name twice. *)
Theorem C82_listed :
  (forall n, In n (list_cpu commander []) -> exists fam ty, named n fam ty) /\
  (forall fam ty names, In (fam, ty, names) processors -> exists n, In n (list_cpu commander []) /\ named n fam ty) /\
  NoDup (list_cpu commander []).
Proof.
  split; [|split].
  - apply all_named. vm_compute. reflexivity.
  - apply all_listed. vm_compute. reflexivity.
  - apply nodupb_nodup. vm_compute. reflexivity.
Qed.
Print Assumptions C82_listed.

(* what the disassemblers of the model print on the first line, for the processors they have *)
Definition first_lines : list (string * (Z -> text) * list (Z * string)) := [
  ("i8080", M_DisI8080.i8080_cpu_name, [(M_I8080Defs.I8080, "I8080"); (M_I8080Defs.I8085, "I8085"); (M_I8080Defs.V30EMU, "V30EMU")]);
  ("mc6800", M_DisCpus.mc6800_cpu_name, [(M_Mc6800Defs.MC6800, "MC6800"); (M_Mc6800Defs.MB8861, "MB8861"); (M_Mc6800Defs.MC6801, "MC6801");
     (M_Mc6800Defs.HD6301, "HD6301"); (M_Mc6800Defs.MC68HC11, "MC68HC11")]);
  ("mos6502", M_DisCpus.mos6502_cpu_name, [(M_Mos6502Defs.MOS6502, "MOS6502"); (M_Mos6502Defs.G65SC02, "G65SC02"); (M_Mos6502Defs.R65C02, "R65C02");
     (M_Mos6502Defs.W65C02S, "W65C02S"); (M_Mos6502Defs.W65C816, "W65C816")]);
  ("cdp1802", M_DisCpus.cdp1802_cpu_name, [(M_Cdp1802Defs.CDP1802, "CDP1802"); (M_Cdp1802Defs.CDP1804, "CDP1804"); (M_Cdp1802Defs.CDP1804A, "CDP1804A")]);
  ("i8048", M_DisCpus.i8048_cpu_name, [(M_I8048Defs.I8039, "I8039"); (M_I8048Defs.I80C39, "I80C39"); (M_I8048Defs.MSM80C39, "MSM80C39");
     (M_I8048Defs.I8048, "I8048"); (M_I8048Defs.I80C48, "I80C48"); (M_I8048Defs.MSM80C48, "MSM80C48")])].
Theorem C82_disassembly : forall fam printed types n ty w, In (fam, printed, types) first_lines -> In (n, ty) types -> same_name w (printed n) ->
  choose commander w = Some (fam, ty).
Proof.
  assert (A : forallb (fun e : string * (Z -> text) * list (Z * string) => let '(fam, printed, types) := e in forallb (fun x : Z * string =>
    match choose commander (printed (fst x)) with Some (f, t) => String.eqb f fam && String.eqb t (snd x) | None => false end) types) first_lines = true) by (vm_compute; reflexivity).
  rewrite forallb_forall in A. intros fam printed types n ty w I J S. specialize (A _ I). cbv beta iota in A. rewrite forallb_forall in A. specialize (A _ J). cbn [fst snd] in A.
  apply same_low in S. rewrite (choose_low _ _ S). destruct (choose commander (printed n)) as [[f t]|]; [|discriminate].
  apply andb_true_iff in A. destruct A as [F T]. apply String.eqb_eq in F, T. now subst.
Qed.
Print Assumptions C82_disassembly.

(* the assemblers of the driver's model (C53) choose as this model does *)
Definition number (l : list (Z * string)) (ty : string) : option Z :=
  option_map fst (find (fun e => String.eqb (snd e) ty) l).
Definition numbers (fam : string) (w : text) (t : cputab) : option Z :=
  match ct_search t w, find (fun e : string * (Z -> text) * list (Z * string) => String.eqb (fst (fst e)) fam) first_lines with
  | Some ty, Some e => number (snd e) ty
  | _, _ => None
  end.
Theorem C82_same_as_driver : forall w, M_AsmI8080.cpu_8080 w = numbers "i8080" w ct_i8080 /\ M_AsmMc6800.cpu_6800 w = numbers "mc6800" w ct_mc6800.
Proof.
  intros w. split; unfold numbers, M_AsmI8080.cpu_8080, M_AsmMc6800.cpu_6800, ct_i8080, ct_mc6800, past; cbn [ct_search]; cbv zeta;
    unfold cpus_i8080, cpus_mc6800, is; cbn [cpu_search];
    repeat match goal with |- context [iequals ?a ?b] => destruct (iequals a b); cbn [or_else]; [reflexivity|] end; reflexivity.
Qed.
Print Assumptions C82_same_as_driver.

Example C82_case :
  choose commander (s2l "w65c816s") = Some ("mos6502", "W65C816") /\ choose commander (s2l "Mc68hc11") = Some ("mc6800", "MC68HC11") /\
  choose commander (s2l "Z8601") = Some ("z8", "Z8") /\ choose commander (s2l "z86c21") = Some ("z8", "Z86C") /\ choose commander (s2l "Z8001") = Some ("z8000", "Z8001") /\
  choose commander (s2l "6803") = None /\ choose commander [] = None /\
  named (s2l "z86c21") "z8" "Z86C" /\ named (s2l "sc/mp") "ins8060" "INS8060" /\ ~ named (s2l "8086") "i8080" "I8080" /\
  length (list_cpu commander []) = 61%nat /\ In (s2l "V30EMU") (list_cpu commander []).
Proof.
  repeat (split; [vm_compute; reflexivity|]). split; [apply chosen; vm_compute; reflexivity|]. split; [apply chosen; vm_compute; reflexivity|].
  split; [intros X; apply chosen in X; vm_compute in X; discriminate|]. split; vm_compute; auto 70.
Qed.
