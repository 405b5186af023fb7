(** C35-C39: searching the instruction, register and directive tables. *)
From Coq Require Import String ZArith List Bool.
From Verif Require Import M_Char M_Error M_Text M_Operators M_Table S_Table T_Tables P_Table P_TableData P_TableProps.
Import ListNotations.
Open Scope string_scope.
Open Scope list_scope.
Local Open Scope Z_scope.

(** C35: for every paged instruction table whose indexes are in order, every name and every choice
    of acceptable entries, the name search gives the first acceptable entry of the first page which
    has one; without one it tells whether the name occurs at all. *)
Theorem C35_instruction_by_name : forall I A (nm : A -> text) (alike : A -> A -> Prop) s accept (pages : list (page I A)),
  cstring s ->
  (forall p, In p pages ->
     (forall a, In a (p_items p) -> cstring (nm a)) /\ indexes nm alike (p_items p) (p_index p)) ->
  (forall p a b, alike a b -> accept p a = accept p b) ->
  match searchName nm s accept pages with
  | Val (Hit n i) => exists p, nth_error pages n = Some p /\
      first_acceptable nm s (accept p) (p_items p) i /\
      forall m q, (m < n)%nat -> nth_error pages m = Some q -> none_acceptable nm s (accept q) (p_items q)
  | Val (Miss e) =>
      (forall p, In p pages -> none_acceptable nm s (accept p) (p_items p)) /\
      ((e = OPERAND_NOT_ALLOWED /\ exists p, In p pages /\ occurs nm s (p_items p)) \/
       (e = UNKNOWN_INSTRUCTION /\ forall p, In p pages -> ~ occurs nm s (p_items p)))
  | _ => False
  end.
Proof.
  intros I A nm alike s accept pages Hs HP HA.
  pose proof (searchName_spec I A nm alike s accept pages Hs HP HA 0 false) as H.
  unfold searchName. destruct (searchName_from nm s accept pages 0 false) as [[n i|e]| | | |]; try exact H.
  - destruct H as (q & p & E & H). cbn in E. subst q. exists p. exact H.
  - destruct H as [H1 [[H2 [H3|H3]]|(H2 & _ & H3)]]; [discriminate| |]; (split; [exact H1|]); [left|right]; auto.
Qed.
Print Assumptions C35_instruction_by_name.

(** C35: the opcode search gives the first matching entry of the first matching page. *)
Theorem C35_instruction_by_opcode : forall I A (pm : page I A -> bool) (mc : page I A -> A -> bool) pages,
  match searchOpCode pm mc pages with
  | Hit n i => exists p a, nth_error pages n = Some p /\ pm p = true /\
      nth_error (p_items p) i = Some a /\ mc p a = true /\
      (forall j b, (j < i)%nat -> nth_error (p_items p) j = Some b -> mc p b = false) /\
      (forall m q b, (m < n)%nat -> nth_error pages m = Some q -> pm q = true -> In b (p_items q) -> mc q b = false)
  | Miss e => e = UNKNOWN_INSTRUCTION /\
      forall p a, In p pages -> pm p = true -> In a (p_items p) -> mc p a = false
  end.
Proof.
  intros I A pm mc pages. pose proof (searchOpCode_spec I A pm mc pages 0) as H.
  unfold searchOpCode. destruct (searchOpCode_from pm mc pages 0) as [n i|e]; [|exact H].
  destruct H as (q & p & a & E & H). cbn in E. subst q. exists p, a. exact H.
Qed.
Print Assumptions C35_instruction_by_opcode.

(** C35: a byte is a prefix exactly when it is the non-zero prefix of a page. *)
Theorem C35_prefix : forall A (pages : list (page Z A)) code,
  isPrefix pages code = true <-> code <> 0 /\ exists p, In p pages /\ p_info p = code.
Proof. exact isPrefix_spec. Qed.
Print Assumptions C35_prefix.

(** C35: in every ordered register or condition table the search by text finds the entry whose name
    is the longest leading run of name letters, and moves behind it; otherwise nothing moves. *)
Theorem C35_register : forall A (nm : A -> text) p s items,
  cstring s -> (forall a, In a items -> cstring (nm a)) -> in_order nm items ->
  match searchSymbol nm p s items with
  | Val (Some k, rest) => exists sym, s = sym ++ rest /\ sym <> [] /\ forallb p sym = true /\
      (rest = [] \/ exists c t, rest = c :: t /\ p c = false) /\
      first_acceptable nm sym (fun _ => true) items k
  | Val (None, rest) => rest = s /\
      forall sym r, s = sym ++ r -> sym <> [] -> forallb p sym = true ->
        (r = [] \/ exists c t, r = c :: t /\ p c = false) -> ~ occurs nm sym items
  | _ => False
  end.
Proof. exact searchSymbol_spec. Qed.
Print Assumptions C35_register.

(** C35: in every ordered directive table the search finds the first entry of the name. *)
Theorem C35_directive : forall A (nm : A -> text) s items,
  cstring s -> (forall a, In a items -> cstring (nm a)) -> in_order nm items ->
  match pseudoSearch nm s items with
  | Val (Some k) => first_acceptable nm s (fun _ => true) items k
  | Val None => ~ occurs nm s items
  | _ => False
  end.
Proof. exact pseudoSearch_spec. Qed.
Print Assumptions C35_directive.

(** C36: every instruction of every supported processor: whatever spelling of its mnemonic is
    written, and however operands are accepted (as long as that depends on the operands listed in
    the table), an acceptable instruction of that mnemonic is found. *)
Theorem C36_every_mnemonic : forall p t r s accept,
  In p processors -> In t (pr_tables p) -> In r (it_items t) ->
  same_name s (row_name r) ->
  (forall pg a b, snd a = snd b -> accept pg a = accept pg b) ->
  accept (page_of t) r = true ->
  exists n i u e, searchName row_name s accept (pages_of p) = Val (Hit n i) /\
    nth_error (pr_tables p) n = Some u /\ nth_error (it_items u) i = Some e /\
    same_name s (row_name e) /\ accept (page_of u) e = true.
Proof. exact every_mnemonic. Qed.
Print Assumptions C36_every_mnemonic.

(** C36: what is found is the first acceptable one, in table order. *)
Theorem C36_first_in_table : forall p s accept, In p processors -> cstring s ->
  (forall pg a b, snd a = snd b -> accept pg a = accept pg b) ->
  match searchName row_name s accept (pages_of p) with
  | Val (Hit n i) => exists t, nth_error (pr_tables p) n = Some t /\
      first_acceptable row_name s (accept (page_of t)) (it_items t) i /\
      forall m u, (m < n)%nat -> nth_error (pr_tables p) m = Some u ->
        none_acceptable row_name s (accept (page_of u)) (it_items u)
  | Val (Miss e) =>
      (forall t, In t (pr_tables p) -> none_acceptable row_name s (accept (page_of t)) (it_items t)) /\
      ((e = OPERAND_NOT_ALLOWED /\ exists t, In t (pr_tables p) /\ occurs row_name s (it_items t)) \/
       (e = UNKNOWN_INSTRUCTION /\ forall t, In t (pr_tables p) -> ~ occurs row_name s (it_items t)))
  | _ => False
  end.
Proof. exact processor_search. Qed.
Print Assumptions C36_first_in_table.

(** C36: every register and condition name of every table is found, in any spelling, whatever
    follows it, and the scanner stops behind it. *)
Theorem C36_every_register : forall tbl k r s rest,
  In tbl register_tables -> nth_error tbl k = Some r ->
  same_name s (row_name r) -> cstring rest -> isNameLetter (peek rest) = false ->
  searchText row_name (s ++ rest) tbl = Val (Some k, rest).
Proof. exact every_register. Qed.
Print Assumptions C36_every_register.

(** C36: every directive of every table is found, in any spelling. *)
Theorem C36_every_directive : forall tbl k r s,
  In tbl directive_tables -> nth_error tbl k = Some r ->
  same_name s (row_name r) -> pseudoSearch row_name s tbl = Val (Some k).
Proof. exact every_directive. Qed.
Print Assumptions C36_every_directive.

(** C37: a mnemonic is known to a processor exactly when it equals one of its table up to case. *)
Theorem C37_mnemonic : forall p s, In p processors -> cstring s ->
  ((exists n i, searchName row_name s (fun _ _ => true) (pages_of p) = Val (Hit n i)) <->
   exists t r, In t (pr_tables p) /\ In r (it_items t) /\ same_name s (row_name r)).
Proof. exact known_iff. Qed.
Print Assumptions C37_mnemonic.

(** C37: a register is read exactly when the whole run of name letters is one of the table, up to case. *)
Theorem C37_register : forall tbl s, In tbl register_tables -> cstring s ->
  match searchText row_name s tbl with
  | Val (Some k, rest) => exists sym r, s = sym ++ rest /\ forallb isNameLetter sym = true /\
      isNameLetter (peek rest) = false /\ nth_error tbl k = Some r /\ same_name sym (row_name r)
  | Val (None, rest) => rest = s /\
      forall sym r t, s = sym ++ t -> isNameLetter (peek t) = false -> In r tbl -> ~ same_name sym (row_name r)
  | _ => False
  end.
Proof. exact register_search. Qed.
Print Assumptions C37_register.

(** C37: a processor is selected by its name exactly up to case. *)
Theorem C37_processor : forall C (nm : C -> text) s cpus,
  match cpu_by_name nm s cpus with
  | Some k => first_acceptable nm s (fun _ => true) cpus k
  | None => ~ occurs nm s cpus
  end.
Proof. exact cpu_by_name_spec. Qed.
Print Assumptions C37_processor.

(** C38: a register number is a decimal number up to 9999 without superfluous zeros, which no
    letter, digit or underscore follows. *)
Theorem C38_register_number_partial : forall s v r,
  (forall z t, s = repeat 48 z ++ t -> (z < 128)%nat) ->
  parseRegNumber s = Some (v, r) <->
  exists ds, s = ds ++ r /\ canonical ds /\ decimal 0 ds = v /\ v <= 9999 /\ ~ word_letter (peek r).
Proof. exact parseRegNumber_spec. Qed.
Print Assumptions C38_register_number_partial.

(** C38: 130 zeros before the number are accepted (the counter of zeros is an 8-bit integer). *)
Theorem C38_register_number_refuted : exists s v,
  parseRegNumber s = Some (v, []) /\ ~ canonical s.
Proof. exists (repeat 48 130 ++ [53]), 5. exact parseRegNumber_zeros. Qed.
Print Assumptions C38_register_number_refuted.

(** C39: a name which a directive table of a processor's assembler knows is no mnemonic of that
    processor: no directive hides an instruction. *)
Theorem C39_directives_hide_nothing : forall p d s k accept,
  In p processors -> In d (pr_directives p) -> cstring s ->
  pseudoSearch row_name s d = Val (Some k) ->
  (forall pg a b, snd a = snd b -> accept pg a = accept pg b) ->
  searchName row_name s accept (pages_of p) = Val (Miss UNKNOWN_INSTRUCTION).
Proof. exact no_hiding. Qed.
Print Assumptions C39_directives_hide_nothing.
