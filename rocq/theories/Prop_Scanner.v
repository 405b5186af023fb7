(** C29: scanning stays within its text; the scanner of the code is the text of the other models. *)
From Coq Require Import ZArith String List Bool.
From Verif Require Import M_Char M_Operators M_Text M_Scanner S_Scanner P_Scanner.
Import ListNotations.
Open Scope list_scope.
Local Open Scope Z_scope.

(* A scanner in any part of an array, under any sequence of operations that take one character at a
   time and do not go back, reads nothing outside the array and only ever shrinks. *)
Theorem C29_scanning_by_characters_partial : forall buf lo hi os s,
  0 <= lo -> hi <= Z.of_nat (length buf) -> inside lo hi s -> Forall by_character os ->
  exists s', apply_all buf os s = Val s' /\ inside (sc_str s) (sc_end s) s'.
Proof. intros buf lo hi os s L H I F. exact (C29_char buf lo hi os L H F s I). Qed.
Print Assumptions C29_scanning_by_characters_partial.

(* A scanner made from a C string, under any sequence of operations that leave its end alone and do
   not go back, whole words included, reads nothing outside the string and its terminator. *)
Theorem C29_scanning_a_line_partial : forall buf os, c_string buf -> Forall keeps_end os ->
  exists s', apply_all buf os (sc_new buf) = Val s' /\ inside 0 (Z.of_nat (length buf)) s' /\ sc_end s' = Z.of_nat (length buf).
Proof.
  intros buf os C F. assert (sc_end (sc_new buf) = Z.of_nat (length buf)) as E by exact (strlen_c buf C).
  destruct (C29_end buf os C F (sc_new buf)) as (s' & A & (X & Y) & Z0).
  - change (sc_str (sc_new buf)) with 0. rewrite E. split; [apply Z.le_refl|apply Nat2Z.is_nonneg].
  - exact E.
  - exists s'. split; [exact A|]. rewrite E in Z0. split; [|exact Z0]. split; [exact X|]. split; [exact Y|]. rewrite Z0. apply Z.le_refl.
Qed.
Print Assumptions C29_scanning_a_line_partial.
Example C29_case :
  c_string (s2l " On, 12 ;") /\ Forall keeps_end [TrimStart is_space; Word (s2l "on"); Expect (fun c => c =? 44); Continuation is_space; Advance 100] /\
  apply_all (s2l " On, 12 ;") [TrimStart is_space; Word (s2l "on"); Expect (fun c => c =? 44); Continuation is_space; Advance 1] (sc_new (s2l " On, 12 ;")) = Val (mkSc 6 9).
Proof.
  assert (c_string (s2l " On, 12 ;")) as C by (unfold c_string; cbn; intuition discriminate).
  split; [exact C|]. split; [|vm_compute; reflexivity]. repeat constructor; try discriminate; unfold keeps_end, c_string; cbn; intuition discriminate.
Qed.

(* Going back is not stopped at the start: the scanner leaves the array and its next character is
   read outside it. *)
Theorem C29_backwards_refuted : exists buf s, c_string buf /\
  apply_all buf [Advance (-1)] (sc_new buf) = Val s /\ ~ inside 0 (Z.of_nat (length buf)) s /\ sc_at buf s 0 = OOB.
Proof.
  exists (s2l "AB"), (mkSc (-1) 2). split; [unfold c_string; cbn; intuition discriminate|]. split; [reflexivity|]. split; [|reflexivity].
  intros (A & _). apply A. reflexivity.
Qed.
Print Assumptions C29_backwards_refuted.

(* Comparing with a text does not look at the end: a scanner whose end has been moved (here: the
   letters of ONE before the E) accepts the text ONE and then stands past its own end, with the size
   2^64-1; and a scanner that shows the text ON refuses the word ON. *)
Theorem C29_text_past_end_refuted : exists buf s s', c_string buf /\
  apply_all buf [Taken (fun c => negb (c =? 69))] (sc_new buf) = Val s /\ view buf s = s2l "ON" /\
  sc_iexpectText buf (s2l "ONE") s = Val (true, s') /\ ~ inside 0 (sc_end s) s' /\ sc_size s' = 2 ^ 64 - 1 /\
  sc_iexpectWord buf (s2l "ON") s = Val (false, s).
Proof.
  exists (s2l "ONE"), (mkSc 0 2), (mkSc 3 2). split; [unfold c_string; cbn; intuition discriminate|].
  split; [reflexivity|]. split; [reflexivity|]. split; [reflexivity|]. split; [intros (_ & A & _); now apply A|]. split; reflexivity.
Qed.
Print Assumptions C29_text_past_end_refuted.

(* Every operation does to the text a scanner shows what the text level of the model (M_Text, used
   by all other models) says: for any part of an array for the operations by character, for scanners
   that end where the C string ends for comparisons with texts. *)
Theorem C29_scanner_shows_text : forall buf s, inside 0 (Z.of_nat (length buf)) s ->
  (forall p, exists s', sc_trimStart buf p s = Val s' /\ view buf s' = trimStart p (view buf s)) /\
  (forall p, exists s', sc_trimEnd buf p s = Val s' /\ view buf s' = rev (trimStart p (rev (view buf s)))) /\
  (forall p, exists s1 s2, sc_takeWhile buf p s = Val (s1, s2) /\ takeWhile p (view buf s) = (view buf s1, view buf s2)) /\
  (forall p, match M_Char.expect p (view buf s) with
             | Some (c, t) => exists s', sc_expect buf p s = Val (c, s') /\ view buf s' = t
             | None => sc_expect buf p s = Val (0, s)
             end) /\
  (forall k, 0 <= k -> sc_at buf s k = Val (peek_at (Z.to_nat k) (view buf s))) /\
  (forall k, 0 <= k -> view buf (sc_advance s k) = skipn (Z.to_nat k) (view buf s)).
Proof.
  intros buf s I. split; [intros p; exact (proj1 (C29_trim buf p s I))|]. split; [intros p; exact (proj1 (proj2 (C29_trim buf p s I)))|].
  split; [intros p; exact (proj2 (proj2 (C29_trim buf p s I)))|]. split; [intros p; exact (C29_expect buf p s I)|].
  split; [intros k K; exact (C29_at buf s k I K)|]. intros k K; exact (C29_advance buf s k I K).
Qed.
Print Assumptions C29_scanner_shows_text.
Theorem C29_scanner_compares_text : forall buf s w, c_string buf -> c_string w -> inside 0 (Z.of_nat (length buf)) s ->
  sc_end s = Z.of_nat (length buf) ->
  match iexpectText w (view buf s) with
  | Some t => exists s', sc_iexpectText buf w s = Val (true, s') /\ view buf s' = t
  | None => sc_iexpectText buf w s = Val (false, s)
  end /\
  match iexpectWord w (view buf s) with
  | Some t => exists s', sc_iexpectWord buf w s = Val (true, s') /\ view buf s' = t
  | None => sc_iexpectWord buf w s = Val (false, s)
  end.
Proof. intros buf s w C CW I E. exact (C29_text buf w s C CW I E). Qed.
Print Assumptions C29_scanner_compares_text.
Theorem C29_scanners_compare : forall buf buf' s s', c_string buf -> inside 0 (Z.of_nat (length buf)) s -> inside 0 (Z.of_nat (length buf')) s' ->
  Z.of_nat (length buf) < 2 ^ 64 -> Z.of_nat (length buf') < 2 ^ 64 ->
  sc_iequals buf buf' s s' = Val (iequals (view buf s) (view buf' s')).
Proof. exact C29_iequals. Qed.
Print Assumptions C29_scanners_compare.
Example C29_text_case : inside 0 (Z.of_nat (length (s2l "XY 12"))) (mkSc 1 4) /\ view (s2l "XY 12") (mkSc 1 4) = s2l "Y 1".
Proof. split; [repeat split; discriminate|reflexivity]. Qed.
