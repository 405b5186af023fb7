(** Reading source files. *)
From Coq Require Import ZArith List Bool Lia ZifyBool.
From Verif Require Import M_Char M_Error M_Text M_Config M_Operators M_Sources S_Sources.
Import ListNotations.
Local Open Scope Z_scope.

Definition len (t : text) : Z := Z.of_nat (length t).
Lemma letters_line l rest room : text_line l -> fgets_letters room (l ++ 10 :: rest) =
  if Nat.ltb (length l) room then (l ++ [10], rest) else (firstn room l, skipn room l ++ 10 :: rest).
Proof.
  revert room. induction l as [|c l IH]; intros room T; destruct room as [|room]; try reflexivity.
  inversion T as [|? ? (N & _) T']; subst. cbn [app fgets_letters length]. rewrite (proj2 (Z.eqb_neq _ _) N), IH by exact T'.
  change (Nat.ltb (S (length l)) (S room)) with (Nat.ltb (length l) room). destruct (Nat.ltb (length l) room); reflexivity.
Qed.
Lemma letters_tail l room : text_line l -> fgets_letters room l = (firstn room l, skipn room l).
Proof.
  revert room. induction l as [|c l IH]; intros room T; destruct room as [|room]; try reflexivity.
  inversion T as [|? ? (N & _) T']; subst. cbn [fgets_letters firstn skipn]. now rewrite (proj2 (Z.eqb_neq _ _) N), IH.
Qed.
Lemma until_nul_text l : Forall (fun c => c <> 0) l -> until_nul l = l.
Proof. induction 1 as [|c l N F IH]; [reflexivity|]. cbn. rewrite (proj2 (Z.eqb_neq _ _) N). now f_equal. Qed.
Lemma text_no_nul l : text_line l -> Forall (fun c => c <> 0) l.
Proof. apply Forall_impl. tauto. Qed.
Lemma last_app {A} (l : list A) x d : last (l ++ [x]) d = x.
Proof. induction l as [|y l IH]; [reflexivity|]. destruct l; [reflexivity|exact IH]. Qed.
Lemma chomp_line l : chomp (l ++ [10]) = Some l.
Proof.
  unfold chomp. rewrite last_app, app_length, removelast_last. cbn [length].
  replace (0 <? Z.of_nat (length l + 1)) with true by lia. reflexivity.
Qed.
Lemma chomp_text l : text_line l -> chomp l = None.
Proof.
  intros T. unfold chomp. destruct l as [|c l]; [reflexivity|]. destruct (Z.eqb_spec (last (c :: l) 0) 10) as [E|]; [|now rewrite andb_false_r].
  exfalso. assert (I : In (last (c :: l) 0) (c :: l)).
  { clear. revert c. induction l as [|d l IH]; intros c; [now left|]. right. apply IH. }
  unfold text_line in T. rewrite Forall_forall in T. destruct (T _ I). congruence.
Qed.
Lemma forall_firstn {A} (P : A -> Prop) n l : Forall P l -> Forall P (firstn n l).
Proof. intros F. rewrite <- (firstn_skipn n l) in F. now apply Forall_app in F. Qed.
Lemma forall_skipn {A} (P : A -> Prop) n l : Forall P l -> Forall P (skipn n l).
Proof. intros F. rewrite <- (firstn_skipn n l) in F. now apply Forall_app in F. Qed.
Lemma s32_id z : 0 <= z < 2^31 -> s32 z = z.
Proof. intros H. unfold s32, u32. rewrite Z.mod_small by lia. cbv zeta. replace (z <? 2^31) with true by lia. reflexivity. Qed.

(* one line *)
Lemma rounds_line rest : forall fuel acc max n l, text_line acc -> text_line l -> (length l < fuel)%nat ->
  2 <= max < 2^31 -> len acc + max <= n -> 
  exists n', getLine_rounds fuel acc max n (l ++ 10 :: rest) = Val (Some (acc ++ l), n', rest) /\ n <= n' /\
    (len l + 2 <= max -> n' = n) /\ (max < len l + 2 -> n' <= n + 128 + 2 * (len l + 2 - max)).
Proof.
  induction fuel as [|fuel IH]; intros acc max n l TA TL F M R; [lia|]. unfold len in *.
  cbn [getLine_rounds]. unfold fgets. rewrite s32_id by lia. replace (max <=? 0) with false by lia. replace (max =? 1) with false by lia.
  replace (match l ++ 10 :: rest with [] => None | _ :: _ => Some (fgets_letters (Z.to_nat (max - 1)) (l ++ 10 :: rest)) end)
    with (Some (fgets_letters (Z.to_nat (max - 1)) (l ++ 10 :: rest))) by (destruct l; reflexivity).
  rewrite letters_line by exact TL. destruct (Nat.ltb_spec (length l) (Z.to_nat (max - 1))) as [L|L].
  - rewrite app_length. cbn [length]. replace (Z.of_nat (length acc) + Z.of_nat (length l + 1) + 1 <=? n) with true by lia.
    rewrite until_nul_text.
    2:{ repeat (apply Forall_app; split); try (now apply text_no_nul). constructor; [discriminate|constructor]. }
    rewrite app_assoc, chomp_line. exists n. repeat split; lia.
  - rewrite firstn_length_le by lia.
    replace (Z.of_nat (length acc) + Z.of_nat (Z.to_nat (max - 1)) + 1 <=? n) with true by lia.
    assert (T1 : text_line (acc ++ firstn (Z.to_nat (max - 1)) l)) by (apply Forall_app; split; [exact TA|now apply forall_firstn]).
    rewrite until_nul_text by now apply text_no_nul. rewrite chomp_text by exact T1.
    pose proof (skipn_length (Z.to_nat (max - 1)) l) as SL.
    assert (AL : length (acc ++ firstn (Z.to_nat (max - 1)) l) = (length acc + Z.to_nat (max - 1))%nat) by (rewrite app_length, firstn_length_le by lia; reflexivity).
    destruct (IH (acc ++ firstn (Z.to_nat (max - 1)) l) 128 (n + 128) (skipn (Z.to_nat (max - 1)) l)) as (n' & E & G1 & G2 & G3);
      [exact T1|now apply forall_skipn|lia|lia|rewrite AL; lia|].
    exists n'. rewrite E, <- app_assoc, firstn_skipn. split; [reflexivity|].
    split; [lia|]. split; [lia|]. intros _. destruct (Z_le_gt_dec (Z.of_nat (length (skipn (Z.to_nat (max - 1)) l)) + 2) 128) as [C|C].
    + rewrite G2 by lia. lia.
    + specialize (G3 ltac:(lia)). lia.
Qed.
(* the end of the file *)
Lemma rounds_tail : forall fuel acc max n l, text_line acc -> text_line l -> (length l < fuel)%nat ->
  2 <= max < 2^31 -> len acc + max <= n ->
  exists n', getLine_rounds fuel acc max n l = Val (None, n', []).
Proof.
  induction fuel as [|fuel IH]; intros acc max n l TA TL F M R; [lia|]. unfold len in *.
  cbn [getLine_rounds]. unfold fgets. rewrite s32_id by lia. replace (max <=? 0) with false by lia. replace (max =? 1) with false by lia.
  destruct l as [|c l]; [now exists n|]. set (k := Z.to_nat (max - 1)). rewrite letters_tail by exact TL.
  assert (K : (length (firstn k (c :: l)) <= k)%nat) by apply firstn_le_length.
  replace (Z.of_nat (length acc) + Z.of_nat (length (firstn k (c :: l))) + 1 <=? n) with true by lia.
  assert (T1 : text_line (acc ++ firstn k (c :: l))) by (apply Forall_app; split; [exact TA|now apply forall_firstn]).
  rewrite until_nul_text by now apply text_no_nul. rewrite chomp_text by exact T1.
  pose proof (skipn_length k (c :: l)) as SL.
  apply IH; [exact T1|now apply forall_skipn|cbn [length] in *; lia|lia|rewrite app_length; lia].
Qed.
Lemma getLine_line n l rest : text_line l -> 80 <= n < 2^31 ->
  exists n', getLine n (l ++ 10 :: rest) = Val (Some l, n', rest) /\ n <= n' /\ (n' = n \/ n' <= 2 * len l + 134).
Proof.
  intros T N. unfold getLine, len in *. destruct (rounds_line rest (S (length (l ++ 10 :: rest))) [] (n - 1) n l) as (n' & E & G1 & G2 & G3);
    [constructor|exact T|rewrite app_length; cbn; lia|lia|unfold len; cbn; lia|].
  exists n'. split; [exact E|]. split; [exact G1|]. unfold len in *. destruct (Z_le_gt_dec (Z.of_nat (length l) + 2) (n - 1)); [left; apply G2; lia|].
  right. specialize (G3 ltac:(lia)). lia.
Qed.
Lemma getLine_tail n tail : text_line tail -> 80 <= n < 2^31 -> exists n', getLine n tail = Val (None, n', []).
Proof. intros T N. unfold getLine. apply rounds_tail; [constructor|exact T|lia|lia|unfold len; cbn; lia]. Qed.

(* a reader that has still to read [ls] *)
Definition reads (r : reader) (ls : list text) : Prop :=
  exists content tail, r_file r = Some content /\ file_lines content ls tail /\ 0 <= r_lineno r /\ 80 <= r_len r /\
    exists size, Z.of_nat (length content) <= size < 2^30 - 100 /\ r_len r <= 2 * size + 134.
Lemma reader_line r l ls : reads r (l :: ls) ->
  exists r', reader_readLine r = Val (Some l, r') /\ reads r' ls /\ r_name r' = r_name r /\ r_lineno r' = r_lineno r + 1.
Proof.
  intros (content & tail & F & (C & TL & TT) & LN & LO & size & SZ & HI). unfold reader_readLine. rewrite F.
  inversion TL as [|? ? T1 T2]; subst.
  assert (EC : file_of (l :: ls) tail = l ++ 10 :: file_of ls tail) by (unfold file_of; cbn [flat_map]; rewrite <- !app_assoc; reflexivity).
  rewrite EC in *. rewrite app_length in SZ. cbn [length] in SZ.
  destruct (getLine_line (r_len r) l (file_of ls tail) T1) as (n' & E & G1 & G2); [lia|].
  rewrite E. cbn [bind]. eexists. split; [reflexivity|]. split; [|auto]. exists (file_of ls tail), tail. cbn [r_file r_len r_lineno].
  split; [reflexivity|]. split; [repeat split; assumption|]. split; [lia|]. split; [lia|]. exists size. unfold len in G2. split; [lia|]. lia.
Qed.
Lemma reader_end r : reads r [] -> exists r', reader_readLine r = Val (None, r').
Proof.
  intros (content & tail & F & (C & TL & TT) & LN & LO & size & SZ & HI). unfold reader_readLine. rewrite F. subst content. cbn [file_of flat_map app] in *.
  destruct (getLine_tail (r_len r) tail TT) as (n' & E); [lia|]. unfold file_of. cbn [flat_map app]. rewrite E. eexists. reflexivity.
Qed.

(* the stack *)
Definition level := (text * list text)%type.
Definition stacked (s : sources) (ls : list level) : Prop :=
  Forall2 (fun r '(path, l) => reads r l /\ r_name r = path /\ ~ In 0 path /\ Forall text_line l) s ls.
(* the next line of a stack of levels *)
Fixpoint next_line (ls : list level) : option (text * list level) :=
  match ls with
  | [] => None
  | (path, []) :: ls' => next_line ls'
  | (path, l :: l') :: ls' => Some (l, (path, l') :: ls')
  end.
Lemma readLine_next s ls : stacked s ls ->
  match next_line ls with
  | None => readLine s = Val (None, [])
  | Some (l, ls') => exists s', readLine s = Val (Some l, s') /\ stacked s' ls' /\ text_line l
  end.
Proof.
  induction 1 as [|r (path, l) s ls (R & P & N & TL) F IH]; [reflexivity|]. cbn [next_line readLine]. destruct l as [|l l'].
  - destruct (reader_end r R) as (r' & E). rewrite E. cbn [bind]. exact IH.
  - destruct (reader_line r l l' R) as (r' & E & R' & NM & _). rewrite E. cbn [bind]. eexists. split; [reflexivity|].
    inversion TL; subst. split; [|assumption]. constructor; [|exact F]. split; [exact R'|]. rewrite NM. auto.
Qed.

(* the lines of a text *)
Fixpoint split_lines (t acc : text) : list text * text :=
  match t with
  | [] => ([], rev acc)
  | c :: t' => if c =? 10 then let '(ls, tl) := split_lines t' [] in (rev acc :: ls, tl) else split_lines t' (c :: acc)
  end.
Lemma split_file t : forall acc, ~ In 0 t -> text_line acc ->
  let '(ls, tl) := split_lines t acc in file_of ls tl = rev acc ++ t /\ Forall text_line ls /\ text_line tl.
Proof.
  induction t as [|c t IH]; intros acc N A; cbn [split_lines].
  - unfold file_of. cbn. rewrite app_nil_r. repeat split; [constructor|]. now apply Forall_rev.
  - destruct (Z.eqb_spec c 10) as [->|NC].
    + specialize (IH [] ltac:(intros X; apply N; now right) (Forall_nil _)). destruct (split_lines t []) as [ls tl]. destruct IH as (E & F & T).
      unfold file_of in *. cbn [flat_map]. rewrite <- !app_assoc, E. repeat split; [|exact T]. constructor; [now apply Forall_rev|exact F].
    + specialize (IH (c :: acc) ltac:(intros X; apply N; now right)). cbn [rev] in IH. rewrite <- app_assoc in IH. apply IH.
      constructor; [split; [exact NC|intros ->; apply N; now left]|exact A].
Qed.
Lemma text_lines content : ~ In 0 content -> exists ls tail, file_lines content ls tail.
Proof.
  intros N. pose proof (split_file content [] N (Forall_nil _)) as H. destruct (split_lines content []) as [ls tl]. destruct H as (E & F & T).
  exists ls, tl. repeat split; auto.
Qed.
Lemma new_reads name content ls tail : readable content -> file_lines content ls tail ->
  reads (mkR name (Some content) 0 80) ls.
Proof.
  intros R F. unfold readable in R. exists content, tail. cbn [r_file r_lineno r_len]. split; [reflexivity|]. split; [exact F|].
  split; [lia|]. split; [lia|]. exists (Z.of_nat (length content)). lia.
Qed.
(* lines come from a file in one way *)
Lemma file_unique ls : forall tail ls' tail', file_of ls tail = file_of ls' tail' -> Forall text_line ls -> text_line tail ->
  Forall text_line ls' -> text_line tail' -> ls = ls' /\ tail = tail'.
Proof.
  assert (X : forall l r l' r', text_line l -> text_line l' -> l ++ 10 :: r = l' ++ 10 :: r' -> l = l' /\ r = r').
  { induction l as [|c l IH]; intros r [|c' l'] r' T T' E; cbn in E.
    - injection E as ->. auto.
    - injection E as <- _. inversion T'; subst. destruct H1. congruence.
    - injection E as -> _. inversion T; subst. destruct H1. congruence.
    - injection E as <- E. inversion T; inversion T'; subst. destruct (IH r l' r' ltac:(assumption) ltac:(assumption) E) as (-> & ->). auto. }
  assert (Y : forall l r t, text_line t -> l ++ 10 :: r = t -> False).
  { intros l r t T <-. apply Forall_app in T. destruct T as (_ & T). inversion T as [|? ? (N & _) _]. congruence. }
  induction ls as [|l ls IH]; intros tail [|l' ls'] tail' E F T F' T'; unfold file_of in *; cbn [flat_map] in E; rewrite <- ?app_assoc in E; cbn [app] in E.
  - auto.
  - exfalso. eapply Y; [exact T|symmetry; exact E].
  - exfalso. eapply Y; [exact T'|exact E].
  - inversion F as [|? ? F1 F2]; inversion F' as [|? ? G1 G2]; subst. apply X in E; [|assumption|assumption]. destruct E as (-> & E). destruct (IH tail ls' tail' E F2 T G2 T') as (-> & ->). auto.
Qed.

(* where a name leads *)
Lemma directory_none p : directory p = None <-> ~ In SLASH p.
Proof.
  induction p as [|c p IH]; cbn; [tauto|]. destruct (directory p) as [d|].
  - split; [discriminate|]. intros N. exfalso. apply N. right. destruct (in_dec Z.eq_dec SLASH p) as [I|I]; [exact I|]. now apply IH in I.
  - destruct (Z.eqb_spec c SLASH) as [->|N]; [split; [discriminate|tauto]|]. destruct IH as (IH & _). specialize (IH eq_refl). split; [|reflexivity]. intros _ [X|X]; auto.
Qed.
Lemma directory_some p d : directory p = Some d -> exists a b, p = a ++ SLASH :: b /\ d = a ++ [SLASH] /\ ~ In SLASH b.
Proof.
  revert d. induction p as [|c p IH]; intros d E; [discriminate|]. cbn in E. destruct (directory p) as [d'|] eqn:D.
  - injection E as <-. destruct (IH d' eq_refl) as (a & b & -> & -> & N). exists (c :: a), b. auto.
  - destruct (Z.eqb_spec c SLASH) as [->|]; [|discriminate]. injection E as <-. exists [], p. repeat split. now apply directory_none.
Qed.
Lemma path_leads r name : leads (r_name r) name (source_path (Some r) name).
Proof.
  cbn [source_path]. destruct (directory (r_name r)) as [d|] eqn:D.
  - destruct (directory_some _ _ D) as (a & b & E & -> & N). rewrite E. destruct name as [|c name].
    + cbn [peek]. change (0 =? SLASH) with false. rewrite <- app_assoc. apply L_relative; [exact N|discriminate].
    + cbn [peek]. destruct (Z.eqb_spec c SLASH) as [->|NC]; [apply L_absolute|]. rewrite <- app_assoc. apply L_relative; [exact N|]. intros rest X. injection X as X _. contradiction.
  - apply L_plain. now apply directory_none.
Qed.
Lemma leads_fun path name p q : leads path name p -> leads path name q -> p = q.
Proof.
  assert (X : forall a b a' b', ~ In 47 b -> ~ In 47 b' -> a ++ 47 :: b = a' ++ 47 :: b' -> a = a').
  { induction a as [|c a IH]; intros b [|c' a'] b' N N' E; cbn in E.
    - reflexivity.
    - injection E as _ E. exfalso. apply N. rewrite E. apply in_app_iff. right. now left.
    - injection E as _ E. exfalso. apply N'. rewrite <- E. apply in_app_iff. right. now left.
    - injection E as <- E. f_equal. exact (IH b a' b' N N' E). }
  intros A B. inversion A; inversion B; subst; try reflexivity; try congruence;
    try (exfalso; match goal with H : ~ In 47 (_ ++ _) |- _ => apply H; apply in_app_iff; right; now left end);
    try (exfalso; match goal with H : forall rest, _ <> 47 :: rest |- _ => now apply (H rest) end).
  match goal with H : _ ++ 47 :: _ = _ ++ 47 :: _ |- _ => apply X in H; [|assumption|assumption]; subst; reflexivity end.
Qed.
Lemma leads_nonul path name p : leads path name p -> ~ In 0 path -> ~ In 0 name -> ~ In 0 p.
Proof.
  intros L A B. inversion L; subst; auto. intros X. apply in_app_iff in X. destruct X as [X|[X|X]]; [|discriminate|auto].
  apply A. apply in_app_iff. now left.
Qed.
Lemma until_nul_id p : ~ In 0 p -> until_nul p = p.
Proof. intros N. apply until_nul_text. apply Forall_forall. intros x X ->. contradiction. Qed.
Lemma length_stacked s ls : stacked s ls -> length s = length ls.
Proof. induction 1; cbn; auto. Qed.
(* opening a file named on a line *)
Lemma open_named fs name s path ls rest : text_files fs -> ~ In 0 name -> stacked s ((path, ls) :: rest) ->
  exists p, leads path name p /\
  (((4 <= S (length rest))%nat /\ open fs name s = (TOO_MANY_INCLUDE, s)) \/
   ((S (length rest) < 4)%nat /\ fs p = None /\ open fs name s = (NO_INCLUDE_FOUND, s)) \/
   ((S (length rest) < 4)%nat /\ exists content ls' tail s', fs p = Some content /\ file_lines content ls' tail /\
      open fs name s = (OK, s') /\ stacked s' ((p, ls') :: (path, ls) :: rest))).
Proof.
  intros T N H. pose proof (length_stacked _ _ H) as L. cbn [length] in L. inversion H as [|r ? s0 ? HR F]; subst. cbv beta iota in HR. destruct HR as (R & P & NP & TL). subst path.
  exists (source_path (Some r) name). split; [apply path_leads|]. unfold open, MAX_INCLUDES. rewrite L. cbn [hd_error].
  assert (NS : ~ In 0 (source_path (Some r) name)) by (eapply leads_nonul; [apply path_leads|exact NP|exact N]).
  rewrite (until_nul_id _ NS). unfold level in *; destruct (Z.leb_spec 4 (Z.of_nat (S (length rest)))) as [B|B]; [left; split; [lia|reflexivity]|right].
  destruct (fs (source_path (Some r) name)) as [content|] eqn:E; [right|left; split; [lia|auto]].
  split; [lia|]. destruct (T _ _ E) as (RD & NZ). destruct (text_lines content NZ) as (ls' & tail & FL).
  exists content, ls', tail. eexists. split; [reflexivity|]. split; [exact FL|]. split; [reflexivity|].
  constructor; [|exact H]. cbn [r_name]. split; [eapply new_reads; eauto|]. split; [reflexivity|]. split; [exact NS|]. apply FL.
Qed.
Lemma open_first fs input content ls tail : ~ In 0 input -> fs input = Some content -> readable content -> file_lines content ls tail ->
  exists s, open fs input [] = (OK, s) /\ stacked s [(input, ls)].
Proof.
  intros N E R F. unfold open. change (MAX_INCLUDES <=? Z.of_nat (length (@nil reader))) with false. cbn [hd_error source_path].
  rewrite (until_nul_id _ N), E. eexists. split; [reflexivity|]. constructor; [|constructor]. cbn [r_name].
  split; [eapply new_reads; eauto|]. repeat split; auto. apply F.
Qed.
Lemma reads_file s path ls : stacked s [(path, ls)] -> reads_all s ls.
Proof.
  revert s. induction ls as [|l ls IH]; intros s H; pose proof (readLine_next s _ H) as R; cbn [next_line] in R.
  - eapply RA_end. exact R.
  - destruct R as (s' & E & H' & _). eapply RA_line; [exact E|]. apply IH. exact H'.
Qed.
(* the events of a whole stack of files, the last opened first *)
Fixpoint expand_stack (fs : files) (ls : list level) (ev : list event) : Prop :=
  match ls with
  | [] => ev = []
  | (path, l) :: rest => exists a b, ev = a ++ b /\ expands fs (length ls) path l a /\ expand_stack fs rest b
  end.
