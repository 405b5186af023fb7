(** The names of processors: proofs. *)
From Coq Require Import String ZArith List Bool Lia.
From Verif Require Import M_Char M_Text M_Parsers M_CpuName S_Table S_CpuName P_Table.
Import ListNotations.
Open Scope string_scope.
Open Scope list_scope.
Local Open Scope Z_scope.

(* ------------------------------------------------------------ letter case does not matter *)
Definition low (w : text) : text := map to_lower w.
Lemma low_idem c : to_lower (to_lower c) = to_lower c.
Proof. unfold to_lower, is_upper. destruct ((65 <=? c) && (c <=? 90)) eqn:E; [|now rewrite E]. destruct ((65 <=? c + 32) && _) eqn:F; [lia|reflexivity]. Qed.
Lemma up_low c d : to_lower c = to_lower d -> to_upper c = to_upper d.
Proof.
  unfold to_lower, to_upper, is_upper, is_lower. 
  destruct ((65 <=? c) && (c <=? 90)) eqn:E1, ((65 <=? d) && (d <=? 90)) eqn:E2, ((97 <=? c) && (c <=? 122)) eqn:E3, ((97 <=? d) && (d <=? 122)) eqn:E4; lia.
Qed.
Lemma same_low a : forall b, same_name a b <-> low a = low b.
Proof.
  intros b. rewrite <- iequals_spec. revert b. induction a as [|x a IH]; intros [|y b]; cbn; try (split; (reflexivity || discriminate)).
  rewrite andb_true_iff, Z.eqb_eq, IH. split; [intros [-> E]; f_equal; exact E|]. intros H. injection H as E F. split; [exact E|exact F].
Qed.
Lemma iequals_low w w' n : low w = low w' -> iequals w n = iequals w' n.
Proof. intros H. apply eq_iff_eq_true. rewrite !iequals_spec, !same_low, H. reflexivity. Qed.
Lemma expect_low p : forall w w', low w = low w' ->
  match iexpectText p w, iexpectText p w' with Some a, Some b => low a = low b | None, None => True | _, _ => False end.
Proof.
  induction p as [|a p IH]; intros w w' H; cbn [iexpectText]; [exact H|]. destruct w as [|x w], w' as [|y w']; try discriminate; [exact I|].
  injection H as E F. rewrite E. destruct (_ =? _); [now apply IH|exact I].
Qed.
Lemma past_low p w w' : low w = low w' -> low (past p w) = low (past p w').
Proof. intros H. unfold past. pose proof (expect_low (s2l p) w w' H) as X. destruct (iexpectText (s2l p) w), (iexpectText (s2l p) w'); tauto. Qed.
Lemma begins_low p ty w w' : low w = low w' -> begins w p ty = begins w' p ty.
Proof. intros H. unfold begins. pose proof (expect_low (s2l p) w w' H) as X. destruct (iexpectText (s2l p) w), (iexpectText (s2l p) w'); tauto. Qed.
Lemma ichar_low c w w' : low w = low w' -> match iexpect c w, iexpect c w' with Some a, Some b => low a = low b | None, None => True | _, _ => False end.
Proof.
  intros H. unfold iexpect. destruct w as [|x w], w' as [|y w']; try discriminate; [exact I|]. injection H as E F.
  rewrite (up_low _ _ E). destruct (_ =? _); [exact F|exact I].
Qed.
Lemma opt_low c w w' : low w = low w' -> low (opt_ichar c w) = low (opt_ichar c w').
Proof. intros H. unfold opt_ichar. pose proof (ichar_low c w w' H) as X. destruct (iexpect c w), (iexpect c w'); tauto. Qed.
Lemma is_low n ty w w' : low w = low w' -> is w n ty = is w' n ty.
Proof. intros H. unfold is. now rewrite (iequals_low w w' _ H). Qed.
Lemma cpus_low l w w' : low w = low w' -> cpu_search w l = cpu_search w' l.
Proof. intros H. induction l as [|[ty n] l IH]; cbn [cpu_search]; [reflexivity|]. now rewrite (iequals_low w w' _ H), IH. Qed.
Lemma search_low t w w' : In t commander -> low w = low w' -> ct_search t w = ct_search t w'.
Proof.
  intros I H. unfold commander in I. cbn [In] in I. repeat destruct I as [<-|I]; try (destruct I; fail);
    match goal with |- ct_search ?t _ = _ => unfold t; cbn [ct_search]; cbv zeta end;
    pose proof (past_low "MC" w w' H) as H1; pose proof (past_low "TMS" w w' H) as H2; pose proof (past_low "CDP" w w' H) as H3; pose proof (opt_low 105 w w' H) as H4;
    rewrite ?(cpus_low _ w w' H), ?(cpus_low _ _ _ H1), ?(cpus_low _ _ _ H2), ?(cpus_low _ _ _ H3), ?(cpus_low _ _ _ H4),
      ?(is_low _ _ w w' H), ?(is_low _ _ _ _ H1), ?(is_low _ _ _ _ H2), ?(is_low _ _ _ _ H4), ?(begins_low _ _ w w' H); try reflexivity.
  pose proof (ichar_low 87 w w' H) as X. destruct (iexpect 87 w) as [u|], (iexpect 87 w') as [u'|]; try tauto.
  repeat match goal with |- context [is u ?n ?ty] => rewrite (is_low n ty u u' X) end. reflexivity.
Qed.
Lemma choose_low w w' : low w = low w' -> choose commander w = choose commander w'.
Proof.
  intros H. assert (G : forall l, (forall t, In t l -> In t commander) -> choose l w = choose l w').
  { induction l as [|t l IH]; intros S; cbn [choose]; [reflexivity|]. rewrite (search_low t w w' (S t (or_introl eq_refl)) H).
    rewrite IH by (intros u U; apply S; now right). reflexivity. }
  apply G. auto.
Qed.
(* ------------------------------------------------------------ all names are accepted *)
Lemma all_chosen : forallb (fun e : string * string * list string => let '(fam, ty, names) := e in
  forallb (fun n => match choose commander (s2l n) with Some (f, t) => String.eqb f fam && String.eqb t ty | None => false end) names) processors = true.
Proof. vm_compute. reflexivity. Qed.
Lemma listed_chosen w fam ty names n : In (fam, ty, names) processors -> In n names -> same_name w (s2l n) -> choose commander w = Some (fam, ty).
Proof.
  intros I J S. apply same_low in S. rewrite (choose_low _ _ S). pose proof all_chosen as A. rewrite forallb_forall in A. specialize (A _ I). cbv beta iota in A.
  rewrite forallb_forall in A. specialize (A _ J). destruct (choose commander (s2l n)) as [[f t]|]; [|discriminate].
  apply andb_true_iff in A. destruct A as [A B]. apply String.eqb_eq in A, B. now subst.
Qed.
Lemma low_app a b : low (a ++ b) = low a ++ low b.
Proof. apply map_app. Qed.
Lemma part_chosen n rest v ty : same_name v (s2l n) -> In (n, ty) z8_parts ->
  (forall n' ty' v' rest', In (n', ty') z8_parts -> v ++ rest = v' ++ rest' -> same_name v' (s2l n') -> (length v' <= length v)%nat) ->
  choose commander (v ++ rest) = Some ("z8", ty).
Proof.
  intros S I L. pose proof (proj1 (same_low _ _) S) as SL.
  assert (E : low (v ++ rest) = low (s2l n ++ rest)) by (rewrite !low_app, SL; reflexivity). rewrite (choose_low _ _ E).
  assert (LEN : length v = length (s2l n)) by (rewrite <- (map_length to_lower v), <- (map_length to_lower (s2l n)); exact (f_equal (@length Z) SL)).
  cbn [z8_parts In] in I. destruct I as [I|[I|[I|[]]]]; injection I as <- <-.
  - destruct rest; vm_compute; reflexivity.
  - destruct rest as [|c rest]; [vm_compute; reflexivity|].
    destruct (Z.eq_dec (to_lower c) 99) as [C|C].
    + exfalso. specialize (L "Z86C" "Z86C" (v ++ [c]) rest (or_introl eq_refl)). rewrite <- app_assoc in L. specialize (L eq_refl).
      rewrite app_length in L. cbn [length] in L. enough (length v + 1 <= length v)%nat by lia. apply L.
      apply same_low. rewrite low_app, SL. cbn [low map]. rewrite C. reflexivity.
    + assert (E1 : iequals (s2l "Z86" ++ c :: rest) (s2l "Z86C") = (to_lower c =? 99) && iequals rest []) by reflexivity.
      assert (E2 : iexpectText (s2l "Z86C") (s2l "Z86" ++ c :: rest) = if 99 =? to_lower c then Some rest else None) by reflexivity.
      assert (E3 : ct_search ct_z8 (s2l "Z86" ++ c :: rest) = Some "Z8").
      { unfold ct_z8. cbn [ct_search]. unfold cpus_z8, begins. cbn [cpu_search]. rewrite E1, E2.
        replace (to_lower c =? 99) with false by lia. replace (99 =? to_lower c) with false by lia. vm_compute. reflexivity. }
      change commander with ([ct_mc6800; ct_mc6805; ct_mc6809; ct_mos6502; ct_i8048; ct_i8051; ct_i8080; ct_z80] ++ ct_z8 :: skipn 9 commander).
      assert (G : forall l l' x, choose l x = None -> choose (l ++ l') x = choose l' x).
      { induction l as [|t l IH]; intros l' x N; [reflexivity|]. cbn [choose app] in *. destruct (ct_search t x); [discriminate|]. now apply IH. }
      rewrite G by (vm_compute; reflexivity). cbn [choose]. rewrite E3. reflexivity.
  - destruct rest; vm_compute; reflexivity.
Qed.

(* ------------------------------------------------------------ nothing else is accepted *)
Definition known (fam ty n : string) : Prop := exists names, In (fam, ty, names) processors /\ In n names.
Lemma name_is w n ty ty' : is w n ty' = Some ty -> same_name w (s2l n) /\ ty = ty'.
Proof. unfold is. destruct (iequals w (s2l n)) eqn:E; [|discriminate]. intros H. injection H as <-. split; [now apply iequals_spec|reflexivity]. Qed.
Lemma cpus_is w l ty : cpu_search w l = Some ty -> exists n, In (ty, n) l /\ same_name w (s2l n).
Proof.
  induction l as [|[u n] l IH]; cbn [cpu_search]; [discriminate|]. destruct (iequals w (s2l n)) eqn:E.
  - intros H. injection H as <-. exists n. split; [now left|now apply iequals_spec].
  - intros H. destruct (IH H) as (m & I & S). exists m. split; [now right|exact S].
Qed.
Lemma else_is {A} (x y : option A) a : or_else x y = Some a -> x = Some a \/ y = Some a.
Proof. destruct x; cbn; auto. Qed.
Lemma expect_is p : forall w u, iexpectText p w = Some u -> exists v, w = v ++ u /\ same_name v p.
Proof.
  induction p as [|a p IH]; intros w u H; cbn [iexpectText] in H; [injection H as <-; exists []; split; [reflexivity|constructor]|].
  destruct w as [|b w]; [discriminate|]. destruct (Z.eqb_spec (to_lower a) (to_lower b)) as [E|E]; [|discriminate].
  destruct (IH _ _ H) as (v & -> & S). exists (b :: v). split; [reflexivity|]. apply same_low. cbn [low map]. rewrite E. f_equal. now apply same_low.
Qed.
Lemma past_is p w n : same_name (past p w) (s2l n) -> same_name w (s2l n) \/ same_name w (s2l p ++ s2l n).
Proof.
  unfold past. destruct (iexpectText (s2l p) w) as [u|] eqn:E; [|now left]. apply expect_is in E. destruct E as (v & -> & S).
  intros H. right. apply same_low. rewrite !low_app. apply same_low in S, H. now rewrite S, H.
Qed.
Lemma low_up c d : to_upper c = to_upper d -> to_lower c = to_lower d.
Proof.
  unfold to_lower, to_upper, is_upper, is_lower.
  destruct ((65 <=? c) && (c <=? 90)) eqn:E1, ((65 <=? d) && (d <=? 90)) eqn:E2, ((97 <=? c) && (c <=? 122)) eqn:E3, ((97 <=? d) && (d <=? 122)) eqn:E4; lia.
Qed.
Lemma ichar_is c w u : iexpect c w = Some u -> exists d, w = d :: u /\ to_lower d = to_lower c.
Proof.
  unfold iexpect. destruct w as [|d w]; [discriminate|]. destruct (Z.eqb_spec (to_upper d) (to_upper c)); [|discriminate].
  intros H. injection H as <-. exists d. split; [reflexivity|now apply low_up].
Qed.
Lemma char_name c w u n : iexpect c w = Some u -> same_name u (s2l n) -> same_name w (c :: s2l n).
Proof. intros H S. destruct (ichar_is _ _ _ H) as (d & -> & E). apply same_low. cbn [low map]. rewrite E. f_equal. now apply same_low. Qed.
Lemma opt_is c w n : same_name (opt_ichar c w) (s2l n) -> same_name w (s2l n) \/ same_name w (c :: s2l n).
Proof. unfold opt_ichar. destruct (iexpect c w) as [u|] eqn:E; [|now left]. intros H. right. eapply char_name; eauto. Qed.
Definition is_named (w : text) (fam ty : string) : Prop := exists names n, In (fam, ty, names) processors /\ In n names /\ same_name w (s2l n).
(* decided: the name is in the list *)
Definition inb (fam ty : string) (m : text) : bool := existsb (fun e : string * string * list string => let '(f, t, names) := e in
  String.eqb f fam && String.eqb t ty && existsb (fun n => if list_eq_dec Z.eq_dec (low (s2l n)) (low m) then true else false) names) processors.
Lemma inb_named w m fam ty : inb fam ty m = true -> same_name w m -> is_named w fam ty.
Proof.
  unfold inb. rewrite existsb_exists. intros ([[f t] names] & I & H) S. apply andb_true_iff in H. destruct H as [H N]. apply andb_true_iff in H.
  destruct H as [F T]. apply String.eqb_eq in F, T. subst. apply existsb_exists in N. destruct N as (n & J & E).
  destruct (list_eq_dec _ _ _) as [X|]; [|discriminate]. exists names, n. split; [exact I|]. split; [exact J|]. apply same_low. apply same_low in S. congruence.
Qed.
Ltac open_search H :=
  repeat match type of H with
  | or_else _ _ = Some _ => apply else_is in H; destruct H as [H|H]
  end.
Ltac settle w := match goal with
  | S : same_name w ?m |- is_named w _ _ => apply (fun X => inb_named w m _ _ X S); vm_compute; reflexivity
  end.
Ltac settle_is w H := let S := fresh "S" in let E := fresh "E" in apply name_is in H; destruct H as [S E]; subst;
  first [settle w|apply past_is in S; destruct S as [S|S]; settle w|apply opt_is in S; destruct S as [S|S]; settle w].
Ltac settle_cpus w H := let n := fresh "n" in let I := fresh "I" in let S := fresh "S" in apply cpus_is in H; destruct H as (n & I & S); unfold cpus_mc6800, cpus_mc6805, cpus_mc6809, cpus_mos6502, cpus_i8048, cpus_i8080, cpus_cdp1802, cpus_i8086, cpus_mc68000, cpus_tms9900, cpus_z8000, cpus_mn1610, cpus_pdp11 in I; cbn [In] in I;
  repeat destruct I as [I|I]; try (destruct I; fail); injection I as <- <-;
  first [settle w|apply past_is in S; destruct S as [S|S]; settle w|apply opt_is in S; destruct S as [S|S]; settle w].
Lemma search_named t w ty : In t commander -> ct_name t <> "z8" -> ct_search t w = Some ty -> is_named w (ct_name t) ty.
Proof.
  intros I N H. unfold commander in I. cbn [In] in I. repeat destruct I as [<-|I]; try (destruct I; fail); try (exfalso; apply N; reflexivity); clear N;
    match type of H with ct_search ?t _ = _ => unfold t in *; cbn [ct_search ct_name] in *; cbv zeta in H end; open_search H;
    first [settle_is w H|settle_cpus w H|idtac].
  destruct (iexpect 87 w) as [u|] eqn:W; [|discriminate]. open_search H; apply name_is in H; destruct H as [S E]; subst; pose proof (char_name 87 w u _ W S) as T; settle w.
Qed.
Lemma expect_some p : forall v u, same_name v p -> iexpectText p (v ++ u) = Some u.
Proof.
  induction p as [|a p IH]; intros v u S; inversion S; subst; [reflexivity|]. cbn [app iexpectText]. pose proof (proj1 (same_low _ _) S) as L. cbn [low map] in L.
  injection L as E F. rewrite E, Z.eqb_refl. now apply IH.
Qed.
Lemma same_length v p : same_name v p -> length v = length p.
Proof. intros H. induction H; cbn; [reflexivity|congruence]. Qed.
Lemma search_z8 w ty : ct_search ct_z8 w = Some ty -> named w "z8" ty.
Proof.
  unfold ct_z8. cbn [ct_search]. intros H. apply else_is in H. destruct H as [H|H].
  { left. change (is_named w "z8" ty). apply cpus_is in H. destruct H as (n & I & S). unfold cpus_z8 in I. cbn [In] in I.
    destruct I as [I|[I|[I|[]]]]; injection I as <- <-; settle w. }
  unfold begins in H. destruct (iexpectText (s2l "Z86C") w) as [u|] eqn:E1.
  { cbn [or_else] in H. injection H as <-. destruct (expect_is _ _ _ E1) as (v & -> & S). right. split; [reflexivity|]. exists "Z86C", u, v.
    split; [reflexivity|]. split; [exact S|]. split; [now left|]. intros n' ty' v' rest' I _ S'. rewrite (same_length _ _ S), (same_length _ _ S').
    cbn [z8_parts In] in I. destruct I as [I|[I|[I|[]]]]; injection I as <- <-; cbn; lia. }
  cbn [or_else] in H.
  assert (P3 : forall n u v, w = v ++ u -> same_name v (s2l n) -> length (s2l n) = 3%nat ->
    forall n' ty' v' rest', In (n', ty') z8_parts -> w = v' ++ rest' -> same_name v' (s2l n') -> (length v' <= length v)%nat).
  { intros n u v _ S L n' ty' v' rest' I W S'. rewrite (same_length _ _ S), (same_length _ _ S'), L.
    cbn [z8_parts In] in I. destruct I as [I|[I|[I|[]]]]; injection I as <- <-; try (cbn; lia).
    exfalso. rewrite W, (expect_some _ _ _ S') in E1. discriminate. }
  destruct (iexpectText (s2l "Z86") w) as [u|] eqn:E2.
  { cbn [or_else] in H. injection H as <-. destruct (expect_is _ _ _ E2) as (v & W & S). right. split; [reflexivity|]. exists "Z86", u, v.
    split; [exact W|]. split; [exact S|]. split; [right; now left|]. exact (P3 "Z86" u v W S eq_refl). }
  cbn [or_else] in H. destruct (iexpectText (s2l "Z88") w) as [u|] eqn:E3.
  { cbn [or_else] in H. injection H as <-. destruct (expect_is _ _ _ E3) as (v & W & S). right. split; [reflexivity|]. exists "Z88", u, v.
    split; [exact W|]. split; [exact S|]. split; [right; right; now left|]. exact (P3 "Z88" u v W S eq_refl). }
  cbn [or_else] in H. left. change (is_named w "z8" ty). settle_is w H.
Qed.
Lemma choose_named w fam ty : choose commander w = Some (fam, ty) -> named w fam ty.
Proof.
  assert (G : forall l, (forall t, In t l -> In t commander) -> choose l w = Some (fam, ty) -> named w fam ty).
  { induction l as [|t l IH]; intros S; cbn [choose]; [discriminate|]. destruct (ct_search t w) as [u|] eqn:E.
    - intros H. injection H as <- <-. destruct (string_dec (ct_name t) "z8") as [Z|Z].
      + assert (t = ct_z8) as ->.
        { pose proof (S t (or_introl eq_refl)) as I. unfold commander in I. cbn [In] in I.
          repeat destruct I as [<-|I]; try (destruct I; fail); try discriminate Z. reflexivity. }
        now apply search_z8.
      + left. exact (search_named t w u (S t (or_introl eq_refl)) Z E).
    - apply IH. intros u U. apply S. now right. }
  apply G. auto.
Qed.
Lemma chosen w fam ty : choose commander w = Some (fam, ty) <-> named w fam ty.
Proof.
  split; [apply choose_named|]. intros [(names & n & I & J & S)|(-> & n & rest & v & -> & S & I & L)].
  - eapply listed_chosen; eauto.
  - eapply part_chosen; eauto.
Qed.
(* no name twice *)
Fixpoint nodupb (l : list text) : bool :=
  match l with [] => true | n :: l' => negb (existsb (fun m => if list_eq_dec Z.eq_dec n m then true else false) l') && nodupb l' end.
Lemma nodupb_nodup l : nodupb l = true -> NoDup l.
Proof.
  induction l as [|n l IH]; cbn [nodupb]; [constructor|]. rewrite andb_true_iff, negb_true_iff. intros [E N]. constructor; [|now apply IH].
  intros I. assert (X : existsb (fun m => if list_eq_dec Z.eq_dec n m then true else false) l = true).
  { apply existsb_exists. exists n. split; [exact I|]. destruct (list_eq_dec Z.eq_dec n n); congruence. }
  congruence.
Qed.
Lemma all_named l : forallb (fun n => match choose commander n with Some _ => true | None => false end) l = true ->
  forall n, In n l -> exists fam ty, named n fam ty.
Proof.
  rewrite forallb_forall. intros A n I. specialize (A n I). clear I. remember (choose commander n) as c eqn:E. destruct c as [[f t]|]; [|discriminate].
  exists f, t. apply chosen. symmetry. exact E.
Qed.
Lemma all_listed l : forallb (fun e : string * string * list string => let '(fam, ty, _) := e in existsb (fun n => match choose commander n with
      Some (f, t) => String.eqb f fam && String.eqb t ty | None => false end) l) processors = true ->
  forall fam ty names, In (fam, ty, names) processors -> exists n, In n l /\ named n fam ty.
Proof.
  rewrite forallb_forall. intros A fam ty names I. specialize (A _ I). cbv beta iota in A. clear I. apply existsb_exists in A. destruct A as (n & J & A).
  remember (choose commander n) as c eqn:E. destruct c as [[f t]|]; [|discriminate]. apply andb_true_iff in A. destruct A as [F T]. apply String.eqb_eq in F, T. subst f t.
  exists n. split; [exact J|]. apply chosen. symmetry. exact E.
Qed.
