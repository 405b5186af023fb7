From Coq Require Import ZArith List Bool Lia ZifyBool.
From Verif Require Import M_Char M_Error M_StrBuffer S_StrBuffer P_Value P_StrBuffer.
Import ListNotations.
Local Open Scope Z_scope.

Definition abs_op (o : outop) (b : sbuf) : sbuf :=
  match o with
  | OLetter c => letter c b
  | ORLetter c => rletter c b
  | OText t => out_text t b
  | ORText t => out_rtext t b
  | OReset => b_reset b
  | OReverse s => reverse s b
  end.

Lemma run_op_ok o b : wf b -> valid_op o -> exists b', run_op o b = Some b' /\ wf b' /\ abs b' = abs_op o (abs b) /\
  length (c_mem b') = length (c_mem b).
Proof.
  intros W V. destruct o; cbn [run_op abs_op].
  - now apply c_letter_ok.
  - now apply c_rletter_ok.
  - now apply c_text_ok.
  - now apply c_rtext_ok.
  - now apply c_reset_ok.
  - now apply c_reverse_ok.
Qed.
Lemma run_ops_ok os : forall b, wf b -> Forall valid_op os -> exists b', run_ops os b = Some b' /\ wf b' /\
  abs b' = fold_left (fun s o => abs_op o s) os (abs b) /\ length (c_mem b') = length (c_mem b).
Proof.
  induction os as [|o os IH]; intros b W V; [exists b; cbn; auto|].
  inversion V as [|? ? V1 V2]; subst. destruct (run_op_ok o b W V1) as (b1 & E & W1 & A & L).
  destruct (IH b1 W1 V2) as (b2 & E2 & W2 & A2 & L2). exists b2. cbn [run_ops fold_left]. rewrite E, <- A.
  split; [|split; [|split]]; auto. congruence.
Qed.

(* texts never hold NUL *)
Definition nn (t : text) := Forall (fun c => 1 <= c <= 127) t.
Lemma conv_nn k c : 1 <= c <= 127 -> 1 <= conv k c <= 127.
Proof.
  intros H. destruct k as [[|]|]; cbn [conv]; auto; unfold to_upper, to_lower, is_upper, is_lower.
  - destruct ((97 <=? c) && (c <=? 122)) eqn:E; lia.
  - destruct ((65 <=? c) && (c <=? 90)) eqn:E; lia.
Qed.
Lemma rletter_nn c b : 1 <= c <= 127 -> nn (b_txt b) -> nn (b_txt (rletter c b)).
Proof.
  intros C N. unfold rletter. destruct (b_mark b <? b_max b); cbn; [|exact N]. apply Forall_app. split; auto.
Qed.
Lemma letter_nn c b : 1 <= c <= 127 -> nn (b_txt b) -> nn (b_txt (letter c b)).
Proof. intros C. apply rletter_nn. now apply conv_nn. Qed.
Lemma abs_op_nn o b : nul_free o -> nn (b_txt b) -> nn (b_txt (abs_op o b)).
Proof.
  intros F N. destruct o; cbn [abs_op nul_free] in *.
  - now apply letter_nn.
  - now apply rletter_nn.
  - revert b N. induction F as [|c t C F IH]; intros b N; [exact N|]. cbn. apply IH. now apply letter_nn.
  - revert b N. induction F as [|c t C F IH]; intros b N; [exact N|]. cbn. apply IH. now apply rletter_nn.
  - constructor.
  - unfold reverse. destruct (b_mark b <? start); [exact N|]. cbn. unfold nn in *.
    rewrite <- (firstn_skipn (Z.to_nat start) (b_txt b)) in N. apply Forall_app in N. destruct N.
    apply Forall_app. split; auto. now apply Forall_rev.
Qed.
Lemma abs_ops_nn os : forall b, Forall nul_free os -> nn (b_txt b) ->
  nn (b_txt (fold_left (fun s o => abs_op o s) os b)).
Proof.
  induction os as [|o os IH]; intros b F N; [exact N|]. inversion F; subst. cbn [fold_left]. apply IH; auto.
  now apply abs_op_nn.
Qed.
Lemma c_string_at m : forall n, nn (firstn n m) -> nth_error m n = Some 0 -> c_string m = Some (firstn n m).
Proof.
  induction m as [|c m IH]; intros [|n] F E; cbn in *; try discriminate.
  - injection E as ->. reflexivity.
  - inversion F; subst. replace (c =? 0) with false by lia. now rewrite (IH n) by auto.
Qed.

(* no error: the text is the unlimited text *)
Lemma abs_op_exact o b : valid_op o -> b_err (abs_op o b) = OK ->
  b_case (abs_op o b) = b_case b /\ b_txt (abs_op o b) = unbounded_op (b_case b) o (b_txt b) /\
  (o = OReset \/ b_err b = OK).
Proof.
  intros V E. destruct o; cbn [abs_op unbounded_op] in *.
  - pose proof (letter_err _ _ E). rewrite (letter_ok _ _ E). auto.
  - pose proof (rletter_err _ _ E). rewrite (rletter_ok _ _ E). auto.
  - pose proof (out_text_err _ _ E). rewrite (out_text_ok _ _ E). auto.
  - pose proof (out_rtext_err _ _ E). rewrite (out_rtext_ok _ _ E). auto.
  - auto.
  - pose proof (reverse_err _ _ E). unfold reverse in *. destruct (b_mark b <? start); [discriminate|]. cbn in *. auto.
Qed.
Definition no_reset (o : outop) : Prop := match o with OReset => False | _ => True end.
Lemma abs_ops_err os : forall b, Forall valid_op os -> Forall no_reset os ->
  b_err (fold_left (fun s o => abs_op o s) os b) = OK ->
  b_err b = OK /\ b_txt (fold_left (fun s o => abs_op o s) os b) = unbounded (b_case b) os (b_txt b).
Proof.
  induction os as [|o os IH]; intros b V R E; [auto|]. inversion V; inversion R; subst. cbn [fold_left] in *.
  destruct (IH _ H2 H6 E) as (E1 & T). destruct (abs_op_exact o b H1 E1) as (K & T1 & [-> |E0]); [contradiction|].
  split; [auto|]. rewrite T, K, T1. reflexivity.
Qed.

(* appending only: always a prefix of the unlimited text *)
Lemma rletter_prefix c b : exists s, b_txt b ++ [c] = b_txt (rletter c b) ++ s.
Proof. unfold rletter. destruct (b_mark b <? b_max b); cbn; [exists []; now rewrite app_nil_r|eauto]. Qed.

(* one appended letter: either written, or the buffer is full and stays as it is *)
Definition full (b : sbuf) := b_max b <= b_mark b.
Lemma rletter_full c b : full b -> rletter c b = b_seterr BUFFER_OVERFLOW b.
Proof. intros F. unfold rletter. unfold full in F. now destruct (Z.ltb_spec (b_mark b) (b_max b)); [lia|]. Qed.

Definition letters_of (k : option bool) (o : outop) : text :=
  match o with
  | OLetter c => [conv k c] | ORLetter c => [c] | OText t => map (conv k) t | ORText t => t | _ => []
  end.
Lemma rtext_prefix t : forall b,
  b_txt (out_rtext t b) = firstn (Z.to_nat (Z.max (b_max b) (b_mark b))) (b_txt b ++ t) /\
  b_max (out_rtext t b) = b_max b /\ b_case (out_rtext t b) = b_case b /\
  (b_err (out_rtext t b) = if (b_mark b + Z.of_nat (length t) <=? Z.max (b_max b) (b_mark b)) then b_err b else BUFFER_OVERFLOW).
Proof.
  induction t as [|c t IH]; intros b.
  - cbn [out_rtext fold_left]. rewrite app_nil_r, firstn_all2 by (unfold b_mark; lia). repeat split.
    cbn [length]. replace (b_mark b + Z.of_nat 0 <=? Z.max (b_max b) (b_mark b)) with true by lia. reflexivity.
  - change (out_rtext (c :: t) b) with (out_rtext t (rletter c b)). specialize (IH (rletter c b)).
    unfold rletter in *. destruct (Z.ltb_spec (b_mark b) (b_max b)) as [L|L].
    + destruct IH as (A & B & C & D). cbn [b_txt b_max b_err b_case] in *.
      assert (M : b_mark {| b_txt := b_txt b ++ [c]; b_max := b_max b; b_err := b_err b; b_case := b_case b |} = b_mark b + 1).
      { unfold b_mark. cbn. rewrite app_length. cbn. lia. }
      rewrite M in *. rewrite A, B, C, D. replace (Z.max (b_max b) (b_mark b + 1)) with (Z.max (b_max b) (b_mark b)) by lia.
      rewrite <- app_assoc. cbn [app]. repeat split. cbn [length].
      replace (b_mark b + 1 + Z.of_nat (length t)) with (b_mark b + Z.of_nat (S (length t))) by lia. reflexivity.
    + destruct IH as (A & B & C & D). cbn [b_txt b_max b_err b_case b_seterr] in *.
      assert (M : b_mark (b_seterr BUFFER_OVERFLOW b) = b_mark b) by reflexivity.
      rewrite M in *. rewrite A, B, C, D. replace (Z.max (b_max b) (b_mark b)) with (b_mark b) by lia. repeat split.
      * unfold b_mark. rewrite Nat2Z.id, !firstn_app, !firstn_all, Nat.sub_diag. cbn. reflexivity.
      * cbn [length]. replace (b_mark b + Z.of_nat (S (length t)) <=? b_mark b) with false by lia.
        destruct (b_mark b + Z.of_nat (length t) <=? b_mark b); reflexivity.
Qed.
Lemma text_rtext t : forall b, out_text t b = out_rtext (map (conv (b_case b)) t) b.
Proof.
  induction t as [|c t IH]; intros b; [reflexivity|]. cbn [map].
  change (out_text (c :: t) b) with (out_text t (letter c b)). rewrite IH. rewrite letter_case. reflexivity.
Qed.
Lemma abs_op_append o b : appending o -> abs_op o b = out_rtext (letters_of (b_case b) o) b.
Proof. destruct o; cbn; try contradiction; auto. intros _. apply text_rtext. Qed.
Lemma abs_ops_append os : forall b, Forall appending os ->
  fold_left (fun s o => abs_op o s) os b = out_rtext (flat_map (letters_of (b_case b)) os) b.
Proof.
  induction os as [|o os IH]; intros b F; [reflexivity|]. inversion F; subst. cbn [fold_left flat_map].
  rewrite IH by auto. rewrite (abs_op_append o b) by auto.
  assert (b_case (out_rtext (letters_of (b_case b) o) b) = b_case b) as -> by apply rtext_prefix.
  unfold out_rtext. now rewrite fold_left_app.
Qed.
Lemma unbounded_append k os : forall t, Forall appending os -> unbounded k os t = t ++ flat_map (letters_of k) os.
Proof.
  induction os as [|o os IH]; intros t F; [cbn; now rewrite app_nil_r|]. inversion F; subst. unfold unbounded in *. cbn [fold_left flat_map].
  rewrite IH by auto. rewrite app_assoc. f_equal. destruct o; cbn in *; try contradiction; reflexivity.
Qed.

(* ---------------------------------------------------------------- C28 *)

Lemma C28_safe mem k os : mem <> [] -> Forall valid_op os -> Forall nul_free os ->
  exists b0 b s, c_new mem k = Some b0 /\ run_ops os b0 = Some b /\
    length (c_mem b) = length mem /\
    c_string (c_mem b) = Some s /\ Z.of_nat (length s) < Z.of_nat (length mem) /\ Z.of_nat (length s) = c_out b.
Proof.
  intros N V F. destruct (c_new_ok mem k N) as (b0 & E0 & W0 & A0 & L0).
  destruct (run_ops_ok os b0 W0 V) as (b & E & W & A & L).
  exists b0, b, (firstn (Z.to_nat (c_out b)) (c_mem b)). destruct W as [WE WO WN].
  split; [auto|]. split; [auto|]. split; [congruence|]. rewrite firstn_length.
  split; [|split; [rewrite <- L0, <- L; lia|rewrite L, L0 in *; lia]].
  apply c_string_at; auto. change (firstn (Z.to_nat (c_out b)) (c_mem b)) with (b_txt (abs b)). rewrite A.
  apply abs_ops_nn; auto. rewrite A0. constructor.
Qed.
Lemma C28_exact mem k os b0 b : c_new mem k = Some b0 -> Forall valid_op os -> Forall nul_free os -> Forall no_reset os ->
  run_ops os b0 = Some b -> c_err b = OK -> c_string (c_mem b) = Some (unbounded k os []).
Proof.
  intros E0 V F R E O. destruct mem as [|x m]; [discriminate|].
  destruct (c_new_ok (x :: m) k ltac:(discriminate)) as (b0' & E0' & W0 & A0 & L0).
  rewrite E0 in E0'. injection E0' as <-.
  destruct (run_ops_ok os b0 W0 V) as (b' & E' & W & A & L). rewrite E in E'. injection E' as <-.
  destruct W as [WE WO WN].
  rewrite (c_string_at (c_mem b) (Z.to_nat (c_out b))); auto.
  - change (firstn (Z.to_nat (c_out b)) (c_mem b)) with (b_txt (abs b)). rewrite A.
    destruct (abs_ops_err os (abs b0) V R) as (_ & T). { rewrite <- A. exact O. }
    rewrite T, A0. reflexivity.
  - change (firstn (Z.to_nat (c_out b)) (c_mem b)) with (b_txt (abs b)). rewrite A. apply abs_ops_nn; auto. rewrite A0. constructor.
Qed.
Lemma C28_append mem k os b0 b : c_new mem k = Some b0 -> Forall nul_free os -> Forall appending os ->
  run_ops os b0 = Some b ->
  c_string (c_mem b) = Some (firstn (length mem - 1) (unbounded k os [])) /\
  (c_err b = OK <-> (length (unbounded k os []) < length mem)%nat) /\
  (c_err b = OK \/ c_err b = BUFFER_OVERFLOW).
Proof.
  intros E0 F AP E. destruct mem as [|x m]; [discriminate|].
  destruct (c_new_ok (x :: m) k ltac:(discriminate)) as (b0' & E0' & W0 & A0 & L0).
  rewrite E0 in E0'. injection E0' as <-.
  assert (V : Forall valid_op os). { eapply Forall_impl; [|exact AP]. intros []; cbn; tauto. }
  destruct (run_ops_ok os b0 W0 V) as (b' & E' & W & A & L). rewrite E in E'. injection E' as <-.
  destruct W as [WE WO WN].
  rewrite (abs_ops_append os (abs b0) AP) in A. rewrite A0 in A. cbn [b_case] in A.
  destruct (rtext_prefix (flat_map (letters_of k) os) {| b_txt := []; b_max := Z.of_nat (length (x :: m)) - 1; b_err := OK; b_case := k |})
    as (T & _ & _ & ER). rewrite <- A in T, ER. cbn [b_txt b_max b_err app] in *.
  rewrite unbounded_append by auto. cbn [app].
  unfold b_mark in *. cbn [b_txt length] in *.
  assert (M : Z.to_nat (Z.max (Z.of_nat (S (length m)) - 1) (Z.of_nat 0)) = length m) by lia.
  rewrite M in T. cbn [length]. replace (S (length m) - 1)%nat with (length m) by lia. split; [|split].
  - rewrite (c_string_at (c_mem b) (Z.to_nat (c_out b))); auto; change (firstn (Z.to_nat (c_out b)) (c_mem b)) with (b_txt (abs b)).
    + now rewrite T.
    + pose proof (abs_ops_append os {| b_txt := []; b_max := Z.of_nat (S (length m)) - 1; b_err := OK; b_case := k |} AP) as AA.
      cbn [b_case] in AA. cbn [length] in A. rewrite A, <- AA. apply abs_ops_nn; [auto|constructor].
  - cbn [abs b_err] in ER. rewrite ER. destruct (Z.leb_spec (Z.of_nat 0 + Z.of_nat (length (flat_map (letters_of k) os))) (Z.max (Z.of_nat (S (length m)) - 1) (Z.of_nat 0))).
    + split; [lia|reflexivity].
    + split; [discriminate|lia].
  - cbn [abs b_err] in ER. rewrite ER. destruct (_ <=? _); auto.
Qed.
(* digits that do not fit are reversed in place *)
Lemma C28_bad : exists mem os b0 b, c_new mem None = Some b0 /\ Forall valid_op os /\ Forall nul_free os /\ Forall no_reset os /\
  run_ops os b0 = Some b /\
  exists s, c_string (c_mem b) = Some s /\ forall n, firstn n (unbounded None os []) <> s.
Proof.
  exists [0;0;0], [OText [51;50;49]; OReverse 0]. eexists _, _. split; [reflexivity|].
  split; [repeat constructor; cbn; lia|]. split; [repeat constructor; cbn; lia|]. split; [repeat constructor|].
  split; [reflexivity|]. eexists. split; [reflexivity|]. intros [|[|[|[|]]]]; cbn; discriminate.
Qed.
