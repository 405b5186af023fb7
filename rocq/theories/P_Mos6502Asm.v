(** The 6502 family: proof of the round trip, reading back. *)
From Coq Require Import String ZArith List Bool Lia ZifyBool.
From Verif Require Import M_Char M_Error M_Value M_Text M_StrBuffer M_Format M_Number M_Insn M_Config M_Operators
  M_Parsers M_Expr M_Directive M_Table T_Tables M_Asm M_Dis M_Mos6502Defs T_Mos6502 M_Mos6502
  S_Value S_Number S_Expr S_ExprTree S_Table P_StrBuffer P_Number P_NumberRead
  P_ExprRead P_ExprTree P_ExprCase P_Table P_Insn P_Config P_Value P_Directive P_AsmText P_CpuShape P_CpuGood P_CpuText P_CpuSigned P_Mos6502.
From Verif Require P_CpuRange P_Mc6800.
Import ListNotations.
Open Scope string_scope.
Open Scope list_scope.
Local Open Scope Z_scope.

Definition fam65 : family := mkFam pl_mos6502 prefix_c infix_c (s2l "$%@&").
Lemma head65 u n : numeral np_motorola u n -> head_ok fam65 u.
Proof. exact (P_Mc6800.head68 u n). Qed.
Lemma parse_place65 a loc delim t v b rest : a_pl a = pl_mos6502 -> a_radix a = 10 -> In delim [0; 41; 93] -> 0 <= loc < 2^32 -> 0 <= v < 2^32 ->
  place_text np_motorola 42 loc t v -> blanks b ->
  rest = [] \/ (exists c u, rest = c :: u /\ (c = 44 \/ c = 59 \/ (c = delim /\ c <> 0))) ->
  exists b' w, blanks b' /\ parseInteger a loc (t ++ b ++ rest) OK delim = Val (w, OK, b' ++ rest) /\ int_value w /\ int_of w = v.
Proof.
  intros PL RX DL LO V P B T.
  destruct (parse_place fam65 a loc delim 42 [] t v b rest) as (b' & w & X1 & X2 & X3 & X4 & _); auto.
  - cbn. auto 20.
  - cbn in *. tauto.
  - cbn. auto.
  - apply head65.
  - cbn. auto 30.
  - cbn. auto 30.
  - intros e I L r. cbn in I. repeat (destruct I as [<-|I]; [cbn in *; try lia; split; discriminate|]). contradiction.
  - constructor.
  - exists b', w. auto.
Qed.
Lemma names_65 : names_ok REG_ENTRIES REG_UNDEF = true.
Proof. vm_compute. reflexivity. Qed.
Lemma reg_parse s : parseRegName s = parse_name REG_ENTRIES REG_UNDEF s.
Proof. reflexivity. Qed.
(* what starts an operand after its bracket *)
Definition starts (t : text) : Prop := t <> [] /\ is_space (peek t) = false /\ ~ In (peek t) [0; 35; 40; 59; 91].
Lemma starts_skip b t z : blanks b -> starts t -> skipSpaces (b ++ t ++ z) = t ++ z.
Proof. intros B (N & S & _). rewrite skip_blanks by exact B. destruct t as [|c t]; [congruence|]. cbn [app]. now apply skip_none. Qed.
Lemma starts_app t z : starts t -> starts (t ++ z).
Proof. intros (N & S). destruct t as [|c t]; [congruence|]. split; [discriminate|exact S]. Qed.
Lemma head_cases u : head_ok fam65 u -> exists c v, u = c :: v /\ (is_digit c = true \/ In c [36; 37; 64; 38; 42]).
Proof.
  intros H. unfold head_ok in H. destruct u as [|c u].
  - exfalso. cbn in H. intuition discriminate.
  - exists c, u. split; [reflexivity|]. cbn in H. cbn. tauto.
Qed.
Lemma place_head loc t v : place_text np_motorola 42 loc t v -> exists c u, t = c :: u /\ (is_digit c = true \/ In c [36; 37; 64; 38; 42]).
Proof.
  intros [N|[(-> & _)|(u & n & [(-> & _)|(-> & _)] & _)]].
  - apply head65, head_cases in N. exact N.
  - exists 42, []. cbn. auto 10.
  - exists 42, (43 :: u). cbn. auto 10.
  - exists 42, (45 :: u). cbn. auto 10.
Qed.
(* the size override *)
Definition pre_ok (pre : text) (size : Z) : Prop := (pre = [] /\ size = 0) \/ (pre = [62] /\ size = 62) \/ (pre = [62; 62] /\ size = 125).
Lemma pre_facts pre size loc t v z : pre_ok pre size -> place_text np_motorola 42 loc t v ->
  starts (pre ++ t) /\ parseRegName (pre ++ t ++ z) = Val (REG_UNDEF, pre ++ t ++ z) /\ parseSizeOverride (pre ++ t ++ z) = (size, t ++ z).
Proof.
  intros P N. destruct (place_head _ _ _ N) as (c & u & -> & H). rewrite reg_parse.
  assert (ND : is_digit c = true -> c <> 62 /\ c <> 60 /\ is_space c = false /\ ~ In c [0; 35; 40; 59; 91]) by (unfold is_digit, is_space; cbn; lia).
  assert (NO : In c [36; 37; 64; 38; 42] -> c <> 62 /\ c <> 60 /\ is_space c = false /\ ~ In c [0; 35; 40; 59; 91]).
  { intros I. cbn in I. repeat (destruct I as [<-|I]; [cbn; lia|]). contradiction. }
  assert (C : c <> 62 /\ c <> 60 /\ is_space c = false /\ ~ In c [0; 35; 40; 59; 91]) by tauto. destruct C as (C1 & C2 & C3 & C4).
  apply Z.eqb_neq in C1, C2. destruct P as [(-> & ->)|[(-> & ->)|(-> & ->)]]; cbn [app]; split; try (split; [discriminate|cbn [peek]; split; [assumption || reflexivity|assumption || (cbn; lia)]]).
  - split; [|unfold parseSizeOverride; cbn [expect_char]; rewrite C2, C1; reflexivity].
    apply (name_none _ _ names_65). destruct H as [H|H]; [now right|]. left. cbn in H. repeat (destruct H as [<-|H]; [reflexivity|]). contradiction.
  - split; [|unfold parseSizeOverride; cbn [expect_char Z.eqb Pos.eqb]; cbn [expect_char]; rewrite C1; reflexivity].
    apply (name_none _ _ names_65). now left.
  - split; [|reflexivity]. apply (name_none _ _ names_65). now left.
Qed.
(* the registers *)
Definition regs : list Z := map snd REG_ENTRIES.
Definition startsb (t : text) : bool := negb (is_space (peek t)) && negb (existsb (Z.eqb (peek t)) [0; 35; 40; 59; 91]).
Definition reg_check (k : bool) (r : Z) : bool :=
  let w := map (conv (Some k)) (reg_text r) in
  word w && startsb w && match parseRegName w with Val (r', []) => r' =? r | _ => false end && negb (r =? REG_UNDEF).
Lemma reg_checks : forallb (fun k => forallb (reg_check k) regs) [false; true] = true.
Proof. vm_compute. reflexivity. Qed.
Lemma reg_read k r z : In r regs -> isNameLetter (peek z) = false ->
  starts (map (conv (Some k)) (reg_text r)) /\ parseRegName (map (conv (Some k)) (reg_text r) ++ z) = Val (r, z) /\ r <> REG_UNDEF.
Proof.
  intros R Z. pose proof reg_checks as H. rewrite forallb_forall in H. specialize (H k ltac:(destruct k; cbn; auto)). rewrite forallb_forall in H. specialize (H r R).
  unfold reg_check in H. cbv zeta in H. rewrite !andb_true_iff in H. destruct H as (((W & S) & P) & U). set (w := map _ _) in *.
  unfold startsb in S. rewrite andb_true_iff, !negb_true_iff in S. destruct S as (S1 & S2). apply negb_true_iff, Z.eqb_neq in U. split; [|split; [|exact U]].
  - split; [intros E; rewrite E in W; discriminate|]. split; [exact S1|]. intros I. assert (existsb (Z.eqb (peek w)) [0; 35; 40; 59; 91] = true); [|congruence].
    apply existsb_exists. exists (peek w). split; [exact I|apply Z.eqb_refl].
  - rewrite reg_parse in *. apply name_app; auto. destruct (parse_name REG_ENTRIES REG_UNDEF w) as [[r' [|? ?]]| | | |]; try discriminate.
    apply Z.eqb_eq in P. now subst r'.
Qed.

(* ------------------------------------------------------------ an operand *)
Definition modes_of (K : kind) : list Z :=
  match K with
  | K_none => [M_NONE]
  | K_reg r => [regName2AddrMode r]
  | K_imm _ => [M_IMA]
  | K_abs => [M_ABS]
  | K_absl jsl => if jsl then [M_ABSL; M_ABS; M_DPG] else [M_ABSL]
  | K_dpg => [M_DPG]
  | K_rel | K_lrel | K_bank => [M_ABSL; M_ABS; M_DPG]
  end.
Definition reads (K : kind) (fl v : Z) (op : operand) : Prop :=
  In (o_mode op) (map (embedFlags fl) (modes_of K)) /\ o_err op = OK /\
  match K with K_none | K_reg _ => True | _ => int_value (o_val op) /\ int_of (o_val op) = v end.
Definition kind_ok (K : kind) : Prop := match K with K_reg r => In r regs | _ => True end.
Lemma aw_small ty : 2 ^ addressWidth ty <= 2^24.
Proof. pose proof (aw_cases ty). apply Z.pow_le_mono_r; lia. Qed.
Lemma piece_range ty K k addr pos t nb v : piece np_motorola ty K k addr pos t nb v -> 0 <= addr < 2 ^ addressWidth ty -> 0 <= v < 2^24.
Proof.
  pose proof (aw_small ty) as W.
  assert (G : forall p n d, chk ty (goal_of addr p n d) addr = OK -> 0 <= addr < 2 ^ addressWidth ty -> 0 <= goal_of addr p n d < 2^24).
  { intros p n d C A. apply chk_range in C; [lia|unfold goal_of, u32; apply Z.mod_pos_bound; lia|exact A]. }
  unfold byte. destruct K; cbn [piece]; unfold byte; intros H A.
  - lia.
  - lia.
  - destruct H as (u & _ & _ & H). destruct w; [destruct H as (lo & hi & _ & H1 & H2 & ->)|]; lia.
  - destruct H as (lo & hi & u & _ & H1 & H2 & -> & _). lia.
  - destruct H as (lo & hi & bk & u & _ & H1 & H2 & H3 & -> & _). lia.
  - lia.
  - destruct H as (x & _ & _ & -> & C & _). now apply G.
  - destruct H as (lo & hi & _ & _ & _ & -> & C & _). now apply G.
  - destruct H as (_ & _ & x & H & ->). lia.
Qed.
(* brackets *)
Definition opener (fl : Z) : Z := if fl =? 16 then 40 else 91.
Definition closer (fl : Z) : Z := if fl =? 0 then 0 else if fl =? 16 then 41 else 93.
Definition wrap (fl : Z) (o c : bool) (t : text) : text := (if o then [opener fl] else []) ++ t ++ (if c then [closer fl] else []).
Definition flags_ok (fl : Z) (o c : bool) : Prop := (fl = 0 /\ o = false /\ c = false) \/ fl = 16 \/ fl = 32.
Definition body (a : asm) (loc : Z) (scan : text) (flags indir : Z) (p : text) : res (operand * text * Z) :=
  bind (parseRegName (skipSpaces p)) (fun '(reg, p) =>
    let close (op : operand) p :=
      let op := mkOp (embedFlags flags (o_mode op)) (o_val op) (o_err op) in
      if indir =? 0 then Val (op, p, indir)
      else
        match parseCloseIndirect p indir with
        | None => Val (mkOp (o_mode op) (o_val op) UNKNOWN_OPERAND, scan, indir)
        | Some (p, indir) => Val (op, p, indir)
        end in
    if negb (reg =? REG_UNDEF) then close (mkOp (regName2AddrMode reg) v_undef OK) p
    else
      let '(size, p) := parseSizeOverride p in
      bind (parseInteger a loc p OK indir) (fun '(v, e, p) =>
        if hasError e then Val (mkOp flags v e, scan, indir)
        else close (mkOp (selectMode size v e) v e) p)).
Lemma eol_no c s : is_space c = false -> ~ In c [0; 35; 40; 59; 91] \/ c = 40 \/ c = 91 \/ c = 35 -> fst (eol_star (c :: s)) = false.
Proof.
  intros S C. unfold eol_star. rewrite skip_none by exact S. cbn [peek fst]. cbn in C. unfold is_space in S. lia.
Qed.
Lemma parse_open a loc b0 fl o c y : a_pl a = pl_mos6502 -> flags_ok fl o c -> blanks b0 -> starts y ->
  exists scan, parseOperand a loc (b0 ++ (if o then [opener fl] else []) ++ y) (if o then 0 else closer fl) = body a loc scan fl (closer fl) y.
Proof.
  intros PL FL B0 ST. unfold parseOperand. cbv zeta. rewrite PL. change (p_eol pl_mos6502) with eol_star. rewrite skip_blanks by exact B0.
  assert (SKY : skipSpaces y = y) by (pose proof (starts_skip [] y [] (Forall_nil _) ST) as SK; cbn [app] in SK; now rewrite app_nil_r in SK).
  destruct y as [|x y]; [destruct ST; congruence|]. destruct ST as (_ & S1 & S2). cbn [peek] in S1, S2.
  assert (C1 : forall k, In k [0; 35; 40; 59; 91] -> x =? k = false).
  { intros k I. apply Z.eqb_neq. intros ->. now apply S2. }
  destruct FL as [(-> & -> & ->)|FL].
  - cbn [app]. rewrite SKY. rewrite eol_no by auto. cbn [expect_char]. rewrite (C1 35) by (cbn; auto). unfold parseOpenIndirect. cbn [expect_char].
    rewrite (C1 40), (C1 91) by (cbn; auto 10). cbn [closer Z.eqb]. eexists. reflexivity.
  - destruct o.
    + exists (opener fl :: x :: y). destruct FL as [->| ->]; reflexivity.
    + cbn [app]. rewrite SKY. rewrite eol_no by auto. cbn [expect_char]. rewrite (C1 35) by (cbn; auto). unfold parseOpenIndirect. cbn [expect_char].
      rewrite (C1 40), (C1 91) by (cbn; auto 10). exists (x :: y). destruct FL as [->| ->]; reflexivity.
Qed.
Definition after (fl : Z) (c : bool) (b rest : text) : text * text := if c then ([], closer fl :: b ++ rest) else (b, rest).
Lemma tail_skip b rest : blanks b -> tail rest -> skipSpaces (b ++ rest) = rest.
Proof.
  intros B T. rewrite skip_blanks by exact B. destruct T as [->|(c & u & -> & [->| ->])]; [reflexivity|apply skip_none; reflexivity..].
Qed.
Lemma close_ok fl o c op p b b' rest scan : flags_ok fl o c -> blanks b -> blanks b' -> c = true \/ tail rest ->
  p = b' ++ snd (after fl c b rest) ->
  exists b'', blanks b'' /\
    (if closer fl =? 0 then Val (op, p, closer fl)
     else match parseCloseIndirect p (closer fl) with
          | None => Val (mkOp (o_mode op) (o_val op) UNKNOWN_OPERAND, scan, closer fl)
          | Some (p, indir) => Val (op, p, indir)
          end) = Val (op, b'' ++ rest, if c then 0 else closer fl).
Proof.
  intros FL B B' T ->. unfold after. destruct FL as [(-> & -> & ->)|FL]; [exists b'; auto|].
  destruct c; cbn [snd].
  - exists b. split; [exact B|]. unfold parseCloseIndirect. cbv zeta. rewrite skip_blanks by exact B'.
    destruct FL as [->| ->]; reflexivity.
  - destruct T as [T|T]; [discriminate|]. exists []. split; [constructor|]. unfold parseCloseIndirect. cbv zeta. rewrite tail_skip by assumption.
    assert (X : expect_char 41 rest = None /\ expect_char 93 rest = None) by (destruct T as [->|(x & u & -> & [->| ->])]; auto). destruct X as (-> & ->).
    destruct FL as [->| ->]; reflexivity.
Qed.
Lemma after_tail fl o c b rest : flags_ok fl o c -> c = true \/ tail rest ->
  snd (after fl c b rest) = [] \/ (exists x u, snd (after fl c b rest) = x :: u /\ (x = 44 \/ x = 59 \/ (x = closer fl /\ x <> 0))).
Proof.
  intros FL T. unfold after. destruct c; cbn [snd].
  - right. exists (closer fl), (b ++ rest). split; [reflexivity|]. right. right. split; [reflexivity|].
    destruct FL as [(_ & _ & FL)|[->| ->]]; discriminate.
  - destruct T as [T|[->|(x & u & -> & C)]]; [discriminate|auto|]. right. exists x, u. tauto.
Qed.
Lemma blanks_after fl (c : bool) b rest : blanks b -> blanks (fst (after fl c b rest)).
Proof. intros B. unfold after. destruct c; [constructor|exact B]. Qed.
Lemma after_noname fl o c b rest : flags_ok fl o c -> blanks b -> c = true \/ tail rest ->
  isNameLetter (peek (fst (after fl c b rest) ++ snd (after fl c b rest))) = false.
Proof.
  intros FL B T. unfold after. destruct c; cbn [fst snd app].
  - cbn [peek]. destruct FL as [(_ & _ & FL)|[->| ->]]; [discriminate|reflexivity..].
  - destruct T as [T|T]; [discriminate|]. now apply tail_noname.
Qed.
Lemma wrap_eq fl (o c : bool) t b rest : wrap fl o c t ++ b ++ rest = (if o then [opener fl] else []) ++ t ++ fst (after fl c b rest) ++ snd (after fl c b rest).
Proof. unfold wrap, after. rewrite <- !app_assoc. destruct c; reflexivity. Qed.
Lemma closer_in fl o c : flags_ok fl o c -> In (closer fl) [0; 41; 93].
Proof. intros [(-> & _)|[->| ->]]; cbn; auto. Qed.
Lemma mode_embed fl m : In m [M_ABSL; M_ABS; M_DPG] -> forall l, In m l -> In (embedFlags fl m) (map (embedFlags fl) l).
Proof. intros _ l I. now apply in_map. Qed.
Definition is_imm (K : kind) : bool := match K with K_imm _ => true | _ => false end.
Lemma parse_el ty K k addr pos t nb v a b0 b rest fl o c :
  a_pl a = pl_mos6502 -> a_radix a = 10 -> K <> K_none -> kind_ok K -> piece np_motorola ty K (Some k) addr pos t nb v ->
  0 <= addr < 2 ^ addressWidth ty -> 0 <= pos <= 8 -> flags_ok fl o c -> (is_imm K = true -> fl = 0 /\ o = false /\ c = false) ->
  blanks b0 -> blanks b -> c = true \/ tail rest ->
  exists b' op, blanks b' /\ parseOperand a addr (b0 ++ wrap fl o c t ++ b ++ rest) (if o then 0 else closer fl) = Val (op, b' ++ rest, if c then 0 else closer fl) /\
    reads K fl v op.
Proof.
  intros PL RX NK KO P AR PR FL IMM B0 B T. pose proof (piece_range _ _ _ _ _ _ _ _ P AR) as VR. pose proof (aw_small ty) as AWS.
  assert (AR' : 0 <= addr < 2^32) by lia. assert (VR' : 0 <= v < 2^32) by lia.
  assert (NUM : forall pre size u, pre_ok pre size -> place_text np_motorola 42 addr u v -> t = pre ++ u ->
     (forall w, int_value w -> int_of w = v -> In (selectMode size w OK) (modes_of K)) -> (forall m w, reads K fl v (mkOp (embedFlags fl m) w OK) <-> In (embedFlags fl m) (map (embedFlags fl) (modes_of K)) /\ int_value w /\ int_of w = v) ->
     exists b' op, blanks b' /\ parseOperand a addr (b0 ++ wrap fl o c t ++ b ++ rest) (if o then 0 else closer fl) = Val (op, b' ++ rest, if c then 0 else closer fl) /\ reads K fl v op).
  { intros pre size u PO PT -> SM RDS. rewrite wrap_eq. set (z := fst (after fl c b rest) ++ snd (after fl c b rest)).
    destruct (pre_facts pre size addr u v z PO PT) as (ST & RG & SO).
    destruct (parse_open a addr b0 fl o c ((pre ++ u) ++ z) PL FL B0 (starts_app _ _ ST)) as (scan & ->).
    destruct (parse_place65 a addr (closer fl) u v (fst (after fl c b rest)) (snd (after fl c b rest)) PL RX (closer_in _ _ _ FL) AR' VR' PT (blanks_after _ _ _ _ B) (after_tail _ _ _ _ _ FL T))
      as (b' & w & B' & PI & IV & IO). fold z in PI.
    destruct (close_ok fl o c (mkOp (embedFlags fl (selectMode size w OK)) w OK) (b' ++ snd (after fl c b rest)) b b' rest scan FL B B' T eq_refl) as (b'' & B'' & CL).
    exists b'', (mkOp (embedFlags fl (selectMode size w OK)) w OK). split; [exact B''|]. split.
    - unfold body. pose proof (starts_skip [] (pre ++ u) z (Forall_nil _) ST) as SK. cbn [app] in SK. rewrite SK, <- app_assoc, RG. cbn [bind].
      change (REG_UNDEF =? REG_UNDEF) with true. cbn [negb]. rewrite SO, PI. cbn [bind]. change (hasError OK) with false. cbv iota. cbn [o_mode o_val o_err] in *. exact CL.
    - apply RDS. split; [apply in_map; now apply SM|auto]. }
  assert (SEL : forall w, int_value w -> int_of w = v -> selectMode 0 w OK = if 65535 <? v then M_ABSL else if 255 <? v then M_ABS else M_DPG).
  { intros w IV IO. unfold selectMode. cbn [Z.eqb]. rewrite !(P_CpuText.over w v) by (auto; lia). change (isOK OK) with true. now rewrite andb_true_r. }
  destruct K; cbn [piece kind_ok] in P, KO.
  - congruence.
  - destruct P as (-> & -> & ->). destruct (reg_read k r _ KO (after_noname fl o c b rest FL B T)) as (ST & RR & NU).
    rewrite wrap_eq. set (w := map _ _) in *. set (z := fst (after fl c b rest) ++ snd (after fl c b rest)) in *.
    destruct (parse_open a addr b0 fl o c (w ++ z) PL FL B0 (starts_app _ _ ST)) as (scan & ->).
    destruct (close_ok fl o c (mkOp (embedFlags fl (regName2AddrMode r)) v_undef OK) z b (fst (after fl c b rest)) rest scan FL B (blanks_after _ _ _ _ B) T eq_refl) as (b'' & B'' & CL).
    exists b'', (mkOp (embedFlags fl (regName2AddrMode r)) v_undef OK). split; [exact B''|]. split.
    + unfold body. pose proof (starts_skip [] w z (Forall_nil _) ST) as SK. cbn [app] in SK. rewrite SK, RR. cbn [bind]. apply Z.eqb_neq in NU. rewrite NU. cbn [negb].
      cbn [o_mode o_val o_err] in *. exact CL.
    + split; [cbn; auto|auto].
  - destruct (IMM eq_refl) as (-> & -> & ->). destruct P as (u & -> & N & _). unfold wrap. cbn [app closer Z.eqb]. rewrite app_nil_r.
    destruct T as [T|T]; [discriminate|].
    destruct (parse_place65 a addr 0 u v b rest PL RX ltac:(cbn; auto) AR' VR' (or_introl N) B) as (b' & w' & B' & PI & IV & IO).
    { destruct T as [->|(x & q & -> & C)]; [auto|]. right. exists x, q. tauto. }
    exists b', (mkOp M_IMA w' OK). split; [exact B'|]. split; [|split; [cbn; auto|auto]].
    unfold parseOperand. cbv zeta. rewrite PL. change (p_eol pl_mos6502) with eol_star. rewrite skip_blanks by exact B0. rewrite (skip_none 35) by reflexivity.
    rewrite eol_no by auto. cbn [expect_char]. change (35 =? 35) with true. cbv iota.
    destruct (head_cases u (head65 u v N)) as (x & q & -> & H). cbn [app expect_char].
    assert (X : x =? 60 = false /\ x =? 62 = false).
    { destruct H as [H|H]; [unfold is_digit in H; lia|]. cbn in H. repeat (destruct H as [<-|H]; [auto|]). contradiction. }
    destruct X as (-> & ->). cbn [app] in PI. rewrite PI. cbn [bind]. change (hasError OK) with false. reflexivity.
  - destruct P as (lo & hi & u & _ & BH & BL & EV & N & ->). unfold byte in *.
    apply (NUM (if v <? 0x100 then [62] else []) (if v <? 0x100 then 62 else 0) u); [destruct (v <? 0x100); unfold pre_ok; auto|now left|reflexivity| |intros; unfold reads; cbn [o_mode o_val o_err]; tauto].
    intros w IV IO. destruct (Z.ltb_spec v 0x100); [cbn; auto|]. rewrite (SEL w IV IO). destruct (Z.ltb_spec 65535 v); [lia|]. destruct (Z.ltb_spec 255 v); [cbn; auto|lia].
  - destruct P as (lo & hi & bk & u & _ & BH & BL & BB & EV & N & ->).
    apply (NUM (if negb jsl && (v <? 0x10000) then [62; 62] else []) (if negb jsl && (v <? 0x10000) then 125 else 0) u); [destruct (_ && _); unfold pre_ok; auto|now left|reflexivity| |intros; unfold reads; cbn [o_mode o_val o_err]; tauto].
    intros w IV IO. destruct jsl; cbn [negb andb modes_of].
    + rewrite (SEL w IV IO). destruct (65535 <? v), (255 <? v); cbn; auto.
    + destruct (Z.ltb_spec v 0x10000); [cbn; auto|]. rewrite (SEL w IV IO). destruct (Z.ltb_spec 65535 v); [cbn; auto|lia].
  - destruct P as (N & _ & BV). unfold byte in BV. apply (NUM [] 0 t); [unfold pre_ok; auto|now left|reflexivity| |intros; unfold reads; cbn [o_mode o_val o_err]; tauto].
    intros w IV IO. rewrite (SEL w IV IO). destruct (Z.ltb_spec 65535 v); [lia|]. destruct (Z.ltb_spec 255 v); [lia|cbn; auto].
  - destruct P as (x & _ & _ & _ & _ & N). apply (NUM [] 0 t); [unfold pre_ok; auto|now apply N|reflexivity| |intros; unfold reads; cbn [o_mode o_val o_err]; tauto].
    intros w IV IO. rewrite (SEL w IV IO). destruct (65535 <? v), (255 <? v); cbn; auto.
  - destruct P as (lo & hi & _ & _ & _ & _ & _ & N). apply (NUM [] 0 t); [unfold pre_ok; auto|now apply N|reflexivity| |intros; unfold reads; cbn [o_mode o_val o_err]; tauto].
    intros w IV IO. rewrite (SEL w IV IO). destruct (65535 <? v), (255 <? v); cbn; auto.
  - destruct P as (N & _). apply (NUM [] 0 t); [unfold pre_ok; auto|now left|reflexivity| |intros; unfold reads; cbn [o_mode o_val o_err]; tauto].
    intros w IV IO. rewrite (SEL w IV IO). destruct (65535 <? v), (255 <? v); cbn; auto.
Qed.
