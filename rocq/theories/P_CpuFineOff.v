(** Facts shared by the proofs that what an assembler emits is an instruction of the disassembler,
    where what is shown depends on how many bytes have been read.
    [fineOff addr off nb k f]: after [off] bytes of an instruction at [addr], with the bytes [nb] next
    in memory and room for [k] letters, the part [f] of a disassembler takes exactly those bytes and
    meets no error. *)
From Coq Require Import String ZArith List Bool Lia ZifyBool.
From Verif Require Import M_Char M_Error M_Value M_Text M_StrBuffer M_Format M_Number M_Insn M_Config M_Operators
  M_Parsers M_Expr M_Directive M_Table M_Asm M_Dis P_StrBuffer P_Table P_Insn P_Config P_Room P_AsmText P_CpuShape P_CpuText P_CpuGood P_CpuRange P_CpuFine.
Import ListNotations.
Open Scope string_scope.
Open Scope list_scope.
Local Open Scope Z_scope.

Definition fineOff (addr : Z) (off : nat) (nb : list Z) (k : Z) (f : step) : Prop := forall bs m nm out, Forall byte nb -> Forall byte m -> length bs = off -> (off + length nb <= 64)%nat ->
  exists nm' out', f (at_ addr bs (nb ++ m) nm out) = Val (at_ addr (bs ++ nb) m nm' out') /\ adds k out out'.
Lemma fineOff_of addr off nb k f : fineAt addr nb k f -> fineOff addr off nb k f.
Proof. intros F bs m nm out A B L C. apply F; auto; lia. Qed.
Lemma fineOff_le addr off nb k k' f : k <= k' -> fineOff addr off nb k f -> fineOff addr off nb k' f.
Proof. intros L F bs m nm out A B LB C. destruct (F bs m nm out A B LB C) as (nm' & out' & E & Q). exists nm', out'. split; [exact E|]. now apply (adds_le k). Qed.
Lemma fineOff_seq addr off nb1 nb2 k1 k2 f g : fineOff addr off nb1 k1 f -> fineOff addr (off + length nb1) nb2 k2 g -> fineOff addr off (nb1 ++ nb2) (k1 + k2) (fun s => bind (f s) g).
Proof.
  intros F G bs m nm out A B LB C. apply Forall_app in A. destruct A as (A1 & A2). rewrite app_length in C.
  destruct (F bs (nb2 ++ m) nm out A1 ltac:(now apply Forall_app) LB ltac:(lia)) as (nm1 & out1 & E1 & Q1).
  destruct (G (bs ++ nb1) m nm1 out1 A2 B ltac:(rewrite app_length; lia) ltac:(lia)) as (nm2 & out2 & E2 & Q2).
  exists nm2, out2. rewrite <- app_assoc, E1. cbn [bind]. rewrite E2, <- app_assoc. split; [reflexivity|eapply adds_trans; eauto].
Qed.
Lemma fineOff_byte addr off x nb k g : (byte x -> fineOff addr (S off) nb k (g x)) -> fineOff addr off (x :: nb) k (fun s => let '(v, s) := t_byte s in g v s).
Proof.
  intros G bs m nm out A B LB C. inversion A as [|? ? X A']; subst. cbn [app]. rewrite t_byte_at by (try apply Forall_app; auto; cbn [length] in C; lia).
  destruct (G X (bs ++ [x]) m nm out A' B ltac:(rewrite app_length; cbn [length] in *; lia) ltac:(cbn [length] in *; lia)) as (nm' & out' & E & Q).
  exists nm', out'. rewrite E, <- app_assoc. split; [reflexivity|exact Q].
Qed.
(* the address and the length so far *)
Lemma fineOff_insn addr off nb k (g : insn -> step) : (forall i, i_addr i = addr -> i_len i = Z.of_nat off -> fineOff addr off nb k (g i)) -> fineOff addr off nb k (fun s => g (d_insn (t_in s)) s).
Proof. intros G bs m nm out A B L C. cbn [at_ t_in d_insn]. apply G; auto. unfold canon. cbn [i_len]. now rewrite L. Qed.
Lemma fineOff_check addr off nb k e f : e = OK -> fineOff addr off nb k f -> fineOff addr off nb k (fun s => f (t_setErrorIf e s)).
Proof. intros -> F bs m nm out A B L C. now apply F. Qed.

Lemma fineOff_decode d pfx F C p o nb m addr size k :
  (p = 0 /\ pfx o = false) \/ (p <> 0 /\ pfx p = true) -> byte p -> byte o ->
  (forall mem s, within addr mem 2 s -> F p o s = C p o (t_seterr OK s)) ->
  checkAddr (da_aw d) addr false = OK -> Forall byte nb -> Forall byte m -> (length nb <= 60)%nat -> fineOff addr (length (opcode_bytes p o)) nb k (C p o) -> k <= size - 1 ->
  exists r, dis_decode d (decode_impl pfx F) (opcode_bytes p o ++ nb ++ m) addr size = Val r /\ r_insn r = canon addr (opcode_bytes p o ++ nb).
Proof.
  intros PO BP BO START CA BN BM LN FI SZ. unfold dis_decode. rewrite CA. cbn [isOK negb].
  set (out := mkB [] (size - 1) OK (Some (da_uppercase d))).
  assert (S0 : forall mem, mkDst (M_Insn.mkD (new_insn addr) mem OK) [] out = at_ addr [] mem [] out) by (intros mem; unfold at_; now rewrite canon_new).
  rewrite S0.
  assert (FB : Forall byte (nb ++ m)) by now apply Forall_app.
  assert (GO : decode_impl pfx F (at_ addr [] (opcode_bytes p o ++ nb ++ m) [] out) = C p o (at_ addr (opcode_bytes p o) (nb ++ m) [] out)).
  { unfold decode_impl, opcode_bytes. destruct PO as [(-> & PX)|(NP & PX)].
    - cbn [Z.eqb negb app]. rewrite t_byte_at by (auto; cbn; lia). rewrite PX. cbn [app]. rewrite (START (o :: nb ++ m)); [reflexivity|].
      split; [now constructor|]. exists [o]. cbn [at_ t_in d_mem d_insn app length]. auto with arith.
    - replace (p =? 0) with false by lia. cbn [negb app]. rewrite t_byte_at by (auto; cbn; lia). rewrite PX. cbn [app]. rewrite t_byte_at by (auto; cbn; lia).
      cbn [app]. change (d_err (t_in (at_ addr [p; o] (nb ++ m) [] out))) with OK. cbn [isOK negb]. rewrite (START (p :: o :: nb ++ m)); [reflexivity|].
      split; [constructor; [exact BP|now constructor]|]. exists [p; o]. cbn [at_ t_in d_mem d_insn app length]. auto with arith. }
  rewrite GO. assert (LO : (length (opcode_bytes p o) <= 2)%nat) by (unfold opcode_bytes; destruct (negb _); cbn; lia).
  destruct (FI (opcode_bytes p o) m [] out BN BM eq_refl ltac:(lia)) as (nm' & out' & E & Q).
  rewrite E. cbn [bind].
  eexists. split; [reflexivity|]. cbn [r_insn at_ t_in d_err d_insn t_out].
  destruct Q as (_ & _ & _ & _ & _ & NE). assert (EO : b_err out' = OK) by (apply NE; [reflexivity|cbn; unfold b_mark; cbn; lia]).
  set (i := canon addr (opcode_bytes p o ++ nb)). assert (IE : i_seterr OK i = i) by reflexivity. rewrite IE. change (i_err i) with OK. cbn [isOK]. rewrite EO. exact IE.
Qed.
