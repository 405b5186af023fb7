(** Opcode maps: a decoder that does not look at the address shows the same at every address. *)
From Coq Require Import String ZArith List Bool Lia.
From Verif Require Import M_Char M_Error M_Value M_Text M_StrBuffer M_Format M_Insn M_Config M_Operators M_Dis S_Cpu S_Map P_Insn P_Config P_CpuShape.
Import ListNotations.
Open Scope list_scope.
Local Open Scope Z_scope.

(* dis_decode after the check of the address *)
Definition opened (d : disasm) (impl : M_Dis.dstate -> res M_Dis.dstate) (mem : list Z) (addr size : Z) : res decoded :=
  bind (impl (mkDst (mkD (new_insn addr) mem OK) [] (mkB [] (size - 1) OK (Some (da_uppercase d))))) (fun s =>
    let i := i_seterr (d_err (t_in s)) (d_insn (t_in s)) in
    let i := if isOK (i_err i) then i_seterr (b_err (t_out s)) i else i in
    Val (mkDec i (t_name s) (b_txt (t_out s)))).
Lemma opened_decode d impl mem addr size : checkAddr (da_aw d) addr false = OK -> dis_decode d impl mem addr size = opened d impl mem addr size.
Proof. intros H. unfold dis_decode. rewrite H. reflexivity. Qed.

Definition shows (d : disasm) (impl : M_Dis.dstate -> res M_Dis.dstate) (addr : Z) (uc : bool) (r : row) : bool :=
  match opened d impl (snd r) addr 128 with
  | Val q => isOK (i_err (r_insn q)) && text_eqb (r_name q) (cased uc (fst (fst r))) && text_eqb (r_operands q) (cased uc (snd (fst r))) &&
      text_eqb (i_code (r_insn q)) (snd r)
  | _ => false
  end.
Lemma shows_decode d impl addr uc nm ops code : 1 <= da_aw d <= 32 -> 0 <= addr < 2 ^ da_aw d -> shows d impl addr uc (nm, ops, code) = true ->
  exists r, dis_decode d impl code addr 128 = Val r /\ i_err (r_insn r) = OK /\ r_name r = cased uc nm /\ r_operands r = cased uc ops /\ i_code (r_insn r) = code.
Proof.
  intros AW A H. assert (B : 2 ^ da_aw d <= 2 ^ 32) by (apply Z.pow_le_mono_r; lia).
  assert (C : checkAddr (da_aw d) addr false = OK).
  { rewrite checkAddr_false by lia. replace (2 ^ da_aw d <=? addr) with false by lia. reflexivity. }
  rewrite (opened_decode _ _ _ _ _ C). unfold shows in H. cbn [fst snd] in H.
  destruct (opened d impl code addr 128) as [q| | | |]; try discriminate H.
  apply andb_prop in H. destruct H as [H E4]. apply andb_prop in H. destruct H as [H E3]. apply andb_prop in H. destruct H as [E1 E2].
  exists q. split; [reflexivity|]. split; [now apply isOK_e|]. split; [now apply text_eqb_eq|]. split; now apply text_eqb_eq.
Qed.
Lemma shows_all d impl addr uc rows nm ops code : 1 <= da_aw d <= 32 -> 0 <= addr < 2 ^ da_aw d ->
  forallb (shows d impl addr uc) rows = true -> In (nm, ops, code) rows ->
  exists r, dis_decode d impl code addr 128 = Val r /\ i_err (r_insn r) = OK /\ r_name r = cased uc nm /\ r_operands r = cased uc ops /\ i_code (r_insn r) = code.
Proof. intros AW A H IN. rewrite forallb_forall in H. exact (shows_decode d impl addr uc nm ops code AW A (H _ IN)). Qed.

Definition code_ok (r : row) : bool := negb (Nat.eqb (length (snd r)) 0) && Nat.leb (length (snd r)) 2 && forallb (fun x => (0 <=? x) && (x <? 256)) (snd r).
Lemma code_ok_all rows nm ops code : forallb code_ok rows = true -> In (nm, ops, code) rows ->
  bytes_only code /\ code <> [] /\ (length code <= 2)%nat.
Proof.
  intros H IN. rewrite forallb_forall in H. specialize (H _ IN). unfold code_ok in H. cbn [fst snd] in H.
  apply andb_prop in H. destruct H as [H B]. apply andb_prop in H. destruct H as [L M]. split; [|split].
  - apply Forall_forall. intros x X. rewrite forallb_forall in B. specialize (B x X). lia.
  - intros ->. discriminate L.
  - now apply Nat.leb_le.
Qed.
Lemma cased_nil uc ops : ops = ""%string -> cased uc ops = [].
Proof. intros ->. destruct uc; reflexivity. Qed.
