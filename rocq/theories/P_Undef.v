(** Codes that no instruction has are refused whatever follows them. *)
From Coq Require Import String ZArith List Bool Lia.
From Verif Require Import M_Char M_Error M_Value M_Text M_StrBuffer M_Format M_Insn M_Config M_Operators M_Dis S_Cpu S_Map P_Insn P_Config P_CpuShape P_CpuMap.
Import ListNotations.
Open Scope list_scope.
Local Open Scope Z_scope.

Definition unknown (e : err) : bool := match e with UNKNOWN_INSTRUCTION => true | _ => false end.
Definition refuses (d : disasm) (impl : M_Dis.dstate -> res M_Dis.dstate) (addr size : Z) (m code : list Z) : bool :=
  match opened d impl (code ++ m) addr size with
  | Val q => unknown (i_err (r_insn q)) && text_eqb (i_code (r_insn q)) code
  | _ => false
  end.
Lemma refused d impl addr size m code codes : 1 <= da_aw d <= 32 -> 0 <= addr < 2 ^ da_aw d -> forallb (refuses d impl addr size m) codes = true -> In code codes ->
  exists r, dis_decode d impl (code ++ m) addr size = Val r /\ i_err (r_insn r) = UNKNOWN_INSTRUCTION /\ i_code (r_insn r) = code.
Proof.
  intros AW A H IN. rewrite forallb_forall in H. specialize (H _ IN). assert (B : 2 ^ da_aw d <= 2 ^ 32) by (apply Z.pow_le_mono_r; lia).
  assert (C : checkAddr (da_aw d) addr false = OK).
  { rewrite checkAddr_false by lia. replace (2 ^ da_aw d <=? addr) with false by lia. reflexivity. }
  rewrite (opened_decode _ _ _ _ _ C). unfold refuses in H. destruct (opened d impl (code ++ m) addr size) as [q| | | |]; try discriminate H.
  apply andb_prop in H. destruct H as [E1 E2]. exists q. split; [reflexivity|]. split; [|now apply text_eqb_eq].
  destruct (i_err (r_insn q)); try discriminate; reflexivity.
Qed.
(* four bytes taken *)
Definition refuses4 (d : disasm) (impl : M_Dis.dstate -> res M_Dis.dstate) (addr size : Z) (mem : list Z) : bool :=
  match opened d impl mem addr size with
  | Val q => unknown (i_err (r_insn q)) && Nat.eqb (length (i_code (r_insn q))) 4
  | _ => false
  end.
Lemma refused4 d impl addr size mem : 1 <= da_aw d <= 32 -> 0 <= addr < 2 ^ da_aw d -> refuses4 d impl addr size mem = true ->
  exists r, dis_decode d impl mem addr size = Val r /\ i_err (r_insn r) = UNKNOWN_INSTRUCTION /\ length (i_code (r_insn r)) = 4%nat.
Proof.
  intros AW A H. assert (B : 2 ^ da_aw d <= 2 ^ 32) by (apply Z.pow_le_mono_r; lia).
  assert (C : checkAddr (da_aw d) addr false = OK).
  { rewrite checkAddr_false by lia. replace (2 ^ da_aw d <=? addr) with false by lia. reflexivity. }
  rewrite (opened_decode _ _ _ _ _ C). unfold refuses4 in H. destruct (opened d impl mem addr size) as [q| | | |]; try discriminate H.
  apply andb_prop in H. destruct H as [E1 E2]. exists q. split; [reflexivity|]. split; [|now apply Nat.eqb_eq].
  destruct (i_err (r_insn q)); try discriminate; reflexivity.
Qed.
