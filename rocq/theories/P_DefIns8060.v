(** The SC/MP disassembler has a name for every code of the manual: proofs. *)
From Coq Require Import String ZArith List Bool Lia.
From Verif Require Import M_Char M_Error M_Value M_Text M_StrBuffer M_Format M_Insn M_Config M_Operators
  M_Table M_Dis M_Ins8060Defs T_Ins8060 M_Ins8060 S_Ins8060 P_Insn P_Config P_AsmText P_CpuShape P_CpuGood P_CpuText P_Ins8060.
Import ListNotations.
Open Scope list_scope.
Local Open Scope Z_scope.

Lemma print_name f s s' : t_print f s = Val s' -> t_name s' = t_name s.
Proof. unfold t_print. destruct (f (t_out s)); cbn; try discriminate. now injection 1 as <-. Qed.
Lemma byte_name s : t_name (snd (t_byte s)) = t_name s.
Proof. unfold t_byte. destruct (readByte (t_in s)). reflexivity. Qed.
Lemma indx_name d opc mode h s s' : decodeIndx d opc mode h s = Val s' -> t_name s' = t_name s.
Proof.
  unfold decodeIndx. set (s0 := if h && _ then _ else s).
  assert (I : t_name s0 = t_name s) by (unfold s0; destruct (h && _); reflexivity). clearbody s0. cbv zeta. rewrite <- I.
  pose proof (byte_name s0) as B. destruct (t_byte s0) as [opr s1]. cbn [snd] in B. rewrite <- B.
  destruct (_ =? REG_PC); [destruct (_ && _); apply print_name|].
  destruct (opr =? 128); [cbn; now injection 1 as <-|].
  destruct (t_print (dis_outDec d (u32 (int8 opr)) (-8)) s1) as [s2| | | |] eqn:P; cbn; try discriminate.
  injection 1 as <-. exact (print_name _ _ _ P).
Qed.
Lemma operand_name d opc mode s s' : decodeOperand d opc mode s = Val s' -> t_name s' = t_name s.
Proof.
  unfold decodeOperand. destruct (mode =? M_PNTR); [now injection 1 as <-|].
  destruct (mode =? M_IMM8).
  { pose proof (byte_name s) as B. destruct (t_byte s) as [v s1]. cbn [snd] in B. rewrite <- B. apply print_name. }
  destruct (_ || _); [apply indx_name|]. destruct (_ =? M_INDX); [apply indx_name|]. now injection 1 as <-.
Qed.
Definition undefb (o : Z) : bool := existsb (fun l => match l with [c] => c =? o | _ => false end) undef_scmp.
Lemma undefb_in o : undefb o = true <-> In [o] undef_scmp.
Proof.
  unfold undefb. rewrite existsb_exists. split.
  - intros (l & I & E). destruct l as [|c [|]]; try discriminate. apply Z.eqb_eq in E. now subst c.
  - intros I. exists [o]. split; [exact I|apply Z.eqb_refl].
Qed.
Definition known (o : Z) : bool :=
  match find_opcode o with
  | Val (Some e) => negb (e_mode e =? M_UNDEF) && negb (match entry_name e with [] => true | _ => false end)
  | _ => false
  end.
Lemma known_check : forallb (fun o => Bool.eqb (known o) (negb (undefb o))) all_bytes = true.
Proof. vm_compute. reflexivity. Qed.
Lemma known_at o : byte o -> known o = negb (undefb o).
Proof. intros B. pose proof known_check as H. rewrite forallb_forall in H. apply eqb_prop, H, all_in, B. Qed.
Lemma shown_name d o m addr size r : da_aw d = 16 -> byte o -> 0 <= addr < 65536 ->
  ins8060_decode d (o :: m) addr size = Val r -> (r_name r <> [] <-> ~ In [o] undef_scmp).
Proof.
  intros AW B A D. rewrite <- undefb_in. unfold ins8060_decode, dis_decode in D.
  assert (C : checkAddr (da_aw d) addr false = OK).
  { rewrite AW, checkAddr_false by (cbn; lia). replace (2 ^ 16 <=? addr) with false by (change (2^16) with 65536; lia). reflexivity. }
  rewrite C in D. cbn [isOK negb] in D. unfold ins8060_decodeImpl in D.
  match type of D with context [t_byte (mkDst _ _ ?b)] => change (t_byte _) with (t_byte (at_ addr [] (o :: m) [] b)) in D end.
  rewrite t_byte_at in D by (assumption || cbn; lia). unfold decode_opcode in D.
  pose proof (known_at o B) as K. unfold known in K. generalize dependent (undefb o). intros u K.
  destruct (find_opcode o) as [[e|]| | | |]; cbn [bind] in D; try discriminate D.
  - destruct (e_mode e =? M_UNDEF).
    + injection D as <-. destruct u; [|discriminate K]. cbn. tauto.
    + destruct (decodeOperand d o (e_mode e) _) as [s2| | | |] eqn:O in D; cbn [bind] in D; try discriminate D. apply operand_name in O.
      injection D as <-. cbn [r_name]. assert (TN : t_name (checkPage s2) = t_name s2) by (unfold checkPage; match goal with |- context [if ?c then t_setErrorIf _ _ else _] => destruct c end; reflexivity).
      rewrite TN, O. cbn [t_readName t_name t_out at_ t_seterr]. cbn [negb andb] in K.
      destruct (entry_name e) as [|c l]; cbn [negb] in K; destruct u; try discriminate K; cbn [map firstn]; [tauto|].
      split; intros _ X; discriminate X.
  - injection D as <-. destruct u; [|discriminate K]. cbn. tauto.
Qed.
