(** The SC/MP for the disassembler's driver: proofs. *)
From Coq Require Import String ZArith List Bool Lia.
From Verif Require Import M_Char M_Error M_Value M_Text M_StrBuffer M_Format M_Number M_Insn M_Config M_Operators M_BinMemory M_Listing
  M_Dis M_DisDriver M_DisCpus S_ByteMap S_Memory S_DisDriver S_DisCpus
  P_BinMemory P_Config P_AsmText P_CpuShape P_CpuGood P_DisDriver P_DisCpus M_Ins8060Defs M_Ins8060 P_Ins8060 M_DisIns8060.
Import ListNotations.
Local Open Scope Z_scope.

Lemma opcode_left d o s s' : da_symtab d = None -> decode_opcode d o s = Val s' -> (left_of s' <= left_of s)%nat.
Proof.
  intros S. unfold decode_opcode. destruct (find_opcode o) as [[e|]| | | |]; cbn [bind]; try discriminate.
  - destruct (e_mode e =? M_UNDEF); [injection 1 as <-; apply le_n|].
    set (s1 := t_readName (entry_name e) (t_seterr OK s)).
    destruct (operand_run d o (e_mode e) s1 S) as (s2 & R & I). rewrite R. cbn [bind]. injection 1 as <-.
    unfold left_of. rewrite (proj2 (check_in s2)), I. destruct (two (e_mode e)); [|apply le_n].
    destruct (t_byte s1) as [x s3] eqn:T. exact (proj1 (left_byte _ _ _ T)).
  - injection 1 as <-. apply le_n.
Qed.
Lemma ins8060_takes d : da_symtab d = None -> takes d (ins8060_decodeImpl d) 2.
Proof.
  intros S mem addr size F NE. destruct (decode_run d mem addr size S F) as (s & R & (_ & bs & M & L & I) & _).
  unfold P_Ins8060.start in R. rewrite <- canon_new in R. exists s, bs. split; [exact R|]. split; [exact M|]. split; [|split; [exact L|exact I]].
  intros ->. cbn [app] in M. unfold ins8060_decodeImpl in R.
  match type of R with (let '(_, _) := t_byte ?x in _) = _ => destruct (t_byte x) as [o s1] eqn:T end.
  pose proof (proj2 (left_byte _ _ _ T) NE) as L1. pose proof (opcode_left d o s1 s S R) as L2.
  unfold left_of in *. cbn [t_in d_mem] in L1. rewrite <- M in L2. lia.
Qed.
Lemma dis_scmp_done uh uc oc rel cs ih cur msg ws : image_of 16 ws -> disassembled (dis_scmp uh uc oc rel cs ih cur msg) ws.
Proof.
  apply (bytes_disassembled (dis_scmp uh uc oc rel cs ih cur msg) 2); try reflexivity; [cbn; lia| |lia].
  now apply ins8060_takes.
Qed.
