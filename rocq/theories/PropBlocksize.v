(** C119: m_blocksize, the debug member of core_group that the checks of every access are compared with. *)
From Verif Require Import PropBucket PropGroup PropGroupMem PropDebugGroup PropDebugGroupSerial.
#[local] Open Scope nat_scope.

(** The words of the block, and the words that m_blocksize claims. *)
Definition block_words (d : dcore) : N := N.of_nat (core_bits (c_d d) / 64).
Definition no_del (o : cop) : Prop := match o with CDel _ => False | _ => True end.

Definition bs_inv (er : Prop) (w : nat) (d : dcore) (n : nat) : Prop :=
  c_len d = Some (N.of_nat n) /\ exists l bs, c_d d = Some l /\ c_bs d = Some (N.of_nat bs) /\ 64 * bs <= length l /\ 64 * cdiv (w * n) 64 <= length l
    /\ (length l = 64 * bs /\ bs = cdiv (w * (n + 1)) 64 \/ er).
Lemma dc_insert_len pf d i x w n d' : dc_insert pf d i x w n = Ok d' -> c_len d' = Some (N.of_nat (n + 1)).
Proof. unfold dc_insert. intros H. cbv zeta in H. repeat dinv1 H. by injection H as <-. Qed.
Lemma bs_step pf w er d n o d' n' r : 1 <= w -> (no_del o \/ er) -> bs_inv er w d n -> dcrun_step pf w (d, n) o = Ok (d', n', r) -> bs_inv er w d' n'.
Proof.
  intros Hw Hno (Hl & l & bs & Ed & Eb & H1 & H2 & H3) H. destruct o as [i x|i|i|i x|i m x]; cbn [dcrun_step] in H; dinv1 H; injection H as <- <- <-.
  - pose proof (dc_insert_len _ _ _ _ _ _ _ E) as L. pose proof (dc_insert_bs _ _ _ _ _ _ _ E) as B. pose proof (insert_bits _ _ _ _ _ _ _ (dc_insert_eq _ _ _ _ _ _ _ E)) as K.
    rewrite Ed in K. cbn [core_bits] in K.
    assert (M1 : cdiv (w * n) 64 <= cdiv (w * (n + 1)) 64) by (apply cdiv_mono, Nat.mul_le_mono_l; lia).
    assert (M2 : cdiv (w * (n + 1)) 64 <= cdiv (w * (n + 2)) 64) by (apply cdiv_mono, Nat.mul_le_mono_l; lia).
    split; [rewrite L; do 2 f_equal; lia|]. replace (S n) with (n + 1) by lia. replace (n + 1 + 1) with (n + 2) by lia.
    assert (P : exists l', c_d a = Some l').
    { destruct (c_d a) eqn:Ea; [eauto|]. exfalso. apply dc_insert_eq in E. rewrite Ea in E. unfold cg_insert in E. destruct (n <? i); [done|]. cbv zeta in E. rinv E. rinv E.
      unfold cg_put in E. destruct a1; [|done]. by rinv E. }
    destruct P as (l' & El). rewrite El in *. cbn [core_bits] in K. exists l', (cdiv (w * (n + 2)) 64). split; [done|]. split; [done|].
    generalize dependent (cdiv (w * (n + 2)) 64). generalize dependent (cdiv (w * (n + 1)) 64). generalize dependent (cdiv (w * n) 64). intros a0 Ha0 a1 H3 Ha1 a2 B K Ha2.
    destruct (Nat.ltb_spec a0 a2).
    + split; [lia|]. split; [lia|]. left. split; [lia|done].
    + assert (a1 = a0) by lia. assert (a2 = a0) by lia. subst a1 a2. split; [lia|]. split; [lia|]. destruct H3 as [[? ?]|?]; [left; split; [lia|done]|by right].
  - destruct Hno as [[]|Her]. pose proof (dc_erase_bs _ _ _ _ _ _ E) as B. pose proof (erase_bits _ _ _ _ _ _ (dc_erase_eq _ _ _ _ _ _ E)) as K. rewrite Ed in K. cbn [core_bits] in K.
    assert (M1 : cdiv (w * (n - 1)) 64 <= cdiv (w * n) 64) by (apply cdiv_mono, Nat.mul_le_mono_l; lia).
    split; [unfold dc_erase in E; cbv zeta in E; repeat dinv1 E; by injection E as <-|].
    destruct (c_d a) as [l'|] eqn:El.
    + cbn [core_bits] in K. exists l', bs. split; [done|]. split; [congruence|]. split; [lia|]. split; [lia|by right].
    + cbn [core_bits] in K. exfalso. apply dc_erase_eq in E. rewrite Ed, El in E. unfold cg_erase in E. destruct (n <? i); [done|]. rinv E.
      assert (Hs : forall ms d0 d1, rfold (cg_copy pf) ms d0 = Ok d1 -> is_Some d0 -> is_Some d1).
      { clear. induction ms as [|m ms IH]; intros d0 d1 H Hs; cbn [rfold] in H; [by injection H as <-|]. rinv H. apply (IH _ _ H).
        destruct m as [[f t] k]. destruct d0 as [l|]; [|by destruct Hs]. apply copy_outside in E as (m & -> & _). eauto. }
      apply Hs in E0; [|eauto]. destruct E0 as (z & ->). destruct (_ && _); done.
  - split; [done|]. exists l, bs. auto.
  - pose proof (dc_write_bs _ _ _ _ _ _ E) as B. pose proof (dc_write_eq _ _ _ _ _ _ E) as W. unfold cg_write in W. pose proof (put_bits _ _ _ _ _ _ W) as K. rewrite Ed in K. cbn [core_bits] in K.
    split; [unfold dc_write in E; cbv zeta in E; repeat dinv1 E; by injection E as <-|].
    destruct (c_d a) as [l'|] eqn:El.
    + cbn [core_bits] in K. exists l', bs. split; [done|]. split; [congruence|]. split; [lia|]. split; [lia|]. rewrite K. done.
    + exfalso. rewrite Ed in W. unfold cg_put in W. by rinv W.
  - split; [done|]. exists l, bs. auto.
Qed.
Lemma bs_run pf w er : 1 <= w -> forall ops d n d' n' rs, (Forall no_del ops \/ er) -> bs_inv er w d n -> dcrun pf w (d, n) ops = Ok (d', n', rs) -> bs_inv er w d' n'.
Proof.
  intros Hw. induction ops as [|o ops IH]; intros d n d' n' rs Hno Hi H; cbn [dcrun] in H; [by injection H as <- <- <-|].
  dinv1 H. destruct a as [[d1 n1] x]. dinv1 H. destruct a as [[d2 n2] xs]. injection H as -> -> <-.
  eapply IH; [|eapply bs_step; [done| |exact Hi|exact E]|exact E0]; destruct Hno as [Hno|?]; [|by right| |by right]; apply Forall_cons in Hno as [? ?]; by left.
Qed.
Lemma bs_init w d : dc_init dc_new w = Ok d -> bs_inv False w d 0.
Proof.
  unfold dc_init. cbn [dc_new c_plain c_d chk mbind res_bind]. intros H. injection H as <-. split; [done|]. eexists _, (cdiv w 64). split; [done|]. split; [done|].
  rewrite replicate_length. replace (w * 0) with 0 by lia. replace (w * (0 + 1)) with w by lia. split; [lia|]. split; [unfold cdiv; cbn; lia|]. left. done.
Qed.

(** Whatever is called on an initialised core_group, as long as no check fails: m_blocksize is never more than the words of the block, so what the
    checks let through is within the block; as long as nothing is erased it is exactly the words of the block. *)
Theorem C119_blocksize : forall pf w d ops d' n outs, 1 <= w -> dc_init dc_new w = Ok d -> dcrun pf w (d, 0) ops = Ok (d', n, outs) ->
  exists bs, c_bs d' = Some bs /\ (bs <= block_words d')%N /\ (Forall no_del ops -> bs = block_words d' /\ bs = N.of_nat (cdiv (w * (n + 1)) 64)).
Proof.
  intros pf w d ops d' n outs Hw Hi H. apply bs_init in Hi.
  assert (Ht : bs_inv True w d 0) by (destruct Hi as (? & l & bs & Hi); split; [done|]; exists l, bs; tauto).
  pose proof (bs_run pf w True Hw ops d 0 d' n outs ltac:(by right) Ht H) as (_ & l & bs & Ed & Eb & Hle & _). exists (N.of_nat bs). split; [done|].
  unfold block_words. rewrite Ed. cbn [core_bits]. split.
  { assert (bs <= length l / 64); [|lia]. apply Nat.div_le_lower_bound; lia. }
  intros Hno. pose proof (bs_run pf w False Hw ops d 0 d' n outs ltac:(by left) Hi H) as (_ & l2 & bs2 & Ed2 & Eb2 & _ & _ & [[Hx Hy]|[]]).
  rewrite Ed in Ed2. injection Ed2 as <-. rewrite Eb in Eb2. injection Eb2 as E2. apply Nat2N.inj in E2 as <-.
  split; [|by rewrite Hy]. rewrite Hx. rewrite Nat.mul_comm, Nat.div_mul by lia. done.
Qed.
Print Assumptions C119_blocksize.
(** An erase keeps both, and the next insertion sets m_blocksize to less than the block has. *)
Definition ex_bs_ops : list cop := [CIns 0 1; CIns 0 2; CIns 0 3; CDel 0; CDel 0].
Example C119_case :
  (r ← dcrun strict_pf 37 (ex_dc 37, 0) [CIns 0 1; CIns 0 2; CIns 0 3; CFind 0 3 1]; Ok (c_bs (fst (fst r)), block_words (fst (fst r)))) = Ok (Some 3%N, 3%N)
  /\ (r ← dcrun strict_pf 37 (ex_dc 37, 0) ex_bs_ops; Ok (c_bs (fst (fst r)), block_words (fst (fst r)))) = Ok (Some 3%N, 3%N).
Proof. split; vm_compute; reflexivity. Qed.

(** After deserialize it is more than the block has: serialize writes only the words in use, but m_blocksize as it is.  The checks then let through what is
    behind the block. *)
Theorem C119_deserialize_refuted : exists pf w d ops d' n outs s d2 bs, 1 <= w /\ dc_init dc_new w = Ok d /\ cvalid_ops w [] ops
  /\ dcrun pf w (d, 0) ops = Ok (d', n, outs) /\ dc_serialize d' w n = Ok s /\ dc_deserialize pf dc_new s w n = Ok (d2, [])
  /\ c_bs d2 = Some bs /\ (block_words d2 < bs)%N /\ (bs = block_words d')%N.
Proof.
  exists strict_pf, 37, (ex_dc 37), [CIns 0 5].
  exists (match dcrun strict_pf 37 (ex_dc 37, 0) [CIns 0 5] with Ok (d, _, _) => d | _ => dc_new end), 1, [CUnit].
  exists (match dcrun strict_pf 37 (ex_dc 37, 0) [CIns 0 5] with Ok (d, _, _) => match dc_serialize d 37 1 with Ok s => s | _ => [] end | _ => [] end).
  exists (match dcrun strict_pf 37 (ex_dc 37, 0) [CIns 0 5] with Ok (d, _, _) => match dc_serialize d 37 1 with Ok s => match dc_deserialize strict_pf dc_new s 37 1 with Ok (d, _) => d | _ => dc_new end | _ => dc_new end | _ => dc_new end).
  exists 2%N. split; [lia|]. split; [reflexivity|]. split; [cbn; split; [split; [lia|done]|done]|]. repeat (split; [vm_compute; reflexivity|]). vm_compute; reflexivity.
Qed.
Print Assumptions C119_deserialize_refuted.
