(** keysplit_adapter over any map that behaves like a finite map: refinement, with and without checks. *)
From Verif Require Export KsGen KsProofs.

Section ks.
Context {T : Type} (S : submap T) (dbg : bool) (vw max_bits m_length interval : N).
Hypothesis Hbits : 1 <= max_bits <= 64.
Hypothesis Hlen : 1 <= m_length < 2^63.
Hypothesis Hint : ks_interval max_bits m_length = Ok interval.
Notation L := (N.to_nat m_length).
Notation width i := (ks_width max_bits interval (N.of_nat i)).
Notation slotn := (slotn interval).
Notation part := (part interval).

(** What the i-th map does. *)
Context (has : op -> Prop) (rep : nat -> T -> gmap N N -> Prop).
Hypothesis Hhas : forall o, has o -> ks_has_op o.
Hypothesis Hsz : has OpSize.
Hypothesis Hnew : forall i, (i < L)%nat -> exists t, sm_new S (width i) = Ok t /\ rep i t ∅.
Hypothesis Hend : forall i t m, (i < L)%nat -> rep i t m -> sm_invalid S t end_nav = Ok true.
Hypothesis Hpair : forall t x, sm_pair S t x = (b ← sm_invalid S t x; if (b : bool) then Ok None else sm_pair S t x).
Hypothesis Hstep : forall i t m o, (i < L)%nat -> rep i t m -> has o -> valid_op (width i) vw 0 0 o ->
  exists t', sm_run_op S t o = Ok (t', snd (spec_step m o)) /\ rep i t' (fst (spec_step m o)).

Record gkrep (s : list T) (m : gmap N N) : Prop := {
  gkr_len : length s = L;
  gkr_keys : forall k v, m !! k = Some v -> k < 2^max_bits;
  gkr_rep : forall i t, s !! i = Some t -> rep i t (part m i) }.

Lemma gks_slot_ok k : k < 2^max_bits -> gks_slot dbg max_bits m_length k = Ok (N.of_nat (slotn k)) /\ (slotn k < L)%nat /\ k < 2^(width (slotn k)).
Proof.
  intros Hk. destruct (slot_spec max_bits m_length interval Hbits Hlen Hint k Hk) as (E & Hl & Hw & _).
  unfold gks_slot. rewrite E. cbn [mbind res_bind]. rewrite (proj2 (N.ltb_lt (N.of_nat (slotn k)) m_length)) by lia. split; [|done]. by destruct dbg.
Qed.
Lemma gkrep_at s m i : gkrep s m -> (i < L)%nat -> exists t, s !! i = Some t /\ rep i t (part m i).
Proof.
  intros H Hi. destruct (lookup_lt_is_Some_2 s i) as [t Ht]; [by rewrite (gkr_len _ _ H)|].
  exists t. split; [done|by apply (gkr_rep _ _ H)].
Qed.
Lemma gkrep_new : exists s, gks_new S max_bits m_length = Ok s /\ gkrep s ∅.
Proof.
  unfold gks_new. rewrite Hint. cbn [mbind res_bind].
  assert (Hgen : forall n j, (j + n = L)%nat -> exists s, rmap (fun i => sm_new S (width i)) (seq j n) = Ok s /\ length s = n
    /\ forall i t, s !! i = Some t -> rep (j + i) t ∅).
  { induction n as [|n IH]; intros j Hj; cbn [seq rmap]; [by exists []|].
    destruct (Hnew j) as (t & -> & Ht); [lia|]. destruct (IH (Datatypes.S j)) as (s & -> & Hs & Hr); [lia|]. cbn [mbind res_bind].
    exists (t :: s). split; [done|]. split; [cbn; lia|]. intros [|i] t' Hi; cbn in Hi.
    - injection Hi as <-. by rewrite Nat.add_0_r.
    - rewrite Nat.add_succ_r. by apply (Hr i). }
  destruct (Hgen L 0%nat eq_refl) as (s & E & Hs & Hr). exists s. split; [done|]. split; [done|done|].
  intros i t Hi. rewrite part_empty. by apply Hr.
Qed.
Lemma gkrep_upd s m o k t' : gkrep s m -> op_key o = Some k -> k < 2^max_bits ->
  rep (slotn k) t' (fst (spec_step (part m (slotn k)) o)) -> gkrep (<[slotn k := t']> s) (fst (spec_step m o)).
Proof.
  intros H Ho Hk Hr. destruct (part_step interval m o k Ho) as (_ & H1 & H2). split.
  - rewrite insert_length. apply H.
  - intros k' v' Hk'. destruct (decide (k' = k)) as [->|Hne]; [done|].
    apply (gkr_keys _ _ H k' v'). destruct o as [k0|k0|k0 v|k0|k0 v|k0|k0| | |n| |]; cbn in Ho; try done; injection Ho as ->; cbn in Hk'; try done;
      try (destruct (m !! k); cbn in Hk'; try done); try (by rewrite lookup_insert_ne in Hk' by done); by rewrite lookup_delete_ne in Hk' by done.
  - intros i t Hi. apply list_lookup_insert_Some in Hi as [(<- & <- & _)|[Hne Hi]].
    + by rewrite H1.
    + rewrite H2 by done. by apply (gkr_rep _ _ H).
Qed.
Lemma gkrep_sub s m o k : gkrep s m -> has o -> op_key o = Some k -> k < 2^max_bits -> (forall kw, k < 2^kw -> valid_op kw vw 0 0 o) ->
  exists t t', gks_slot dbg max_bits m_length k = Ok (N.of_nat (slotn k)) /\ s !! slotn k = Some t /\ (slotn k < length s)%nat
    /\ sm_run_op S t o = Ok (t', snd (spec_step m o)) /\ gkrep (<[slotn k := t']> s) (fst (spec_step m o)).
Proof.
  intros H Hh Ho Hk Hv. destruct (gks_slot_ok k Hk) as (E & Hl & Hw).
  destruct (gkrep_at s m _ H Hl) as (t & Ht & Hr).
  destruct (Hstep _ t _ o Hl Hr Hh (Hv _ Hw)) as (t' & Er & Hr'). destruct (part_step interval m o k Ho) as (H0 & _).
  rewrite H0 in Er. exists t, t'. split; [done|]. split; [done|]. split; [by rewrite (gkr_len _ _ H)|]. split; [done|]. by apply gkrep_upd.
Qed.

Lemma gsum s m : gkrep s m -> gks_size S s = N.of_nat (size m) mod 2^64.
Proof.
  intros H. rewrite <-(part_sizes max_bits m_length interval Hbits Hlen).
  2: { intros k v Hk. apply (gkr_keys _ _ H) in Hk. by apply gks_slot_ok in Hk as (_ & ? & _). }
  assert (Hgen : forall (s : list T) j acc, (j + length s = L)%nat -> acc < 2^64 ->
    (forall i t, s !! i = Some t -> rep (j + i) t (part m (j + i))) ->
    foldl (fun sum t => u64 (sum + sm_size S t)) acc s
      = (acc + N.of_nat (sum_list_with (fun i => size (part m i)) (seq j (length s)))) mod 2^64).
  { clear s H. induction s as [|t s IH]; intros j acc Hj Hacc H; cbn [foldl length seq sum_list_with].
    - rewrite N.mod_small; lia.
    - rewrite (IH (Datatypes.S j)).
      + pose proof (H 0%nat t eq_refl) as Hr. rewrite Nat.add_0_r in Hr.
        destruct (Hstep j t _ OpSize ltac:(cbn in Hj; lia) Hr Hsz I) as (t' & E & _). cbn [sm_run_op spec_step snd] in E.
        assert (E' : sm_size S t = N.of_nat (size (part m j)) mod 2^64) by congruence. rewrite E'. unfold u64.
        rewrite N.add_mod_idemp_l by done. rewrite (N.add_comm acc). rewrite <-N.add_assoc. rewrite N.add_mod_idemp_l by done. f_equal. lia.
      + cbn in Hj. lia.
      + unfold u64. apply N.mod_lt. done.
      + intros i t' Hi. specialize (H (Datatypes.S i) t' Hi). by rewrite Nat.add_succ_r in H. }
  unfold gks_size. rewrite (Hgen s 0%nat 0); [|by rewrite (gkr_len _ _ H)|done|apply H].
  by rewrite (gkr_len _ _ H).
Qed.

(** the same operation on every sub-map *)
Lemma gkrep_all s m o (f : T -> res T) : gkrep s m -> has o ->
  (forall t, sm_run_op S t o = (t' ← f t; Ok (t', OutUnit))) ->
  (forall kw, valid_op kw vw 0 0 o) ->
  (forall i, part (fst (spec_step m o)) i = fst (spec_step (part m i) o)) ->
  (forall k v, fst (spec_step m o) !! k = Some v -> k < 2^max_bits) ->
  exists s', rmap f s = Ok s' /\ gkrep s' (fst (spec_step m o)).
Proof.
  intros H Hh Hrun Hv Hp Hk.
  assert (Hst : forall i t, s !! i = Some t -> exists t', f t = Ok t' /\ rep i t' (part (fst (spec_step m o)) i)).
  { intros i t Hi. assert (Hl : (i < L)%nat) by (rewrite <-(gkr_len _ _ H); by eapply lookup_lt_Some).
    destruct (Hstep _ t _ o Hl (gkr_rep _ _ H _ _ Hi) Hh (Hv _)) as (t' & E & Hr). rewrite Hrun in E.
    destruct (f t) as [t1|u| |]; cbn [mbind res_bind] in E; try done. injection E as -> _. exists t'. split; [done|]. by rewrite Hp. }
  pose proof (gkr_len _ _ H) as Hl. clear H Hrun Hv Hp.
  assert (Hgen : forall s j, (forall i t, s !! i = Some t -> exists t', f t = Ok t' /\ rep (j + i) t' (part (fst (spec_step m o)) (j + i))) ->
    exists s', rmap f s = Ok s' /\ length s' = length s /\ forall i t', s' !! i = Some t' -> rep (j + i) t' (part (fst (spec_step m o)) (j + i))).
  { clear s Hst Hl. induction s as [|t s IH]; intros j H.
    - exists []. done.
    - destruct (H 0%nat t eq_refl) as (t' & E & Hr). destruct (IH (Datatypes.S j)) as (s' & E' & Hl & Hr').
      { intros i t1 Hi. specialize (H (Datatypes.S i) t1 Hi). by rewrite Nat.add_succ_r in H. }
      exists (t' :: s'). cbn [rmap]. rewrite E. cbn [mbind res_bind]. rewrite E'. cbn [mbind res_bind]. split; [done|]. split; [cbn; lia|].
      intros [|i] t1 Hi; cbn in Hi; [by injection Hi as <-|]. specialize (Hr' i t1 Hi). by rewrite Nat.add_succ_r. }
  destruct (Hgen s 0%nat Hst) as (s' & E & Hl' & Hr). exists s'. split; [done|]. split; [lia|done|done].
Qed.

Lemma gks_map_at (s : list T) i t : s !! i = Some t -> gks_map s (N.of_nat i) = Ok t.
Proof. intros Hi. unfold gks_map. by rewrite Nat2N.id, Hi. Qed.
Lemma gks_map_insert (s : list T) i t : (i < length s)%nat -> gks_map (<[i := t]> s) (N.of_nat i) = Ok t.
Proof. intros Hi. unfold gks_map. rewrite Nat2N.id, list_lookup_insert by done. done. Qed.

Lemma gks_step s m o : gkrep s m -> has o -> valid_op max_bits vw 0 0 o ->
  exists s', gks_run_op S dbg max_bits m_length s o = Ok (s', snd (spec_step m o)) /\ gkrep s' (fst (spec_step m o)).
Proof.
  intros H Hh Hv. pose proof (Hhas _ Hh) as Ho. pose proof (gkr_len _ _ H) as Hl.
  destruct o as [k|k|k v|k|k v|k|k| | |n| |]; cbn in Ho, Hv; try done.
  - destruct (gkrep_sub s m (OpFind k) k H Hh eq_refl Hv) as (t & t' & Es & Ht & Hlt & Er & Hr); [done|].
    cbn [sm_run_op] in Er. cbn [gks_run_op]. unfold gks_find. rewrite Es. cbn [mbind res_bind].
    rewrite (gks_map_at _ _ _ Ht). cbn [mbind res_bind].
    destruct (sm_find S t k) as [x|u| |]; cbn [mbind res_bind] in Er |- *; try done.
    destruct (sm_pair S t x) as [e|u| |] eqn:Ei; cbn [mbind res_bind] in Er; try done.
    assert (He : snd (spec_step m (OpFind k)) = OutEntry e) by congruence. injection Er as -> _.
    rewrite (list_insert_id _ _ _ Ht) in Hr.
    unfold gks_eq. cbn [fst snd]. rewrite (gks_map_at _ _ _ Ht). cbn [mbind res_bind].
    destruct (gkrep_at s m 0 H ltac:(lia)) as (t0 & Ht0 & Hr0). cbn [ks_end fst snd].
    rewrite (gks_map_at s 0%nat _ Ht0 : gks_map s 0 = Ok t0). cbn [mbind res_bind].
    pose proof Ei as Ei'. rewrite Hpair in Ei'.
    destruct (sm_invalid S t' x) as [b|u| |] eqn:En; cbn [mbind res_bind] in Ei'; try done. cbn [mbind res_bind].
    rewrite (Hend 0%nat _ _ ltac:(lia) Hr0). cbn [mbind res_bind negb andb].
    destruct b; cbn [eqb mbind res_bind].
    + injection Ei' as <-. rewrite He. by exists s.
    + cbn [mbind res_bind]. rewrite Ei. cbn [mbind res_bind]. rewrite He. by exists s.
  - destruct (gkrep_sub s m (OpCount k) k H Hh eq_refl Hv) as (t & t' & Es & Ht & Hlt & Er & Hr); [done|].
    cbn [sm_run_op] in Er. cbn [gks_run_op]. unfold gks_count. rewrite Es. cbn [mbind res_bind].
    rewrite (gks_map_at _ _ _ Ht). cbn [mbind res_bind].
    destruct (sm_count S t k) as [x|u| |]; cbn [mbind res_bind] in Er |- *; try done. injection Er as -> ->.
    rewrite (list_insert_id _ _ _ Ht) in Hr. by exists s.
  - destruct (gkrep_sub s m (OpRead k) k H Hh eq_refl Hv) as (t & t' & Es & Ht & Hlt & Er & Hr); [done|].
    cbn [sm_run_op] in Er. cbn [gks_run_op]. unfold gks_index. rewrite Es. cbn [mbind res_bind].
    rewrite (gks_map_at _ _ _ Ht). cbn [mbind res_bind].
    destruct (sm_index S t k) as [[t1 x]|u| |]; cbn [mbind res_bind] in Er |- *; try done.
    cbn [fst snd]. rewrite !Nat2N.id, (gks_map_insert _ _ _ Hlt). cbn [mbind res_bind].
    destruct (sm_value S t1 x) as [y|u| |]; cbn [mbind res_bind] in Er |- *; try done.
    assert (Hy : snd (spec_step m (OpRead k)) = OutNum y) by congruence. injection Er as -> _. rewrite Hy. eauto.
  - destruct (gkrep_sub s m (OpWrite k v) k H Hh eq_refl (proj1 Hv)) as (t & t' & Es & Ht & Hlt & Er & Hr); [by intros; split; [|apply Hv]|].
    cbn [sm_run_op] in Er. cbn [gks_run_op]. unfold gks_index. rewrite Es. cbn [mbind res_bind].
    rewrite (gks_map_at _ _ _ Ht). cbn [mbind res_bind].
    destruct (sm_index S t k) as [[t1 x]|u| |]; cbn [mbind res_bind] in Er |- *; try done.
    cbn [fst snd]. rewrite !Nat2N.id, (gks_map_insert _ _ _ Hlt). cbn [mbind res_bind].
    destruct (sm_write S t1 x v) as [t2|u| |]; cbn [mbind res_bind] in Er |- *; try done. injection Er as ->.
    rewrite list_insert_insert. eauto.
  - destruct (gkrep_sub s m (OpErase k) k H Hh eq_refl Hv) as (t & t' & Es & Ht & Hlt & Er & Hr); [done|].
    cbn [sm_run_op] in Er. cbn [gks_run_op]. unfold gks_erase. rewrite Es. cbn [mbind res_bind].
    rewrite (gks_map_at _ _ _ Ht). cbn [mbind res_bind].
    destruct (sm_erase S t k) as [[t1 x]|u| |]; cbn [mbind res_bind] in Er |- *; try done.
    assert (Hy : snd (spec_step m (OpErase k)) = OutNum x) by congruence. injection Er as -> _. rewrite Hy.
    rewrite Nat2N.id. eauto.
  - cbn [gks_run_op spec_step fst snd]. rewrite (gsum _ _ H). by exists s.
  - destruct (gkrep_all s m OpShrink (sm_shrink S) H Hh) as (s' & E & Hr); try done; try (exact (gkr_keys _ _ H)).
    cbn [gks_run_op]. rewrite E. cbn [mbind res_bind]. by exists s'.
  - destruct (gkrep_all s m OpClear (sm_clear S) H Hh) as (s' & E & Hr); try done; try (intros i; apply part_empty).
    cbn [gks_run_op]. rewrite E. cbn [mbind res_bind]. by exists s'.
Qed.

Lemma gks_run_spec ops : forall s m, gkrep s m -> Forall has ops -> valid_ops max_bits vw 0 0 ops ->
  exists s', gks_run S dbg max_bits m_length s ops = Ok (s', snd (spec_run m ops)) /\ gkrep s' (fst (spec_run m ops)).
Proof.
  induction ops as [|o ops IH]; intros s m H Hh Hv; [by eexists|].
  apply Forall_cons in Hh as [Ho Hh]. unfold valid_ops in Hv. apply Forall_cons in Hv as [Hvo Hv].
  destruct (gks_step s m o H Ho Hvo) as (s1 & E1 & H1). destruct (IH s1 _ H1 Hh Hv) as (s2 & E2 & H2).
  exists s2. cbn [gks_run spec_run]. rewrite E1. cbn [mbind res_bind]. rewrite E2. cbn [mbind res_bind].
  destruct (spec_step m o) as [m1 r]. cbn [fst snd] in *. destruct (spec_run m1 ops) as [m2 rs]. done.
Qed.
Lemma gks_history : exists s0, gks_new S max_bits m_length = Ok s0 /\ forall ops, Forall has ops -> valid_ops max_bits vw 0 0 ops ->
  exists s, gks_run S dbg max_bits m_length s0 ops = Ok (s, snd (spec_run ∅ ops)) /\ gkrep s (fst (spec_run ∅ ops)).
Proof.
  destruct gkrep_new as (s0 & E0 & R0). exists s0. split; [done|]. intros ops Hh Hv. by apply gks_run_spec.
Qed.
End ks.

(** A check that passes changes nothing. *)
Section observe.
Context {T : Type} (S : submap T) (max_bits m_length : N).
Lemma gks_slot_dbg k slot : gks_slot true max_bits m_length k = Ok slot <-> gks_slot false max_bits m_length k = Ok slot /\ slot < m_length.
Proof.
  unfold gks_slot. destruct (ks_slot max_bits m_length k) as [s| | |]; cbn [mbind res_bind]; try (split; [done|by intros [? _]]).
  destruct (N.ltb_spec s m_length); cbn [chk mbind res_bind].
  - split; [intros E; injection E as <-; done|by intros [? _]].
  - split; [done|]. intros [E Hlt]. injection E as <-. lia.
Qed.
End observe.
