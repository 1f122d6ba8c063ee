(** keysplit_adapter: routing of keys and refinement to a finite map. *)
From Verif Require Export KsModel SerialFacts ArithProofs.

(** Narrower keys are fine wherever wide ones are. *)
Lemma params_narrow pf c kw kw' vw : params pf c kw vw -> 3 <= kw' <= kw -> params pf c kw' vw.
Proof.
  intros [[[[H1 H2 H3 H4 H5 H6] H7] H8 H9] H10] Hk. split; [|lia]. split; [|done|].
  - split; [|done]. split; try done; [lia| |].
    + unfold bits_max in *. destruct (c_hash c); lia.
    + destruct (c_hash c); lia.
  - destruct (c_hash c) as [h|f]; [done|]. intros ks Hn Hc Hlt. apply (H9 ks Hn Hc). intros k Hin. specialize (Hlt k Hin).
    eapply N.lt_le_trans; [exact Hlt|]. apply N.pow_le_mono_r; lia.
Qed.

Section ks.
Context (pf : platform) (c : cfg) (vw : N) (fuel : nat) (max_bits m_length interval : N).
Hypothesis Hbits : 1 <= max_bits <= 64.
Hypothesis Hlen : 1 <= m_length < 2^63.
Hypothesis Hint : ks_interval max_bits m_length = Ok interval.
Notation L := (N.to_nat m_length).
Notation width i := (ks_width max_bits interval (N.of_nat i)).

Lemma interval_spec : 1 <= interval /\ max_bits <= interval * m_length.
Proof.
  destruct (ceil_div_spec max_bits m_length) as (q & E & H1 & H2); [lia|lia|].
  unfold ks_interval in Hint. rewrite E in Hint. injection Hint as <-. nia.
Qed.
Definition slotn (k : N) : nat := N.to_nat ((bit_width k - 1) / interval).

Lemma slot_spec k : k < 2^max_bits ->
  ks_slot max_bits m_length k = Ok (N.of_nat (slotn k)) /\ (slotn k < L)%nat /\ k < 2^(width (slotn k))
  /\ (forall j, (j < slotn k)%nat -> ~ k < 2^(width j)).
Proof.
  intros Hk. destruct interval_spec as [HI HL].
  assert (Hk64 : k < 2^64) by (eapply N.lt_le_trans; [exact Hk|apply N.pow_le_mono_r; lia]).
  destruct (bit_width_spec k Hk64) as (H1 & H2 & H3).
  assert (Hbw : bit_width k <= max_bits).
  { destruct H2 as [->|H2]; [lia|]. assert (2^(bit_width k - 1) < 2^max_bits) as Hp by lia.
    apply N.pow_lt_mono_r_iff in Hp; lia. }
  pose proof (N.div_mod (bit_width k - 1) interval ltac:(lia)) as Hdm.
  pose proof (N.mod_lt (bit_width k - 1) interval ltac:(lia)) as Hml.
  assert (Hsl : (bit_width k - 1) / interval <= bit_width k - 1) by (apply N.div_le_upper_bound; nia).
  unfold ks_slot. rewrite Hint. cbn [mbind res_bind]. rewrite (proj2 (N.eqb_neq _ _)) by lia. rewrite (proj2 (N.eqb_neq _ _)) by lia.
  unfold slotn. rewrite N2Nat.id. unfold u8. rewrite N.mod_small by (change (2^8) with 256; lia). split; [done|].
  set (q := (bit_width k - 1) / interval) in *.
  split. { assert (q < m_length) by nia. lia. }
  split.
  - eapply N.lt_le_trans; [exact H1|]. apply N.pow_le_mono_r; [lia|]. unfold ks_width. nia.
  - intros j Hj Hlt. unfold ks_width in Hlt.
    assert ((N.of_nat j + 1) * interval <= q * interval) by (apply N.mul_le_mono_r; lia).
    assert (bit_width k = 1 \/ (N.of_nat j + 1) * interval <= bit_width k - 1) as [E|E] by (destruct H2; [by left|right; nia]).
    { rewrite E in *. assert (q = 0) by (subst q; apply N.div_small; lia). lia. }
    destruct H2 as [H2|H2]; [rewrite H2 in E; nia|].
    assert (2^(N.min ((N.of_nat j + 1) * interval) max_bits) <= 2^(bit_width k - 1)) by (apply N.pow_le_mono_r; lia). lia.
Qed.

(** The part of a map that belongs to one sub-map. *)
Definition part (m : gmap N N) (i : nat) : gmap N N := filter (fun kv => slotn kv.1 = i) m.
Lemma part_lookup m i k : part m i !! k = if decide (slotn k = i) then m !! k else None.
Proof.
  unfold part. rewrite map_filter_lookup. destruct (m !! k) as [v|]; cbn; [|by case_decide].
  case_decide; case_option_guard; done.
Qed.
Lemma part_same m k : part m (slotn k) !! k = m !! k.
Proof. rewrite part_lookup. by rewrite decide_True. Qed.
Lemma part_insert m k v i : part (<[k := v]> m) i = if decide (slotn k = i) then <[k := v]> (part m i) else part m i.
Proof.
  apply map_eq. intros j. rewrite part_lookup. destruct (decide (slotn k = i)).
  - destruct (decide (k = j)) as [->|]; [rewrite !lookup_insert; by rewrite decide_True|].
    rewrite !lookup_insert_ne by done. by rewrite part_lookup.
  - rewrite part_lookup. case_decide; [|done]. rewrite lookup_insert_ne; [done|]. congruence.
Qed.
Lemma part_delete m k i : part (delete k m) i = if decide (slotn k = i) then delete k (part m i) else part m i.
Proof.
  apply map_eq. intros j. rewrite part_lookup. destruct (decide (slotn k = i)).
  - destruct (decide (k = j)) as [->|]; [rewrite !lookup_delete; by case_decide|].
    rewrite !lookup_delete_ne by done. by rewrite part_lookup.
  - rewrite part_lookup. case_decide; [|done]. rewrite lookup_delete_ne; [done|]. congruence.
Qed.
Lemma part_empty i : part ∅ i = ∅.
Proof. apply map_filter_empty. Qed.

Definition op_key (o : op) : option N :=
  match o with OpFind k | OpCount k | OpInsert k _ | OpRead k | OpWrite k _ | OpErase k | OpEraseIt k => Some k | _ => None end.
Lemma part_step m o k : op_key o = Some k ->
  snd (spec_step (part m (slotn k)) o) = snd (spec_step m o) /\
  part (fst (spec_step m o)) (slotn k) = fst (spec_step (part m (slotn k)) o) /\
  forall i, i <> slotn k -> part (fst (spec_step m o)) i = part m i.
Proof.
  intros Hk. destruct o as [k'|k'|k' v|k'|k' v|k'|k'| | |n| |]; cbn in Hk; try done; injection Hk as ->; cbn [spec_step fst snd].
  all: rewrite ?part_same.
  all: destruct (m !! k); cbn [fst snd]; split; try done; split; try done; rewrite ?part_insert, ?part_delete, ?decide_True by done; try done.
  all: intros i Hi; rewrite ?part_insert, ?part_delete, ?decide_False by done; done.
Qed.

Lemma sum_bump (f g : nat -> nat) i0 n : (i0 < n)%nat -> (forall i, f i = g i + (if decide (i0 = i) then 1 else 0))%nat ->
  sum_list_with f (seq 0 n) = S (sum_list_with g (seq 0 n)).
Proof.
  intros Hi H. assert (Hgen : forall n s, sum_list_with f (seq s n) = (sum_list_with g (seq s n) + (if decide (s <= i0 < s + n) then 1 else 0))%nat).
  { clear n Hi. induction n as [|n IH]; intros s; cbn [seq sum_list_with].
    - rewrite decide_False by lia. done.
    - rewrite IH, H. repeat case_decide; lia. }
  rewrite Hgen. rewrite decide_True by lia. lia.
Qed.
Lemma part_sizes m : (forall k v, m !! k = Some v -> (slotn k < L)%nat) ->
  sum_list_with (fun i => size (part m i)) (seq 0 L) = size m.
Proof.
  induction m as [|k v m Hk IH] using map_ind; intros Hs.
  - rewrite map_size_empty. induction (seq 0 L); cbn [sum_list_with]; [done|]. rewrite part_empty, map_size_empty. lia.
  - rewrite map_size_insert_None by done.
    rewrite (sum_bump _ (fun i => size (part m i)) (slotn k)).
    + rewrite IH; [done|]. intros k' v' Hk'. apply (Hs k' v'). rewrite lookup_insert_ne; [done|]. congruence.
    + apply (Hs k v). apply lookup_insert.
    + intros i. rewrite part_insert. case_decide; [|lia]. rewrite map_size_insert_None; [lia|].
      rewrite part_lookup. by rewrite decide_True.
Qed.

(** *** refinement *)
Hypothesis Hpar : forall i, (i < L)%nat -> params pf c (width i) vw.
Hypothesis Hval : c_val c <> KNull.
Hypothesis Hfuel : (64 <= fuel)%nat.
Notation rep kw := (TableRefine.trep pf c kw vw 1 (bits_max c kw) False).
Notation ks := (list table).

Record krep (s : ks) (m : gmap N N) : Prop := {
  kr_len : length s = L;
  kr_keys : forall k v, m !! k = Some v -> k < 2^max_bits;
  kr_rep : forall i t, s !! i = Some t -> rep (width i) t (part m i) }.

Lemma sub_step kw t m o : params pf c kw vw -> rep kw t m -> valid_op kw vw 1 (bits_max c kw) o ->
  exists t', run_op pf c fuel t o = Ok (t', snd (spec_step m o)) /\ rep kw t' (fst (spec_step m o)).
Proof.
  intros P H Ho.
  destruct (run_rep pf c kw vw 1 (bits_max c kw) False fuel (params_ok _ _ _ _ P) Hfuel [o] _ _ H (params_init _ _ _ _ P) Hval) as (t' & E & Hr).
  - intros v Hlt. eapply cfg_values; [apply P|done|done].
  - by apply Forall_singleton.
  - by apply (noarr_ops _ _ _ _ P).
  - cbn [run_ops spec_run] in E, Hr. destruct (spec_step m o) as [m1 r]. cbn [fst snd] in *.
    destruct (run_op pf c fuel t o) as [[t1 x]|u| |]; cbn [mbind res_bind] in E; try done. injection E as -> ->. by exists t'.
Qed.
Lemma rep_end kw t m : params pf c kw vw -> rep kw t m -> nav_invalid pf t end_nav = Ok true.
Proof.
  intros P [[Hz _]|(sl & ess & ovl & H & _)]; [by eapply end_nav_invalid_zero|].
  by eapply (end_nav_invalid _ _ _ _ _ _ _ (params_ok0 _ _ _ _ P)).
Qed.
Lemma krep_at s m i : krep s m -> (i < L)%nat -> exists t, s !! i = Some t /\ rep (width i) t (part m i) /\ params pf c (width i) vw.
Proof.
  intros H Hi. destruct (lookup_lt_is_Some_2 s i) as [t Ht]; [by rewrite (kr_len _ _ H)|].
  exists t. split; [done|]. split; [by apply (kr_rep _ _ H)|by apply Hpar].
Qed.
Lemma krep_new : exists s, ks_new pf c vw max_bits m_length = Ok s /\ krep s ∅.
Proof.
  unfold ks_new. rewrite Hint. cbn [mbind res_bind]. eexists; split; [done|]. split.
  - by rewrite map_length, seq_length.
  - done.
  - intros i t Hi. rewrite list_lookup_fmap in Hi. destruct (seq 0 L !! i) as [j|] eqn:Ej; [|done].
    apply lookup_seq in Ej as [-> Hj]. cbn in Hi. injection Hi as <-. cbn [Nat.add]. left. split; [|apply part_empty].
    apply (new_table_zero _ _ _ _ _ _ (params_ok0 _ _ _ _ (Hpar i Hj))).
Qed.

(** Storing a sub-map after a step on key k. *)
Lemma krep_upd s m o k t' : krep s m -> op_key o = Some k -> k < 2^max_bits ->
  rep (width (slotn k)) t' (fst (spec_step (part m (slotn k)) o)) ->
  krep (<[slotn k := t']> s) (fst (spec_step m o)).
Proof.
  intros H Ho Hk Hr. destruct (part_step m o k Ho) as (_ & H1 & H2). split.
  - rewrite insert_length. apply H.
  - intros k' v' Hk'. destruct (decide (k' = k)) as [->|Hne]; [done|].
    apply (kr_keys _ _ H k' v'). destruct o as [k0|k0|k0 v|k0|k0 v|k0|k0| | |n| |]; cbn in Ho; try done; injection Ho as ->; cbn in Hk'; try done;
      try (destruct (m !! k); cbn in Hk'; try done); try (by rewrite lookup_insert_ne in Hk' by done); by rewrite lookup_delete_ne in Hk' by done.
  - intros i t Hi. apply list_lookup_insert_Some in Hi as [(<- & <- & _)|[Hne Hi]].
    + by rewrite H1.
    + rewrite H2 by done. by apply (kr_rep _ _ H).
Qed.
Lemma krep_sub s m o k : krep s m -> op_key o = Some k -> k < 2^max_bits -> (forall kw, k < 2^kw -> valid_op kw vw 1 (bits_max c kw) o) ->
  exists t t', ks_slot max_bits m_length k = Ok (N.of_nat (slotn k)) /\ s !! slotn k = Some t /\ (slotn k < length s)%nat
    /\ run_op pf c fuel t o = Ok (t', snd (spec_step m o)) /\ krep (<[slotn k := t']> s) (fst (spec_step m o)).
Proof.
  intros H Ho Hk Hv. destruct (slot_spec k Hk) as (E & Hl & Hw & _).
  destruct (krep_at s m _ H Hl) as (t & Ht & Hr & P).
  destruct (sub_step _ t _ o P Hr (Hv _ Hw)) as (t' & Er & Hr'). destruct (part_step m o k Ho) as (H0 & _).
  rewrite H0 in Er. exists t, t'. split; [done|]. split; [done|]. split; [by rewrite (kr_len _ _ H)|]. split; [done|]. by apply krep_upd.
Qed.

Lemma sum_shows s m : krep s m -> ks_size s = N.of_nat (size m) mod 2^64.
Proof.
  intros H. rewrite <-part_sizes.
  2: { intros k v Hk. apply (kr_keys _ _ H) in Hk. by apply slot_spec in Hk as (_ & ? & _). }
  assert (Hgen : forall (s : ks) j acc, (j + length s = L)%nat -> acc < 2^64 ->
    (forall i t, s !! i = Some t -> rep (width (j + i)) t (part m (j + i))) ->
    foldl (fun sum t => u64 (sum + TableModel.size t)) acc s
      = (acc + N.of_nat (sum_list_with (fun i => size (part m i)) (seq j (length s)))) mod 2^64).
  { clear s H. induction s as [|t s IH]; intros j acc Hj Hacc H; cbn [foldl length seq sum_list_with].
    - rewrite N.mod_small; lia.
    - rewrite (IH (S j)).
      + pose proof (H 0%nat t eq_refl) as Hr. rewrite Nat.add_0_r in Hr.
        assert (P : params pf c (width j) vw) by (apply Hpar; cbn in Hj; lia).
        destruct (trep_shows _ _ _ _ _ _ _ (params_ok0 _ _ _ _ P) _ _ (noarr _ _ _ _ P) Hr) as [_ Hs]. rewrite Hs. unfold u64.
        rewrite N.add_mod_idemp_l by done. rewrite (N.add_comm acc). rewrite <-N.add_assoc. rewrite N.add_mod_idemp_l by done. f_equal. lia.
      + cbn in Hj. lia.
      + unfold u64. apply N.mod_lt. done.
      + intros i t' Hi. specialize (H (S i) t' Hi). by rewrite Nat.add_succ_r in H. }
  unfold ks_size. rewrite (Hgen s 0%nat 0); [|by rewrite (kr_len _ _ H)|done|apply H].
  by rewrite (kr_len _ _ H).
Qed.

(** the same operation on every sub-map *)
Lemma krep_all s m o (f : table -> res table) : krep s m ->
  (forall t, run_op pf c fuel t o = (t' ← f t; Ok (t', OutUnit))) -> (forall m, snd (spec_step m o) = OutUnit) ->
  (forall kw, valid_op kw vw 1 (bits_max c kw) o) ->
  (forall i, part (fst (spec_step m o)) i = fst (spec_step (part m i) o)) ->
  (forall k v, fst (spec_step m o) !! k = Some v -> k < 2^max_bits) ->
  exists s', rmap f s = Ok s' /\ krep s' (fst (spec_step m o)).
Proof.
  intros H Hrun Hout Hv Hp Hk.
  assert (Hstep : forall i t, s !! i = Some t -> exists t', f t = Ok t' /\ rep (width i) t' (part (fst (spec_step m o)) i)).
  { intros i t Hi. assert (P : params pf c (width i) vw) by (apply Hpar; rewrite <-(kr_len _ _ H); by eapply lookup_lt_Some).
    destruct (sub_step _ t _ o P (kr_rep _ _ H _ _ Hi) (Hv _)) as (t' & E & Hr). rewrite Hrun in E.
    destruct (f t) as [t1|u| |]; cbn [mbind res_bind] in E; try done. injection E as -> _. exists t'. split; [done|]. by rewrite Hp. }
  pose proof (kr_len _ _ H) as Hl. clear H Hrun Hout Hv Hp.
  assert (Hgen : forall s j, (forall i t, s !! i = Some t -> exists t', f t = Ok t' /\ rep (width (j + i)) t' (part (fst (spec_step m o)) (j + i))) ->
    exists s', rmap f s = Ok s' /\ length s' = length s /\ forall i t', s' !! i = Some t' -> rep (width (j + i)) t' (part (fst (spec_step m o)) (j + i))).
  { clear s Hstep Hl. induction s as [|t s IH]; intros j H.
    - exists []. done.
    - destruct (H 0%nat t eq_refl) as (t' & E & Hr). destruct (IH (S j)) as (s' & E' & Hl & Hr').
      { intros i t1 Hi. specialize (H (S i) t1 Hi). by rewrite Nat.add_succ_r in H. }
      exists (t' :: s'). cbn [rmap]. rewrite E. cbn [mbind res_bind]. rewrite E'. cbn [mbind res_bind]. split; [done|]. split; [cbn; lia|].
      intros [|i] t1 Hi; cbn in Hi; [by injection Hi as <-|]. specialize (Hr' i t1 Hi). by rewrite Nat.add_succ_r. }
  destruct (Hgen s 0%nat Hstep) as (s' & E & Hl' & Hr). exists s'. split; [done|]. split; [lia|done|done].
Qed.

Lemma ks_map_at (s : ks) i t : s !! i = Some t -> ks_map s (N.of_nat i) = Ok t.
Proof. intros Hi. unfold ks_map. by rewrite Nat2N.id, Hi. Qed.
Lemma ks_map_insert (s : ks) i t : (i < length s)%nat -> ks_map (<[i := t]> s) (N.of_nat i) = Ok t.
Proof. intros Hi. unfold ks_map. rewrite Nat2N.id, list_lookup_insert by done. done. Qed.

Lemma ks_step s m o : krep s m -> ks_has_op o -> valid_op max_bits vw 0 0 o ->
  exists s', ks_run_op pf c fuel max_bits m_length s o = Ok (s', snd (spec_step m o)) /\ krep s' (fst (spec_step m o)).
Proof.
  intros H Ho Hv. pose proof (kr_len _ _ H) as Hl.
  destruct o as [k|k|k v|k|k v|k|k| | |n| |]; cbn in Ho, Hv; try done.
  - destruct (krep_sub s m (OpFind k) k H eq_refl Hv) as (t & t' & Es & Ht & Hlt & Er & Hr); [done|].
    cbn [run_op] in Er. cbn [ks_run_op]. unfold ks_find. rewrite Es. cbn [mbind res_bind].
    rewrite (ks_map_at _ _ _ Ht). cbn [mbind res_bind].
    destruct (TableModel.find pf c t k) as [x|u| |]; cbn [mbind res_bind] in Er |- *; try done.
    destruct (iter_at pf c t x) as [e|u| |] eqn:Ei; cbn [mbind res_bind] in Er; try done.
    assert (He : snd (spec_step m (OpFind k)) = OutEntry e) by congruence. injection Er as -> _.
    rewrite (list_insert_id _ _ _ Ht) in Hr.
    unfold ks_eq. cbn [fst snd]. rewrite (ks_map_at _ _ _ Ht). cbn [mbind res_bind].
    destruct (krep_at s m 0 H ltac:(lia)) as (t0 & Ht0 & Hr0 & P0). cbn [ks_end fst snd].
    rewrite (ks_map_at s 0%nat _ Ht0 : ks_map s 0 = Ok t0). cbn [mbind res_bind].
    unfold iter_at in Ei. destruct (nav_invalid pf t' x) as [b|u| |] eqn:En; cbn [mbind res_bind] in Ei; try done. cbn [mbind res_bind].
    rewrite (rep_end _ _ _ P0 Hr0). cbn [mbind res_bind negb andb].
    destruct b; cbn [eqb mbind res_bind].
    + injection Ei as <-. rewrite He. by exists s.
    + cbn [mbind res_bind]. unfold iter_at. rewrite En. cbn [mbind res_bind]. rewrite Ei. cbn [mbind res_bind]. rewrite He. by exists s.
  - destruct (krep_sub s m (OpCount k) k H eq_refl Hv) as (t & t' & Es & Ht & Hlt & Er & Hr); [done|].
    cbn [run_op] in Er. cbn [ks_run_op]. unfold ks_count. rewrite Es. cbn [mbind res_bind].
    rewrite (ks_map_at _ _ _ Ht). cbn [mbind res_bind].
    destruct (count pf c t k) as [x|u| |]; cbn [mbind res_bind] in Er |- *; try done. injection Er as -> ->.
    rewrite (list_insert_id _ _ _ Ht) in Hr. by exists s.
  - destruct (krep_sub s m (OpRead k) k H eq_refl Hv) as (t & t' & Es & Ht & Hlt & Er & Hr); [done|].
    cbn [run_op] in Er. cbn [ks_run_op]. unfold ks_index. rewrite Es. cbn [mbind res_bind].
    rewrite (ks_map_at _ _ _ Ht). cbn [mbind res_bind].
    destruct (index pf c fuel t k) as [[t1 x]|u| |]; cbn [mbind res_bind] in Er |- *; try done.
    cbn [fst snd]. rewrite !Nat2N.id, (ks_map_insert _ _ _ Hlt). cbn [mbind res_bind].
    destruct (nav_value pf c t1 x) as [y|u| |]; cbn [mbind res_bind] in Er |- *; try done.
    assert (Hy : snd (spec_step m (OpRead k)) = OutNum y) by congruence. injection Er as -> _. rewrite Hy. eauto.
  - destruct (krep_sub s m (OpWrite k v) k H eq_refl (proj1 Hv)) as (t & t' & Es & Ht & Hlt & Er & Hr); [by intros; split; [|apply Hv]|].
    cbn [run_op] in Er. cbn [ks_run_op]. unfold ks_index. rewrite Es. cbn [mbind res_bind].
    rewrite (ks_map_at _ _ _ Ht). cbn [mbind res_bind].
    destruct (index pf c fuel t k) as [[t1 x]|u| |]; cbn [mbind res_bind] in Er |- *; try done.
    cbn [fst snd]. rewrite !Nat2N.id, (ks_map_insert _ _ _ Hlt). cbn [mbind res_bind].
    destruct (write_value pf c t1 x v) as [t2|u| |]; cbn [mbind res_bind] in Er |- *; try done. injection Er as ->.
    rewrite list_insert_insert. eauto.
  - destruct (krep_sub s m (OpErase k) k H eq_refl Hv) as (t & t' & Es & Ht & Hlt & Er & Hr); [done|].
    cbn [run_op] in Er. cbn [ks_run_op]. unfold ks_erase. rewrite Es. cbn [mbind res_bind].
    rewrite (ks_map_at _ _ _ Ht). cbn [mbind res_bind].
    destruct (erase pf c t k) as [[t1 x]|u| |]; cbn [mbind res_bind] in Er |- *; try done.
    assert (Hy : snd (spec_step m (OpErase k)) = OutNum x) by congruence. injection Er as -> _. rewrite Hy.
    rewrite Nat2N.id. eauto.
  - cbn [ks_run_op spec_step fst snd]. rewrite (sum_shows _ _ H). by exists s.
  - destruct (krep_all s m OpShrink (shrink_to_fit pf c) H) as (s' & E & Hr); try done; try (exact (kr_keys _ _ H)).
    cbn [ks_run_op]. unfold ks_shrink. rewrite E. cbn [mbind res_bind]. by exists s'.
  - destruct (krep_all s m OpClear (clear pf c) H) as (s' & E & Hr); try done; try (intros i; apply part_empty).
    cbn [ks_run_op]. unfold ks_clear. rewrite E. cbn [mbind res_bind]. by exists s'.
Qed.

Lemma ks_run_spec ops : forall s m, krep s m -> Forall ks_has_op ops -> valid_ops max_bits vw 0 0 ops ->
  exists s', ks_run pf c fuel max_bits m_length s ops = Ok (s', snd (spec_run m ops)) /\ krep s' (fst (spec_run m ops)).
Proof.
  induction ops as [|o ops IH]; intros s m H Hh Hv; [by eexists|].
  apply Forall_cons in Hh as [Ho Hh]. unfold valid_ops in Hv. apply Forall_cons in Hv as [Hvo Hv].
  destruct (ks_step s m o H Ho Hvo) as (s1 & E1 & H1). destruct (IH s1 _ H1 Hh Hv) as (s2 & E2 & H2).
  exists s2. cbn [ks_run spec_run]. rewrite E1. cbn [mbind res_bind]. rewrite E2. cbn [mbind res_bind].
  destruct (spec_step m o) as [m1 r]. cbn [fst snd] in *. destruct (spec_run m1 ops) as [m2 rs]. done.
Qed.
End ks.
