(** C118: serialize and deserialize in the debug build of group_chaining_table. *)
From Verif Require Import PropBucket PropCompact PropGroup PropDebugGroup.
From Verif Require Export DebugGroupRound.

(** A table that a valid history of the debug build leads to, and what it stores *)
Definition dg_reached (pf : platform) (c : gcfg) (kw vw bmin : N) (t : dgtable) (m : gmap N N) : Prop :=
  exists fuel ops t0 outs, group_ok c kw vw bmin /\ (64 <= fuel)%nat /\ valid_ops kw vw bmin (zbmax (gc_hash c) kw) ops
    /\ dg_new c kw vw = Ok t0 /\ m_run_ops (dg_impl pf c fuel) t0 ops = Ok (t, outs) /\ m = fst (spec_run ∅ ops).
Lemma dg_reached_rep pf c kw vw bmin t m : dg_reached pf c kw vw bmin t m -> group_ok c kw vw bmin /\ dgmrep pf c kw vw bmin t m.
Proof.
  intros (fuel & ops & t0 & outs & OK & Hf & Hv & En & Er & ->). split; [done|]. destruct (dg_new_ok c kw vw bmin OK) as (t1 & E1 & Hz). rewrite En in E1. injection E1 as <-.
  destruct (debug_group_run pf c kw vw bmin OK fuel ops t0 ∅ Hf) as (t2 & E2 & HR); [by left|done|]. rewrite E2 in Er. by injection Er as <- _.
Qed.

(** With 8 accessible bytes after every block: what serialize writes, deserialize reads back into any reached table, of whatever widths,
    without failing a check; it consumes exactly what was written, iteration yields the same pairs, and no later valid history fails a check
    or returns anything but what the map returns. *)
Theorem C118_debug_group_roundtrip_partial : forall pf c kw vw bmin t m kw0 vw0 bmin0 t0 m0, (8 <= slack pf)%nat ->
  dg_reached pf c kw vw bmin t m -> dg_reached pf c kw0 vw0 bmin0 t0 m0 -> N.of_nat (size m) < 2^64 ->
  exists s, dg_serialize c t = Ok s /\ forall s', exists t' l,
    dg_deserialize pf c t0 (s ++ s') = Ok (t', s')
    /\ dg_forward pf c (size m) t' = Ok l /\ l ≡ₚ map_to_list m
    /\ forall fuel ops, (64 <= fuel)%nat -> valid_ops kw vw bmin (zbmax (gc_hash c) kw) ops ->
       exists t2, m_run_ops (dg_impl pf c fuel) t' ops = Ok (t2, snd (spec_run m ops)).
Proof.
  intros pf c kw vw bmin t m kw0 vw0 bmin0 t0 m0 Hs (OK & HR)%dg_reached_rep (OK0 & HR0)%dg_reached_rep Hsz.
  destruct (dgmrep_roundtrip pf c kw vw bmin OK Hs t m HR Hsz) as (s & Es & Hd). exists s. split; [done|]. intros s'.
  destruct (dgmrep_clear pf c kw0 vw0 bmin0 OK0 t0 m0 HR0) as (t1 & E1 & _).
  destruct (Hd t0 t1 s' E1) as (t' & Ed & HR').
  destruct (dgmrep_forward pf c kw vw bmin OK t' m (size m) HR') as (l & El & Hl); [lia|].
  exists t', l. split; [done|]. split; [done|]. split; [done|]. intros fuel ops Hf Hv.
  destruct (debug_group_run pf c kw vw bmin OK fuel ops t' m Hf HR' Hv) as (t2 & E2 & _). by exists t2.
Qed.
Print Assumptions C118_debug_group_roundtrip_partial.

(** Without them, erasing in the restored table reads behind the block, as in the release build (C54), although m_blocksize is restored and
    claims a larger block. *)
Theorem C118_erase_after_deserialize_refuted : exists c kw vw k v t0 t x s t', dg_new c kw vw = Ok t0 /\ dg_find_or_insert strict_pf c 64 t0 k v = Ok (t, x)
  /\ is_ok (dg_erase strict_pf c t k) = true
  /\ dg_serialize c t = Ok s /\ dg_deserialize strict_pf c t0 s = Ok (t', []) /\ dg_find strict_pf c t' k = Ok x /\ dg_erase strict_pf c t' k = Ub OobRead.
Proof.
  exists ex_gs, 64, 64, 5, 6. do 5 eexists. split; [vm_compute; reflexivity|]. split; [vm_compute; reflexivity|]. split; [vm_compute; reflexivity|].
  split; [vm_compute; reflexivity|]. split; [vm_compute; reflexivity|]. split; vm_compute; reflexivity.
Qed.
Print Assumptions C118_erase_after_deserialize_refuted.

Lemma ok_same {A} (a b : A) : Ok a = Ok b -> b = a.
Proof. congruence. Qed.
(** For any table at all: what the debug build writes contains what the release build writes, in this order, and is the same if the table
    is empty. *)
Theorem C118_stream : forall c t s, dg_serialize c t = Ok s ->
  exists s0, g_serialize c (gstrip t) = Ok s0 /\ s0 `sublist_of` s /\ (dg_n t = 0 -> s0 = s).
Proof.
  assert (Hcore : forall d w n s, dc_serialize d w n = Ok s -> exists s0, cg_serialize (c_d d) w n = Ok s0 /\ s0 `sublist_of` s).
  { intros d w n s H. unfold dc_serialize in H. 
    destruct (known (c_len d)) as [len| | |]; cbn [mbind res_bind] in H; try done. destruct (chk _); cbn [mbind res_bind] in H; try done.
    destruct (known (c_kw d)); cbn [mbind res_bind] in H; try done. destruct (chk _); cbn [mbind res_bind] in H; try done.
    destruct (words_of _ _); cbn [mbind res_bind] in H; try done. destruct (cg_serialize _ _ _) as [s0| | |]; cbn [mbind res_bind] in H; try done.
    apply ok_same in H as ->. exists s0. split; [done|]. do 4 apply sublist_inserts_l. done. }
  assert (Hkv : forall g n kw vw s, dkv_serialize g n kw vw = Ok s -> exists s0, kv_serialize (kstrip g) n kw vw = Ok s0 /\ s0 `sublist_of` s).
  { intros g n kw vw s H. unfold dkv_serialize in H. cbv zeta in H. unfold kv_serialize. cbn [kstrip g_size g_border g_keys g_vals]. destruct (k_size g =? 0).
    { apply ok_same in H as ->. eexists. split; [done|]. by apply sublist_inserts_l. }
    destruct (k_border g) as [ws|]; [|done]. destruct (_ <? _)%nat; [done|].
    destruct (dc_serialize (k_keys g) kw _) as [sk| | |] eqn:Ek; cbn [mbind res_bind] in H; try done.
    destruct (dc_serialize (k_vals g) vw _) as [sv| | |] eqn:Ev; cbn [mbind res_bind] in H; try done. apply ok_same in H as ->.
    destruct (Hcore _ _ _ _ Ek) as (k0 & -> & Sk). destruct (Hcore _ _ _ _ Ev) as (v0 & -> & Sv). cbn [mbind res_bind]. eexists. split; [done|].
    apply sublist_inserts_l. apply sublist_app; [done|]. apply sublist_app; [done|]. by apply sublist_app. }
  intros c t s H. unfold dg_serialize in H. cbv zeta in H. unfold g_serialize.
  change (gt_n (gstrip t)) with (dg_n t). change (gt_kw (gstrip t)) with (dg_kw t). change (gt_vw (gstrip t)) with (dg_vw t). change (gt_b (gstrip t)) with (dg_b t). change (gt_bpg (gstrip t)) with (dg_bpg t).
  destruct (N.eqb_spec (dg_n t) 0) as [E0|E0].
  { apply ok_same in H as ->. eexists. split; [done|]. done. }
  destruct (dremainder_width _ _); cbn [mbind res_bind] in H; try done. destruct (g_group_count (gstrip t)) as [gc| | |]; cbn [mbind res_bind] in H |- *; try done.
  assert (Egs : default [] (gt_groups (gstrip t)) = map kstrip (default [] (dg_groups t))) by (unfold gstrip; cbn [gt_groups]; by destruct (dg_groups t)).
  rewrite Egs, map_length. destruct (_ <? gc); [done|]. change (map kstrip ?x) with (kstrip <$> x). rewrite <-fmap_take.
  destruct (rmap _ (take (N.to_nat gc) (default [] (dg_groups t)))) as [l| | |] eqn:El; cbn [mbind res_bind] in H; try done.
  destruct (dg_plain t) as [ps|]; [|done]. destruct (_ <? _)%nat; [done|]. destruct (rmap dg_plain_words _) as [q| | |]; cbn [mbind res_bind] in H; try done. apply ok_same in H as ->.
  assert (Hl : forall n kw vw gs l, rmap (fun g => dkv_serialize g n kw vw) gs = Ok l ->
    exists l0, rmap (fun g => kv_serialize g n kw vw) (kstrip <$> gs) = Ok l0 /\ concat l0 `sublist_of` concat l).
  { clear -Hkv. intros n kw vw. induction gs as [|g gs IH]; intros l H.
    - apply ok_same in H as ->. by exists [].
    - cbn [rmap] in H. destruct (dkv_serialize g n kw vw) as [s1| | |] eqn:E1; cbn [mbind res_bind] in H; try done.
      destruct (rmap _ gs) as [l1| | |] eqn:E2; cbn [mbind res_bind] in H; try done. apply ok_same in H as ->.
      destruct (Hkv _ _ _ _ _ E1) as (s0 & F1 & S1). destruct (IH _ eq_refl) as (l0 & F2 & S2). cbn [fmap list_fmap rmap]. rewrite F1. cbn [mbind res_bind]. rewrite F2.
      exists (s0 :: l0). split; [done|]. cbn [concat]. by apply sublist_app. }
  destruct (Hl _ _ _ _ _ El) as (l0 & -> & Sl). cbn [mbind res_bind]. eexists. split; [done|]. split; [|done]. apply sublist_app; [done|].
  by apply sublist_inserts_r.
Qed.
Print Assumptions C118_stream.

(** The release build does not read what the debug build writes: the header is followed by the debug members. *)
Theorem C118_builds_refuted : exists c kw vw k v t0 t x s, group_ok c kw vw 1 /\ k < 2^kw /\ v < 2^vw
  /\ dg_new c kw vw = Ok t0 /\ dg_find_or_insert lax_pf c 64 t0 k v = Ok (t, x) /\ dg_serialize c t = Ok s
  /\ is_ok (g_deserialize lax_pf c (g_new kw vw) s) = true /\ (r ← g_deserialize lax_pf c (g_new kw vw) s; g_forward lax_pf c 1 (fst (r : gtable * stream))) = Ub OobRead.
Proof.
  exists ex_gs, 64, 64, 2, 0. do 4 eexists. split; [apply gs_ok; lia|]. split; [reflexivity|]. split; [reflexivity|]. split; [vm_compute; reflexivity|]. split; [vm_compute; reflexivity|].
  split; [vm_compute; reflexivity|]. split; vm_compute; reflexivity.
Qed.
Print Assumptions C118_builds_refuted.

(** Whatever the stream and the table it is read into: if no check fails and the restored table is not empty, then size() is the number of
    stored entries, every bucket has the size of its plain copy, and the key and the value at each position are those of the plain copy. *)
Lemma rfold_unit_inv {A} (f : unit -> A -> res unit) l u : rfold f l tt = Ok u -> forall x, x ∈ l -> f tt x = Ok tt.
Proof.
  induction l as [|y l IH]; intros H x Hx; [by apply elem_of_nil in Hx|]. cbn [rfold] in H. destruct (f tt y) as [[]| | |] eqn:E; cbn [mbind res_bind] in H; try done.
  apply elem_of_cons in Hx as [->|Hx]; [done|]. by apply IH.
Qed.
Lemma read_sizes_length n : forall s l s', dg_read_sizes n s = Ok (l, s') -> length l = n.
Proof.
  induction n as [|n IH]; intros s l s' H; cbn [dg_read_sizes] in H; [by injection H as <- _|]. destruct (read_var s _) as [x s1]. destruct (used x); cbn [mbind res_bind] in H; try done.
  destruct (dg_read_sizes n s1) as [[l1 s2]| | |] eqn:E; cbn [mbind res_bind] in H; try done. injection H as <- _. cbn. by rewrite (IH _ _ _ E).
Qed.
Definition same_entry (pf : platform) (c : gcfg) (t : dgtable) (bk : N) (p : dplain) (i : nat) : Prop :=
  exists g q v k, dg_group t bk = Ok g /\ dkv_read_key pf g (g_rank (gstrip t) bk) i (gqw c (gstrip t)) = Ok q
    /\ dhash_inv_map (ghm c (dg_kw t)) q bk (dg_b t) = Ok k
    /\ dkv_read_value pf g (g_rank (gstrip t) bk) i (gvw (gstrip t)) = Ok v
    /\ pcell (p_keys p) i = Ok k /\ pcell (p_vals p) i = Ok v.
Lemma read_plain_inv pf c t bk size s p s' : dg_read_plain pf c t bk size s = Ok (p, s') ->
  p_size p = size /\ forall i, (i < N.to_nat size)%nat -> same_entry pf c t bk p i.
Proof.
  unfold dg_read_plain. intros H. destruct (N.eqb_spec size 0) as [->|].
  { injection H as <- _. split; [done|]. intros i Hi. cbn in Hi. lia. }
  destruct (border_read pf (N.to_nat size) s) as [[ks s1]| | |]; cbn [mbind res_bind] in H; try done.
  destruct (border_read pf (N.to_nat size) s1) as [[vs s2]| | |]; cbn [mbind res_bind] in H; try done.
  destruct (dg_group t bk) as [g| | |] eqn:Eg; cbn [mbind res_bind] in H; try done.
  match type of H with context [rfold ?f ?l tt] => destruct (rfold f l tt) as [u| | |] eqn:Ef; cbn [mbind res_bind] in H; try done end.
  injection H as <- _. split; [done|]. intros i Hi. pose proof (rfold_unit_inv _ _ _ Ef i) as Hx. cbn beta in Hx.
  specialize (Hx ltac:(apply elem_of_seq; lia)).
  destruct (dkv_read_key pf g _ i _) as [q| | |] eqn:Eq; cbn [mbind res_bind] in Hx; try done.
  destruct (dhash_inv_map _ q bk _) as [k| | |] eqn:Ek; cbn [mbind res_bind] in Hx; try done.
  destruct (dkv_read_value pf g _ i _) as [v| | |] eqn:Ev; cbn [mbind res_bind] in Hx; try done. cbn [p_keys p_vals] in Hx |- *.
  destruct (pcell (Some ks) i) as [pk| | |] eqn:Epk; cbn [mbind res_bind] in Hx; try done. destruct (N.eqb_spec k pk) as [<-|]; cbn [chk mbind res_bind] in Hx; try done.
  destruct (pcell (Some vs) i) as [pv| | |] eqn:Epv; cbn [mbind res_bind] in Hx; try done. destruct (N.eqb_spec v pv) as [<-|]; cbn [chk mbind res_bind] in Hx; try done.
  exists g, q, v, k. done.
Qed.
Lemma read_plains_inv pf c t : forall sizes j s ps s', dg_read_plains pf c t (N.of_nat j) sizes s = Ok (ps, s') ->
  map p_size ps = sizes /\ forall i p, ps !! i = Some p -> forall x, (x < N.to_nat (p_size p))%nat -> same_entry pf c t (N.of_nat (j + i)) p x.
Proof.
  induction sizes as [|n sizes IH]; intros j s ps s' H; cbn [dg_read_plains] in H.
  { injection H as <- _. split; [done|]. intros i p Hi. done. }
  destruct (dg_read_plain pf c t (N.of_nat j) n s) as [[p s1]| | |] eqn:E1; cbn [mbind res_bind] in H; try done.
  replace (N.of_nat j + 1) with (N.of_nat (S j)) in H by lia.
  destruct (dg_read_plains pf c t (N.of_nat (S j)) sizes s1) as [[ps1 s2]| | |] eqn:E2; cbn [mbind res_bind] in H; try done. injection H as <- _.
  destruct (read_plain_inv _ _ _ _ _ _ _ _ E1) as [Hp Hs]. destruct (IH _ _ _ _ E2) as [Hps Hss]. split; [cbn [map]; by rewrite Hp, Hps|].
  intros [|i] p' Hi x Hx.
  - injection Hi as <-. rewrite Nat.add_0_r. apply Hs. by rewrite <-Hp.
  - replace (j + S i)%nat with (S j + i)%nat by lia. by apply Hss.
Qed.
Theorem C118_accepted : forall pf c t0 s t' s', dg_deserialize pf c t0 s = Ok (t', s') -> dg_n t' <> 0 ->
  exists ps, dg_plain t' = Some ps /\ N.of_nat (length ps) = g_bucket_count (gstrip t')
    /\ dg_n t' = fold_right N.add 0 (map p_size ps) mod 2^64
    /\ forall bk p, ps !! bk = Some p -> dg_bucket_size t' (N.of_nat bk) = Ok (p_size p)
       /\ forall i, (i < N.to_nat (p_size p))%nat -> same_entry pf c t' (N.of_nat bk) p i.
Proof.
  intros pf c t0 s t' s' H Hn. unfold dg_deserialize in H. destruct (dg_clear t0) as [t1| | |]; cbn [mbind res_bind] in H; try done.
  destruct (read_var s _) as [kw s1]. destruct (read_var s1 _) as [vw s2]. destruct (used kw) as [kw'| | |]; cbn [mbind res_bind] in H; try done.
  destruct (dhash_new _ _); cbn [mbind res_bind] in H; try done. destruct (read_var s2 _) as [b s3]. destruct (read_var s3 _) as [n s4]. destruct (read_var s4 _) as [bpg s5].
  destruct (used vw) as [vw'| | |]; cbn [mbind res_bind] in H; try done. destruct (used n) as [n'| | |]; cbn [mbind res_bind] in H; try done.
  destruct (used bpg) as [bpg'| | |]; cbn [mbind res_bind] in H; try done.
  destruct (N.eqb_spec n' 0) as [->|En]. { injection H as <- _. done. }
  destruct (used b) as [b'| | |]; cbn [mbind res_bind] in H; try done. destruct (shl64 1 b') as [nb| | |]; cbn [mbind res_bind] in H; try done.
  destruct (dg_alloc _ nb) as [t2| | |] eqn:Ea; cbn [mbind res_bind] in H; try done. destruct (chk (dg_b t2 =? b')); cbn [mbind res_bind] in H; try done.
  destruct (dremainder_width _ _); cbn [mbind res_bind] in H; try done. destruct (g_group_count _) as [gc| | |]; cbn [mbind res_bind] in H; try done.
  destruct (dg_read_groups pf c t2 _ s5) as [[gs s6]| | |]; cbn [mbind res_bind] in H; try done.
  set (t3 := DGTable (Some gs) (dg_b t2) (dg_n t2) (dg_kw t2) (dg_vw t2) (dg_bpg t2) (dg_plain t2)) in *.
  destruct (dg_read_sizes _ s6) as [[sizes s7]| | |] eqn:Es; cbn [mbind res_bind] in H; try done. apply read_sizes_length in Es.
  match type of H with context [rfold ?f ?l tt] => destruct (rfold f l tt) as [u| | |] eqn:Ef; cbn [mbind res_bind] in H; try done end.
  destruct (dg_read_plains pf c t3 0 sizes s7) as [[ps s8]| | |] eqn:Ep; cbn [mbind res_bind] in H; try done.
  destruct (N.eqb_spec n' (u64 (fold_right N.add 0 sizes))) as [Esum|]; cbn [chk mbind res_bind] in H; try done. injection H as <- _.
  destruct (read_plains_inv pf c t3 sizes 0 _ _ _ Ep) as [Hsz Hent].
  assert (Hn2 : dg_n t2 = n').
  { unfold dg_alloc in Ea. destruct (reserve_bits nb); cbn [mbind res_bind] in Ea; try done. destruct (g_div _ _); cbn [mbind res_bind] in Ea; try done. by injection Ea as <-. }
  assert (Hlen : length ps = length sizes) by (by rewrite <-Hsz, map_length).
  exists ps. split; [done|]. split.
  { rewrite Hlen, Es, N2Nat.id. done. }
  split. { cbn [dg_n t3]. rewrite Hn2, Hsz. exact Esum. }
  intros bk p Hp. split.
  - pose proof (lookup_lt_Some _ _ _ Hp) as Hlt. pose proof (rfold_unit_inv _ _ _ Ef bk) as Hx. cbn beta in Hx. specialize (Hx ltac:(apply elem_of_seq; lia)).
    assert (Hs : sizes !! bk = Some (p_size p)). { rewrite <-Hsz. change (map p_size ps) with (p_size <$> ps). by rewrite list_lookup_fmap, Hp. }
    rewrite Hs in Hx. cbn [of_option mbind res_bind] in Hx. destruct (dg_bucket_size t3 (N.of_nat bk)) as [m| | |] eqn:Em; cbn [mbind res_bind] in Hx; try done.
    destruct (N.eqb_spec (p_size p) m) as [->|]; [|done]. exact Em.
  - intros i Hi. apply (Hent bk p Hp i Hi).
Qed.
Print Assumptions C118_accepted.

(** A table of 20-bit keys, restored into a table of other widths, and then used; behind its stream another bit is left. *)
Definition ex_dg_restore : res (stream * list out) :=
  r ← m_run_ops (dg_impl lax_pf ex_gx 64) (ex_dgnew ex_gx 20 9) ex_d_ins;
  s ← dg_serialize ex_gx (fst (r : dgtable * list out));
  x ← dg_deserialize lax_pf ex_gx (ex_dgnew ex_gx 7 3) (s ++ [Some true]);
  y ← m_run_ops (dg_impl lax_pf ex_gx 64) (fst (x : dgtable * stream)) [OpErase 99; OpRead 5; OpFind 99; OpInsert 8 8; OpSize];
  Ok (snd x, snd (y : dgtable * list out)).
Example C118_case : group_ok ex_gx 20 9 1 /\ valid_ops 20 9 1 (zbmax (gc_hash ex_gx) 20) ex_d_ins /\ dg_new ex_gx 20 9 = Ok (ex_dgnew ex_gx 20 9)
  /\ size (fst (spec_run ∅ ex_d_ins)) = 3%nat /\ (8 <= slack lax_pf)%nat
  /\ ex_dg_restore = Ok ([Some true], snd (spec_run (fst (spec_run ∅ ex_d_ins)) [OpErase 99; OpRead 5; OpFind 99; OpInsert 8 8; OpSize])).
Proof.
  split; [exact ex_gx_ok|]. split; [valid_solve|]. split; [vm_compute; reflexivity|]. split; [vm_compute; reflexivity|]. split; [cbn; lia|]. vm_compute; reflexivity.
Qed.
