(** group_chaining_table refines a finite map (histories: MapProofs.v). *)
From Verif Require Export GroupKv HashChain MapProofs.

(** ** The buckets of a group *)
Definition nthb (ess : list entries) (i : nat) : entries := default [] (ess !! i).
Definition chunk (n : nat) (ess : list entries) (gi : nat) : list entries := map (fun r => nthb ess (gi * n + r)) (seq 0 n).

#[local] Open Scope nat_scope.
Lemma chunk_length n ess gi : length (chunk n ess gi) = n.
Proof. unfold chunk. by rewrite map_length, seq_length. Qed.
Lemma chunk_lookup n ess gi r : r < n -> chunk n ess gi !! r = Some (nthb ess (gi * n + r)).
Proof. intros H. unfold chunk. change (map ?f ?l) with (f <$> l). by rewrite list_lookup_fmap, lookup_seq_lt by done. Qed.
Lemma nthb_Some ess i es : ess !! i = Some es -> nthb ess i = es.
Proof. unfold nthb. by intros ->. Qed.
Lemma nthb_nil ess i : length ess <= i -> nthb ess i = [].
Proof. intros H. unfold nthb. by rewrite lookup_ge_None_2. Qed.
Lemma chunk_set n ess bk es : 1 <= n -> bk < length ess -> chunk n (<[bk := es]> ess) (bk / n) = <[bk mod n := es]> (chunk n ess (bk / n)).
Proof.
  intros Hn Hbk. pose proof (Nat.div_mod bk n ltac:(lia)) as Hd. pose proof (Nat.mod_upper_bound bk n ltac:(lia)) as Hu.
  apply list_eq. intros r. destruct (Nat.lt_ge_cases r n) as [Hr|Hr].
  - rewrite chunk_lookup by done. destruct (decide (r = bk mod n)) as [->|Hne].
    + rewrite list_lookup_insert by (by rewrite chunk_length). f_equal. unfold nthb.
      replace (bk / n * n + bk mod n) with bk by lia. by rewrite list_lookup_insert.
    + rewrite list_lookup_insert_ne by done. rewrite chunk_lookup by done. f_equal. unfold nthb.
      rewrite list_lookup_insert_ne; [done|]. lia.
  - rewrite !lookup_ge_None_2; [done|by rewrite insert_length, chunk_length|by rewrite chunk_length].
Qed.
Lemma chunk_other n ess bk es gi : 1 <= n -> gi <> bk / n -> chunk n (<[bk := es]> ess) gi = chunk n ess gi.
Proof.
  intros Hn Hne. apply list_eq. intros r. destruct (Nat.lt_ge_cases r n) as [Hr|Hr].
  - rewrite !chunk_lookup by done. f_equal. unfold nthb. rewrite list_lookup_insert_ne; [done|]. intros ->. apply Hne.
    rewrite Nat.add_comm, Nat.div_add by lia. rewrite Nat.div_small by done. done.
  - by rewrite !lookup_ge_None_2 by (by rewrite chunk_length).
Qed.
Lemma chunk_at n ess bk es : 1 <= n -> ess !! bk = Some es -> chunk n ess (bk / n) !! (bk mod n) = Some es.
Proof.
  intros Hn He. pose proof (Nat.div_mod bk n ltac:(lia)) as Hd. pose proof (Nat.mod_upper_bound bk n ltac:(lia)) as Hu.
  rewrite chunk_lookup by done. replace (bk / n * n + bk mod n) with bk by lia. by rewrite (nthb_Some _ _ _ He).
Qed.
(** All buckets, in order *)
Lemma concat_nthb ess m : length ess <= m -> concat (map (nthb ess) (seq 0 m)) = concat ess.
Proof.
  revert m. induction ess as [|es ess IH]; intros m Hm.
  - induction m as [|m IHm] using nat_ind; [done|]. rewrite seq_S, map_app, concat_app. rewrite IHm by (cbn; lia). done.
  - destruct m as [|m]; [cbn in Hm; lia|]. cbn [seq map concat]. f_equal. rewrite <-(IH m) by (cbn in Hm; lia).
    rewrite <-seq_shift, map_map. done.
Qed.
Lemma chunks_flat n ess k : forall i, concat (map (chunk n ess) (seq i k)) = map (nthb ess) (seq (i * n) (k * n)).
Proof.
  induction k as [|k IH]; intros i; [done|]. cbn [seq map concat]. rewrite IH. cbn [Nat.mul]. rewrite seq_app, map_app. f_equal.
  - unfold chunk. generalize (i * n) as o. intros o.
    assert (E : forall a m, map (fun r => nthb ess (o + r)) (seq a m) = map (nthb ess) (seq (a + o) m)).
    { intros a m. revert a. induction m as [|m IHm]; intros a; [done|]. cbn [seq map]. f_equal; [f_equal; lia|]. apply IHm. }
    apply (E 0).
  - f_equal. f_equal. lia.
Qed.
Lemma concat_concat {A} (l : list (list (list A))) : concat (concat l) = concat (map (@concat A) l).
Proof. induction l as [|x l IH]; [done|]. cbn [concat map]. by rewrite concat_app, IH. Qed.
Lemma chunks_concat n ess k : length ess <= k * n -> concat (map (fun i => concat (chunk n ess i)) (seq 0 k)) = concat ess.
Proof.
  intros H. rewrite <-(concat_nthb ess (k * n)) by done. pose proof (chunks_flat n ess k 0) as E. cbn [Nat.mul] in E. rewrite <-E.
  rewrite concat_concat, map_map. done.
Qed.
Lemma chunk_elem n ess gi e : e ∈ concat (chunk n ess gi) -> exists i es, ess !! i = Some es /\ e ∈ es /\ gi * n <= i < gi * n + n.
Proof.
  intros He. apply elem_of_concat in He as (r & es & Hr & He). pose proof (lookup_lt_Some _ _ _ Hr) as Hlt. rewrite chunk_length in Hlt.
  rewrite chunk_lookup in Hr by done. injection Hr as <-. unfold nthb in He.
  destruct (ess !! (gi * n + r)) as [es|] eqn:E; [|by apply elem_of_nil in He]. exists (gi * n + r), es. split; [done|]. split; [done|]. lia.
Qed.
Lemma chunk_nil n m gi : chunk n (replicate m []) gi = replicate n [].
Proof.
  apply list_eq. intros r. destruct (Nat.lt_ge_cases r n) as [Hr|Hr].
  - rewrite chunk_lookup, lookup_replicate_2 by done. f_equal. unfold nthb. destruct (replicate m [] !! (gi * n + r)) eqn:E; [|done].
    by apply lookup_replicate in E as [-> _].
  - rewrite !lookup_ge_None_2; [done|by rewrite replicate_length|by rewrite chunk_length].
Qed.
Lemma chunk_sub n ess gi : exists A B, concat ess ≡ₚ A ++ concat (chunk n ess gi) ++ B.
Proof.
  destruct (Nat.eq_dec n 0) as [->|Hn]. { exists (concat ess), []. cbn. by rewrite !app_nil_r. }
  pose proof (chunks_concat n ess (gi + 1 + length ess) ltac:(nia)) as E. rewrite <-E.
  replace (gi + 1 + length ess) with (gi + S (length ess)) by lia.
  rewrite seq_app, map_app, concat_app. cbn [seq map concat]. rewrite Nat.add_0_l. eauto.
Qed.
#[local] Close Scope nat_scope.

(** ** Parameters *)
(** No 256 keys lie in one group of at most 127 buckets of a table with 2^63 buckets. *)
Definition gspreading (f : N -> N) (kw : N) : Prop :=
  forall p ks, 1 <= p <= 127 -> NoDup ks -> N.of_nat (length ks) = 256 -> (forall k, k ∈ ks -> k < 2^kw) ->
  ~ (forall k k', k ∈ ks -> k' ∈ ks -> (u64 (f k) mod 2^63) / p = (u64 (f k') mod 2^63) / p).
Definition ginit_ok (kw bmin bmax : N) : Prop := 3 <= kw /\ bmin <= N.log2_up (N.min (kw - 1) 8) <= bmax.
Record group_ok (c : gcfg) (kw vw bmin : N) : Prop := {
  go_hash : hash_ok (gc_hash c) (gc_keybits c) 64 kw bmin;
  go_init : ginit_ok kw bmin (zbmax (gc_hash c) kw);
  go_vw : 1 <= vw <= 64;
  go_spread : match gc_hash c with HBij _ => True | HAdapter f => gspreading f kw end
}.
Lemma injective_gspreading f kw : (forall k k', k < 2^kw -> k' < 2^kw -> u64 (f k) = u64 (f k') -> k = k') -> gspreading f kw.
Proof.
  intros Hinj p ks Hp Hnd Hlen Hks Hall.
  assert (N.of_nat (length ks) <= 2 * p); [|lia].
  apply (nodup_image_bound (fun k => u64 (f k) / 2^63 * p + (u64 (f k) mod 2^63) mod p)); [done|..].
  - intros k k' Hk Hk' E. apply Hinj; [by apply Hks|by apply Hks|].
    pose proof (N.mod_lt (u64 (f k) mod 2^63) p ltac:(lia)). pose proof (N.mod_lt (u64 (f k') mod 2^63) p ltac:(lia)).
    rewrite !(N.mul_comm _ p) in E.
    assert (u64 (f k) / 2^63 = u64 (f k') / 2^63 /\ (u64 (f k) mod 2^63) mod p = (u64 (f k') mod 2^63) mod p) as [E1 E2].
    { eapply (N.div_mod_unique p); [..|exact E]; done. }
    rewrite (N.div_mod (u64 (f k)) (2^63)), (N.div_mod (u64 (f k')) (2^63)) by done. rewrite E1. f_equal.
    rewrite (N.div_mod (u64 (f k) mod 2^63) p), (N.div_mod (u64 (f k') mod 2^63) p) by lia. by rewrite E2, (Hall k k').
  - intros k Hk. pose proof (N.mod_lt (u64 (f k) mod 2^63) p ltac:(lia)).
    assert (u64 (f k) / 2^63 < 2).
    { apply N.div_lt_upper_bound; [done|]. unfold u64. pose proof (N.mod_lt (f k) (2^64) ltac:(done)). change (2^63 * 2) with (2^64). done. }
    nia.
Qed.
Lemma splitmix_gspreading kw : kw <= 64 -> gspreading splitmix kw.
Proof.
  intros Hk. apply injective_gspreading. intros k k' H1 H2 E.
  assert (2^kw <= 2^64) by (by apply N.pow_le_mono_r).
  apply splitmix_inj; [lia|lia|]. unfold u64 in E. rewrite !N.mod_small in E by apply splitmix_lt. done.
Qed.

Section group.
Context (er : Prop) (pf : platform) (c : gcfg) (kw vw bmin : N).
Hypothesis OK : group_ok c kw vw bmin.
Notation bmax := (zbmax (gc_hash c) kw).
Notation bq := (zq (gc_hash c) (gc_keybits c) 64 kw).
Notation bb := (zb (gc_hash c) (gc_keybits c) 64 kw).
Notation bw b := (N.to_nat (zw (gc_hash c) (gc_keybits c) 64 kw b)).
Notation vwn := (N.to_nat vw).

(** A group and its buckets of (key, value) pairs; the group stores the quotients of the keys. *)
Definition qent (b : N) (e : N * N) : N * N := (bq b (fst e), snd e).
Definition qbss (b : N) (bss : list entries) : list entries := (fun es : entries => qent b <$> es) <$> bss.
Definition grepr (b : N) (g : kvgroup) (bss : list entries) : Prop :=
  (length (concat bss) <= 255)%nat /\ (1 <= length bss <= 127)%nat
  /\ ((g = kv_new /\ concat bss = []) \/ kv_rep er pf (bw b) vwn g (qbss b bss)).

Record grep (t : gtable) (ess : list entries) : Prop := {
  gr_kw : gt_kw t = kw;
  gr_vw : gt_vw t = vw;
  gr_bpg : 1 <= gt_bpg t <= 127;
  gr_b : bmin <= gt_b t <= bmax;
  gr_len : N.of_nat (length ess) = 2^gt_b t;
  gr_groups : exists gs, gt_groups t = Some gs /\ N.of_nat (length gs) = 2^gt_b t / gt_bpg t + 1
    /\ forall i g, gs !! i = Some g -> grepr (gt_b t) g (chunk (gbpg t) ess i);
  gr_placed : placed (bb (gt_b t)) ess;
  gr_nodup : NoDup (keys_of (concat ess));
  gr_range : forall k v, (k, v) ∈ concat ess -> k < 2^kw /\ v < 2^vw;
  gr_n : gt_n t = N.of_nat (length (concat ess)) mod 2^64
}.
Definition gzero (t : gtable) : Prop :=
  gt_kw t = kw /\ gt_vw t = vw /\ gt_b t = 0 /\ gt_n t = 0 /\ gt_groups t = None /\ 1 <= gt_bpg t <= 127.

Local Lemma Hho : hash_ok (gc_hash c) (gc_keybits c) 64 kw bmin.
Proof. apply OK. Qed.
Local Hint Resolve Hho : core.
Lemma bw_range b : bmin <= b <= bmax -> (1 <= bw b <= 64)%nat.
Proof. intros Hb. pose proof (zw_range _ _ _ _ _ Hho b Hb). pose proof (ho_kw _ _ _ _ _ Hho). lia. Qed.
Lemma vw_range : (1 <= vwn <= 64)%nat.
Proof. pose proof (go_vw _ _ _ _ OK). lia. Qed.
Lemma b_range t ess : grep t ess -> 1 <= gt_b t <= 63.
Proof. intros H. pose proof (gr_b _ _ H). pose proof (zbmax_le _ _ _ _ _ Hho). pose proof (ho_bmin _ _ _ _ _ Hho). lia. Qed.
Lemma gqw_eq t : gt_kw t = kw -> gqw c t = bw (gt_b t).
Proof. intros E. unfold gqw, ghm, zw, zm. by rewrite E. Qed.
Lemma gvw_eq t : gt_vw t = vw -> gvw t = vwn.
Proof. intros E. unfold gvw. by rewrite E. Qed.
Lemma small_n w x : (x < 2^w)%N -> (x < 2^N.of_nat (N.to_nat w))%N.
Proof. by rewrite N2Nat.id. Qed.
Lemma count_eq t ess : grep t ess -> g_bucket_count t = 2^gt_b t.
Proof. intros H. unfold g_bucket_count. pose proof (b_range _ _ H). by rewrite (proj2 (N.eqb_neq _ _)) by lia. Qed.

(** ** One group *)
Lemma qbss_concat b bss : concat (qbss b bss) = qent b <$> concat bss.
Proof. unfold qbss. induction bss as [|es bss IH]; [done|]. cbn [fmap list_fmap concat]. change (list_fmap ?f ?l) with (f <$> l). by rewrite IH, fmap_app. Qed.
Lemma qbss_length b bss : length (qbss b bss) = length bss.
Proof. apply fmap_length. Qed.
Lemma qbss_lookup b bss r es : bss !! r = Some es -> qbss b bss !! r = Some (qent b <$> es).
Proof. intros H. unfold qbss. by rewrite list_lookup_fmap, H. Qed.
Lemma qbss_insert b bss r es : qbss b (<[r := es]> bss) = <[r := qent b <$> es]> (qbss b bss).
Proof. unfold qbss. by rewrite list_fmap_insert. Qed.
Lemma qkeys b es : (qent b <$> es).*1 = bq b <$> keys_of es.
Proof. rewrite <-!list_fmap_compose. done. Qed.

Lemma grepr_size b g bss : grepr b g bss -> g_size g = N.of_nat (length (concat bss)).
Proof.
  intros (_ & _ & [[-> ->]|(_ & -> & _)]); [done|]. by rewrite qbss_concat, fmap_length.
Qed.
Lemma grepr_bucketsize b g bss r es : grepr b g bss -> bss !! r = Some es -> kv_bucketsize g r = Ok (length es) /\ (length es <= 255)%nat.
Proof.
  intros (H255 & _ & H) Hr. pose proof (concat_length_pos _ _ _ Hr) as Hle. split; [|lia]. destruct H as [[-> Hc]|H].
  - rewrite Hc in Hle. cbn in Hle. replace (length es) with 0%nat by lia. done.
  - erewrite kv_bucketsize_spec; [|exact H|by apply qbss_lookup]. by rewrite fmap_length.
Qed.
Lemma grepr_rep b g bss : grepr b g bss -> concat bss <> [] -> kv_rep er pf (bw b) vwn g (qbss b bss).
Proof. by intros (_ & _ & [[_ ?]|H]) ?. Qed.
Lemma grepr_nonempty b g bss r (es : entries) p e : grepr b g bss -> bss !! r = Some es -> es !! p = Some e -> kv_rep er pf (bw b) vwn g (qbss b bss).
Proof.
  intros H Hr Hp. eapply grepr_rep; [done|]. pose proof (concat_length_pos _ _ _ Hr) as Hle. apply lookup_lt_Some in Hp.
  intros E. rewrite E in Hle. cbn in Hle. lia.
Qed.
Lemma grepr_key b g bss r es p k v : bmin <= b <= bmax -> grepr b g bss -> bss !! r = Some es -> es !! p = Some (k, v) ->
  kv_read_key pf g r p (bw b) = Ok (bq b k).
Proof.
  intros Hb H Hr Hp. eapply kv_read_key_spec; [by apply bw_range|by eapply grepr_nonempty|by apply qbss_lookup|].
  rewrite list_lookup_fmap, Hp. done.
Qed.
Lemma grepr_value b g bss r es p k v : grepr b g bss -> bss !! r = Some es -> es !! p = Some (k, v) ->
  kv_read_value pf g r p vwn = Ok v.
Proof.
  intros H Hr Hp. eapply kv_read_value_spec; [apply vw_range|by eapply grepr_nonempty|by apply qbss_lookup|].
  rewrite list_lookup_fmap, Hp. done.
Qed.
(** The quotients of a bucket identify its keys. *)
Lemma quot_index b ess es k : bmin <= b <= bmax -> placed (bb b) ess -> (forall k v, (k, v) ∈ concat ess -> k < 2^kw /\ v < 2^vw) ->
  k < 2^kw -> ess !! N.to_nat (bb b k) = Some es -> first_index (bq b k) (bq b <$> keys_of es) = first_index k (keys_of es).
Proof.
  intros Hb Hpl Hr Hk He. apply (fi_map (bq b)). intros x Hx Eq. apply keys_elem in Hx as (v & Hx).
  assert (Hin : (x, v) ∈ concat ess) by (apply elem_of_concat; eauto).
  eapply (zq_inj _ _ _ _ _ Hho b x k); try done; [by eapply Hr|]. rewrite (Hpl _ _ _ _ He Hx). lia.
Qed.

(** ** The group of a bucket *)
Lemma gbpg_pos t ess : grep t ess -> (1 <= gbpg t <= 127)%nat.
Proof. intros H. pose proof (gr_bpg _ _ H). unfold gbpg. lia. Qed.
Lemma rank_eq t ess bk : grep t ess -> g_rank t bk = (N.to_nat bk mod gbpg t)%nat.
Proof. intros H. pose proof (gr_bpg _ _ H). unfold g_rank, gbpg. rewrite N2Nat.inj_mod. done. Qed.
Lemma gindex t ess bk : grep t ess -> N.to_nat (bk / gt_bpg t) = (N.to_nat bk / gbpg t)%nat.
Proof. intros H. unfold gbpg. by rewrite N2Nat.inj_div. Qed.
Lemma ggroup_at t ess bk es : grep t ess -> ess !! N.to_nat bk = Some es ->
  exists gs g, gt_groups t = Some gs /\ gs !! (N.to_nat bk / gbpg t)%nat = Some g /\ g_group t bk = Ok g
    /\ grepr (gt_b t) g (chunk (gbpg t) ess (N.to_nat bk / gbpg t)) /\ chunk (gbpg t) ess (N.to_nat bk / gbpg t) !! g_rank t bk = Some es.
Proof.
  intros H He. destruct (gr_groups _ _ H) as (gs & Hgs & Hl & Hg). pose proof (gr_bpg _ _ H) as Hbp. pose proof (gr_len _ _ H) as Hlen.
  pose proof (lookup_lt_Some _ _ _ He) as Hlt. pose proof (gbpg_pos _ _ H).
  assert (Hdiv : bk / gt_bpg t <= 2^gt_b t / gt_bpg t) by (apply N.div_le_mono; lia).
  pose proof (gindex _ _ bk H) as Ei.
  destruct (lookup_lt_is_Some_2 gs (N.to_nat bk / gbpg t)) as (g & Hgi); [rewrite <-Ei; lia|].
  exists gs, g. split; [done|]. split; [done|]. split; [|split; [by apply Hg|]].
  - unfold g_group, g_div. rewrite (proj2 (N.eqb_neq _ _)) by lia. cbn [mbind res_bind]. unfold g_at. rewrite Hgs.
    rewrite (proj2 (N.ltb_lt _ _)) by lia. rewrite Ei, Hgi. done.
  - rewrite (rank_eq _ _ _ H). apply chunk_at; [lia|done].
Qed.
Lemma gmap_hash t ess k : grep t ess -> k < 2^kw -> hash_map (ghm c (gt_kw t)) k (gt_b t) = Ok (bq (gt_b t) k, bb (gt_b t) k).
Proof. intros H Hk. rewrite (gr_kw _ _ H). by destruct (z_map _ _ _ _ _ Hho (gt_b t) k (gr_b _ _ H) Hk) as [E _]. Qed.
Lemma glocate t ess es k : grep t ess -> k < 2^kw -> ess !! N.to_nat (bb (gt_b t) k) = Some es ->
  g_locate_q pf c t (bb (gt_b t) k) (bq (gt_b t) k) = Ok (N.of_nat <$> first_index k (keys_of es)).
Proof.
  intros H Hk He. unfold g_locate_q. destruct (ggroup_at _ _ _ _ H He) as (gs & g & _ & _ & -> & Hr & Hc). cbn [mbind res_bind].
  rewrite gqw_eq by apply H. destruct (kv_empty g) eqn:Ee.
  - unfold kv_empty in Ee. rewrite (grepr_size _ _ _ Hr) in Ee. apply N.eqb_eq in Ee.
    pose proof (concat_length_pos _ _ _ Hc). assert (es = []) as -> by (apply nil_length_inv; lia). done.
  - erewrite kv_find_spec; [|apply bw_range, H| |by apply qbss_lookup].
    + cbn [mbind res_bind]. rewrite qkeys, (quot_index _ ess) by (try apply H; done). done.
    + eapply grepr_rep; [done|]. intros E. unfold kv_empty in Ee. rewrite (grepr_size _ _ _ Hr), E in Ee. done.
Qed.
Lemma gfind_ok t ess es k : grep t ess -> k < 2^kw -> ess !! N.to_nat (bb (gt_b t) k) = Some es ->
  g_find pf c t k = Ok (match first_index k (keys_of es) with Some p => (bb (gt_b t) k, N.of_nat p) | None => end_nav end).
Proof.
  intros H Hk He. unfold g_find. pose proof (b_range _ _ H). rewrite (proj2 (N.eqb_neq _ _)) by lia.
  rewrite (gmap_hash _ _ _ H Hk). cbn [mbind res_bind]. rewrite (glocate _ _ _ _ H Hk He). cbn [mbind res_bind].
  by destruct (first_index k (keys_of es)).
Qed.

(** Replacing a bucket *)
Lemma grep_set t ess bk g es n es' : grep t ess -> ess !! N.to_nat bk = Some es ->
  grepr (gt_b t) g (<[g_rank t bk := es']> (chunk (gbpg t) ess (N.to_nat bk / gbpg t))) ->
  placed (bb (gt_b t)) (<[N.to_nat bk := es']> ess) -> NoDup (keys_of (concat (<[N.to_nat bk := es']> ess))) ->
  (forall k v, (k, v) ∈ concat (<[N.to_nat bk := es']> ess) -> k < 2^kw /\ v < 2^vw) ->
  n = N.of_nat (length (concat (<[N.to_nat bk := es']> ess))) mod 2^64 ->
  grep (g_set (g_set_n t n) bk g) (<[N.to_nat bk := es']> ess).
Proof.
  intros H He Hr Hpl Hnd Hra Hn. unfold g_set, g_set_n. cbn [gt_groups gt_b gt_n gt_kw gt_vw gt_bpg].
  destruct (gr_groups _ _ H) as (gs & Hgs & Hl & Hg). pose proof (gbpg_pos _ _ H) as Hbp.
  constructor; cbn [gt_groups gt_b gt_n gt_kw gt_vw gt_bpg]; try done; try apply H.
  - rewrite insert_length. apply H.
  - rewrite Hgs. cbn. eexists. split; [done|]. rewrite insert_length. split; [done|]. unfold gbpg at 1. cbn [gt_bpg]. fold (gbpg t).
    rewrite (gindex _ _ _ H), (rank_eq _ _ _ H) in *. intros i g' Hi. apply list_lookup_insert_Some in Hi as [(<- & <- & Hi)|(Hne & Hi)].
    + rewrite chunk_set; [done|lia|by eapply lookup_lt_Some].
    + rewrite chunk_other; [by apply Hg|lia|done].
Qed.

Lemma gfound f t ess es k v p : grep t ess -> k < 2^kw -> ess !! N.to_nat (bb (gt_b t) k) = Some es ->
  first_index k (keys_of es) = Some p -> g_find_or_insert pf c (S f) t k v = Ok (t, (bb (gt_b t) k, N.of_nat p)).
Proof.
  intros H Hk He Hp. pose proof (b_range _ _ H) as Hb.
  cbn [g_find_or_insert]. rewrite (proj2 (N.eqb_neq _ _)) by lia. cbn [mbind res_bind].
  rewrite (gmap_hash _ _ _ H Hk). cbn [mbind res_bind].
  destruct (ggroup_at _ _ _ _ H He) as (gs & g & Hgs & Hg & -> & Hr & Hc). cbn [mbind res_bind].
  destruct (grepr_bucketsize _ _ _ _ _ Hr Hc) as [-> _]. cbn [mbind res_bind].
  rewrite (glocate _ _ _ _ H Hk He), Hp. done.
Qed.
Definition gfullb (t : gtable) (ess : list entries) (bk : N) : bool :=
  (length (concat (chunk (gbpg t) ess (N.to_nat bk / gbpg t))) =? 255)%nat.
Lemma gfull f t ess es k v : grep t ess -> k < 2^kw -> v < 2^vw -> ess !! N.to_nat (bb (gt_b t) k) = Some es ->
  first_index k (keys_of es) = None -> gfullb t ess (bb (gt_b t) k) = true ->
  g_find_or_insert pf c (S f) t k v =
    (n ← shl64 1 (gt_b t + 1); t ← g_reserve_with pf c (g_find_or_insert pf c f) t n 0; g_find_or_insert pf c f t k v).
Proof.
  intros H Hk Hv He Hnone Hfull. pose proof (b_range _ _ H) as Hb.
  cbn [g_find_or_insert]. rewrite (proj2 (N.eqb_neq _ _)) by lia. cbn [mbind res_bind].
  rewrite (gmap_hash _ _ _ H Hk). cbn [mbind res_bind].
  destruct (ggroup_at _ _ _ _ H He) as (gs & g & Hgs & Hg & -> & Hr & Hc). cbn [mbind res_bind].
  destruct (grepr_bucketsize _ _ _ _ _ Hr Hc) as [-> _]. cbn [mbind res_bind].
  rewrite (glocate _ _ _ _ H Hk He), Hnone. cbn [mbind res_bind fmap option_fmap option_map].
  unfold gfullb in Hfull. apply Nat.eqb_eq in Hfull. rewrite (grepr_size _ _ _ Hr), Hfull. done.
Qed.
(** Appending to a group that is not full: the last part of find_or_insert *)
Lemma gpush_slot t ess es k v : grep t ess -> k < 2^kw -> v < 2^vw -> ess !! N.to_nat (bb (gt_b t) k) = Some es ->
  first_index k (keys_of es) = None -> gfullb t ess (bb (gt_b t) k) = false ->
  exists g g', g_group t (bb (gt_b t) k) = Ok g /\ (g_size g =? g_max_group) = false
    /\ kv_push pf (if kv_initialized g then g else kv_init g (gbpg t) (gqw c t) (gvw t)) (gbpg t) (g_rank t (bb (gt_b t) k))
         (bq (gt_b t) k) (gqw c t) v (gvw t) = Ok g'
    /\ grep (g_set (g_set_n t (u64 (gt_n t + 1))) (bb (gt_b t) k) g') (<[N.to_nat (bb (gt_b t) k) := es ++ [(k, v)]]> ess).
Proof.
  intros H Hk Hv He Hnone Hfull. pose proof (b_range _ _ H) as Hb. pose proof (gr_b _ _ H) as Hbb.
  destruct (ggroup_at _ _ _ _ H He) as (gs & g & Hgs & Hg & Eg & Hr & Hc). exists g.
  unfold gfullb in Hfull. apply Nat.eqb_neq in Hfull. pose proof Hr as (H255 & H127 & _). pose proof (gbpg_pos _ _ H) as Hbp.
  set (bss := chunk (gbpg t) ess (N.to_nat (bb (gt_b t) k) / gbpg t)) in *.
  assert (Hbl : length bss = gbpg t) by apply chunk_length.
  assert (Hmax : (g_size g =? g_max_group) = false) by (unfold g_max_group; rewrite (proj2 (N.eqb_neq _ _)); [done|rewrite (grepr_size _ _ _ Hr); lia]).
  rewrite gqw_eq, gvw_eq by apply H. pose proof (bw_range _ Hbb) as Hbw. pose proof vw_range as Hvw.
  (* the group, initialized *)
  assert (Hg1 : exists g1, (if kv_initialized g then g else kv_init g (gbpg t) (bw (gt_b t)) vwn) = g1
     /\ kv_rep er pf (bw (gt_b t)) vwn g1 (qbss (gt_b t) bss)).
  { eexists. split; [done|]. destruct Hr as (_ & _ & [[-> Hem]|Hr]).
    - cbn [kv_initialized kv_new g_border]. replace (qbss (gt_b t) bss) with (replicate (gbpg t) (@nil (N * N))).
      + apply kv_init_rep; lia.
      + apply list_eq. intros i. destruct (Nat.lt_ge_cases i (gbpg t)) as [Hi|Hi].
        * rewrite lookup_replicate_2 by done. destruct (lookup_lt_is_Some_2 bss i) as (x & Hx); [lia|].
          rewrite (qbss_lookup _ _ _ _ Hx). pose proof (concat_length_pos _ _ _ Hx) as Hle. rewrite Hem in Hle. cbn in Hle.
          assert (x = []) as -> by (apply nil_length_inv; lia). done.
        * rewrite !lookup_ge_None_2; [done|by rewrite qbss_length, Hbl|by rewrite replicate_length].
    - pose proof Hr as (_ & _ & _ & _ & _ & ws & Hws & _). unfold kv_initialized. by rewrite Hws. }
  destruct Hg1 as (g1 & -> & Hg1).
  destruct (z_map _ _ _ _ _ Hho (gt_b t) k Hbb Hk) as (_ & Hbk & Hq & _).
  assert (Hsz1 : (g_size g1 + 513 <= 2^32)%N).
  { destruct Hg1 as (_ & -> & _). rewrite qbss_concat, fmap_length. lia. }
  destruct (kv_push_spec pf er er (bw (gt_b t)) vwn g1 _ (g_rank t (bb (gt_b t) k)) (qent (gt_b t) <$> es) (bq (gt_b t) k) v Hbw Hvw Hg1)
    as (g2 & E2 & Hg2 & _); [by apply qbss_lookup|by apply small_n|by apply small_n|done|].
  rewrite qbss_length, Hbl in E2. exists g2. split; [done|]. split; [done|]. split; [done|].
  assert (HP : concat (<[N.to_nat (bb (gt_b t) k) := es ++ [(k, v)]]> ess) ≡ₚ (k, v) :: concat ess) by (by apply concat_upd_push).
  eapply grep_set; [done|exact He|..].
  - fold bss. split; [|split; [by rewrite insert_length|]].
    + rewrite (Permutation_length (concat_upd_push _ _ _ (k, v) Hc)). cbn [length]. lia.
    + right. rewrite qbss_insert, fmap_app. exact Hg2.
  - eapply placed_push; [apply H|done|lia].
  - rewrite (keys_perm _ _ HP). cbn. apply NoDup_cons. split; [|apply H].
    rewrite (own_bucket_key _ _ (gr_placed _ _ H) _ _ He). by apply fi_None.
  - intros k' v' Hin. rewrite HP in Hin. apply elem_of_cons in Hin as [[= -> ->]|Hin]; [done|by eapply gr_range].
  - rewrite (Permutation_length HP). cbn [length]. rewrite (gr_n _ _ H). unfold u64.
    rewrite N.add_mod_idemp_l by done. f_equal. lia.
Qed.
Lemma gpush f t ess es k v : grep t ess -> k < 2^kw -> v < 2^vw -> ess !! N.to_nat (bb (gt_b t) k) = Some es ->
  first_index k (keys_of es) = None -> gfullb t ess (bb (gt_b t) k) = false ->
  exists t', g_find_or_insert pf c (S f) t k v = Ok (t', (bb (gt_b t) k, N.of_nat (length es)))
    /\ gt_b t' = gt_b t /\ grep t' (<[N.to_nat (bb (gt_b t) k) := es ++ [(k, v)]]> ess).
Proof.
  intros H Hk Hv He Hnone Hfull. pose proof (b_range _ _ H) as Hb.
  destruct (gpush_slot _ _ _ _ _ H Hk Hv He Hnone Hfull) as (g & g' & Eg & Hmax & Ep & HR).
  destruct (ggroup_at _ _ _ _ H He) as (gs & g0 & Hgs & Hg & Eg0 & Hr & Hc). rewrite Eg in Eg0. injection Eg0 as <-.
  cbn [g_find_or_insert]. rewrite (proj2 (N.eqb_neq _ _)) by lia. cbn [mbind res_bind].
  rewrite (gmap_hash _ _ _ H Hk). cbn [mbind res_bind]. rewrite Eg. cbn [mbind res_bind].
  destruct (grepr_bucketsize _ _ _ _ _ Hr Hc) as [-> _]. cbn [mbind res_bind].
  rewrite (glocate _ _ _ _ H Hk He), Hnone. cbn [mbind res_bind fmap option_fmap option_map].
  rewrite Hmax, Ep. cbn [mbind res_bind]. by eexists.
Qed.

(** A full group lies in a table that can still grow. *)
Lemma ggrow t ess k : grep t ess -> k < 2^kw -> k ∉ keys_of (concat ess) -> gfullb t ess (bb (gt_b t) k) = true -> gt_b t < bmax.
Proof.
  intros H Hk Hnk Hfull. unfold gfullb in Hfull. apply Nat.eqb_eq in Hfull. pose proof (gr_bpg _ _ H) as Hbp. pose proof (gr_b _ _ H) as Hbb.
  set (gi := (N.to_nat (bb (gt_b t) k) / gbpg t)%nat) in *. set (E := concat (chunk (gbpg t) ess gi)) in *.
  assert (Hes : forall x, x ∈ k :: keys_of E -> x < 2^kw /\ bb (gt_b t) x / gt_bpg t = bb (gt_b t) k / gt_bpg t).
  { intros x Hx. apply elem_of_cons in Hx as [->|Hx]; [done|]. apply keys_elem in Hx as (v & Hx).
    apply chunk_elem in Hx as (i & es & He & Hx & Hi). split.
    - eapply (gr_range _ _ H). apply elem_of_concat. eauto.
    - rewrite (gr_placed _ _ H _ _ _ _ He Hx). apply N2Nat.inj. rewrite !N2Nat.inj_div, Nat2N.id. fold (gbpg t). fold gi.
      symmetry. apply (Nat.div_unique _ _ _ (i - gi * gbpg t)%nat); lia. }
  assert (Hnd : NoDup (k :: keys_of E)).
  { destruct (chunk_sub (gbpg t) ess gi) as (A & B & HP). fold E in HP. apply NoDup_cons. split.
    - intros Hin. apply Hnk. rewrite (keys_perm _ _ HP), !fmap_app, !elem_of_app. by right; left.
    - pose proof (gr_nodup _ _ H) as Hnd. rewrite (keys_perm _ _ HP), !fmap_app in Hnd.
      apply NoDup_app in Hnd as (_ & _ & Hnd). by apply NoDup_app in Hnd as (? & _ & _). }
  assert (Hlen : N.of_nat (length (k :: keys_of E)) = 256) by (cbn [length]; rewrite fmap_length, Hfull; done).
  destruct (N.lt_ge_cases (gt_b t) bmax) as [|Hge]; [done|]. exfalso.
  pose proof (go_spread _ _ _ _ OK) as Hsp. pose proof (ho_kw _ _ _ _ _ Hho) as Hkw.
  assert (Hwb : forall x, x ∈ k :: keys_of E -> bq (gt_b t) x < 2^zw (gc_hash c) (gc_keybits c) 64 kw (gt_b t)).
  { intros x Hx. by destruct (z_map _ _ _ _ _ Hho (gt_b t) x Hbb (proj1 (Hes x Hx))) as (_ & _ & ? & _). }
  assert (Hinj : forall x y, x ∈ k :: keys_of E -> y ∈ k :: keys_of E -> bb (gt_b t) x = bb (gt_b t) y -> bq (gt_b t) x = bq (gt_b t) y -> x = y).
  { intros x y Hx Hy E1 E2. eapply (zq_inj _ _ _ _ _ Hho (gt_b t)); try done; by apply Hes. }
  unfold zw, remainder_width, zm in Hwb. cbn [h_kind h_width] in Hwb.
  destruct (gc_hash c) as [f|f] eqn:Eh; cbn [zbmax] in *.
  - assert (Eb : gt_b t = kw - 1) by lia. rewrite Eb in Hwb. rewrite sub8_small in Hwb by lia. replace (kw - (kw - 1)) with 1 in Hwb by lia.
    change (2^1) with 2 in Hwb.
    assert (N.of_nat (length (k :: keys_of E)) <= 2 * gt_bpg t); [|lia].
    apply (nodup_image_bound (fun x => bq (gt_b t) x * gt_bpg t + bb (gt_b t) x mod gt_bpg t)); [done|..]; rewrite <-?Eh in *.
    + intros x y Hx Hy Eq. rewrite !(N.mul_comm _ (gt_bpg t)) in Eq.
      pose proof (N.mod_lt (bb (gt_b t) x) (gt_bpg t) ltac:(lia)) as Hm1. pose proof (N.mod_lt (bb (gt_b t) y) (gt_bpg t) ltac:(lia)) as Hm2.
      destruct (N.div_mod_unique _ _ _ _ _ Hm1 Hm2 Eq) as [E1 E2].
      apply Hinj; try done. rewrite (N.div_mod (bb (gt_b t) x) (gt_bpg t)), (N.div_mod (bb (gt_b t) y) (gt_bpg t)) by lia.
      rewrite E2. f_equal. f_equal. transitivity (bb (gt_b t) k / gt_bpg t); [by apply Hes|symmetry; by apply Hes].
    + intros x Hx. specialize (Hwb x Hx). pose proof (N.mod_lt (bb (gt_b t) x) (gt_bpg t) ltac:(lia)) as Hm1. rewrite Eb in *. nia.
  - assert (Eb : gt_b t = 63) by lia. apply (Hsp (gt_bpg t) _ Hbp Hnd Hlen); [intros; by apply Hes|].
    intros x y Hx Hy. pose proof (Hes x Hx) as [Hx1 Hx2]. pose proof (Hes y Hy) as [Hy1 Hy2]. rewrite <-Hy2 in Hx2.
    unfold zb, zm in Hx2. rewrite Eb, !hash_map_adapter in Hx2 by lia. done.
Qed.

(** Allocation *)
Lemma galloc t n : gt_kw t = kw -> gt_vw t = vw -> gt_n t = 0 -> 1 <= gt_bpg t <= 127 -> 1 <= n <= 2^63 -> bmin <= N.log2_up n <= bmax ->
  exists t' ess0, g_alloc t n = Ok t' /\ grep t' ess0 /\ concat ess0 = [] /\ gt_b t' = N.log2_up n.
Proof.
  intros E1 E2 E3 E4 Hn Hb. unfold g_alloc. rewrite reserve_bits_spec by done. cbn [mbind res_bind].
  unfold g_div. rewrite (proj2 (N.eqb_neq _ _)) by lia. cbn [mbind res_bind].
  eexists _, (replicate (N.to_nat (2^N.log2_up n)) []). split; [done|].
  split; [|split; [apply concat_replicate_nil|done]].
  constructor; cbn [gt_groups gt_b gt_n gt_kw gt_vw gt_bpg]; try done.
  - rewrite replicate_length. lia.
  - eexists. split; [done|]. rewrite replicate_length. split; [lia|]. intros i g Hg. apply lookup_replicate in Hg as [-> _].
    rewrite chunk_nil. split; [rewrite concat_replicate_nil; cbn; lia|]. split; [rewrite replicate_length; unfold gbpg; cbn [gt_bpg]; lia|].
    left. split; [done|]. apply concat_replicate_nil.
  - apply placed_nil.
  - rewrite concat_replicate_nil. constructor.
  - intros k v. rewrite concat_replicate_nil. by intros ?%elem_of_nil.
  - rewrite concat_replicate_nil. done.
Qed.

(** Rehashing *)
Lemma ins_fold_app {T} (ins : T -> N -> N -> res (T * nav)) E1 E2 t :
  ins_fold ins (E1 ++ E2) t = (t' ← ins_fold ins E1 t; ins_fold ins E2 t').
Proof. apply rfold_app. Qed.
Lemma grehash_entries {T} (ins : T -> N -> N -> res (T * nav)) t g bss r es (bk : N) : gt_kw t = kw -> gt_vw t = vw -> bmin <= gt_b t <= bmax ->
  grepr (gt_b t) g bss -> bss !! r = Some es ->
  (forall k v, (k, v) ∈ es -> k < 2^kw /\ bb (gt_b t) k = bk) -> forall n i tmp, (i + n = length es)%nat ->
  rfold (fun (tmp : T) (j : nat) =>
      kv ← kv_read pf g r j (gqw c t) (gvw t);
      k ← hash_inv_map (ghm c (gt_kw t)) (fst kv) bk (gt_b t);
      x ← ins tmp k (snd kv);
      Ok (fst x)) (seq i n) tmp = ins_fold ins (drop i es) tmp.
Proof.
  intros E1 E2 Hb Hr Hrk Hbk. rewrite gqw_eq, gvw_eq, E1 by done. unfold ghm. fold (zm (gc_hash c) (gc_keybits c) 64 kw). induction n as [|n IH]; intros i tmp Hi; cbn [seq rfold].
  { by rewrite drop_ge by lia. }
  destruct (lookup_lt_is_Some_2 es i) as ([k v] & Hx); [lia|]. rewrite (drop_S _ _ _ Hx). unfold ins_fold. cbn [rfold fst snd].
  unfold kv_read. rewrite (grepr_key _ g bss r es i k v) by done. cbn [mbind res_bind].
  rewrite (grepr_value _ g bss r es i k v) by done. cbn [mbind res_bind fst snd].
  destruct (Hbk k v) as [Hk <-]; [by eapply elem_of_list_lookup_2|].
  destruct (z_map _ _ _ _ _ Hho (gt_b t) k Hb Hk) as (_ & _ & _ & Hinv).
  rewrite Hinv. cbn [mbind res_bind].
  destruct (ins tmp k v) as [x| | |]; cbn [mbind res_bind]; try done. apply IH. lia.
Qed.
Lemma grehash_buckets {T} (ins : T -> N -> N -> res (T * nav)) t g bss gi : gt_kw t = kw -> gt_vw t = vw -> bmin <= gt_b t <= bmax -> grepr (gt_b t) g bss ->
  (forall r es k v, bss !! r = Some es -> (k, v) ∈ es -> k < 2^kw /\ bb (gt_b t) k = N.of_nat (r + gi * gbpg t)) ->
  forall n i tmp, (i + n = length bss)%nat ->
  rfold (g_rehash_bucket pf c ins t gi g) (seq i n) tmp = ins_fold ins (concat (drop i bss)) tmp.
Proof.
  intros E1 E2 Hb Hr Hpl. induction n as [|n IH]; intros i tmp Hi; cbn [seq rfold].
  { by rewrite drop_ge by lia. }
  destruct (lookup_lt_is_Some_2 bss i) as (es & He); [lia|]. rewrite (drop_S _ _ _ He). cbn [concat]. rewrite ins_fold_app.
  assert (Es : g_rehash_bucket pf c ins t gi g tmp i = ins_fold ins es tmp).
  { unfold g_rehash_bucket. destruct (grepr_bucketsize _ _ _ _ _ Hr He) as [-> _]. cbn [mbind res_bind].
    rewrite (grehash_entries ins t g bss i es (N.of_nat (i + gi * gbpg t))); try done; intros; by eapply Hpl. }
  rewrite Es. destruct (ins_fold ins es tmp); cbn [mbind res_bind]; try done. apply IH. lia.
Qed.
Lemma grehash {T} (ins : T -> N -> N -> res (T * nav)) t ess : grep t ess -> forall gs i tmp, (forall j g, gs !! j = Some g -> grepr (gt_b t) g (chunk (gbpg t) ess (i + j))) ->
  rfold (g_rehash_group pf c ins t) (imap (fun j g => ((i + j)%nat, g)) gs) tmp
  = ins_fold ins (concat (map (fun j => concat (chunk (gbpg t) ess j)) (seq i (length gs)))) tmp.
Proof.
  intros H. induction gs as [|g gs IH]; intros i tmp Hg; [done|].
  cbn [imap length seq map concat]. rewrite ins_fold_app. cbn [rfold]. rewrite Nat.add_0_r.
  pose proof (Hg 0%nat g eq_refl) as Hr. rewrite Nat.add_0_r in Hr.
  assert (Es : g_rehash_group pf c ins t tmp (i, g) = ins_fold ins (concat (chunk (gbpg t) ess i)) tmp).
  { unfold g_rehash_group. destruct (kv_empty g) eqn:Ee.
    - unfold kv_empty in Ee. rewrite (grepr_size _ _ _ Hr) in Ee. apply N.eqb_eq in Ee.
      assert (concat (chunk (gbpg t) ess i) = []) as -> by (apply nil_length_inv; lia). done.
    - rewrite (grehash_buckets ins t g (chunk (gbpg t) ess i) i); try apply H; try done; [|by rewrite chunk_length].
      intros r es k v Hr' Hin. pose proof (lookup_lt_Some _ _ _ Hr') as Hlt. rewrite chunk_length in Hlt.
      rewrite chunk_lookup in Hr' by done. injection Hr' as <-. unfold nthb in Hin.
      destruct (ess !! (i * gbpg t + r)%nat) as [es|] eqn:Ei; [|by apply elem_of_nil in Hin]. cbn in Hin. split.
      + eapply (gr_range _ _ H). apply elem_of_concat. eauto.
      + rewrite (gr_placed _ _ H _ _ _ _ Ei Hin). f_equal. lia. }
  rewrite Es. destruct (ins_fold ins (concat (chunk (gbpg t) ess i)) tmp) as [tmp'| | |]; cbn [mbind res_bind]; try done.
  rewrite <-(IH (S i)).
  - f_equal. apply imap_ext. intros j x _. cbn. f_equal. lia.
  - intros j g' Hj. replace (S i + j)%nat with (i + S j)%nat by lia. by apply Hg.
Qed.
Lemma ggroups_enough t ess (gs : list kvgroup) : grep t ess -> N.of_nat (length gs) = 2^gt_b t / gt_bpg t + 1 -> (length ess <= length gs * gbpg t)%nat.
Proof.
  intros H Hl. pose proof (gr_len _ _ H) as Hlen. pose proof (gr_bpg _ _ H) as Hbp. unfold gbpg.
  pose proof (N.div_mod (2^gt_b t) (gt_bpg t) ltac:(lia)) as Hd. pose proof (N.mod_lt (2^gt_b t) (gt_bpg t) ltac:(lia)) as Hm.
  assert (N.of_nat (length ess) <= N.of_nat (length gs) * gt_bpg t); [|lia]. rewrite Hl, Hlen. nia.
Qed.
Lemma ggroup_count t ess gs : grep t ess -> gt_groups t = Some gs -> N.of_nat (length gs) = 2^gt_b t / gt_bpg t + 1 ->
  g_group_count t = Ok (N.of_nat (length gs)).
Proof.
  intros H Hgs Hl. unfold g_group_count. rewrite Hgs, (count_eq _ _ H). unfold g_div. pose proof (gr_bpg _ _ H).
  rewrite (proj2 (N.eqb_neq _ _)) by lia. cbn [mbind res_bind]. by rewrite Hl.
Qed.
(** reserve(n, nkw) on a table with buckets *)
Lemma greserve_gen t ess n nkw : grep t ess -> 1 <= n <= 2^63 -> forall ins, g_reserve_with pf c ins t n nkw =
  (tmp ← g_alloc (GTable None 0 0 (u8 (if nkw =? 0 then kw else nkw)) vw 64) (2^N.log2_up n); ins_fold ins (concat ess) tmp).
Proof.
  intros H Hn ins. pose proof (b_range _ _ H) as Hbr. unfold g_reserve_with. rewrite (proj2 (N.eqb_neq (gt_b t) _)) by lia.
  rewrite reserve_bits_spec by done. cbn [mbind res_bind]. rewrite (gr_kw _ _ H), (gr_vw _ _ H).
  destruct (g_alloc _ (2^N.log2_up n)) as [tmp| | |]; cbn [mbind res_bind]; try done.
  destruct (gr_groups _ _ H) as (gs & Hgs & Hl & Hg). rewrite (ggroup_count _ _ _ H Hgs Hl). cbn [mbind res_bind]. rewrite Hgs, N.ltb_irrefl.
  rewrite Nat2N.id, take_ge by lia.
  pose proof (grehash ins t ess H gs 0 tmp Hg) as Hre. change (imap (fun j g => ((0 + j)%nat, g)) gs) with (imap pair gs) in Hre. rewrite Hre.
  by rewrite chunks_concat by (by eapply ggroups_enough).
Qed.
Lemma greserve t ess n : grep t ess -> 1 <= n <= 2^63 -> bmin <= N.log2_up n <= bmax ->
  exists tmp ess0, grep tmp ess0 /\ concat ess0 = [] /\ gt_b tmp = N.log2_up n
    /\ forall ins, g_reserve_with pf c ins t n 0 = ins_fold ins (concat ess) tmp.
Proof.
  intros H Hn Hb. pose proof (zbmax_le _ _ _ _ _ Hho). pose proof (ho_kw _ _ _ _ _ Hho).
  assert (Hlog : N.log2_up (2^N.log2_up n) = N.log2_up n) by (apply N.log2_up_pow2; lia).
  destruct (galloc (GTable None 0 0 kw vw 64) (2^N.log2_up n)) as (tmp & ess0 & Ea & HR & Hc & Hbt); try done.
  { split; [pose proof (pow2_pos (N.log2_up n)); lia|]. apply pow2_le_63. lia. }
  { by rewrite Hlog. }
  rewrite Hlog in Hbt. exists tmp, ess0. split; [done|]. split; [done|]. split; [done|]. intros ins.
  rewrite (greserve_gen t ess n 0 H Hn ins). cbn [N.eqb]. rewrite u8_small by lia. by rewrite Ea.
Qed.

(** Erasing, writing *)
Lemma gnav_bucket t ess x k v : grep t ess -> nav_at ess x = Some (k, v) -> exists es, ess !! N.to_nat (fst x) = Some es
  /\ es !! N.to_nat (snd x) = Some (k, v) /\ snd x < 255.
Proof.
  intros H Hx. unfold nav_at in Hx. destruct (ess !! N.to_nat (fst x)) as [es|] eqn:He; [|done]. cbn in Hx.
  exists es. split; [done|]. split; [done|]. destruct (ggroup_at _ _ _ _ H He) as (gs & g & _ & _ & _ & Hr & Hc).
  destruct (grepr_bucketsize _ _ _ _ _ Hr Hc). apply lookup_lt_Some in Hx. lia.
Qed.
Lemma gerase_at t ess x k v : er -> grep t ess -> nav_at ess x = Some (k, v) ->
  exists t' es, ess !! N.to_nat (fst x) = Some es /\ g_erase_at pf c t x = Ok (t', 1) /\ gt_b t' = gt_b t
    /\ grep t' (<[N.to_nat (fst x) := delete (N.to_nat (snd x)) es]> ess).
Proof.
  intros He' H Hx. destruct (gnav_bucket _ _ _ _ _ H Hx) as (es & He & Hp & H255). destruct x as [bk p]. cbn [fst snd] in *.
  destruct (ggroup_at _ _ _ _ H He) as (gs & g & Hgs & Hg & Eg & Hr & Hc).
  unfold g_erase_at. rewrite (proj2 (N.eqb_neq _ _)) by (unfold ones64; lia). rewrite Eg. cbn [mbind res_bind].
  rewrite gqw_eq, gvw_eq by apply H. pose proof (gr_b _ _ H) as Hb. pose proof (lookup_lt_Some _ _ _ Hp) as Hpl.
  pose proof Hr as (Hr255 & H127 & _). set (bss := chunk (gbpg t) ess (N.to_nat bk / gbpg t)) in *.
  assert (Hbl : length bss = gbpg t) by apply chunk_length.
  destruct (kv_erase_spec pf er (bw (gt_b t)) vwn g _ (g_rank t bk) (qent (gt_b t) <$> es) (N.to_nat p) He' (bw_range _ Hb) vw_range
    (grepr_nonempty _ _ _ _ _ _ _ Hr Hc Hp)) as (g' & E' & Hg' & _); [by apply qbss_lookup|by rewrite fmap_length|].
  rewrite qbss_length, Hbl in E'. rewrite E'. cbn [mbind res_bind].
  pose proof (concat_upd_delete _ _ _ _ _ He Hp) as HP. pose proof (concat_upd_delete _ _ _ _ _ Hc Hp) as HPc.
  assert (Hinc : forall e, e ∈ concat (<[N.to_nat bk := delete (N.to_nat p) es]> ess) -> e ∈ concat ess).
  { intros e Hin. rewrite HP. by right. }
  assert (Hrep' : kv_rep er pf (bw (gt_b t)) vwn g' (qbss (gt_b t) (<[g_rank t bk := delete (N.to_nat p) es]> bss))).
  { rewrite qbss_insert, fmap_del. exact Hg'. }
  eexists _, es. split; [done|]. split; [done|]. split; [done|].
  eapply grep_set; [exact H|exact He|..].
  - fold bss. split; [|split; [by rewrite insert_length|]].
    + apply Permutation_length in HPc. cbn [length] in HPc. lia.
    + destruct (kv_empty g') eqn:Ee; [|by right]. left. split; [done|].
      apply (kv_empty_spec _ _ _ _ _ _ Hrep') in Ee. rewrite qbss_concat in Ee. by apply fmap_nil_inv in Ee.
  - eapply placed_delete; [apply H|done].
  - pose proof (gr_nodup _ _ H) as Hnd. rewrite (keys_perm _ _ HP) in Hnd. cbn in Hnd. by apply NoDup_cons in Hnd as [_ ?].
  - intros k' v' Hin. eapply (gr_range _ _ H). by apply Hinc.
  - rewrite (gr_n _ _ H), (Permutation_length HP). cbn [length]. etrans; [apply (u64_sub (N.of_nat (S _))); lia|]. unfold u64. f_equal. lia.
Qed.
Lemma gwrite t ess x k v v' : grep t ess -> nav_at ess x = Some (k, v) -> v' < 2^vw ->
  exists t' es, ess !! N.to_nat (fst x) = Some es /\ g_write_value pf t x v' = Ok t' /\ gt_b t' = gt_b t
    /\ grep t' (<[N.to_nat (fst x) := <[N.to_nat (snd x) := (k, v')]> es]> ess).
Proof.
  intros H Hx Hv. destruct (gnav_bucket _ _ _ _ _ H Hx) as (es & He & Hp & H255). destruct x as [bk p]. cbn [fst snd] in *.
  destruct (ggroup_at _ _ _ _ H He) as (gs & g & Hgs & Hg & Eg & Hr & Hc).
  unfold g_write_value. rewrite (count_eq _ _ H). pose proof (gr_len _ _ H) as Hlen. pose proof (lookup_lt_Some _ _ _ He) as Hlt.
  rewrite (proj2 (N.eqb_neq _ _)) by lia. rewrite Eg. cbn [mbind res_bind]. rewrite gvw_eq by apply H.
  pose proof Hr as (Hr255 & H127 & _). set (bss := chunk (gbpg t) ess (N.to_nat bk / gbpg t)) in *.
  destruct (kv_write_spec pf er (bw (gt_b t)) vwn g _ (g_rank t bk) (qent (gt_b t) <$> es) (N.to_nat p) (bq (gt_b t) k) v v' vw_range
    (grepr_nonempty _ _ _ _ _ _ _ Hr Hc Hp)) as (g' & -> & Hg' & _); [by apply qbss_lookup|by rewrite list_lookup_fmap, Hp|by apply small_n|].
  cbn [mbind res_bind].
  destruct (concat_upd_set ess (N.to_nat bk) es (N.to_nat p) k v v' He Hp) as (R & HP1 & HP2).
  destruct (concat_upd_set bss (g_rank t bk) es (N.to_nat p) k v v' Hc Hp) as (Rc & HP1c & HP2c).
  eexists _, es. split; [done|]. split; [done|]. split; [done|].
  assert (Et : g_set t bk g' = g_set (g_set_n t (gt_n t)) bk g') by (by destruct t).
  rewrite Et. eapply grep_set; [exact H|exact He|..].
  - fold bss. split; [|split; [by rewrite insert_length|]].
    + apply Permutation_length in HP1c. apply Permutation_length in HP2c. cbn [length] in HP1c, HP2c. lia.
    + right. rewrite qbss_insert, list_fmap_insert. exact Hg'.
  - eapply placed_set; [apply H|done|done].
  - pose proof (gr_nodup _ _ H) as Hnd. rewrite (keys_perm _ _ HP1) in Hnd. by rewrite (keys_perm _ _ HP2).
  - intros k2 v2 Hin. rewrite HP2 in Hin. apply elem_of_cons in Hin as [[= -> ->]|Hin].
    + split; [|done]. eapply (gr_range _ _ H k v). rewrite HP1. by left.
    + eapply (gr_range _ _ H). rewrite HP1. by right.
  - rewrite (gr_n _ _ H), (Permutation_length HP1), (Permutation_length HP2). done.
Qed.
Lemma gclear t ess : grep t ess -> exists t', g_clear t = Ok t' /\ gzero t'.
Proof.
  intros H. unfold g_clear. destruct (gr_groups _ _ H) as (gs & Hgs & Hl & Hg). rewrite (ggroup_count _ _ _ H Hgs Hl). cbn [mbind res_bind].
  rewrite Hgs, N.ltb_irrefl. eexists. split; [done|]. unfold gzero, g_clear_structure. cbn [gt_groups gt_b gt_n gt_kw gt_vw gt_bpg].
  rewrite (gr_kw _ _ H), (gr_vw _ _ H). pose proof (gr_bpg _ _ H). done.
Qed.
Lemma gclear0 t : gzero t -> g_clear t = Ok t.
Proof. intros (E1 & E2 & Hb & Hn & Hg & Hbp). unfold g_clear, g_group_count. rewrite Hg. cbn [mbind res_bind]. unfold g_clear_structure. destruct t. cbn in *. by subst. Qed.

(** What a navigator shows *)
Lemma gshows t ess : grep t ess -> shows eq (g_view pf c t) (gt_b t) ess.
Proof.
  intros H. pose proof (b_range _ _ H) as Hb. pose proof (gr_b _ _ H) as Hbb. pose proof (gr_len _ _ H) as Hlen.
  constructor.
  - done.
  - apply (count_eq _ _ H).
  - apply H.
  - intros bk es He. destruct (ggroup_at _ _ _ _ H He) as (gs & g & Hgs & Hg & Eg & Hr & Hc).
    cbn [v_size g_view]. unfold g_bucket_size. rewrite Eg. cbn [mbind res_bind]. destruct (grepr_bucketsize _ _ _ _ _ Hr Hc) as [-> ?]. done.
  - intros x k v Hx. destruct (gnav_bucket _ _ _ _ _ H Hx) as (es & He & Hp & H255).
    destruct (ggroup_at _ _ _ _ H He) as (gs & g & Hgs & Hg & Eg & Hr & Hc). destruct x as [bk p]. cbn [fst snd] in *.
    pose proof (elem_of_list_lookup_2 _ _ _ Hp) as Hin.
    assert (Hk : k < 2^kw) by (eapply (gr_range _ _ H); apply elem_of_concat; eauto).
    assert (Ebk : bb (gt_b t) k = bk) by (rewrite (gr_placed _ _ H _ _ _ _ He Hin); lia).
    unfold vn_key. cbn [g_view v_quot v_hash v_b v_storebits]. unfold g_quotient_at. rewrite Eg. cbn [mbind res_bind].
    rewrite (gr_kw _ _ H). change (remainder_width (ghm c kw) (gt_b t)) with (zw (gc_hash c) (gc_keybits c) 64 kw (gt_b t)).
    erewrite grepr_key by done. cbn [mbind res_bind].
    destruct (z_map _ _ _ _ _ Hho (gt_b t) k Hbb Hk) as (_ & _ & Hqw & Hinv).
    exists k. split; [|done]. rewrite N.mod_small; [by rewrite <-Ebk|].
    eapply N.lt_le_trans; [exact Hqw|]. apply N.pow_le_mono_r; [done|]. pose proof (bw_range _ Hbb). lia.
  - intros x k v Hx. destruct (gnav_bucket _ _ _ _ _ H Hx) as (es & He & Hp & H255).
    destruct (ggroup_at _ _ _ _ H He) as (gs & g & Hgs & Hg & Eg & Hr & Hc). destruct x as [bk p]. cbn [fst snd] in *.
    unfold vn_value. cbn [g_view v_value]. unfold g_value_at. pose proof (lookup_lt_Some _ _ _ He) as Hlt.
    rewrite (count_eq _ _ H), (proj2 (N.eqb_neq _ _)) by lia. rewrite Eg. cbn [mbind res_bind].
    rewrite gvw_eq by apply H. by eapply grepr_value.
Qed.

(** *** The instance, for any erase(bucket, position) *)
Definition g_impl_with (fuel : nat) (ea : gtable -> nav -> res (gtable * N)) : mapimpl gtable :=
  Impl (g_view pf c) (g_find pf c) (g_find_or_insert pf c fuel) (g_write_value pf)
    (fun t k => if gt_b t =? 0 then Ok (t, 0)
                else l ← g_locate pf c t k;
                     let '(bk, pos) := (l : N * option N) in ea t (bk, match pos with Some p => p | None => ones64 end))
    ea g_size_of (fun t n => g_reserve pf c fuel t n 0) g_clear.
Definition erases (ea : gtable -> nav -> res (gtable * N)) : Prop :=
  (forall t bk, ea t (bk, ones64) = Ok (t, 0))
  /\ forall t ess x k v, grep t ess -> nav_at ess x = Some (k, v) ->
    exists t' es, ess !! N.to_nat (fst x) = Some es /\ ea t x = Ok (t', 1) /\ gt_b t' = gt_b t
      /\ grep t' (<[N.to_nat (fst x) := delete (N.to_nat (snd x)) es]> ess).
Lemma group_chain_with fuel ea : erases ea -> (64 <= fuel)%nat ->
  chain_ok (g_impl_with fuel ea) kw vw bmin bmax eq gt_b bb grep gzero gfullb (g_find_or_insert pf c) (fun ins t n => g_reserve_with pf c ins t n 0) fuel.
Proof.
  intros [Hea0 Hea] Hfuel. pose proof (zbmax_le _ _ _ _ _ Hho) as H63. pose proof (ho_bmin _ _ _ _ _ Hho) as Hbm.
  constructor; cbn [g_impl_with i_view i_find i_insert i_write i_erase i_erase_at i_size i_reserve i_clear].
  - lia.
  - done.
  - intros b k Hb Hk. by destruct (z_map _ _ _ _ _ Hho b k Hb Hk) as (_ & ? & _).
  - intros t ess H. apply H.
  - intros t ess H. apply H.
  - intros t ess H. apply H.
  - intros t ess k v H Hin. by eapply gr_range.
  - apply gshows.
  - intros t (_ & _ & Hb & _). cbn. unfold g_bucket_count. by rewrite Hb.
  - intros t ess es k H Hk He. by eapply gfind_ok.
  - intros t k (_ & _ & Hb & _). unfold g_find. by rewrite Hb.
  - done.
  - intros f t ess es k v p H Hk He Hp. by eapply gfound.
  - intros f t ess es k v H Hk Hv He Hn Hfull. by eapply gpush.
  - intros f t ess es k v H Hk Hv He Hn Hfull. by eapply gfull.
  - intros t ess k H Hk Hnk Hfull. by eapply ggrow.
  - intros t ess n H Hn Hb. destruct (greserve t ess n H Hn Hb) as (tmp & ess0 & HR & Hc & Hbt & E).
    exists tmp, ess0, Ok. split; [done|]. split; [done|]. split; [done|]. split; [done|]. intros ins. rewrite E. by destruct (ins_fold ins (concat ess) tmp).
  - done.
  - intros t n (E1 & E2 & Hb & Hn0 & _ & Hbp) Hn Hlog. unfold g_reserve, g_reserve_with. rewrite Hb. cbn [N.eqb].
    by apply galloc.
  - intros f t (E1 & E2 & Hb & Hn0 & _ & Hbp). destruct (go_init _ _ _ _ OK) as [Hkw3 Hini].
    destruct (galloc t (N.min (kw - 1) 8)) as (t' & ess0 & Ea & HR & Hc & Hbt); try done.
    { split; [lia|]. etrans; [apply N.le_min_r|done]. }
    exists t', ess0. split; [done|]. split; [done|]. intros k v. cbn [g_find_or_insert]. rewrite Hb, E1. cbn [N.eqb].
    pose proof (ho_kw _ _ _ _ _ Hho). rewrite sub64_small by lia. rewrite Ea. cbn [mbind res_bind].
    pose proof (b_range _ _ HR). rewrite (proj2 (N.eqb_neq _ _)) by lia. done.
  - exact Hea.
  - intros t. apply Hea0.
  - intros t ess es k H Hk He. unfold g_locate. pose proof (b_range _ _ H). rewrite !(proj2 (N.eqb_neq _ _)) by lia.
    rewrite (gmap_hash _ _ _ H Hk). cbn [mbind res_bind]. rewrite (glocate _ _ _ _ H Hk He). cbn [mbind res_bind].
    destruct (first_index k (keys_of es)); [done|]. apply Hea0.
  - intros t k (_ & _ & Hb & _). by rewrite Hb.
  - intros t ess x k v v' H Hx Hv. by eapply gwrite.
  - intros t ess H. apply H.
  - by intros t (_ & _ & _ & Hn & _).
  - intros t ess H. by eapply gclear.
  - intros t H. exists t. split; [by apply gclear0|done].
Qed.
Lemma group_chain fuel : er -> (64 <= fuel)%nat ->
  chain_ok (g_impl pf c fuel) kw vw bmin bmax eq gt_b bb grep gzero gfullb (g_find_or_insert pf c) (fun ins t n => g_reserve_with pf c ins t n 0) fuel.
Proof.
  intros Her Hf. change (g_impl pf c fuel) with (g_impl_with fuel (g_erase_at pf c)). apply group_chain_with; [|done].
  split; [done|]. intros t ess x k v H Hx. by eapply gerase_at.
Qed.
Lemma gzero_new : gzero (g_new kw vw).
Proof. unfold gzero. cbn. repeat split; done. Qed.
End group.
