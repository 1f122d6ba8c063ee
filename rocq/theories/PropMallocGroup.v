(** C122 for group_chaining_table. *)
From Verif Require Import MallocModel MallocProofs MallocGroup PropMalloc GroupTable GroupSerial PropSerial PropGroup.

Notation b2n b := (if (b : bool) then 1%nat else 0%nat).
Lemma asks_req {A} (b : bool) n (f : answers -> res (A * answers)) r : asks n f r -> asks (b2n b + n) (fun h : answers => h' ← req b h; f h') r.
Proof.
  intros H h. unfold req. rewrite all_given_app. destruct (ask_cases b h) as [[-> ->]|(-> & -> & _)]; cbn [andb mbind res_bind].
  - rewrite <- drop_drop. apply H.
  - by split.
Qed.
Lemma asks_ub {A} n u : asks (A := A) n (fun _ => Ub u) (Ub u).
Proof. intros h. by split. Qed.

Section group.
Context (pf : platform) (c : gcfg).
Lemma asks_cg_insert d i x w n : asks (b2n (cdiv (w * n) 64 <? cdiv (w * (n + 2)) 64)%nat) (mcg_insert pf d i x w n) (cg_insert pf d i x w n).
Proof. unfold mcg_insert. rewrite <- (Nat.add_0_r (b2n _)). apply asks_req. apply asks_pure. Qed.
Lemma asks_kv_init g gs kw vw : asks 3 (mkv_init g gs kw vw) (Ok (kv_init g gs kw vw)).
Proof. apply (asks_req true 2), (asks_req true 1), (asks_req true 0), asks_ret. Qed.
(** The requests of push_back *)
Definition push_requests (g : kvgroup) (bpg kw vw : nat) : nat :=
  let n := N.to_nat (g_size g) in
  (b2n (cdiv (kw * n) 64 <? cdiv (kw * (n + 2)) 64)%nat
   + (b2n (cdiv (vw * n) 64 <? cdiv (vw * (n + 2)) 64)%nat
   + (b2n (cdiv (N.to_nat (u32 (u32 (g_size g + 1) + N.of_nat bpg))) 64 <? kv_border_words (u32 (g_size g + 1)) bpg)%nat + 0)))%nat.
Lemma asks_kv_push g bpg i k kw v vw : asks (push_requests g bpg kw vw) (mkv_push pf g bpg i k kw v vw) (kv_push pf g bpg i k kw v vw).
Proof.
  unfold mkv_push, kv_push, push_requests. cbv zeta. apply (asks_let _ (kv_position g i)). intros ge _.
  eapply asks_bind; [apply asks_cg_insert|]. intros ks _. cbn beta iota.
  eapply asks_bind; [apply asks_cg_insert|]. intros vs _. cbn beta iota.
  destruct (g_border g) as [ws|]; [|apply asks_ub]. apply asks_req.
  apply (asks_let 0 (border_insert _ _ _)). intros ws' _. apply asks_ret.
Qed.
(** The requests of an insertion into the group g *)
Definition group_requests (g : kvgroup) (bpg kw vw : nat) : nat :=
  if kv_initialized g then push_requests g bpg kw vw else (3 + push_requests (kv_init g bpg kw vw) bpg kw vw)%nat.
Lemma asks_group {A} (K : kvgroup -> A) g bpg i k kw v vw : asks (group_requests g bpg kw vw)
  (fun h => r ← (if kv_initialized g then Ok (g, h) else mkv_init g bpg kw vw h);
     let '(g, h) := (r : kvgroup * answers) in r ← mkv_push pf g bpg i k kw v vw h; let '(g, h) := (r : kvgroup * answers) in Ok (K g, h))
  (let g := if kv_initialized g then g else kv_init g bpg kw vw in g ← kv_push pf g bpg i k kw v vw; Ok (K g)).
Proof.
  assert (HP : forall g, asks (push_requests g bpg kw vw) (fun h => r ← mkv_push pf g bpg i k kw v vw h; let '(g, h) := (r : kvgroup * answers) in Ok (K g, h))
    (g ← kv_push pf g bpg i k kw v vw; Ok (K g))).
  { intros g0. rewrite <- (Nat.add_0_r (push_requests _ _ _ _)). eapply asks_bind; [apply asks_kv_push|]. intros g' _. apply asks_ret. }
  unfold group_requests. destruct (kv_initialized g); cbv zeta.
  - apply HP.
  - set (g0 := kv_init g bpg kw vw). pose proof (asks_kv_init g bpg kw vw) as Hi. fold g0 in Hi.
    pose proof (asks_bind 3 (push_requests g0 bpg kw vw) _ _
      (fun x : kvgroup * answers => let '(g, h) := x in r ← mkv_push pf g bpg i k kw v vw h; let '(g, h) := (r : kvgroup * answers) in Ok (K g, h))
      (fun g => g ← kv_push pf g bpg i k kw v vw; Ok (K g)) Hi) as HB.
    apply HB. intros a [= <-]. apply HP.
Qed.
Lemma asksx_grehash_group {T} (mins : T -> N -> N -> answers -> res (T * nav * answers)) ins t tmp ig : (forall t k v, asksx (mins t k v) (ins t k v)) ->
  asksx (fun h => mg_rehash_group pf c mins t (tmp, h) ig) (g_rehash_group pf c ins t tmp ig).
Proof.
  intros H. destruct ig as [gi g]. unfold mg_rehash_group, g_rehash_group. destruct (kv_empty g); [apply asksx_ret|].
  apply asksx_rfold. intros a r. unfold mg_rehash_bucket, g_rehash_bucket.
  apply (asksx_let (kv_bucketsize g r)). intros n. apply asksx_rfold. intros a' j.
  apply (asksx_let (kv_read pf g r j (gqw c t) (gvw t))). intros kv.
  apply (asksx_let (hash_inv_map (ghm c (gt_kw t)) (fst kv) (N.of_nat (r + gi * gbpg t)) (gt_b t))). intros k.
  eapply asksx_bind; [apply H|]. intros [t' x]. cbn [fst snd]. apply asksx_ret.
Qed.
Lemma asksx_greserve mins ins t n nkw : (forall t k v, asksx (mins t k v) (ins t k v)) ->
  asksx (mg_reserve_with pf c mins t n nkw) (g_reserve_with pf c ins t n nkw).
Proof.
  intros H. unfold mg_reserve_with, g_reserve_with. cbv zeta. destruct (gt_b t =? 0); [exists O; apply asks_pure|].
  apply (asksx_let (reserve_bits n)). intros bits.
  apply (asksx_let (g_alloc _ _)). intros tmp.
  apply (asksx_let (g_group_count t)). intros gc.
  destruct (gt_groups t) as [gs|]; [|exists O; apply asks_ub].
  destruct (_ <? gc); [exists O; apply asks_ub|].
  apply asksx_rfold. intros a x. by apply asksx_grehash_group.
Qed.
Lemma asksx_gfoi f : forall t k v, asksx (mg_find_or_insert pf c f t k v) (g_find_or_insert pf c f t k v).
Proof.
  induction f as [|f IH]; intros t k v; cbn [mg_find_or_insert g_find_or_insert]; [exists O; intros h; by split|].
  apply (asksx_let (if gt_b t =? 0 then g_alloc t (N.min (sub64 (gt_kw t) 1) 8) else Ok t)). clear t. intros t.
  apply (asksx_let (hash_map (ghm c (gt_kw t)) k (gt_b t))). intros [q bk].
  apply (asksx_let (g_group t bk)). intros g.
  apply (asksx_let (kv_bucketsize g (g_rank t bk))). intros n.
  apply (asksx_let (g_locate_q pf c t bk q)). intros [p|]; [apply asksx_ret|].
  destruct (g_size g =? g_max_group).
  - apply (asksx_let (shl64 1 (gt_b t + 1))). intros m.
    eapply asksx_bind; [by apply asksx_greserve|]. intros t'. apply IH.
  - eexists. apply (asks_group (fun g => (g_set (g_set_n t (u64 (gt_n t + 1))) bk g, (bk, N.of_nat n)))).
Qed.
End group.

Lemma g_run1 pf c kw vw bmin fuel t m o : g_reached pf c kw vw bmin t m -> (64 <= fuel)%nat -> valid_ops kw vw bmin (zbmax (gc_hash c) kw) [o] ->
  exists t' r, m_run_op (g_impl pf c fuel) t o = Ok (t', r).
Proof.
  intros HR Hf Hv. destruct (g_reached_rep _ _ _ _ _ _ _ HR) as [OK HM].
  destruct (group_run pf c kw vw bmin OK True fuel [o] t m Hf HM Hv) as (t' & E & _); [by left|].
  cbn [m_run_ops] in E. rinv E. destruct a as [t1 r]. by exists t1, r.
Qed.
(** C122: insertions and reservations of the group table: all requests are granted and the call does what GroupModel.v says, or a null
    pointer is dereferenced. *)
Theorem C122_group_insert_refuted : forall pf c kw vw bmin fuel t m k v,
  g_reached pf c kw vw bmin t m -> (64 <= fuel)%nat -> k < 2^kw -> v < 2^vw ->
  exists n t' x, g_find_or_insert pf c fuel t k v = Ok (t', x) /\ all_or_ub n (mg_find_or_insert pf c fuel t k v) (t', x).
Proof.
  intros pf c kw vw bmin fuel t m k v HR Hf Hk Hv. destruct (g_run1 pf c kw vw bmin fuel t m (OpInsert k v) HR Hf) as (t' & r & E).
  { apply List.Forall_cons; [by split|apply List.Forall_nil]. }
  cbn [m_run_op g_impl i_insert] in E. rinv E. destruct a as [t0 x].
  destruct (asksx_gfoi pf c fuel t k v) as [n Hn]. exists n, t0, x. split; [done|]. by eapply asks_all.
Qed.
Print Assumptions C122_group_insert_refuted.
Theorem C122_group_reserve_refuted : forall pf c kw vw bmin fuel t m n,
  g_reached pf c kw vw bmin t m -> (64 <= fuel)%nat -> 2^bmin / 2 < n -> n <= 2^zbmax (gc_hash c) kw ->
  exists N t', g_reserve pf c fuel t n 0 = Ok t' /\ all_or_ub N (mg_reserve pf c fuel t n 0) t'.
Proof.
  intros pf c kw vw bmin fuel t m n HR Hf Hn1 Hn2. destruct (g_run1 pf c kw vw bmin fuel t m (OpReserve n) HR Hf) as (t' & r & E).
  { apply List.Forall_cons; [by split|apply List.Forall_nil]. }
  cbn [m_run_op g_impl i_reserve] in E. rinv E.
  destruct (asksx_greserve pf c (mg_find_or_insert pf c fuel) (g_find_or_insert pf c fuel) t n 0) as [x Hx]; [intros; apply asksx_gfoi|].
  exists x. eexists. split; [done|]. by eapply asks_all.
Qed.
Print Assumptions C122_group_reserve_refuted.

(** What the insertion of an absent key into a group with s < 255 elements asks for: three blocks for a group without memory, a longer key
    block if s and s+2 keys need different numbers of words, likewise for the values, and a longer border. *)
Definition words_differ (a b : nat) : nat := if decide ((a + 63) / 64 = (b + 63) / 64)%nat then 0%nat else 1%nat.
Lemma group_requests_eq c t g : g_size g < 255 -> (1 <= gbpg t <= 127)%nat -> (g_border g = None -> g_size g = 0) ->
  let s := N.to_nat (g_size g) in
  ((if g_border g then 0 else 3) + words_differ (s * gqw c t) ((s + 2) * gqw c t) + words_differ (s * gvw t) ((s + 2) * gvw t)
                  + words_differ (s + 1 + gbpg t) (s + 2 + gbpg t))%nat = group_requests g (gbpg t) (gqw c t) (gvw t).
Proof.
  intros Hs Hbp Hr. cbv zeta.
  assert (HD : forall a b, (a <= b)%nat -> words_differ a b = b2n (cdiv a 64 <? cdiv b 64)%nat).
  { intros x y Hxy. unfold words_differ, cdiv. assert ((x + 63) / 64 <= (y + 63) / 64)%nat by (apply Nat.div_le_mono; lia).
    replace (x + 64 - 1)%nat with (x + 63)%nat by lia. replace (y + 64 - 1)%nat with (y + 63)%nat by lia.
    destruct (decide _) as [->|Hne]; [by rewrite Nat.ltb_irrefl|]. rewrite (proj2 (Nat.ltb_lt _ _)) by lia. done. }
  rewrite !HD by nia. clear HD.
  assert (HU : forall x, x < 1000 -> u32 x = x) by (intros; apply N.mod_small; change (2^32) with 4294967296; lia).
  assert (HP : forall g, g_size g < 255 -> push_requests g (gbpg t) (gqw c t) (gvw t) =
    (b2n (cdiv (N.to_nat (g_size g) * gqw c t) 64 <? cdiv ((N.to_nat (g_size g) + 2) * gqw c t) 64)%nat
     + b2n (cdiv (N.to_nat (g_size g) * gvw t) 64 <? cdiv ((N.to_nat (g_size g) + 2) * gvw t) 64)%nat
     + b2n (cdiv (N.to_nat (g_size g) + 1 + gbpg t) 64 <? cdiv (N.to_nat (g_size g) + 2 + gbpg t) 64)%nat)%nat).
  { intros g1 H1. unfold push_requests, kv_border_words. rewrite (HU (g_size g1 + 1)) by lia; rewrite !HU by lia. rewrite !(Nat.mul_comm (gqw c t)), !(Nat.mul_comm (gvw t)).
    replace (N.to_nat (g_size g1 + 1 + N.of_nat (gbpg t))) with (N.to_nat (g_size g1) + 1 + gbpg t)%nat by lia.
    replace (N.to_nat (g_size g1 + 1 + 1 + N.of_nat (gbpg t))) with (N.to_nat (g_size g1) + 2 + gbpg t)%nat by lia. lia. }
  unfold group_requests, kv_initialized. destruct (g_border g) as [ws|] eqn:Ew.
  - rewrite HP by done. lia.
  - rewrite HP by (cbn [kv_init g_size]; lia). rewrite (Hr eq_refl). cbn [kv_init g_size kv_new]. lia.
Qed.
Theorem C122_group_requests : forall pf c kw vw bmin fuel t m k v q bk g,
  g_reached pf c kw vw bmin t m -> (64 <= fuel)%nat -> k < 2^kw -> v < 2^vw -> g_bucket_count t <> 0 ->
  hash_map (ghm c (gt_kw t)) k (gt_b t) = Ok (q, bk) -> g_group t bk = Ok g -> m !! k = None -> g_size g < 255 ->
  exists r, g_find_or_insert pf c fuel t k v = Ok r
    /\ let s := N.to_nat (g_size g) in
       all_or_ub ((if g_border g then 0 else 3) + words_differ (s * gqw c t) ((s + 2) * gqw c t) + words_differ (s * gvw t) ((s + 2) * gvw t)
                  + words_differ (s + 1 + gbpg t) (s + 2 + gbpg t))%nat
         (mg_find_or_insert pf c fuel t k v) r.
Proof.
  intros pf c kw vw bmin fuel t m k v q bk g HR Hf Hk Hv Hb Hh Hg Hm Hs. cbv zeta.
  destruct (g_run1 pf c kw vw bmin fuel t m (OpInsert k v) HR Hf) as (t' & r & E).
  { apply List.Forall_cons; [by split|apply List.Forall_nil]. }
  cbn [m_run_op g_impl i_insert] in E. rinv E. clear E. exists a. split; [done|]. eapply asks_all; [|exact E0].
  destruct (g_reached_rep _ _ _ _ _ _ _ HR) as [OK [Hz|(ess & HG & HM)]].
  { destruct Hz as [(_ & _ & Hz & _) _]. destruct Hb. unfold g_bucket_count. by rewrite Hz. }
  destruct (GroupTable.b_range True pf c kw vw bmin OK t ess HG) as [Hb1 _].
  rewrite (gmap_hash True pf c kw vw bmin OK t ess k HG Hk) in Hh. injection Hh as <- <-.
  set (bk := zb (gc_hash c) (gc_keybits c) 64 kw (gt_b t) k) in *. set (q := zq (gc_hash c) (gc_keybits c) 64 kw (gt_b t) k) in *.
  assert (Hlt : (N.to_nat bk < length ess)%nat).
  { pose proof (gr_len _ _ _ _ _ _ _ _ HG). destruct (z_map _ _ _ _ _ (go_hash _ _ _ _ OK) (gt_b t) k (gr_b _ _ _ _ _ _ _ _ HG) Hk) as (_ & Hbk & _). fold bk in Hbk. lia. }
  apply lookup_lt_is_Some_2 in Hlt as (es & He).
  pose proof (glocate True pf c kw vw bmin OK t ess es k HG Hk He) as Hl. fold bk q in Hl.
  assert (Hn : first_index k (keys_of es) = None).
  { apply fi_None. intros Hc. rewrite <- HM in Hm. apply emap_None in Hm. apply Hm. apply keys_elem in Hc as (w & Hc). apply elem_of_list_fmap. exists (k, w). split; [done|].
    apply elem_of_concat. eauto. }
  rewrite Hn in Hl. cbn [fmap option_fmap option_map] in Hl.
  destruct (ggroup_at _ _ _ _ _ _ _ _ _ _ HG He) as (gs & g0 & Hgs & Hg0 & Eg & Hr & Hc). rewrite Hg in Eg. injection Eg as <-.
  destruct (grepr_bucketsize _ _ _ _ _ _ _ _ _ _ Hr Hc) as [Hbs _].
  destruct fuel as [|f]; [lia|].
  assert (HA : asks (group_requests g (gbpg t) (gqw c t) (gvw t)) (mg_find_or_insert pf c (S f) t k v) (g_find_or_insert pf c (S f) t k v)).
  { cbn [mg_find_or_insert g_find_or_insert]. rewrite (proj2 (N.eqb_neq _ _)) by lia. cbn [mbind res_bind].
    rewrite (gmap_hash True pf c kw vw bmin OK t ess k HG Hk). fold bk q. cbn [mbind res_bind]. rewrite Hg. cbn [mbind res_bind]. rewrite Hbs. cbn [mbind res_bind].
    rewrite Hl. cbn [mbind res_bind]. rewrite (proj2 (N.eqb_neq _ _)) by (unfold g_max_group; lia).
    apply (asks_group pf (fun g => (g_set (g_set_n t (u64 (gt_n t + 1))) bk g, (bk, N.of_nat (length es))))). }
  pose proof (gbpg_pos _ _ _ _ _ _ _ _ HG) as Hbp.
  rewrite (group_requests_eq c t g Hs Hbp); [exact HA|]. intros Ew. destruct Hr as (_ & _ & [[-> _]|Hr]); [done|].
  destruct Hr as (_ & _ & _ & _ & _ & ws & Hws & _). congruence.
Qed.
Print Assumptions C122_group_requests.

Lemma mg_erase_lost pf c t bk pos g t1 : g_erase_at pf c t (bk, pos) = Ok (t1, 1) -> g_group t bk = Ok g -> 2 <= g_size g <= 255 -> (1 <= gbpg t <= 127)%nat -> (gt_b t =? 0) = false ->
  ((N.to_nat (g_size g) + 1 + gbpg t + 63) / 64 <> (N.to_nat (g_size g) + gbpg t + 63) / 64)%nat ->
  exists t', mg_erase_at pf c t (bk, pos) [false] = Ok (t', 1, []) /\ g_size_of t' = g_size_of t1 /\ gt_b t' = gt_b t /\ gt_kw t' = gt_kw t
    /\ forall k' q' bk', hash_map (ghm c (gt_kw t)) k' (gt_b t) = Ok (q', bk') -> bk' / gt_bpg t = bk / gt_bpg t -> g_find pf c t' k' = Ub NullDeref.
Proof.
  intros He Hg [Hs H255] Hbp Eb Hw.
  unfold g_erase_at in He. unfold mg_erase_at. destruct (_ =? ones64); [by injection He|]. rewrite Hg in *. cbn [mbind res_bind] in *.
  destruct (kv_erase pf g _ _ _ _ _) as [g'| | |] eqn:Ee; [|done..]. unfold mkv_erase. rewrite Ee. cbn [mbind res_bind] in *. injection He as <-.
  assert (HU : forall x, x < 1000 -> u32 x = x) by (intros; apply N.mod_small; change (2^32) with 4294967296; lia).
  assert (Hsz : g_size g' = g_size g - 1).
  { unfold kv_erase in Ee. repeat (rinv Ee). destruct (g_border g); [|done]. rinv Ee. injection Ee as <-. cbn [g_size].
    change ((g_size g + 4294967296 - 1) mod 4294967296 = g_size g - 1). replace (g_size g + 4294967296 - 1) with (g_size g - 1 + 1 * 4294967296) by lia. rewrite N.mod_add by lia.
    apply N.mod_small. lia. }
  assert (Hask : (kv_border_words (g_size g') (gbpg t) <? kv_border_words (g_size g) (gbpg t))%nat = true).
  { apply Nat.ltb_lt. unfold kv_border_words, cdiv. rewrite Hsz, !HU by lia.
    replace (N.to_nat (g_size g - 1 + 1 + N.of_nat (gbpg t))) with (N.to_nat (g_size g) + gbpg t)%nat by lia.
    replace (N.to_nat (g_size g + 1 + N.of_nat (gbpg t))) with (N.to_nat (g_size g) + 1 + gbpg t)%nat by lia.
    set (u := (N.to_nat (g_size g) + gbpg t)%nat) in *. replace (N.to_nat (g_size g) + 1 + gbpg t)%nat with (u + 1)%nat in * by lia.
    replace (u + 64 - 1)%nat with (u + 63)%nat by lia. replace (u + 1 + 64 - 1)%nat with (u + 1 + 63)%nat by lia.
    assert ((u + 63) / 64 <= (u + 1 + 63) / 64)%nat by (apply Nat.div_le_mono; lia). lia. }
  rewrite Hask. cbn [ask mbind res_bind]. unfold kv_empty at 1. cbn [g_size]. rewrite Hsz. rewrite (proj2 (N.eqb_neq _ _)) by lia.
  eexists. split; [reflexivity|]. split; [done|]. split; [done|]. split; [done|].
  intros k' q' bk' Hh' Hbk. unfold g_find. cbn [gt_b gt_kw g_set g_set_n]. rewrite Eb, Hh'. cbn [mbind res_bind].
  unfold g_locate_q, g_group, g_div, g_at, g_set, g_set_n. cbn [gt_bpg gt_groups].
  unfold g_group, g_div in Hg. destruct (gt_bpg t =? 0); [done|]. cbn [mbind res_bind] in *. unfold g_at in Hg.
  destruct (gt_groups t) as [gs|]; [|done]. destruct (_ <? N.of_nat (length gs)) eqn:El; [|done]. rewrite Hbk. cbn [fmap option_fmap option_map].
  rewrite insert_length, El. apply N.ltb_lt in El. rewrite list_lookup_insert by lia. cbn [of_option mbind res_bind kv_empty g_size].
  unfold kv_empty. cbn [g_size]. rewrite (proj2 (N.eqb_neq _ _)) by lia. unfold kv_find, kv_begin, kv_position. cbn [g_border].
  by destruct (g_rank _ bk').
Qed.
(** erase gives memory of the border back with realloc.  If this fails, the call is defined and reports success, but every later search
    in one of the buckets of the group dereferences a null pointer: all the elements of the group are lost. *)
Theorem C122_group_erase_refuted : forall pf c kw vw bmin t m k t1 q bk g,
  g_reached pf c kw vw bmin t m -> k < 2^kw -> g_erase pf c t k = Ok (t1, 1) ->
  hash_map (ghm c (gt_kw t)) k (gt_b t) = Ok (q, bk) -> g_group t bk = Ok g -> 2 <= g_size g ->
  ((N.to_nat (g_size g) + 1 + gbpg t + 63) / 64 <> (N.to_nat (g_size g) + gbpg t + 63) / 64)%nat ->
  exists t', mg_erase pf c t k [false] = Ok (t', 1, []) /\ g_size_of t' = g_size_of t1
    /\ forall k' q' bk', hash_map (ghm c (gt_kw t)) k' (gt_b t) = Ok (q', bk') -> bk' / gt_bpg t = bk / gt_bpg t -> g_find pf c t' k' = Ub NullDeref.
Proof.
  intros pf c kw vw bmin t m k t1 q bk g HR Hk He Hh Hg Hs Hw.
  unfold g_erase in He. unfold mg_erase. destruct (gt_b t =? 0) eqn:Eb; [by injection He|].
  unfold g_locate in *. rewrite Eb, Hh in *. cbn [mbind res_bind] in *.
  destruct (g_locate_q pf c t bk q) as [pos| | |]; [|done..]. cbn [mbind res_bind] in *.
  destruct (g_reached_rep _ _ _ _ _ _ _ HR) as [OK [Hz|(ess & HG & HM)]].
  { destruct Hz as [(_ & _ & Hz & _) _]. by rewrite Hz in Eb. }
  pose proof (gbpg_pos _ _ _ _ _ _ _ _ HG) as Hbp.
  assert (H255 : g_size g <= 255).
  { unfold g_group, g_div in Hg. rinv Hg. unfold g_at in Hg. destruct (gr_groups _ _ _ _ _ _ _ _ HG) as (gs & Hgs & _ & Hgr). rewrite Hgs in Hg.
    destruct (_ <? _); [|done]. destruct (gs !! N.to_nat a) as [g0|] eqn:E0; [|done]. injection Hg as ->.
    pose proof (Hgr _ _ E0) as Hr. rewrite (grepr_size _ _ _ _ _ _ _ _ Hr). destruct Hr as [Hr _]. lia. }
  destruct (mg_erase_lost pf c t bk _ g t1 He Hg (conj Hs H255) Hbp Eb Hw) as (t' & Et & E1 & _ & _ & E2). by exists t'.
Qed.
Print Assumptions C122_group_erase_refuted.

(** A table of 8 buckets, three in a group; 61 keys of the first group, whose border takes two words, with 60 keys it takes one. *)
Definition ex_mg_keys : list N :=
  take 61 (List.filter (fun k => match hash_map (ghm ex_gx 8) k 3 with Ok (_, bk) => bk <? 3 | _ => false end) (map N.of_nat (seq 0 256))).
Definition ex_mg_ops : list op := map (fun k => OpInsert k 1) ex_mg_keys.
Definition table_of {A} (d : gtable) (r : res (gtable * A)) : gtable := match r with Ok (t, _) => t | _ => d end.
Definition ex_mg_tab : gtable := table_of (g_new 8 1) (m_run_ops (g_impl loose_pf ex_gx 64) (g_new 8 1) ex_mg_ops).
(** Size and searches after an erasure for which realloc failed *)
Definition after_erase (t : gtable) (k : N) (ks : list N) : N * list N :=
  let t' := table_of t (mg_erase loose_pf ex_gx t k [false] ≫= fun x => Ok (fst (fst x), tt)) in
  (g_size_of t', map (fun k => outcome (g_find loose_pf ex_gx t' k)) ks).
Example C122_group_case : g_reached loose_pf ex_gx 8 1 1 ex_mg_tab (fst (spec_run ∅ ex_mg_ops))
  /\ map (fun k => hash_map (ghm ex_gx 8) k 3) [0; 1; 4; 2] = [Ok (0, 0); Ok (1, 0); Ok (4, 2); Ok (3, 4)]
  /\ (let t := ex_mg_tab in
      gt_b t = 3 /\ gt_n t = 61 /\ g_size <$> g_group t 0 = Ok 61
      /\ map (fun n => outcome (mg_find_or_insert loose_pf ex_gx 64 t 2 1 (repeat true n ++ [false]))) (seq 0 7) = [1; 1; 1; 1; 1; 0; 0]
      /\ after_erase t 4 [0; 1; 4; 2] = (60, [1; 1; 1; 0])).
Proof.
  split; [|split].
  - pose proof (gx_ok Xorshift 8 1 ltac:(lia) ltac:(lia)) as OK.
    assert (Hv : valid_ops 8 1 1 (zbmax (gc_hash ex_gx) 8) ex_mg_ops).
    { apply List.Forall_map. assert (Hk : Forall (fun k => k < 256) ex_mg_keys).
      { apply Forall_take, List.Forall_forall. intros k Hk. apply List.filter_In in Hk as [Hk _]. apply in_map_iff in Hk as (n & <- & Hn). apply in_seq in Hn. lia. }
      eapply List.Forall_impl; [|exact Hk]. intros k Hlt. split; [exact Hlt|]. done. }
    destruct (group_run loose_pf ex_gx 8 1 1 OK True 64 ex_mg_ops (g_new 8 1) ∅ ltac:(lia)) as (t' & E & _); [apply gmrep_new|done|by left|].
    exists 64%nat, ex_mg_ops. eexists. split; [exact OK|]. split; [lia|]. split; [exact Hv|]. split; [|reflexivity].
    unfold ex_mg_tab. rewrite E. reflexivity.
  - vm_compute. done.
  - vm_compute. done.
Qed.
