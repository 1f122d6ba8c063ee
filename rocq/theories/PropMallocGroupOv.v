(** C122: group_chaining_table with an overflow, when malloc and realloc can fail. *)
From Verif Require Import MallocGroupOv MallocProofs PropMalloc PropMallocGroup GroupHist PropGroup GroupOvTable PropGroupOv PropSerial PropCompact.

Section group.
Context (pf : platform) (c : gcfg) (kind : ovkind).

Lemma asksx_orehash {T} (mins : T -> N -> N -> answers -> res (T * nav * answers)) ins o : (forall t k v, asksx (mins t k v) (ins t k v)) ->
  forall f i tmp, asksx (mgo_rehash_ov pf f mins o i tmp) (go_rehash_ov pf f ins o i tmp).
Proof.
  intros H. induction f as [|f IH]; intros i tmp; cbn [mgo_rehash_ov go_rehash_ov]; (destruct (ov_valid pf o i); [|apply asksx_ret]).
  - exists O. intros h. by split.
  - apply (asksx_let (ov_key pf 64 o i)). intros k. apply (asksx_let (ov_get pf 64 o i)). intros v.
    eapply asksx_bind; [apply H|]. intros [t' x]. cbn [fst snd]. apply IH.
Qed.
Lemma asksx_oreserve mins ins t n nkw : (forall t k v, asksx (mins t k v) (ins t k v)) ->
  asksx (mgo_reserve_with pf c kind mins t n nkw) (go_reserve_with pf c kind ins t n nkw).
Proof.
  intros H. unfold mgo_reserve_with, go_reserve_with. cbv zeta. destruct (gt_b (go_g t) =? 0); [exists O; apply asks_pure|].
  apply (asksx_let (reserve_bits n)). intros bits.
  apply (asksx_let (go_alloc pf _ _)). intros tmp.
  apply (asksx_let (g_group_count (go_g t))). intros gc.
  destruct (gt_groups (go_g t)) as [gs|]; [|exists O; apply asks_ub].
  destruct (_ <? gc); [exists O; apply asks_ub|].
  eapply asksx_bind; [apply asksx_rfold; intros a x; by apply asksx_grehash_group|]. intros tmp'.
  eapply asksx_bind; [by apply asksx_orehash|]. intros tmp''.
  apply (asksx_let (ov_clear pf 64 64 (go_ov t))). intros _. apply asksx_ret.
Qed.
Lemma asksx_ofoi f : forall t k v, asksx (mgo_find_or_insert pf c kind f t k v) (go_find_or_insert pf c kind f t k v).
Proof.
  induction f as [|f IH]; intros t k v; cbn [mgo_find_or_insert go_find_or_insert]; [exists O; intros h; by split|].
  apply (asksx_let (if gt_b (go_g t) =? 0 then go_alloc pf t (N.min (sub64 (gt_kw (go_g t)) 1) 8) else Ok t)). clear t. intros t. cbv zeta.
  apply (asksx_let (hash_map (ghm c (gt_kw (go_g t))) k (gt_b (go_g t)))). intros [q bk].
  apply (asksx_let (g_group (go_g t) bk)). intros g.
  apply (asksx_let (kv_bucketsize g (g_rank (go_g t) bk))). intros n.
  apply (asksx_let (g_locate_q pf c (go_g t) bk q)). intros [p|]; [apply asksx_ret|].
  apply (asksx_let (ov_need_consult (go_ov t) bk)). intros cs.
  apply (asksx_let (if cs then ov_find pf 64 (go_ov t) k else Ok None)). intros [p|]; [apply asksx_ret|].
  destruct (g_size g =? g_max_group).
  - apply (asksx_let (if ov_size (go_ov t) <? ov_capacity (go_ov t) then ov_insert pf 64 64 (go_ov t) bk k v else Ok (go_ov t, None))).
    intros [o [p|]]; [apply asksx_ret|].
    apply (asksx_let (shl64 1 (gt_b (go_g t) + 1))). intros m.
    eapply asksx_bind; [by apply asksx_oreserve|]. intros t'. apply IH.
  - eexists. apply (asks_group pf (fun g => (GOTable (g_set (go_inc (go_g t)) bk g) (go_ov t), (bk, N.of_nat n)))).
Qed.
End group.

Lemma go_run1 pf c kind kw vw bmin fuel t m o : go_reached pf c kind kw vw bmin t m -> (64 <= fuel)%nat -> valid_ops kw vw bmin (zbmax (gc_hash c) kw) [o] ->
  exists t' r, go_run_op pf c kind fuel t o = Ok (t', r).
Proof.
  intros HR Hf Hv. destruct (go_reached_rep _ _ _ _ _ _ _ _ HR) as (OK & [Hk Hfair] & HM).
  destruct (go_run True pf c kind kw vw bmin OK Hk Hfair fuel Hf [o] t m (or_introl I) HM Hv) as (t' & E & _).
  cbn [go_run_ops] in E. rinv E. destruct a as [t1 r]. by exists t1, r.
Qed.
(** Insertions and reservations: all requests are granted and the call does what GroupOvModel.v says, or a null pointer is dereferenced. *)
Theorem C122_gov_insert_refuted : forall pf c kind kw vw bmin fuel t m k v,
  go_reached pf c kind kw vw bmin t m -> (64 <= fuel)%nat -> k < 2^kw -> v < 2^vw ->
  exists n t' x, go_find_or_insert pf c kind fuel t k v = Ok (t', x) /\ all_or_ub n (mgo_find_or_insert pf c kind fuel t k v) (t', x).
Proof.
  intros pf c kind kw vw bmin fuel t m k v HR Hf Hk Hv. destruct (go_run1 pf c kind kw vw bmin fuel t m (OpInsert k v) HR Hf) as (t' & r & E).
  { apply List.Forall_cons; [by split|apply List.Forall_nil]. }
  cbn [go_run_op] in E. rinv E. destruct a as [t0 x].
  destruct (asksx_ofoi pf c kind fuel t k v) as [n Hn]. exists n, t0, x. split; [done|]. by eapply asks_all.
Qed.
Print Assumptions C122_gov_insert_refuted.
Theorem C122_gov_reserve_refuted : forall pf c kind kw vw bmin fuel t m n,
  go_reached pf c kind kw vw bmin t m -> (64 <= fuel)%nat -> 2^bmin / 2 < n -> n <= 2^zbmax (gc_hash c) kw ->
  exists N t', go_reserve pf c kind fuel t n 0 = Ok t' /\ all_or_ub N (mgo_reserve pf c kind fuel t n 0) t'.
Proof.
  intros pf c kind kw vw bmin fuel t m n HR Hf Hn1 Hn2. destruct (go_run1 pf c kind kw vw bmin fuel t m (OpReserve n) HR Hf) as (t' & r & E).
  { apply List.Forall_cons; [by split|apply List.Forall_nil]. }
  cbn [go_run_op] in E. rinv E.
  destruct (asksx_oreserve pf c kind (mgo_find_or_insert pf c kind fuel) (go_find_or_insert pf c kind fuel) t n 0) as [x Hx]; [intros; apply asksx_ofoi|].
  exists x. eexists. split; [done|]. by eapply asks_all.
Qed.
Print Assumptions C122_gov_reserve_refuted.

(** What an insertion into a table with buckets asks for.  Nothing if the key is present or goes to the overflow (its group is full and the overflow
    accepts it); otherwise, with s < 255 elements in the group, three blocks for a group without memory, a longer key block if s and s+2 keys need
    different numbers of words, likewise for the values, and a longer border. *)
Theorem C122_gov_requests : forall pf c kind kw vw bmin fuel t m k v q bk g,
  go_reached pf c kind kw vw bmin t m -> (64 <= fuel)%nat -> k < 2^kw -> v < 2^vw -> go_bucket_count t <> 0 ->
  hash_map (ghm c (gt_kw (go_g t))) k (gt_b (go_g t)) = Ok (q, bk) -> g_group (go_g t) bk = Ok g ->
  exists r, go_find_or_insert pf c kind fuel t k v = Ok r
    /\ (is_Some (m !! k) -> fst r = t /\ all_or_ub 0 (mgo_find_or_insert pf c kind fuel t k v) r)
    /\ (m !! k = None -> g_size g = 255 -> ov_size (go_ov t) < ov_capacity (go_ov t) ->
        (exists o p, ov_insert pf 64 64 (go_ov t) bk k v = Ok (o, Some p)) -> all_or_ub 0 (mgo_find_or_insert pf c kind fuel t k v) r)
    /\ (m !! k = None -> g_size g < 255 ->
        let s := N.to_nat (g_size g) in
        all_or_ub ((if g_border g then 0 else 3) + words_differ (s * gqw c (go_g t)) ((s + 2) * gqw c (go_g t)) + words_differ (s * gvw (go_g t)) ((s + 2) * gvw (go_g t))
                  + words_differ (s + 1 + gbpg (go_g t)) (s + 2 + gbpg (go_g t)))%nat
          (mgo_find_or_insert pf c kind fuel t k v) r).
Proof.
  intros pf c kind kw vw bmin fuel t m k v q bk g HR Hf Hk Hv Hb Hh Hg.
  destruct (go_run1 pf c kind kw vw bmin fuel t m (OpInsert k v) HR Hf) as (t' & r & E).
  { apply List.Forall_cons; [by split|apply List.Forall_nil]. }
  cbn [go_run_op] in E. rinv E. clear E. exists a. split; [done|].
  destruct (go_reached_rep _ _ _ _ _ _ _ _ HR) as (OK & [Hk0 Hfair] & [[[(_ & _ & Hz & _) _] _]|(ess & ovl & H & Hm)]).
  { destruct Hb. unfold go_bucket_count, g_bucket_count. by rewrite Hz. }
  destruct fuel as [|f]; [lia|]. pose proof (or_g _ _ _ _ _ _ _ _ _ _ H) as HG.
  destruct (obucket _ _ _ _ _ _ _ OK _ _ _ _ H Hk) as [Hlt (es & He)]. pose proof (ob_range _ _ _ _ _ _ _ OK _ _ _ H) as Hbr.
  assert (Hb0 : (gt_b (go_g t) =? 0) = false) by (apply N.eqb_neq; lia).
  pose proof (gmap_hash _ _ _ _ _ _ OK _ _ _ HG Hk) as Hh'. cbn [g_set_n gt_b gt_kw] in Hh'. pose proof Hh as Hh0. rewrite Hh' in Hh. injection Hh as <- <-.
  destruct (ggroup_at _ _ _ _ _ _ _ _ _ _ HG He) as (gs & g0 & Hgs & Hg0 & Eg & Hr & Hc).
  change (g_group (g_set_n (go_g t) (gn ess))) with (g_group (go_g t)) in Eg. change (gbpg (g_set_n (go_g t) (gn ess))) with (gbpg (go_g t)) in *.
  change (g_rank (g_set_n (go_g t) (gn ess))) with (g_rank (go_g t)) in Hc. rewrite Hg in Eg. injection Eg as <-.
  destruct (grepr_bucketsize _ _ _ _ _ _ _ _ _ _ Hr Hc) as [Hbs _].
  pose proof (glocate _ _ _ _ _ _ OK _ _ _ _ HG Hk He) as Hloc.
  change (g_locate_q pf c (g_set_n (go_g t) (gn ess))) with (g_locate_q pf c (go_g t)) in Hloc. cbn [g_set_n gt_b] in Hloc.
  pose proof (olookup _ _ _ _ _ _ _ OK _ _ _ _ _ H Hk He) as Hl.
  destruct (ov_need_consult_spec pf _ _ _ _ _ _ (or_ov _ _ _ _ _ _ _ _ _ _ H) Hlt) as (cs & Ecs & Hcs).
  assert (Hov : exists opos, (if cs then ov_find pf 64 (go_ov t) k else Ok None) = Ok opos /\
    match opos with Some p => k ∈ keys_of ovl | None => k ∉ keys_of ovl end).
  { destruct cs.
    - destruct (ov_find_spec pf 64 _ _ _ _ _ _ (ond _ _ _ _ _ _ _ _ _ _ H) (or_ov _ _ _ _ _ _ _ _ _ _ H) (GroupOvTable.oside_key pf kind Hk0 k)) as [(p & v0 & -> & Hin & Hp)|[-> Hno]].
      + exists (Some p). split; [done|]. apply keys_elem. by exists v0.
      + by exists None.
    - exists None. split; [done|]. intros Hin. apply keys_elem in Hin as (v0 & Hin). by specialize (Hcs k v0 Hin eq_refl). }
  destruct Hov as (opos & Eop & Hop). rewrite <- Hm.
  cbn [go_find_or_insert] in E0. cbn [mgo_find_or_insert]. rewrite Hb0 in *. cbn [mbind res_bind] in E0.
  rewrite Hh' in E0. cbn [mbind res_bind] in E0. rewrite Hg in E0. cbn [mbind res_bind] in E0. rewrite Hbs in E0. cbn [mbind res_bind] in E0. rewrite Hloc in E0. cbn [mbind res_bind] in E0.
  cbn [mbind res_bind]. rewrite Hh'. cbn [mbind res_bind]. rewrite Hg. cbn [mbind res_bind]. rewrite Hbs. cbn [mbind res_bind]. rewrite Hloc. cbn [mbind res_bind].
  assert (H0 : forall x, a = x -> all_or_ub 0 (fun h => Ok (x, h)) a) by (intros x ->; intros h; split; [by rewrite drop_0|intros G; destruct G; intros i Hi; lia]).
  destruct (first_index k (keys_of es)) as [p|] eqn:Ep; cbn [fmap option_fmap option_map] in *.
  { destruct Hl as (v0 & Hm0 & _). injection E0 as <-. split; [intros _; split; [done|by apply H0]|]. rewrite Hm0. done. }
  rewrite Ecs in *. cbn [mbind res_bind] in *. rewrite Eop in *. cbn [mbind res_bind] in *. destruct opos as [p|].
  { injection E0 as <-. split; [intros _; split; [done|by apply H0]|].
    assert (Hin : k ∈ keys_of (concat ess ++ ovl)) by (rewrite fmap_app; apply elem_of_app; by right).
    split; intros Hn; apply emap_None in Hn; done. }
  pose proof (onone _ _ _ Hl Hop) as Hnone. split; [rewrite Hnone; by intros [? ?]|]. split.
  - intros _ Hs Hcap (o & p & Eo). assert (Hs' : (g_size g =? g_max_group) = true) by (by rewrite Hs). rewrite Hs' in *.
    rewrite (proj2 (N.ltb_lt _ _) Hcap), Eo in *. cbn [mbind res_bind] in *. injection E0 as <-. by apply H0.
  - intros _ Hs. cbv zeta. assert (Hs' : (g_size g =? g_max_group) = false) by (apply N.eqb_neq; unfold g_max_group; lia). rewrite Hs' in *.
    pose proof (gbpg_pos _ _ _ _ _ _ _ _ HG) as Hbp.
    rewrite (group_requests_eq c (go_g t) g Hs Hbp).
    + eapply asks_all; [|exact E0]. apply (asks_group pf (fun g => (GOTable (g_set (go_inc (go_g t)) _ g) (go_ov t), _))).
    + intros Ew. destruct Hr as (_ & _ & [[-> _]|Hr]); [done|]. destruct Hr as (_ & _ & _ & _ & _ & ws & Hws & _). congruence.
Qed.
Print Assumptions C122_gov_requests.

(** An erasure from a group gives memory of its border back with realloc.  If this fails, the call is defined and reports success, but every later search
    for a key that belongs to this group and is not in the overflow dereferences a null pointer. *)
Theorem C122_gov_erase_refuted : forall pf c kind kw vw bmin t m k t1 bk p g,
  go_reached pf c kind kw vw bmin t m -> k < 2^kw -> go_erase pf c t k = Ok (t1, 1) -> go_locate pf c t k = Ok (bk, Some p) -> bk < go_bucket_count t ->
  g_group (go_g t) bk = Ok g -> 2 <= g_size g ->
  ((N.to_nat (g_size g) + 1 + gbpg (go_g t) + 63) / 64 <> (N.to_nat (g_size g) + gbpg (go_g t) + 63) / 64)%nat ->
  exists t', mgo_erase pf c t k [false] = Ok (t', 1, []) /\ go_size t' = go_size t1
    /\ forall k' q' bk' x, hash_map (ghm c (gt_kw (go_g t))) k' (gt_b (go_g t)) = Ok (q', bk') -> bk' / gt_bpg (go_g t) = bk / gt_bpg (go_g t) ->
       go_find pf c t k' = Ok x -> fst x <> go_bucket_count t -> go_find pf c t' k' = Ub NullDeref.
Proof.
  intros pf c kind kw vw bmin t m k t1 bk p g HR Hk He Hl Hbk Hg Hs Hw.
  unfold go_erase in He. unfold mgo_erase. destruct (gt_b (go_g t) =? 0) eqn:Eb; [by injection He|]. rewrite Hl in *. cbn [mbind res_bind] in *.
  unfold go_erase_at in He. unfold mgo_erase_at. cbn [fst snd] in *. destruct (p =? ones64); [by injection He|].
  rewrite (proj2 (N.eqb_neq bk (go_bucket_count t))) in * by lia. rewrite andb_false_r in *. rinv He. destruct a as [g1 n]. cbn [fst snd] in He. injection He as <- ->.
  destruct (go_reached_rep _ _ _ _ _ _ _ _ HR) as (OK & [Hk0 Hfair] & [[[(_ & _ & Hz & _) _] _]|(ess & ovl & H & Hm)]); [by rewrite Hz in Eb|].
  pose proof (or_g _ _ _ _ _ _ _ _ _ _ H) as HG. pose proof (gbpg_pos _ _ _ _ _ _ _ _ HG) as Hbp. change (gbpg (g_set_n (go_g t) (gn ess))) with (gbpg (go_g t)) in Hbp.
  assert (H255 : g_size g <= 255).
  { pose proof Hg as Hg'. unfold g_group, g_div in Hg'. rinv Hg'. unfold g_at in Hg'. destruct (gr_groups _ _ _ _ _ _ _ _ HG) as (gs & Hgs & _ & Hgr). cbn [g_set_n gt_groups] in Hgs. rewrite Hgs in Hg'.
    destruct (_ <? _); [|done]. destruct (gs !! N.to_nat a) as [g0|] eqn:Eg0; [|done]. injection Hg' as ->.
    pose proof (Hgr _ _ Eg0) as Hr. rewrite (grepr_size _ _ _ _ _ _ _ _ Hr). destruct Hr as [Hr _]. lia. }
  destruct (mg_erase_lost pf c (go_g t) bk p g g1 E Hg (conj Hs H255) Hbp Eb Hw) as (g' & Et & E1 & E2 & E3 & E4).
  rewrite Et. cbn [mbind res_bind fst snd]. eexists. split; [reflexivity|]. split; [done|].
  intros k' q' bk' x Hh' Hd Hf Hx. unfold go_find in *. cbn [go_g go_ov]. rewrite E2, Eb in *.
  destruct (0 <? ov_size (go_ov t)); cbn [mbind res_bind] in *.
  - destruct (ov_find pf 64 (go_ov t) k') as [[r|]| | |]; cbn [mbind res_bind] in *; [|by eapply E4|done..].
    injection Hf as <-. done.
  - by eapply E4.
Qed.
Print Assumptions C122_gov_erase_refuted.

(** The 61 keys of C122_group_case, whose border takes two words, in a table with an unordered_map as overflow; and the full group of C71_case, whose
    next element goes to the overflow. *)
Definition otable_of {A} (d : gotable) (r : res (gotable * A)) : gotable := match r with Ok (t, _) => t | _ => d end.
Definition ex_mgo_tab : gotable := otable_of (go_new lax_pf OvMap 8 1) (go_run_ops lax_pf ex_gx OvMap 64 (go_new lax_pf OvMap 8 1) ex_mg_ops).
Definition after_oerase (t : gotable) (k : N) (ks : list N) : N * list N :=
  let t' := otable_of t (mgo_erase lax_pf ex_gx t k [false] ≫= fun x => Ok (fst (fst x), tt)) in
  (go_size t', map (fun k => outcome (go_find lax_pf ex_gx t' k)) ks).
Example C122_gov_case : go_reached lax_pf ex_gx OvMap 8 1 1 ex_mgo_tab (fst (spec_run ∅ ex_mg_ops))
  /\ map (fun k => hash_map (ghm ex_gx 8) k 3) [0; 1; 4; 2] = [Ok (0, 0); Ok (1, 0); Ok (4, 2); Ok (3, 4)]
  /\ (let t := ex_mgo_tab in
      gt_b (go_g t) = 3 /\ go_size t = 61 /\ g_size <$> g_group (go_g t) 0 = Ok 61 /\ go_locate lax_pf ex_gx t 4 = Ok (2, Some 0)
      /\ map (fun n => outcome (mgo_find_or_insert lax_pf ex_gx OvMap 64 t 2 1 (repeat true n ++ [false]))) (seq 0 7) = [1; 1; 1; 1; 1; 0; 0]
      /\ after_oerase t 4 [0; 1; 4; 2] = (60, [1; 1; 1; 0]))
  /\ go_reached lax_pf ex_gx OvMap 10 4 1 ex_go1 ex_gom1 /\ g_size <$> g_group (go_g ex_go1) 0 = Ok 255
  /\ (mgo_find_or_insert lax_pf ex_gx OvMap 64 ex_go1 256 1 [false] ≫= fun x => Ok (snd x, snd (fst x))) = Ok ([false], (8, 0)).
Proof.
  split; [|split; [|split; [|split]]].
  - pose proof (gx_ok Xorshift 8 1 ltac:(lia) ltac:(lia)) as OK. destruct ex_ov_map_ok as [Hk0 Hfair].
    assert (Hv : valid_ops 8 1 1 (zbmax (gc_hash ex_gx) 8) ex_mg_ops).
    { apply List.Forall_map. assert (Hk : Forall (fun k => k < 256) ex_mg_keys).
      { apply Forall_take, List.Forall_forall. intros k Hk. apply List.filter_In in Hk as [Hk _]. apply in_map_iff in Hk as (n & <- & Hn). apply in_seq in Hn. lia. }
      eapply List.Forall_impl; [|exact Hk]. intros k Hlt. split; [exact Hlt|]. done. }
    destruct (go_run True lax_pf ex_gx OvMap 8 1 1 OK Hk0 Hfair 64 ltac:(lia) ex_mg_ops (go_new lax_pf OvMap 8 1) ∅) as (t' & E & _); [by left|left|done|].
    { split; [|done]. by apply gozero_new. }
    exists 64%nat, ex_mg_ops. eexists. split; [exact OK|]. split; [by split|]. split; [lia|]. split; [exact Hv|]. split; [|reflexivity].
    unfold ex_mgo_tab. rewrite E. reflexivity.
  - vm_compute. done.
  - vm_compute. done.
  - exact ex_go1_reached.
  - vm_compute. done.
Qed.
