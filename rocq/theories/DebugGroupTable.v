(** The debug build of group_chaining_table: no check fails in valid histories. *)
From Verif Require Export DebugGroupKv DebugConf.

(** The plain copy of a bucket; an empty bucket has none. *)
Definition prep0 (p : dplain) (es : entries) : Prop :=
  p_size p = N.of_nat (length es) /\ (es <> [] -> p_keys p = Some es.*1 /\ p_vals p = Some es.*2).
Definition prep (p : dplain) (es : entries) : Prop := prep0 p es /\ (es = [] -> p_keys p = None /\ p_vals p = None).
(** A group that holds nothing and has no arrays; deserialize can leave zeros in m_border_array *)
Definition kv_fresh (g : dkv) : Prop :=
  k_size g = 0 /\ k_border g = None /\ (Forall (fun a => a = 0) (k_barr g) /\ (length (k_barr g) <= 255)%nat) /\ c_d (k_keys g) = None /\ c_plain (k_keys g) = None
  /\ c_d (k_vals g) = None /\ c_plain (k_vals g) = None.
Lemma fresh_new : kv_fresh dkv_new.
Proof. repeat split; try done; [constructor|cbn; lia]. Qed.
Lemma fresh_clear g : kv_fresh (dkv_clear g).
Proof. repeat split; try done; [constructor|cbn; lia]. Qed.
Lemma fresh_strip g : kv_fresh g -> kstrip g = kv_new.
Proof. intros (E1 & E2 & _ & E3 & _ & E4 & _). unfold kstrip. by rewrite E1, E2, E3, E4. Qed.

Section group.
Context (pf : platform) (c : gcfg) (kw vw bmin : N).
Hypothesis OK : group_ok c kw vw bmin.
Notation bmax := (zbmax (gc_hash c) kw).
Notation bq := (zq (gc_hash c) (gc_keybits c) 64 kw).
Notation bb := (zb (gc_hash c) (gc_keybits c) 64 kw).
Notation bw b := (N.to_nat (zw (gc_hash c) (gc_keybits c) 64 kw b)).
Notation vwn := (N.to_nat vw).
Notation qent := (qent c kw).
Notation qbss := (qbss c kw).
Notation grep := (grep True pf c kw vw bmin).
Notation grepr := (grepr True pf c kw vw).

Definition dgrepr (b : N) (g : dkv) (bss : list entries) : Prop :=
  (length (concat bss) <= 255)%nat /\ (1 <= length bss <= 127)%nat
  /\ ((kv_fresh g /\ concat bss = []) \/ dkv_rep pf (bw b) vwn g (qbss b bss)).
Record dgrep (t : dgtable) (ess : list entries) : Prop := {
  dr_rep : grep (gstrip t) ess;
  dr_groups : exists gs, dg_groups t = Some gs /\ forall i g, gs !! i = Some g -> dgrepr (dg_b t) g (chunk (gbpg (gstrip t)) ess i);
  dr_plain : exists ps, dg_plain t = Some ps /\ Forall2 prep ps ess
}.
Definition dgzero (t : dgtable) : Prop := gzero kw vw (gstrip t) /\ dg_groups t = None.

Local Lemma Hho : hash_ok (gc_hash c) (gc_keybits c) 64 kw bmin.
Proof. apply OK. Qed.
Local Hint Resolve Hho : core.
Lemma dkw_range : 3 <= kw <= 64.
Proof. pose proof (ho_kw _ _ _ _ _ Hho). destruct (go_init _ _ _ _ OK) as [? _]. lia. Qed.

(** ** The hash function with its checks *)
Lemma dz_width b : bmin <= b <= bmax -> dremainder_width (ghm c kw) b = Ok (zw (gc_hash c) (gc_keybits c) 64 kw b).
Proof.
  intros Hb. unfold dremainder_width, zw, zm, ghm. cbn [h_kind h_width]. pose proof dkw_range. unfold zbmax in Hb. destruct (gc_hash c); [|done].
  rewrite (proj2 (N.ltb_lt b kw)) by lia. done.
Qed.
Lemma dz_map b k : bmin <= b <= bmax -> k < 2^kw -> dhash_map (ghm c kw) k b = Ok (bq b k, bb b k) /\ dhash_inv_map (ghm c kw) (bq b k) (bb b k) b = Ok k.
Proof.
  intros Hb Hk. destruct (z_map _ _ _ _ _ Hho b k Hb Hk) as (E & Hbk & Hq & Hi). pose proof dkw_range as Hkw. pose proof (ho_store _ _ _ _ _ Hho) as Hst.
  pose proof (ho_bmin _ _ _ _ _ Hho) as Hbm. unfold zm in E, Hi. unfold ghm. unfold zbmax in *. destruct (gc_hash c) as [f|f] eqn:Eh.
  - destruct (dhash_map_bij f kw (gc_keybits c) 64 k b) as (q & bk & E' & -> & _ & _ & Hi'); try lia. rewrite E in E'. injection E' as -> ->. done.
  - unfold dhash_map, dhash_inv_map. cbn [h_kind]. done.
Qed.
Lemma dg_new_ok : exists t, dg_new c kw vw = Ok t /\ dgzero t.
Proof.
  pose proof dkw_range as Hkw. pose proof (go_vw _ _ _ _ OK) as Hvw. unfold dg_new. rewrite !u8_small by lia.
  assert (E : dhash_new (gc_hash c) kw = Ok tt).
  { unfold dhash_new. destruct (gc_hash c); [|done]. rewrite (proj2 (N.ltb_lt 0 kw)), (proj2 (N.leb_le kw 64)) by lia. cbn [chk mbind res_bind].
    rewrite mask_ones, N.ones_equiv by lia. assert (2^1 <= 2^kw) by (apply N.pow_le_mono_r; lia). rewrite (proj2 (N.ltb_lt _ _)); [done|]. change (2^1) with 2 in *. lia. }
  rewrite E. cbn [mbind res_bind]. rewrite !(proj2 (N.leb_le _ _)) by lia. cbn [chk mbind res_bind]. eexists. split; [done|].
  split; [|done]. unfold gzero. cbn. repeat split; done.
Qed.

(** ** One group *)
Lemma dgrepr_strip b g bss : dgrepr b g bss -> grepr b (kstrip g) bss.
Proof.
  intros (H1 & H2 & [[Hf Hc]|H]); (split; [done|]; split; [done|]).
  - left. split; [by apply fresh_strip|done].
  - right. apply H.
Qed.
Lemma dgrepr_size b g bss : dgrepr b g bss -> k_size g = N.of_nat (length (concat bss)).
Proof. intros H. apply dgrepr_strip in H. apply (grepr_size _ _ _ _ _ _ _ _ H). Qed.
Lemma dgrepr_bucketsize b g bss r es : dgrepr b g bss -> bss !! r = Some es -> dkv_bucketsize g r = Ok (length es) /\ (length es <= 255)%nat.
Proof.
  intros (H255 & _ & H) Hr. pose proof (concat_length_pos _ _ _ Hr) as Hle. split; [|lia]. destruct H as [[Hf Hc]|H].
  - rewrite Hc in Hle. cbn in Hle. replace (length es) with 0%nat by lia. unfold dkv_bucketsize. destruct Hf as (-> & _). done.
  - erewrite dkv_bucketsize_spec; [|exact H|by apply qbss_lookup]. by rewrite fmap_length.
Qed.
Lemma dgrepr_rep b g bss : dgrepr b g bss -> concat bss <> [] -> dkv_rep pf (bw b) vwn g (qbss b bss).
Proof. by intros (_ & _ & [[_ ?]|H]) ?. Qed.
Lemma dgrepr_nonempty b g bss r (es : entries) p e : dgrepr b g bss -> bss !! r = Some es -> es !! p = Some e -> dkv_rep pf (bw b) vwn g (qbss b bss).
Proof.
  intros H Hr Hp. eapply dgrepr_rep; [done|]. pose proof (concat_length_pos _ _ _ Hr) as Hle. apply lookup_lt_Some in Hp.
  intros E. rewrite E in Hle. cbn in Hle. lia.
Qed.
Lemma dgrepr_gs b g bss : dgrepr b g bss -> k_size g <> 0 -> k_gs g = N.of_nat (length bss).
Proof.
  intros H Hs. rewrite (dgrepr_size _ _ _ H) in Hs. assert (Hc : concat bss <> []) by (intros E; by rewrite E in Hs).
  destruct (dgrepr_rep _ _ _ H Hc) as (_ & _ & _ & _ & _ & -> & _). by rewrite qbss_length.
Qed.
Let bwr := bw_range c kw vw bmin OK.
Let vwr := vw_range c kw vw bmin OK.
Lemma dgrepr_key b g bss r es p k v : bmin <= b <= bmax -> dgrepr b g bss -> bss !! r = Some es -> es !! p = Some (k, v) ->
  dkv_read_key pf g r p (bw b) = Ok (bq b k).
Proof.
  intros Hb H Hr Hp. eapply dkv_read_key_spec; [by apply bwr|by eapply dgrepr_nonempty|by apply qbss_lookup|].
  rewrite list_lookup_fmap, Hp. done.
Qed.
Lemma dgrepr_value b g bss r es p k v : dgrepr b g bss -> bss !! r = Some es -> es !! p = Some (k, v) ->
  dkv_read_value pf g r p vwn = Ok v.
Proof.
  intros H Hr Hp. eapply dkv_read_value_spec; [apply vwr|by eapply dgrepr_nonempty|by apply qbss_lookup|].
  rewrite list_lookup_fmap, Hp. done.
Qed.
Lemma dgrepr_read b g bss r es p k v : bmin <= b <= bmax -> dgrepr b g bss -> bss !! r = Some es -> es !! p = Some (k, v) ->
  dkv_read pf g r p (bw b) vwn = Ok (bq b k, v).
Proof.
  intros Hb H Hr Hp. eapply dkv_read_spec; [by apply bwr|apply vwr|by eapply dgrepr_nonempty|by apply qbss_lookup|].
  rewrite list_lookup_fmap, Hp. done.
Qed.
Lemma pcell_at (l : list N) i x : l !! i = Some x -> pcell (Some l) i = Ok x.
Proof. intros H. unfold pcell. by rewrite H. Qed.
Lemma prep0_cells p es i k v : prep0 p es -> es !! i = Some (k, v) -> pcell (p_keys p) i = Ok k /\ pcell (p_vals p) i = Ok v.
Proof.
  intros [_ H] Hi. destruct H as [-> ->]; [intros ->; done|]. split; apply pcell_at; by rewrite list_lookup_fmap, Hi.
Qed.

(** ** The group of a bucket *)
Lemma db_range t ess : dgrep t ess -> 1 <= dg_b t <= 63.
Proof. intros H. exact (b_range True pf c kw vw bmin OK _ _ (dr_rep _ _ H)). Qed.
Lemma dbb t ess : dgrep t ess -> bmin <= dg_b t <= bmax.
Proof. intros H. exact (gr_b _ _ _ _ _ _ _ _ (dr_rep _ _ H)). Qed.
Lemma dcount t ess : dgrep t ess -> g_bucket_count (gstrip t) = 2^dg_b t.
Proof. intros H. exact (count_eq True pf c kw vw bmin OK _ _ (dr_rep _ _ H)). Qed.
Lemma dlen t ess : dgrep t ess -> N.of_nat (length ess) = 2^dg_b t.
Proof. intros H. exact (gr_len _ _ _ _ _ _ _ _ (dr_rep _ _ H)). Qed.
Lemma dkw t ess : dgrep t ess -> dg_kw t = kw.
Proof. intros H. exact (gr_kw _ _ _ _ _ _ _ _ (dr_rep _ _ H)). Qed.
Lemma dvw t ess : dgrep t ess -> dg_vw t = vw.
Proof. intros H. exact (gr_vw _ _ _ _ _ _ _ _ (dr_rep _ _ H)). Qed.
Lemma dbpg t ess : dgrep t ess -> 1 <= dg_bpg t <= 127.
Proof. intros H. exact (gr_bpg _ _ _ _ _ _ _ _ (dr_rep _ _ H)). Qed.
Lemma dqw_eq t : dg_kw t = kw -> gqw c (gstrip t) = bw (dg_b t).
Proof. intros E. exact (gqw_eq c kw (gstrip t) E). Qed.
Lemma dvw_eq t : dg_vw t = vw -> gvw (gstrip t) = vwn.
Proof. intros E. exact (gvw_eq vw (gstrip t) E). Qed.
Lemma dgroup_at t ess bk es : dgrep t ess -> ess !! N.to_nat bk = Some es ->
  exists gs g, dg_groups t = Some gs /\ gs !! (N.to_nat bk / gbpg (gstrip t))%nat = Some g /\ dg_group t bk = Ok g
    /\ dgrepr (dg_b t) g (chunk (gbpg (gstrip t)) ess (N.to_nat bk / gbpg (gstrip t)))
    /\ chunk (gbpg (gstrip t)) ess (N.to_nat bk / gbpg (gstrip t)) !! g_rank (gstrip t) bk = Some es.
Proof.
  intros H He. destruct (ggroup_at True pf c kw vw bmin _ _ _ _ (dr_rep _ _ H) He) as (gs0 & g0 & E1 & E2 & E3 & _ & Hc).
  destruct (dr_groups _ _ H) as (gs & Hgs & Hg). unfold gstrip in E1 at 1. cbn [gt_groups] in E1. rewrite Hgs in E1. cbn in E1. injection E1 as <-.
  change (map kstrip gs) with (kstrip <$> gs) in E2. rewrite list_lookup_fmap in E2.
  destruct (gs !! (N.to_nat bk / gbpg (gstrip t))%nat) as [g|] eqn:Eg; [|done]. injection E2 as <-.
  exists gs, g. split; [done|]. split; [done|]. split; [|split; [by apply Hg|done]].
  unfold dg_group, g_group, g_div in *. pose proof (dbpg _ _ H). change (gt_bpg (gstrip t)) with (dg_bpg t) in *.
  rewrite (proj2 (N.eqb_neq _ _)) in E3 |- * by lia. cbn [mbind res_bind] in *. unfold dg_at. rewrite Hgs.
  pose proof (gindex True pf c kw vw bmin _ _ bk (dr_rep _ _ H)) as Ei. change (gt_bpg (gstrip t)) with (dg_bpg t) in Ei.
  rewrite Ei, Eg. pose proof (lookup_lt_Some _ _ _ Eg). rewrite (proj2 (N.ltb_lt _ _)) by lia. done.
Qed.
Lemma dplain_at t ess bk es : dgrep t ess -> ess !! N.to_nat bk = Some es -> exists ps p, dg_plain t = Some ps /\ ps !! N.to_nat bk = Some p /\ dg_pl t bk = Ok p /\ prep p es.
Proof.
  intros H He. destruct (dr_plain _ _ H) as (ps & Hps & HF). destruct (Forall2_lookup_r _ _ _ _ _ HF He) as (p & Hp & Hpr).
  exists ps, p. split; [done|]. split; [done|]. split; [|done]. unfold dg_pl. rewrite Hps, Hp. pose proof (lookup_lt_Some _ _ _ Hp). rewrite (proj2 (N.ltb_lt _ _)) by lia. done.
Qed.
Lemma dwidth t : dg_kw t = kw -> bmin <= dg_b t <= bmax -> dg_width c t = Ok tt.
Proof.
  intros E Hb. unfold dg_width. rewrite E, dz_width by done. cbn [mbind res_bind]. pose proof (zw_range _ _ _ _ _ Hho _ Hb).
  rewrite (proj2 (N.ltb_lt _ _)), (proj2 (N.leb_le _ _)) by lia. done.
Qed.
Lemma dmap_ok t k : dg_kw t = kw -> bmin <= dg_b t <= bmax -> k < 2^kw -> dg_map c t k = Ok (bq (dg_b t) k, bb (dg_b t) k).
Proof.
  intros E Hb Hk. unfold dg_map. rewrite E. destruct (dz_map _ _ Hb Hk) as [E1 E2]. rewrite E1. cbn [mbind res_bind fst snd]. rewrite E2. cbn [mbind res_bind].
  by rewrite N.eqb_refl.
Qed.
(** What a bucket holds *)
Definition dhome (b bk : N) (es : entries) : Prop := forall k v, (k, v) ∈ es -> k < 2^kw /\ bb b k = bk.
Lemma home_at t ess bk es : dgrep t ess -> ess !! N.to_nat bk = Some es -> dhome (dg_b t) bk es.
Proof.
  intros H He k v Hin. pose proof (dr_rep _ _ H) as HR. split.
  - eapply (gr_range _ _ _ _ _ _ _ _ HR). apply elem_of_concat. eauto.
  - rewrite <-(N2Nat.id bk). exact (gr_placed _ _ _ _ _ _ _ _ HR _ _ _ _ He Hin).
Qed.
Lemma dscan t bk g bss p es q : dg_kw t = kw -> dg_vw t = vw -> bmin <= dg_b t <= bmax -> dgrepr (dg_b t) g bss ->
  bss !! g_rank (gstrip t) bk = Some es -> prep0 p es -> dhome (dg_b t) bk es -> forall n i, (i + n = length es)%nat ->
  dg_scan pf c t bk g p q i n = Ok ((fun j => N.of_nat (i + j)) <$> first_index q (bq (dg_b t) <$> keys_of (drop i es))).
Proof.
  intros E1 E2 Hb Hr Hc Hp Hh. induction n as [|n IH]; intros i Hi; cbn [dg_scan].
  { by rewrite drop_ge by lia. }
  destruct (lookup_lt_is_Some_2 es i) as ([k v] & Hx); [lia|]. rewrite dqw_eq, dvw_eq, E1 by done.
  rewrite (dgrepr_key _ _ _ _ _ _ _ _ Hb Hr Hc Hx). cbn [mbind res_bind].
  destruct (Hh k v) as [Hk Ebk]; [by eapply elem_of_list_lookup_2|]. destruct (dz_map _ _ Hb Hk) as [_ Hinv]. rewrite Ebk in Hinv. rewrite Hinv. cbn [mbind res_bind].
  destruct (prep0_cells _ _ _ _ _ Hp Hx) as [Ek Ev]. rewrite Ev. cbn [mbind res_bind]. rewrite (dgrepr_value _ _ _ _ _ _ _ _ Hr Hc Hx). cbn [mbind res_bind].
  rewrite N.eqb_refl. cbn [chk mbind res_bind]. rewrite Ek. cbn [mbind res_bind]. rewrite N.eqb_refl. cbn [chk mbind res_bind].
  rewrite (drop_S _ _ _ Hx). cbn [fmap list_fmap first_index fst]. destruct (bq (dg_b t) k =? q).
  - cbn. do 2 f_equal. lia.
  - rewrite IH by lia. destruct (first_index q _); [|done]. cbn. do 2 f_equal. lia.
Qed.
Lemma dlocate t ess es k : dgrep t ess -> k < 2^kw -> ess !! N.to_nat (bb (dg_b t) k) = Some es ->
  dg_locate_q pf c t (bb (dg_b t) k) (bq (dg_b t) k) = Ok (N.of_nat <$> first_index k (keys_of es)).
Proof.
  intros H Hk He. pose proof (dbb _ _ H) as Hb. pose proof (dr_rep _ _ H) as HR. destruct (z_map _ _ _ _ _ Hho _ _ Hb Hk) as (_ & _ & Hq & _).
  unfold dg_locate_q. rewrite (dwidth t (dkw _ _ H) Hb). cbn [mbind res_bind]. rewrite dqw_eq by apply (dkw _ _ H).
  rewrite msb_ok by (try (apply bwr; done); by apply small_n). cbn [chk mbind res_bind].
  destruct (dgroup_at _ _ _ _ H He) as (gs & g & _ & _ & -> & Hr & Hc). cbn [mbind res_bind].
  destruct (dgrepr_bucketsize _ _ _ _ _ Hr Hc) as [-> H255]. cbn [mbind res_bind].
  destruct (dplain_at _ _ _ _ H He) as (ps & p & _ & _ & -> & Hp). cbn [mbind res_bind].
  rewrite (dscan t _ g _ p es _ (dkw _ _ H) (dvw _ _ H) Hb Hr Hc (proj1 Hp) (home_at _ _ _ _ H He)) by done. cbn [mbind res_bind].
  rewrite drop_0.
  assert (Ei : first_index (bq (dg_b t) k) (bq (dg_b t) <$> keys_of es) = first_index k (keys_of es)).
  { apply (quot_index c kw vw bmin OK _ ess); try done; apply HR. }
  rewrite Ei.
  assert (Ef : (if k_size g =? 0 then Ok None
         else r ← dkv_find pf g (g_rank (gstrip t) (bb (dg_b t) k)) (bq (dg_b t) k) (bw (dg_b t)); Ok (N.of_nat <$> (r : option nat)))
       = Ok (N.of_nat <$> first_index k (keys_of es))).
  { destruct (N.eqb_spec (k_size g) 0) as [Ee|Ee].
    - rewrite (dgrepr_size _ _ _ Hr) in Ee. pose proof (concat_length_pos _ _ _ Hc). assert (es = []) as -> by (apply nil_length_inv; lia). done.
    - erewrite dkv_find_spec; [|by apply bwr| |by apply qbss_lookup].
      + cbn [mbind res_bind]. by rewrite qkeys, Ei.
      + eapply dgrepr_rep; [done|]. intros E. rewrite (dgrepr_size _ _ _ Hr), E in Ee. done. }
  rewrite Ef. cbn [mbind res_bind]. destruct (first_index k (keys_of es)) as [j|] eqn:Ej; cbn [fmap option_fmap option_map].
  - rewrite (proj2 (N.eqb_eq _ _)) by lia. cbn [chk mbind res_bind]. apply fi_Some, lookup_lt_Some in Ej. rewrite fmap_length in Ej.
    rewrite (proj2 (N.ltb_lt _ _)) by lia. done.
  - done.
Qed.
Lemma dfind_ok t ess es k : dgrep t ess -> k < 2^kw -> ess !! N.to_nat (bb (dg_b t) k) = Some es ->
  dg_find pf c t k = Ok (match first_index k (keys_of es) with Some p => (bb (dg_b t) k, N.of_nat p) | None => end_nav end).
Proof.
  intros H Hk He. unfold dg_find. pose proof (db_range _ _ H). rewrite (proj2 (N.eqb_neq _ _)) by lia.
  rewrite (dmap_ok t k (dkw _ _ H) (dbb _ _ H) Hk). cbn [mbind res_bind]. rewrite (dlocate _ _ _ _ H Hk He). cbn [mbind res_bind].
  by destruct (first_index k (keys_of es)).
Qed.
Lemma dg_enter t ess : dgrep t ess -> (1 <? dg_kw t) = true /\ (dg_b t =? 0) = false.
Proof.
  intros H. pose proof (db_range _ _ H). pose proof dkw_range. rewrite (dkw _ _ H). split; [by apply N.ltb_lt; lia|by apply N.eqb_neq; lia].
Qed.
Lemma dfound f t ess es k v p : dgrep t ess -> k < 2^kw -> ess !! N.to_nat (bb (dg_b t) k) = Some es ->
  first_index k (keys_of es) = Some p -> dg_find_or_insert pf c (S f) t k v = Ok (t, (bb (dg_b t) k, N.of_nat p)).
Proof.
  intros H Hk He Hp. destruct (dg_enter _ _ H) as [F1 F2]. cbn [dg_find_or_insert]. rewrite F1, F2. cbn [chk mbind res_bind].
  rewrite (dmap_ok t k (dkw _ _ H) (dbb _ _ H) Hk). cbn [mbind res_bind].
  destruct (dgroup_at _ _ _ _ H He) as (gs & g & Hgs & Hg & -> & Hr & Hc). cbn [mbind res_bind].
  destruct (dgrepr_bucketsize _ _ _ _ _ Hr Hc) as [-> _]. cbn [mbind res_bind].
  rewrite (dlocate _ _ _ _ H Hk He), Hp. cbn [fmap option_fmap option_map mbind res_bind].
  apply fi_Some, lookup_lt_Some in Hp. rewrite fmap_length in Hp. rewrite (proj2 (N.ltb_lt _ _)) by lia. done.
Qed.
Lemma dfull f t ess es k v : dgrep t ess -> k < 2^kw -> ess !! N.to_nat (bb (dg_b t) k) = Some es ->
  first_index k (keys_of es) = None -> gfullb (gstrip t) ess (bb (dg_b t) k) = true ->
  dg_find_or_insert pf c (S f) t k v =
    (n ← shl64 1 (dg_b t + 1); t ← dg_reserve_with pf c (dg_find_or_insert pf c f) t n 0; dg_find_or_insert pf c f t k v).
Proof.
  intros H Hk He Hnone Hfull. destruct (dg_enter _ _ H) as [F1 F2]. cbn [dg_find_or_insert]. rewrite F1, F2. cbn [chk mbind res_bind].
  rewrite (dmap_ok t k (dkw _ _ H) (dbb _ _ H) Hk). cbn [mbind res_bind].
  destruct (dgroup_at _ _ _ _ H He) as (gs & g & Hgs & Hg & -> & Hr & Hc). cbn [mbind res_bind].
  destruct (dgrepr_bucketsize _ _ _ _ _ Hr Hc) as [-> _]. cbn [mbind res_bind].
  rewrite (dlocate _ _ _ _ H Hk He), Hnone. cbn [mbind res_bind fmap option_fmap option_map].
  unfold gfullb in Hfull. apply Nat.eqb_eq in Hfull. rewrite (dgrepr_size _ _ _ Hr), Hfull. done.
Qed.

(** ** Replacing a bucket *)
Lemma dgrep_set t ess bk g p n es es' : dgrep t ess -> ess !! N.to_nat bk = Some es ->
  dgrepr (dg_b t) g (<[g_rank (gstrip t) bk := es']> (chunk (gbpg (gstrip t)) ess (N.to_nat bk / gbpg (gstrip t)))) -> prep p es' ->
  grep (gstrip (dg_set_pl (dg_set (dg_set_n t n) bk g) bk p)) (<[N.to_nat bk := es']> ess) ->
  dgrep (dg_set_pl (dg_set (dg_set_n t n) bk g) bk p) (<[N.to_nat bk := es']> ess).
Proof.
  intros H He Hr Hp HG. destruct (dr_groups _ _ H) as (gs & Hgs & Hg). destruct (dr_plain _ _ H) as (ps & Hps & HF).
  pose proof (gbpg_pos True pf c kw vw bmin _ _ (dr_rep _ _ H)) as Hbp. constructor; [done|..].
  - cbn [dg_set_pl dg_set dg_set_n dg_groups dg_b dg_bpg]. rewrite Hgs. cbn. eexists. split; [done|].
    pose proof (gindex True pf c kw vw bmin _ _ bk (dr_rep _ _ H)) as Ei. change (gt_bpg (gstrip t)) with (dg_bpg t) in Ei. rewrite Ei.
    rewrite (rank_eq True pf c kw vw bmin _ _ _ (dr_rep _ _ H)) in Hr.
    change (gbpg (gstrip _)) with (gbpg (gstrip t)). intros i g' Hi. apply list_lookup_insert_Some in Hi as [(<- & <- & Hi)|(Hne & Hi)].
    + rewrite chunk_set; [done|lia|by eapply lookup_lt_Some].
    + rewrite chunk_other; [by apply Hg|lia|done].
  - cbn [dg_set_pl dg_set dg_set_n dg_plain]. rewrite Hps. cbn. eexists. split; [done|]. by apply Forall2_insert.
Qed.
Lemma prep_push p es k v : prep0 p es -> (length es <= 255)%nat ->
  prep (if p_size p =? 0 then DPlain (Some [k]) (Some [v]) 1 else DPlain (Some (es.*1 ++ [k])) (Some (es.*2 ++ [v])) (u32 (p_size p + 1))) (es ++ [(k, v)]).
Proof.
  intros [Hs _] Hl. rewrite Hs. destruct es as [|e es].
  - cbn. by repeat split.
  - rewrite (proj2 (N.eqb_neq _ _)) by (cbn [length]; lia). split; [split|]; cbn [p_size p_keys p_vals].
    + rewrite app_length. cbn [length] in *. unfold u32. rewrite N.mod_small; lia.
    + intros _. rewrite !fmap_app. done.
    + by destruct es.
Qed.
Lemma dmax_key t k : dg_kw t = kw -> k < 2^kw -> (k <=? g_max_key (gstrip t)) = true.
Proof.
  intros E Hk. apply N.leb_le. unfold g_max_key. change (gt_kw (gstrip t)) with (dg_kw t). rewrite E. pose proof dkw_range.
  rewrite ones64_ones, N.shiftr_div_pow2, N.ones_div_pow2 by lia. replace (64 - (64 - kw)) with kw by lia. rewrite N.ones_equiv. lia.
Qed.
Lemma dmax_value t v : dg_vw t = vw -> v < 2^vw -> (v <=? g_max_value (gstrip t)) = true.
Proof.
  intros E Hk. apply N.leb_le. unfold g_max_value. change (gt_vw (gstrip t)) with (dg_vw t). rewrite E. pose proof (go_vw _ _ _ _ OK).
  rewrite ones64_ones, N.shiftr_div_pow2, N.ones_div_pow2 by lia. replace (64 - (64 - vw)) with vw by lia. rewrite N.ones_equiv. lia.
Qed.
Lemma qbss_nil b bss n : length bss = n -> concat bss = [] -> qbss b bss = replicate n [].
Proof.
  intros Hl Hem. apply list_eq. intros i. destruct (Nat.lt_ge_cases i n) as [Hi|Hi].
  - rewrite lookup_replicate_2 by done. destruct (lookup_lt_is_Some_2 bss i) as (x & Hx); [lia|].
    rewrite (qbss_lookup _ _ _ _ _ _ Hx). pose proof (concat_length_pos _ _ _ Hx) as Hle. rewrite Hem in Hle. cbn in Hle.
    assert (x = []) as -> by (apply nil_length_inv; lia). done.
  - rewrite !lookup_ge_None_2; [done|by rewrite replicate_length|by rewrite qbss_length, Hl].
Qed.
Lemma dpush f t ess es k v : dgrep t ess -> k < 2^kw -> v < 2^vw -> ess !! N.to_nat (bb (dg_b t) k) = Some es ->
  first_index k (keys_of es) = None -> gfullb (gstrip t) ess (bb (dg_b t) k) = false ->
  exists t', dg_find_or_insert pf c (S f) t k v = Ok (t', (bb (dg_b t) k, N.of_nat (length es)))
    /\ dg_b t' = dg_b t /\ dgrep t' (<[N.to_nat (bb (dg_b t) k) := es ++ [(k, v)]]> ess).
Proof.
  intros H Hk Hv He Hnone Hfull. destruct (dg_enter _ _ H) as [F1 F2]. pose proof (dbb _ _ H) as Hb.
  destruct (dgroup_at _ _ _ _ H He) as (gs & g & Hgs & Hg & Eg & Hr & Hc). destruct (dgrepr_bucketsize _ _ _ _ _ Hr Hc) as [Es H255].
  destruct (dplain_at _ _ _ _ H He) as (ps & p & Hps & Hpl & Ep & Hp).
  destruct (gpush True pf c kw vw bmin OK f (gstrip t) ess es k v (dr_rep _ _ H) Hk Hv He Hnone Hfull) as (t0 & E0 & _ & HR0).
  change (gt_b (gstrip t)) with (dg_b t) in *.
  set (bk := bb (dg_b t) k) in *. set (bss := chunk (gbpg (gstrip t)) ess (N.to_nat bk / gbpg (gstrip t))) in *.
  assert (Hbl : length bss = gbpg (gstrip t)) by apply chunk_length. unfold gfullb in Hfull. fold bss in Hfull. apply Nat.eqb_neq in Hfull.
  pose proof Hr as (Hr255 & H127 & _). pose proof (bwr _ Hb) as Hbw. pose proof (dz_map _ _ Hb Hk) as [_ Hinv]. fold bk in Hinv.
  destruct (z_map _ _ _ _ _ Hho _ _ Hb Hk) as (_ & _ & Hq & _).
  (* the group, initialised *)
  assert (Hg1 : exists g1, (match k_border g with Some _ => Ok g | None => dkv_init g (gbpg (gstrip t)) (bw (dg_b t)) vwn end) = Ok g1
     /\ dkv_rep pf (bw (dg_b t)) vwn g1 (qbss (dg_b t) bss) /\ k_size g1 = k_size g).
  { destruct Hr as (_ & _ & [[Hf Hem]|Hr]).
    - destruct Hf as (Z & Hbo & [Hba _] & K1 & K2 & V1 & V2). rewrite Hbo.
      destruct (dkv_init_spec pf (bw (dg_b t)) vwn g (gbpg (gstrip t))) as (g1 & E1 & H1 & Z1); try done; try lia.
      exists g1. split; [done|]. split; [|by rewrite Z]. by rewrite (qbss_nil _ _ (gbpg (gstrip t)) Hbl Hem).
    - pose proof Hr as ((_ & _ & _ & _ & _ & ws & Hws & _) & _). cbn [kstrip g_border] in Hws. rewrite Hws. eauto. }
  destruct Hg1 as (g1 & Eg1 & Hg1 & Es1).
  destruct (dkv_push_spec pf (bw (dg_b t)) vwn g1 _ (g_rank (gstrip t) bk) (qent (dg_b t) <$> es) (bq (dg_b t) k) v Hbw vwr Hg1)
    as (g2 & E2 & Hg2 & Hs2); [by apply qbss_lookup|by apply small_n|by apply small_n|rewrite Es1, (dgrepr_size _ _ _ Hr); lia|].
  rewrite qbss_length, Hbl in E2.
  set (p' := if p_size p =? 0 then DPlain (Some [k]) (Some [v]) 1 else DPlain (Some (es.*1 ++ [k])) (Some (es.*2 ++ [v])) (u32 (p_size p + 1))).
  pose proof (prep_push p es k v (proj1 Hp) H255) as Hp'. fold p' in Hp'.
  assert (Hr2 : dgrepr (dg_b t) g2 (<[g_rank (gstrip t) bk := es ++ [(k, v)]]> bss)).
  { split; [|split; [by rewrite insert_length|]].
    - rewrite (Permutation_length (concat_upd_push _ _ _ (k, v) Hc)). cbn [length]. lia.
    - right. rewrite qbss_insert, fmap_app. exact Hg2. }
  assert (Hc2 : <[g_rank (gstrip t) bk := es ++ [(k, v)]]> bss !! g_rank (gstrip t) bk = Some (es ++ [(k, v)])).
  { apply list_lookup_insert. by eapply lookup_lt_Some. }
  assert (Hlast : (es ++ [(k, v)]) !! length es = Some (k, v)) by (by rewrite lookup_app_r, Nat.sub_diag by lia).
  assert (Epush : dg_push pf c t bk (bq (dg_b t) k) k v g (length es)
    = Ok (dg_set_pl (dg_set (dg_set_n t (u64 (dg_n t + 1))) bk g2) bk p')).
  { unfold dg_push. cbv zeta. rewrite (dwidth (dg_set_n t (u64 (dg_n t + 1))) (dkw _ _ H) Hb). cbn [mbind res_bind].
    change (gqw c (gstrip (dg_set_n t (u64 (dg_n t + 1))))) with (gqw c (gstrip t)). change (gvw (gstrip (dg_set_n t (u64 (dg_n t + 1))))) with (gvw (gstrip t)).
    change (gbpg (gstrip (dg_set_n t (u64 (dg_n t + 1))))) with (gbpg (gstrip t)). change (g_rank (gstrip (dg_set_n t (u64 (dg_n t + 1))))) with (g_rank (gstrip t)).
    change (g_max_key (gstrip (dg_set_n t (u64 (dg_n t + 1))))) with (g_max_key (gstrip t)). change (dg_b (dg_set_n t (u64 (dg_n t + 1)))) with (dg_b t).
    change (dg_kw (dg_set_n t (u64 (dg_n t + 1)))) with (dg_kw t). change (dg_pl (dg_set_n t (u64 (dg_n t + 1))) bk) with (dg_pl t bk).
    rewrite dqw_eq, dvw_eq by (try apply (dkw _ _ H); apply (dvw _ _ H)). rewrite Eg1. cbn [mbind res_bind]. rewrite Ep. cbn [mbind res_bind].
    destruct Hp as [[Hps0 Hps1] Hps2]. rewrite Hps0, N.eqb_refl. cbn [chk mbind res_bind].
    assert (Epp : (if N.of_nat (length es) =? 0 then
         _ ← chk (match p_keys p with None => true | _ => false end);
         _ ← chk (match p_vals p with None => true | _ => false end);
         Ok (DPlain (Some [k]) (Some [v]) 1)
       else
         match p_keys p, p_vals p with
         | Some ks, Some vs =>
             if (length ks <? length es)%nat || (length vs <? length es)%nat then Ub OobRead
             else Ok (DPlain (Some (take (length es) ks ++ [k])) (Some (take (length es) vs ++ [v])) (u32 (N.of_nat (length es) + 1)))
         | _, _ => Ub NullDeref
         end) = Ok p').
    { subst p'. rewrite Hps0. destruct es as [|e es].
      - destruct Hps2 as [-> ->]; [done|]. done.
      - destruct Hps1 as [-> ->]; [done|]. rewrite (proj2 (N.eqb_neq _ _)) by (cbn [length]; lia). rewrite !fmap_length, !Nat.ltb_irrefl. cbn [orb].
        rewrite !take_ge by (by rewrite fmap_length). done. }
    rewrite Epp. cbn [mbind res_bind]. rewrite (dmax_key t k (dkw _ _ H) Hk). cbn [chk mbind res_bind].
    rewrite (proj2 (Nat.ltb_lt _ _)) by (apply pos_small; lia). cbn [chk mbind res_bind].
    rewrite (proj2 (Nat.leb_le _ _)) by lia. cbn [chk mbind res_bind]. rewrite E2. cbn [mbind res_bind].
    destruct (dgrepr_bucketsize _ _ _ _ _ Hr2 Hc2) as [-> _]. cbn [mbind res_bind]. destruct Hp' as [[Hs' Hcell'] _]. rewrite Hs', N.eqb_refl. cbn [chk mbind res_bind].
    rewrite (dgrepr_key _ _ _ _ _ _ _ _ Hb Hr2 Hc2 Hlast). cbn [mbind res_bind]. rewrite (dkw _ _ H), Hinv. cbn [mbind res_bind]. rewrite N.eqb_refl. cbn [chk mbind res_bind].
    destruct (prep0_cells _ _ _ _ _ (conj Hs' Hcell') Hlast) as [_ ->]. cbn [mbind res_bind]. rewrite (dgrepr_value _ _ _ _ _ _ _ _ Hr2 Hc2 Hlast). cbn [mbind res_bind].
    rewrite N.eqb_refl. done. }
  assert (Edo : dg_find_or_insert pf c (S f) t k v = Ok (dg_set_pl (dg_set (dg_set_n t (u64 (dg_n t + 1))) bk g2) bk p', (bk, N.of_nat (length es)))).
  { cbn [dg_find_or_insert]. rewrite F1, F2. cbn [chk mbind res_bind]. rewrite (dmap_ok t k (dkw _ _ H) Hb Hk). cbn [mbind res_bind]. fold bk.
    rewrite Eg. cbn [mbind res_bind]. rewrite Es. cbn [mbind res_bind]. subst bk. rewrite (dlocate _ _ _ _ H Hk He), Hnone. cbn [mbind res_bind fmap option_fmap option_map].
    unfold g_max_group. rewrite (proj2 (N.eqb_neq _ _)) by (rewrite (dgrepr_size _ _ _ Hr); lia). rewrite Epush. done. }
  eexists. split; [exact Edo|]. split; [done|]. eapply dgrep_set; [done|done|exact Hr2|exact Hp'|].
  apply dg_find_or_insert_eq in Edo. cbn [fst snd] in Edo. rewrite Edo in E0. injection E0 as <-. exact HR0.
Qed.

(** ** Clearing *)
Definition with_plain (t : dgtable) (ps : list dplain) : dgtable :=
  DGTable (dg_groups t) (dg_b t) (dg_n t) (dg_kw t) (dg_vw t) (dg_bpg t) (Some ps).
Lemma count_t t : 1 <= dg_b t <= 63 -> g_bucket_count (gstrip t) = 2^dg_b t.
Proof.
  intros Hb. unfold g_bucket_count. change (gt_b (gstrip t)) with (dg_b t). rewrite (proj2 (N.eqb_neq _ _)) by lia. done.
Qed.
Lemma dclear_buckets t gi : 1 <= dg_b t <= 63 -> dg_bpg t <> 0 -> forall n r ps, (r + n <= N.to_nat (dg_bpg t))%nat -> N.of_nat (length ps) = 2^dg_b t ->
  exists ps', rfold (fun t r =>
        let bk := gi * dg_bpg t + N.of_nat r in
        if g_bucket_count (gstrip t) <=? bk then Ok t
        else i ← g_div (gstrip t) bk; _ ← chk (i =? gi); dg_clear_bucket t bk) (seq r n) (with_plain t ps) = Ok (with_plain t ps')
    /\ length ps' = length ps
    /\ forall i, ps' !! i = if bool_decide (gi * dg_bpg t + N.of_nat r <= N.of_nat i < gi * dg_bpg t + N.of_nat (r + n)) then const p_none <$> ps !! i else ps !! i.
Proof.
  intros Hb Hbp. induction n as [|n IH]; intros r ps Hr Hl; cbn [seq rfold].
  { exists ps. split; [done|]. split; [done|]. intros i. rewrite bool_decide_eq_false_2 by lia. done. }
  cbv zeta. rewrite (count_t (with_plain t ps)) by done. change (dg_b (with_plain t ps)) with (dg_b t). change (dg_bpg (with_plain t ps)) with (dg_bpg t).
  destruct (N.leb_spec (2^dg_b t) (gi * dg_bpg t + N.of_nat r)) as [Hge|Hlt].
  - cbn [mbind res_bind]. destruct (IH (S r) ps) as (ps' & E & Hl' & Hps); [lia|done|]. exists ps'. split; [done|]. split; [done|].
    intros i. rewrite Hps. destruct (decide (N.of_nat i < 2^dg_b t)) as [Hi|Hi].
    + apply (f_equal (fun b : bool => if b then const p_none <$> ps !! i else ps !! i)). apply bool_decide_ext. lia.
    + rewrite (lookup_ge_None_2 ps i) by lia. cbn. by destruct (bool_decide _), (bool_decide _).
  - unfold g_div. change (gt_bpg (gstrip (with_plain t ps))) with (dg_bpg t). rewrite (proj2 (N.eqb_neq _ _)) by done. cbn [mbind res_bind].
    rewrite (N.add_comm (gi * _)), N.div_add, N.div_small by lia. rewrite N.add_0_l, N.eqb_refl. cbn [chk mbind res_bind].
    unfold dg_clear_bucket. rewrite (count_t (with_plain t ps)) by done. change (dg_b (with_plain t ps)) with (dg_b t).
    rewrite (N.add_comm (N.of_nat r)). rewrite (proj2 (N.ltb_lt _ _)) by done. cbn [chk mbind res_bind].
    unfold dg_pl. cbn [with_plain dg_plain]. rewrite (proj2 (N.ltb_lt _ _)) by lia.
    destruct (lookup_lt_is_Some_2 ps (N.to_nat (gi * dg_bpg t + N.of_nat r))) as (p & Hp); [lia|]. rewrite Hp. cbn [of_option mbind res_bind].
    assert (Ew : dg_set_pl (with_plain t ps) (gi * dg_bpg t + N.of_nat r) p_none = with_plain t (<[N.to_nat (gi * dg_bpg t + N.of_nat r) := p_none]> ps)) by done.
    fold (with_plain t ps). rewrite Ew. destruct (IH (S r) (<[N.to_nat (gi * dg_bpg t + N.of_nat r) := p_none]> ps)) as (ps' & E & Hl' & Hps); [lia|by rewrite insert_length|].
    exists ps'. split; [done|]. rewrite insert_length in Hl'. split; [done|]. intros i. rewrite Hps.
    destruct (decide (i = N.to_nat (gi * dg_bpg t + N.of_nat r))) as [->|Hne].
    + rewrite (bool_decide_eq_true_2 (_ <= _ < _ + N.of_nat (r + S n))) by lia. rewrite list_lookup_insert by (by eapply lookup_lt_Some). rewrite Hp.
      rewrite (bool_decide_eq_false_2 _) by lia. done.
    + rewrite list_lookup_insert_ne by done. apply (f_equal (fun b : bool => if b then const p_none <$> ps !! i else ps !! i)). apply bool_decide_ext. lia.
Qed.
Lemma dclear_group t gi g ps : 1 <= dg_b t <= 63 -> dg_bpg t <> 0 -> dg_plain t = Some ps -> N.of_nat (length ps) = 2^dg_b t ->
  dg_at t gi = Ok g -> k_gs g = dg_bpg t ->
  exists ps', dg_clear_group t gi = Ok (DGTable ((fun gs => <[N.to_nat gi := dkv_clear g]> gs) <$> dg_groups t) (dg_b t) (dg_n t) (dg_kw t) (dg_vw t) (dg_bpg t) (Some ps'))
    /\ length ps' = length ps
    /\ forall i, ps' !! i = if bool_decide (N.of_nat i / dg_bpg t = gi) then const p_none <$> ps !! i else ps !! i.
Proof.
  intros Hb Hbp Hps Hl Hg Hgs. unfold dg_clear_group. rewrite Hg. cbn [mbind res_bind]. rewrite Hgs, N.eqb_refl. cbn [chk mbind res_bind].
  destruct (dclear_buckets t gi Hb Hbp (N.to_nat (dg_bpg t)) 0 ps) as (ps' & E & Hl' & Hi); [lia|done|].
  assert (Et : t = with_plain t ps) by (destruct t; cbn in *; by subst). rewrite <-Et in E.
  match goal with |- context [rfold ?f ?l t] => replace (rfold f l t) with (@Ok dgtable (with_plain t ps')) by (symmetry; exact E) end. cbn [mbind res_bind].
  exists ps'. split; [|split; [done|]].
  - unfold dg_set, with_plain. cbn [dg_groups dg_b dg_n dg_kw dg_vw dg_bpg dg_plain]. rewrite N.div_mul by done. done.
  - intros i. rewrite Hi. apply (f_equal (fun b : bool => if b then const p_none <$> ps !! i else ps !! i)). apply bool_decide_ext.
    pose proof (N.div_mod (N.of_nat i) (dg_bpg t) Hbp) as Hd. pose proof (N.mod_lt (N.of_nat i) (dg_bpg t) Hbp) as Hm. split.
    + intros Hx. symmetry. apply (N.div_unique _ _ _ (N.of_nat i - gi * dg_bpg t)); lia.
    + intros <-. lia.
Qed.
Lemma dclear_loop : forall n gi t gs ps, 1 <= dg_b t <= 63 -> dg_bpg t <> 0 -> dg_groups t = Some gs -> dg_plain t = Some ps -> N.of_nat (length ps) = 2^dg_b t ->
  (gi + n <= length gs)%nat -> (forall i g, gs !! i = Some g -> k_size g <> 0 -> k_gs g = dg_bpg t) ->
  exists t', rfold (fun t gi => g ← dg_at t (N.of_nat gi); if (k_size g =? 0) then Ok t else dg_clear_group t (N.of_nat gi)) (seq gi n) t = Ok t'
    /\ dg_kw t' = dg_kw t /\ dg_vw t' = dg_vw t /\ dg_bpg t' = dg_bpg t.
Proof.
  induction n as [|n IH]; intros gi t gs ps Hb Hbp Hgs Hps Hl Hn HG; cbn [seq rfold]; [eauto|].
  destruct (lookup_lt_is_Some_2 gs gi) as (g & Hg); [lia|].
  assert (Eat : dg_at t (N.of_nat gi) = Ok g).
  { unfold dg_at. rewrite Hgs, (proj2 (N.ltb_lt _ _)), Nat2N.id, Hg by lia. done. }
  rewrite Eat. cbn [mbind res_bind]. destruct (N.eqb_spec (k_size g) 0) as [Ez|Ez]; cbn [mbind res_bind].
  - by apply (IH (S gi) t gs ps); try done; lia.
  - destruct (dclear_group t (N.of_nat gi) g ps Hb Hbp Hps Hl Eat (HG _ _ Hg Ez)) as (ps' & E & Hl' & _). rewrite E. cbn [mbind res_bind].
    match goal with |- exists t', rfold _ _ ?t1 = _ /\ _ => destruct (IH (S gi) t1 (<[gi := dkv_clear g]> gs) ps') as (t' & E' & F1 & F2 & F3); try done end.
    + cbn [dg_groups]. rewrite Hgs, Nat2N.id. done.
    + cbn [dg_b]. by rewrite Hl'.
    + rewrite insert_length. lia.
    + cbn [dg_bpg]. intros i g' Hi Hz. apply list_lookup_insert_Some in Hi as [(-> & <- & _)|[_ Hi]]; [done|by eapply HG].
    + cbn [dg_kw dg_vw dg_bpg] in *. eauto.
Qed.
Lemma dplain_len t ess ps : dgrep t ess -> dg_plain t = Some ps -> N.of_nat (length ps) = 2^dg_b t.
Proof. intros H Hps. destruct (dr_plain _ _ H) as (ps0 & E & HF). rewrite Hps in E. injection E as <-. by rewrite (Forall2_length _ _ _ HF), (dlen _ _ H). Qed.
Lemma dgroups t ess : dgrep t ess -> exists gs, dg_groups t = Some gs /\ g_group_count (gstrip t) = Ok (N.of_nat (length gs))
  /\ (length ess <= length gs * gbpg (gstrip t))%nat
  /\ (forall i g, gs !! i = Some g -> dgrepr (dg_b t) g (chunk (gbpg (gstrip t)) ess i))
  /\ forall i g, gs !! i = Some g -> k_size g <> 0 -> k_gs g = dg_bpg t.
Proof.
  intros H. pose proof (dr_rep _ _ H) as HR. destruct (dr_groups _ _ H) as (gs & Hgs & Hg). destruct (gr_groups _ _ _ _ _ _ _ _ HR) as (gs0 & Hgs0 & Hl & _).
  pose proof Hgs0 as Hgs0'. unfold gstrip in Hgs0'. cbn [gt_groups] in Hgs0'. rewrite Hgs in Hgs0'. cbn in Hgs0'. injection Hgs0' as <-.
  exists gs. split; [done|]. split; [|split; [|split; [done|]]].
  - rewrite (ggroup_count True pf c kw vw bmin OK _ _ _ HR Hgs0 Hl). by rewrite map_length.
  - pose proof (ggroups_enough True pf c kw vw bmin _ _ _ HR Hl) as He. by rewrite map_length in He.
  - intros i g Hi Hz. rewrite (dgrepr_gs _ _ _ (Hg i g Hi) Hz), chunk_length. unfold gbpg. change (gt_bpg (gstrip t)) with (dg_bpg t). lia.
Qed.
Lemma dclear t ess : dgrep t ess -> exists t', dg_clear t = Ok t' /\ dgzero t'.
Proof.
  intros H. destruct (dgroups _ _ H) as (gs & Hgs & Hc & _ & Hg & HG). destruct (dr_plain _ _ H) as (ps & Hps & _). unfold dg_clear. rewrite Hc. cbn [mbind res_bind].
  pose proof (dbpg _ _ H) as Hbp. rewrite Nat2N.id.
  destruct (dclear_loop (length gs) 0 t gs ps) as (t' & E & F1 & F2 & F3); try done; try lia.
  { by apply (db_range _ ess). } { by eapply dplain_len. }
  rewrite E. cbn [mbind res_bind]. eexists. split; [done|]. split; [|done]. unfold gzero. cbn. rewrite F1, F2, F3, (dkw _ _ H), (dvw _ _ H). done.
Qed.
Lemma dclear0 t : dgzero t -> exists t', dg_clear t = Ok t' /\ dgzero t'.
Proof.
  intros [(E1 & E2 & Hb & Hn & Hg & Hbp) HG]. unfold dg_clear, g_group_count. rewrite Hg. cbn [mbind res_bind]. eexists. split; [done|].
  split; [|done]. unfold gzero. cbn in *. done.
Qed.

(** ** Allocation and rehashing *)
Lemma dalloc t n : dg_kw t = kw -> dg_vw t = vw -> dg_n t = 0 -> 1 <= dg_bpg t <= 127 -> 1 <= n <= 2^63 -> bmin <= N.log2_up n <= bmax ->
  exists t' ess0, dg_alloc t n = Ok t' /\ dgrep t' ess0 /\ concat ess0 = [] /\ dg_b t' = N.log2_up n.
Proof.
  intros E1 E2 E3 E4 Hn Hb. destruct (galloc True pf c kw vw bmin (gstrip t) n E1 E2 E3 E4 Hn Hb) as (t0 & ess0 & Ea & HR & Hc & Hbt).
  assert (Ed : exists t', dg_alloc t n = Ok t' /\ dg_groups t' = Some (replicate (N.to_nat (2^N.log2_up n / dg_bpg t + 1)) dkv_new)
     /\ dg_plain t' = Some (replicate (N.to_nat (2^N.log2_up n)) p_none)).
  { unfold dg_alloc. rewrite reserve_bits_spec by done. cbn [mbind res_bind]. unfold g_div. change (gt_bpg (gstrip t)) with (dg_bpg t).
    rewrite (proj2 (N.eqb_neq _ _)) by lia. cbn [mbind res_bind]. eauto. }
  destruct Ed as (t' & Ed & Hgs & Hps). pose proof (dg_alloc_eq _ _ _ Ed) as Es. rewrite Ea in Es. injection Es as ->.
  change (gt_b (gstrip t')) with (dg_b t') in Hbt. exists t', ess0. split; [done|]. split; [|done]. constructor; [done|..].
  - eexists. split; [exact Hgs|]. intros i g Hg. destruct (gr_groups _ _ _ _ _ _ _ _ HR) as (gs0 & Hgs0 & _ & Hr0).
    unfold gstrip in Hgs0. cbn [gt_groups] in Hgs0. rewrite Hgs in Hgs0. cbn in Hgs0. injection Hgs0 as <-.
    destruct (Hr0 i (kstrip g)) as (A1 & A2 & _). { change (map kstrip ?l) with (kstrip <$> l). by rewrite list_lookup_fmap, Hg. }
    apply lookup_replicate in Hg as [-> _]. split; [done|]. split; [done|]. left. split; [apply fresh_new|].
    destruct (chunk_sub (gbpg (gstrip t')) ess0 i) as (A & B & HP). rewrite Hc in HP. apply Permutation_nil in HP.
    apply app_nil in HP as [_ HP]. by apply app_nil in HP as [? _].
  - eexists. split; [exact Hps|]. apply Forall2_same_length_lookup. split.
    + rewrite replicate_length. pose proof (gr_len _ _ _ _ _ _ _ _ HR) as Hl. change (gt_b (gstrip t')) with (dg_b t') in Hl. rewrite Hbt in Hl. lia.
    + intros i p es Hp He. apply lookup_replicate in Hp as [-> _]. pose proof (concat_length_pos _ _ _ He) as Hle. rewrite Hc in Hle. cbn in Hle.
      assert (es = []) as -> by (apply nil_length_inv; lia). by repeat split.
Qed.
Lemma drehash_entries {T} (ins : T -> N -> N -> res (T * nav)) t g bss r es (bk : N) p : dg_kw t = kw -> dg_vw t = vw -> bmin <= dg_b t <= bmax ->
  dgrepr (dg_b t) g bss -> bss !! r = Some es -> prep0 p es -> dhome (dg_b t) bk es -> forall n i tmp, (i + n = length es)%nat ->
  rfold (fun (tmp : T) (j : nat) =>
      kv ← dkv_read pf g r j (gqw c (gstrip t)) (gvw (gstrip t));
      k ← dhash_inv_map (ghm c (dg_kw t)) (fst kv) bk (dg_b t);
      pv ← pcell (p_vals p) j;
      _ ← chk (snd kv =? pv);
      pk ← pcell (p_keys p) j;
      _ ← chk (k =? pk);
      x ← ins tmp k (snd kv);
      Ok (fst x)) (seq i n) tmp = ins_fold ins (drop i es) tmp.
Proof.
  intros E1 E2 Hb Hr Hrk Hp Hbk. rewrite dqw_eq, dvw_eq, E1 by done. induction n as [|n IH]; intros i tmp Hi; cbn [seq rfold].
  { by rewrite drop_ge by lia. }
  destruct (lookup_lt_is_Some_2 es i) as ([k v] & Hx); [lia|]. rewrite (drop_S _ _ _ Hx). unfold ins_fold. cbn [rfold fst snd].
  rewrite (dgrepr_read _ _ _ _ _ _ _ _ Hb Hr Hrk Hx). cbn [mbind res_bind fst snd].
  destruct (Hbk k v) as [Hk <-]; [by eapply elem_of_list_lookup_2|]. destruct (dz_map _ _ Hb Hk) as [_ Hinv]. rewrite Hinv. cbn [mbind res_bind].
  destruct (prep0_cells _ _ _ _ _ Hp Hx) as [-> ->]. cbn [mbind res_bind]. rewrite !N.eqb_refl. cbn [chk mbind res_bind].
  destruct (ins tmp k v) as [x| | |]; cbn [mbind res_bind]; try done. apply IH. lia.
Qed.
Lemma drehash_buckets (ins' : dgtable -> N -> N -> res (dgtable * nav)) t ess gi g : dgrep t ess ->
  dgrepr (dg_b t) g (chunk (gbpg (gstrip t)) ess gi) -> forall n i tmp, (i + n = gbpg (gstrip t))%nat ->
  rfold (dg_rehash_bucket pf c ins' t gi g) (seq i n) tmp = ins_fold ins' (concat (drop i (chunk (gbpg (gstrip t)) ess gi))) tmp.
Proof.
  intros H Hr. pose proof (gbpg_pos True pf c kw vw bmin _ _ (dr_rep _ _ H)) as Hbp. induction n as [|n IH]; intros i tmp Hi; cbn [seq rfold].
  { rewrite drop_ge by (rewrite chunk_length; lia). done. }
  destruct (lookup_lt_is_Some_2 (chunk (gbpg (gstrip t)) ess gi) i) as (es & He); [rewrite chunk_length; lia|]. rewrite (drop_S _ _ _ He). cbn [concat]. rewrite ins_fold_app.
  assert (Es : dg_rehash_bucket pf c ins' t gi g tmp i = ins_fold ins' es tmp).
  { unfold dg_rehash_bucket. destruct (dgrepr_bucketsize _ _ _ _ _ Hr He) as [-> _]. cbn [mbind res_bind].
    destruct es as [|e es']; [done|]. cbn [length Nat.eqb]. cbv zeta.
    assert (Hlk : ess !! (i + gi * gbpg (gstrip t))%nat = Some (e :: es')).
    { rewrite chunk_lookup in He by lia. injection He as He. unfold nthb in He. rewrite (Nat.add_comm i). destruct (ess !! (gi * gbpg (gstrip t) + i)%nat); [|done]. cbn in He. by rewrite He. }
    set (bk := N.of_nat (i + gi * gbpg (gstrip t))) in *. assert (Hbk : ess !! N.to_nat bk = Some (e :: es')) by (subst bk; by rewrite Nat2N.id).
    rewrite (rank_eq True pf c kw vw bmin _ _ _ (dr_rep _ _ H)). subst bk. rewrite Nat2N.id, Nat.mod_add, Nat.mod_small, Nat.eqb_refl by lia. cbn [chk mbind res_bind].
    rewrite (dcount _ _ H), <-(dlen _ _ H). pose proof (lookup_lt_Some _ _ _ Hlk). rewrite (proj2 (N.ltb_lt _ _)) by lia. cbn [chk mbind res_bind].
    unfold g_div. change (gt_bpg (gstrip t)) with (dg_bpg t). pose proof (dbpg _ _ H). rewrite (proj2 (N.eqb_neq _ _)) by lia. cbn [mbind res_bind].
    rewrite (proj2 (N.eqb_eq _ _)).
    2: { apply N2Nat.inj. rewrite N2Nat.inj_div, !Nat2N.id. change (N.to_nat (dg_bpg t)) with (gbpg (gstrip t)). rewrite Nat.div_add, Nat.div_small by lia. lia. }
    cbn [chk mbind res_bind]. destruct (dplain_at _ _ _ _ H Hbk) as (ps & p & _ & _ & -> & Hp). cbn [mbind res_bind].
    destruct Hp as [[Hps Hps1] _]. rewrite Hps. cbn [length]. rewrite N.eqb_refl. cbn [chk mbind res_bind].
    change (S (length es')) with (length (e :: es')).
    rewrite (drehash_entries ins' t g _ i (e :: es') _ p (dkw _ _ H) (dvw _ _ H) (dbb _ _ H) Hr He (conj Hps Hps1) (home_at _ _ _ _ H Hbk)) by done. done. }
  rewrite Es. destruct (ins_fold ins' es tmp); cbn [mbind res_bind]; try done. apply IH. lia.
Qed.
Lemma dat t gs i g : dg_groups t = Some gs -> gs !! i = Some g -> dg_at t (N.of_nat i) = Ok g.
Proof. intros Hgs Hg. unfold dg_at. pose proof (lookup_lt_Some _ _ _ Hg). rewrite Hgs, (proj2 (N.ltb_lt _ _)), Nat2N.id, Hg by lia. done. Qed.
Lemma drehash (ins : dgtable -> N -> N -> res (dgtable * nav)) t ess gs0 : dgrep t ess -> dg_groups t = Some gs0 ->
  (forall i g, gs0 !! i = Some g -> dgrepr (dg_b t) g (chunk (gbpg (gstrip t)) ess i)) ->
  forall gs i tmp, (forall j g, gs !! j = Some g -> gs0 !! (i + j)%nat = Some g) ->
  rfold (dg_rehash_group pf c ins t) (imap (fun j g => ((i + j)%nat, g)) gs) tmp
  = ins_fold ins (concat (map (fun j => concat (chunk (gbpg (gstrip t)) ess j)) (seq i (length gs)))) tmp.
Proof.
  intros H Hgs0 Hrep. induction gs as [|g gs IH]; intros i tmp Hg; [done|].
  cbn [imap length seq map concat]. rewrite ins_fold_app. cbn [rfold]. rewrite Nat.add_0_r.
  pose proof (Hg 0%nat g eq_refl) as Hi. rewrite Nat.add_0_r in Hi. pose proof (Hrep _ _ Hi) as Hr.
  assert (Es : dg_rehash_group pf c ins t tmp (i, g) = ins_fold ins (concat (chunk (gbpg (gstrip t)) ess i)) tmp).
  { unfold dg_rehash_group. destruct (N.eqb_spec (k_size g) 0) as [Ee|Ee].
    - rewrite (dgrepr_size _ _ _ Hr) in Ee. assert (concat (chunk (gbpg (gstrip t)) ess i) = []) as -> by (apply nil_length_inv; lia). done.
    - assert (Egs : k_gs g = dg_bpg t).
      { rewrite (dgrepr_gs _ _ _ Hr Ee), chunk_length. unfold gbpg. change (gt_bpg (gstrip t)) with (dg_bpg t). lia. }
      rewrite Egs, N.eqb_refl. cbn [chk mbind res_bind].
      rewrite (drehash_buckets ins t ess i g H Hr (gbpg (gstrip t)) 0 tmp) by lia. rewrite drop_0.
      destruct (dr_plain _ _ H) as (ps & Hps & _). pose proof (dbpg _ _ H).
      destruct (dclear_group t (N.of_nat i) g ps) as (ps' & E' & _); try done.
      { by apply (db_range _ ess). } { lia. } { by eapply dplain_len. } { by eapply dat. }
      rewrite E'. cbn [mbind res_bind]. by destruct (ins_fold ins _ tmp). }
  rewrite Es. destruct (ins_fold ins (concat (chunk (gbpg (gstrip t)) ess i)) tmp) as [tmp'| | |]; cbn [mbind res_bind]; try done.
  rewrite <-(IH (S i)).
  - f_equal. apply imap_ext. intros j x _. cbn. f_equal. lia.
  - intros j g' Hj. replace (S i + j)%nat with (i + S j)%nat by lia. by apply Hg.
Qed.
Lemma dbuckets_count b g bss : dgrepr b g bss -> forall n i s, (i + n = length bss)%nat ->
  rfold (fun s r => n ← dkv_bucketsize g r; Ok (s + N.of_nat n)) (seq i n) s = Ok (s + N.of_nat (length (concat (drop i bss)))).
Proof.
  intros Hr. induction n as [|n IH]; intros i s Hi; cbn [seq rfold].
  { rewrite drop_ge by lia. cbn. f_equal. lia. }
  destruct (lookup_lt_is_Some_2 bss i) as (es & He); [lia|]. destruct (dgrepr_bucketsize _ _ _ _ _ Hr He) as [-> _]. cbn [mbind res_bind].
  rewrite IH by lia. rewrite (drop_S _ _ _ He). cbn [concat]. rewrite app_length. f_equal. lia.
Qed.
Lemma delements t ess : forall gs i s, (forall j g, gs !! j = Some g -> dgrepr (dg_b t) g (chunk (gbpg (gstrip t)) ess (i + j))) ->
  rfold (fun s g => if k_size g =? 0 then Ok s else rfold (fun s r => n ← dkv_bucketsize g r; Ok (s + N.of_nat n)) (seq 0 (gbpg (gstrip t))) s) gs s
  = Ok (s + N.of_nat (length (concat (map (fun j => concat (chunk (gbpg (gstrip t)) ess j)) (seq i (length gs)))))).
Proof.
  induction gs as [|g gs IH]; intros i s Hg; cbn [rfold length seq map concat]; [f_equal; cbn; lia|].
  pose proof (Hg 0%nat g eq_refl) as Hr. rewrite Nat.add_0_r in Hr.
  assert (Es : (if k_size g =? 0 then Ok s else rfold (fun s r => n ← dkv_bucketsize g r; Ok (s + N.of_nat n)) (seq 0 (gbpg (gstrip t))) s)
    = Ok (s + N.of_nat (length (concat (chunk (gbpg (gstrip t)) ess i))))).
  { destruct (N.eqb_spec (k_size g) 0) as [Ee|Ee].
    - rewrite (dgrepr_size _ _ _ Hr) in Ee. f_equal. lia.
    - rewrite (dbuckets_count _ _ _ Hr _ 0) by (by rewrite chunk_length). by rewrite drop_0. }
  rewrite Es. cbn [mbind res_bind]. rewrite (IH (S i)).
  - rewrite app_length. f_equal. lia.
  - intros j g' Hj. replace (S i + j)%nat with (i + S j)%nat by lia. by apply Hg.
Qed.
Lemma dn_eq t ess : dgrep t ess -> dg_n t = u64 (N.of_nat (length (concat ess))).
Proof. intros H. exact (gr_n _ _ _ _ _ _ _ _ (dr_rep _ _ H)). Qed.
Lemma dreserve t ess n : dgrep t ess -> 1 <= n <= 2^63 -> bmin <= N.log2_up n <= bmax ->
  exists tmp ess0 fin, dgrep tmp ess0 /\ concat ess0 = [] /\ dg_b tmp = N.log2_up n
    /\ (forall t' ess', dgrep t' ess' -> concat ess' ≡ₚ concat ess -> fin t' = Ok t')
    /\ forall ins, dg_reserve_with pf c ins t n 0 = (t' ← ins_fold ins (concat ess) tmp; fin t').
Proof.
  intros H Hn Hb. pose proof (zbmax_le _ _ _ _ _ Hho). pose proof dkw_range as Hkw.
  assert (Hlog : N.log2_up (2^N.log2_up n) = N.log2_up n) by (apply N.log2_up_pow2; lia).
  destruct (dalloc (DGTable None 0 0 kw vw 64 None) (2^N.log2_up n)) as (tmp & ess0 & Ea & HR & Hc & Hbt); try done.
  { split; [pose proof (pow2_pos (N.log2_up n)); lia|]. apply pow2_le_63. lia. }
  { by rewrite Hlog. }
  rewrite Hlog in Hbt. exists tmp, ess0, (fun t' => _ ← chk (dg_n t =? dg_n t'); Ok t'). split; [done|]. split; [done|]. split; [done|]. split.
  { intros t' ess' H' HP. rewrite (dn_eq _ _ H), (dn_eq _ _ H'), (Permutation_length HP), N.eqb_refl. done. }
  intros ins. unfold dg_reserve_with. cbn [N.eqb]. pose proof (db_range _ _ H). rewrite (proj2 (N.eqb_neq (dg_b t) _)) by lia.
  rewrite reserve_bits_spec by done. cbn [mbind res_bind]. rewrite (dkw _ _ H), (dvw _ _ H). destruct dg_new_ok as (t0 & -> & _). cbn [mbind res_bind].
  rewrite (u8_small kw) by lia. rewrite Ea. cbn [mbind res_bind]. destruct (dgroups _ _ H) as (gs & Hgs & Hgc & Hen & Hg & _). rewrite Hgc. cbn [mbind res_bind].
  rewrite (dwidth t (dkw _ _ H) (dbb _ _ H)). cbn [mbind res_bind]. rewrite Hgs, N.ltb_irrefl, Nat2N.id, take_ge by lia.
  unfold dg_elements. rewrite (delements t ess gs 0 0 Hg). cbn [mbind res_bind]. rewrite N.add_0_l.
  rewrite (chunks_concat _ _ _ Hen). rewrite (dn_eq _ _ H), N.eqb_refl. cbn [chk mbind res_bind].
  pose proof (drehash ins t ess gs H Hgs Hg gs 0 tmp (fun j g E => E)) as Hre. change (imap (fun j g => ((0 + j)%nat, g)) gs) with (imap pair gs) in Hre. rewrite Hre.
  rewrite (chunks_concat _ _ _ Hen). done.
Qed.

(** ** Erasing *)
Lemma dagree t bk g bss p es i : dg_kw t = kw -> dg_vw t = vw -> bmin <= dg_b t <= bmax -> dgrepr (dg_b t) g bss ->
  bss !! g_rank (gstrip t) bk = Some es -> prep0 p es -> dhome (dg_b t) bk es -> (i < length es)%nat -> dg_agree pf c t bk g p i = Ok tt.
Proof.
  intros E1 E2 Hb Hr Hc Hp Hh Hi. unfold dg_agree. destruct (lookup_lt_is_Some_2 es i) as ([k v] & Hx); [lia|]. rewrite dqw_eq, dvw_eq, E1 by done.
  rewrite (dgrepr_key _ _ _ _ _ _ _ _ Hb Hr Hc Hx). cbn [mbind res_bind].
  destruct (Hh k v) as [Hk Ebk]; [by eapply elem_of_list_lookup_2|]. destruct (dz_map _ _ Hb Hk) as [_ Hinv]. rewrite Ebk in Hinv. rewrite Hinv. cbn [mbind res_bind].
  destruct (prep0_cells _ _ _ _ _ Hp Hx) as [Ek Ev]. rewrite Ek. cbn [mbind res_bind]. rewrite N.eqb_refl. cbn [chk mbind res_bind]. rewrite Ev. cbn [mbind res_bind].
  rewrite (dgrepr_value _ _ _ _ _ _ _ _ Hr Hc Hx). cbn [mbind res_bind]. by rewrite N.eqb_refl.
Qed.
Lemma home_delete b bk es i : dhome b bk es -> dhome b bk (delete i es).
Proof. intros H k v Hin. apply (H k v). rewrite delete_take_drop in Hin. apply elem_of_app in Hin as [Hin|Hin]; [rewrite <-(take_drop i es)|rewrite <-(take_drop (S i) es)]; apply elem_of_app; auto. Qed.
Lemma agree_all t bk g p n : (forall i, (i < n)%nat -> dg_agree pf c t bk g p i = Ok tt) -> rfold (fun _ j => dg_agree pf c t bk g p j) (seq 0 n) tt = Ok tt.
Proof.
  intros H. assert (Hg : forall m i, (i + m <= n)%nat -> rfold (fun _ j => dg_agree pf c t bk g p j) (seq i m) tt = Ok tt); [|by apply Hg].
  induction m as [|m IH]; intros i Hi; cbn [seq rfold]; [done|]. rewrite H by lia. cbn [mbind res_bind]. apply IH. lia.
Qed.
Lemma chunk_none_elem m ess i j es : (0 < m)%nat -> concat (chunk m ess i) = [] -> (j / m = i)%nat -> ess !! j = Some es -> es = [].
Proof.
  intros Hm Hc <- Hj. assert (He : chunk m ess (j / m) !! (j mod m)%nat = Some es).
  { rewrite chunk_lookup by (apply Nat.mod_upper_bound; lia). unfold nthb. rewrite Nat.mul_comm, <-Nat.div_mod by lia. by rewrite Hj. }
  pose proof (concat_length_pos _ _ _ He) as Hle. rewrite Hc in Hle. cbn in Hle. apply nil_length_inv. lia.
Qed.
Lemma derase_at t ess x k v : dgrep t ess -> nav_at ess x = Some (k, v) ->
  exists t' es, ess !! N.to_nat (fst x) = Some es /\ dg_erase_at pf c t x = Ok (t', 1) /\ dg_b t' = dg_b t
    /\ dgrep t' (<[N.to_nat (fst x) := delete (N.to_nat (snd x)) es]> ess).
Proof.
  intros H Hx. pose proof (dr_rep _ _ H) as HR. destruct (gnav_bucket True pf c kw vw bmin _ _ _ _ _ HR Hx) as (es & He & Hp & H255).
  destruct (gerase_at True pf c kw vw bmin OK _ _ _ _ _ I HR Hx) as (t0 & es0 & He0 & E0 & _ & HR0). rewrite He in He0. injection He0 as <-.
  destruct x as [bk i]. cbn [fst snd] in *.
  cut (exists t', dg_erase_at pf c t (bk, i) = Ok (t', 1) /\ dg_b t' = dg_b t /\ dg_bpg t' = dg_bpg t
    /\ (exists gs, dg_groups t' = Some gs /\ forall j g, gs !! j = Some g -> dgrepr (dg_b t) g (chunk (gbpg (gstrip t)) (<[N.to_nat bk := delete (N.to_nat i) es]> ess) j))
    /\ (exists ps, dg_plain t' = Some ps /\ Forall2 prep ps (<[N.to_nat bk := delete (N.to_nat i) es]> ess))).
  { intros (t' & Et & Hb' & Hbp' & Hgs' & Hps'). exists t', es. split; [done|]. split; [done|]. split; [done|].
    pose proof (dg_erase_at_eq _ _ _ _ _ Et) as Er. cbn [fst snd] in Er. rewrite E0 in Er. injection Er as ->. constructor; [done| |done].
    destruct Hgs' as (gs & Hgs & Hg). exists gs. split; [done|]. rewrite Hb'. unfold gbpg. change (gt_bpg (gstrip t')) with (dg_bpg t'). rewrite Hbp'. exact Hg. }
  destruct (dgroup_at _ _ _ _ H He) as (gs & g & Hgs & Hg & Eg & Hr & Hc). destruct (dplain_at _ _ _ _ H He) as (ps & p & Hps & Hpl & Ep & Hpr).
  pose proof (dbb _ _ H) as Hb. pose proof (lookup_lt_Some _ _ _ Hp) as Hplen. pose proof (lookup_lt_Some _ _ _ He) as Hblt.
  pose proof Hr as (Hr255 & H127 & _). pose proof (gbpg_pos True pf c kw vw bmin _ _ HR) as Hbp.
  set (bss := chunk (gbpg (gstrip t)) ess (N.to_nat bk / gbpg (gstrip t))) in *.
  assert (Hbl : length bss = gbpg (gstrip t)) by apply chunk_length. set (es' := delete (N.to_nat i) es) in *.
  destruct (dkv_erase_spec pf (bw (dg_b t)) vwn g _ (g_rank (gstrip t) bk) (qent (dg_b t) <$> es) (N.to_nat i) (bwr _ Hb) vwr
    (dgrepr_nonempty _ _ _ _ _ _ _ Hr Hc Hp)) as (g' & Eg' & Hg' & Hsz'); [by apply qbss_lookup|by rewrite fmap_length|].
  rewrite qbss_length, Hbl in Eg'. rewrite <-fmap_del in Hg'. fold es' in Hg'. rewrite <-qbss_insert in Hg'.
  set (bss' := <[g_rank (gstrip t) bk := es']> bss) in *.
  pose proof (concat_upd_delete _ _ _ _ _ Hc Hp) as HPc. fold es' in HPc. fold bss' in HPc.
  assert (Hr' : dgrepr (dg_b t) g' bss').
  { split; [apply Permutation_length in HPc; cbn [length] in HPc; lia|]. split; [subst bss'; by rewrite insert_length|]. by right. }
  assert (Hc' : bss' !! g_rank (gstrip t) bk = Some es') by (apply list_lookup_insert; by eapply lookup_lt_Some).
  assert (Hch : forall j, chunk (gbpg (gstrip t)) (<[N.to_nat bk := es']> ess) j = if bool_decide (j = (N.to_nat bk / gbpg (gstrip t))%nat) then bss' else chunk (gbpg (gstrip t)) ess j).
  { intros j. destruct (decide (j = (N.to_nat bk / gbpg (gstrip t))%nat)) as [->|Hne].
    - rewrite bool_decide_eq_true_2 by done. subst bss' bss. rewrite (rank_eq True pf c kw vw bmin _ _ _ HR). by rewrite chunk_set by lia.
    - rewrite bool_decide_eq_false_2 by done. by rewrite chunk_other by lia. }
  set (p' := DPlain (Some es'.*1) (Some es'.*2) (N.of_nat (length es'))).
  assert (Hp' : prep0 p' es') by done.
  assert (Hlen' : length es' = (length es - 1)%nat) by (subst es'; rewrite length_delete; [done|by eexists]).
  destruct (dr_groups _ _ H) as (gs1 & E1 & Hgrp). rewrite Hgs in E1. injection E1 as <-.
  destruct (dr_plain _ _ H) as (ps1 & E1 & HF). rewrite Hps in E1. injection E1 as <-.
  unfold dg_erase_at. rewrite (proj2 (N.eqb_neq _ _)) by (unfold ones64; lia). rewrite (dcount _ _ H), <-(dlen _ _ H).
  rewrite (proj2 (N.ltb_lt _ _)) by lia. cbn [chk mbind res_bind]. rewrite Ep. cbn [mbind res_bind]. destruct Hpr as [[Hs Hcell] _]. rewrite Hs.
  rewrite (proj2 (N.ltb_lt _ _)) by lia. cbn [chk mbind res_bind]. rewrite Eg. cbn [mbind res_bind]. rewrite (dwidth t (dkw _ _ H) Hb). cbn [mbind res_bind]. cbv zeta.
  rewrite Nat2N.id. rewrite (dagree t bk g bss p es (N.to_nat i) (dkw _ _ H) (dvw _ _ H) Hb Hr Hc (conj Hs Hcell) (home_at _ _ _ _ H He)) by done. cbn [mbind res_bind].
  destruct Hcell as [-> ->]; [intros ->; done|]. rewrite !fmap_length, !Nat.ltb_irrefl. cbn [orb]. rewrite !take_ge by (by rewrite fmap_length). rewrite <-!fmap_del. fold es'.
  cbn [mbind res_bind p_size]. replace (N.of_nat (length es) - 1) with (N.of_nat (length es')) by lia. fold p'.
  rewrite dqw_eq, dvw_eq by (try apply (dkw _ _ H); apply (dvw _ _ H)). rewrite Eg'. cbn [mbind res_bind].
  destruct (dgrepr_bucketsize _ _ _ _ _ Hr' Hc') as [-> _]. cbn [mbind res_bind]. rewrite N.eqb_refl. cbn [chk mbind res_bind]. rewrite Nat2N.id.
  rewrite agree_all.
  2: { intros j Hj. apply (dagree t bk g' bss' p' es'); try done; try apply (dkw _ _ H); try apply (dvw _ _ H). subst es'. apply home_delete. by eapply home_at. }
  cbn [mbind res_bind].
  set (t1 := dg_set_pl (dg_set (dg_set_n t (sub64 (dg_n t) 1)) bk g') bk p').
  pose proof (gindex True pf c kw vw bmin _ _ bk HR) as Ei. change (gt_bpg (gstrip t)) with (dg_bpg t) in Ei.
  assert (Hgs1 : dg_groups t1 = Some (<[(N.to_nat bk / gbpg (gstrip t))%nat := g']> gs)).
  { subst t1. cbn [dg_set_pl dg_set dg_set_n dg_groups dg_bpg]. rewrite Hgs, Ei. done. }
  assert (Hps1 : dg_plain t1 = Some (<[N.to_nat bk := p']> ps)).
  { subst t1. cbn [dg_set_pl dg_set dg_set_n dg_plain]. by rewrite Hps. }
  pose proof (Forall2_length _ _ _ HF) as HFl. pose proof (dlen _ _ H) as Hdl. pose proof (dbpg _ _ H) as Hbpg. pose proof (db_range _ _ H) as Hbr.
  assert (Hother : forall ps', length ps' = length ps -> (forall j, (j <> N.to_nat bk) -> ps' !! j = ps !! j \/ (ps' !! j = Some p_none /\ forall es, ess !! j = Some es -> es = [])) ->
    (exists q, ps' !! N.to_nat bk = Some q /\ prep q es') -> Forall2 prep ps' (<[N.to_nat bk := es']> ess)).
  { intros ps' Hl' Ho (q & Hq & Hqp). apply Forall2_same_length_lookup. split; [rewrite insert_length; lia|]. intros j y ys Hy Hys.
    apply list_lookup_insert_Some in Hys as [(<- & <- & _)|[Hne Hys]].
    - rewrite Hq in Hy. injection Hy as <-. done.
    - destruct (Ho j) as [Hj|[Hj Hn]]; [done|..].
      + rewrite Hj in Hy. by eapply (Forall2_lookup_lr _ _ _ _ _ _ HF).
      + rewrite Hj in Hy. injection Hy as <-. rewrite (Hn _ Hys). by repeat split. }
  destruct (N.eqb_spec (k_size g') 0) as [Ez|Ez].
  - (* the group has become empty *)
    assert (Hcn : concat bss' = []) by (rewrite (dgrepr_size _ _ _ Hr') in Ez; apply nil_length_inv; lia).
    assert (Hes' : es' = []).
    { pose proof (concat_length_pos _ _ _ Hc') as Hle. rewrite Hcn in Hle. cbn in Hle. apply nil_length_inv. lia. }
    unfold g_div. change (gt_bpg (gstrip t1)) with (dg_bpg t). rewrite (proj2 (N.eqb_neq _ _)) by lia. cbn [mbind res_bind].
    destruct (dclear_group t1 (bk / dg_bpg t) g' (<[N.to_nat bk := p']> ps)) as (ps' & E' & Hl' & Hlk); try done.
    { change (dg_bpg t1) with (dg_bpg t). lia. } { rewrite insert_length. change (dg_b t1) with (dg_b t). lia. }
    { replace (bk / dg_bpg t) with (N.of_nat (N.to_nat bk / gbpg (gstrip t))) by lia. eapply dat; [exact Hgs1|]. apply list_lookup_insert. by eapply lookup_lt_Some. }
    { destruct Hg' as (_ & _ & _ & _ & _ & -> & _). rewrite qbss_length. subst bss'. rewrite insert_length, Hbl. unfold gbpg. change (gt_bpg (gstrip t)) with (dg_bpg t1). lia. }
    rewrite E'. cbn [mbind res_bind]. rewrite insert_length in Hl'.
    assert (Hlk' : forall j, ps' !! j = if bool_decide ((j / gbpg (gstrip t))%nat = (N.to_nat bk / gbpg (gstrip t))%nat) then const p_none <$> <[N.to_nat bk := p']> ps !! j else <[N.to_nat bk := p']> ps !! j).
    { intros j. rewrite Hlk. apply (f_equal (fun b : bool => if b then const p_none <$> <[N.to_nat bk := p']> ps !! j else <[N.to_nat bk := p']> ps !! j)). apply bool_decide_ext.
      change (dg_bpg t1) with (dg_bpg t). rewrite <-Ei. unfold gbpg. change (gt_bpg (gstrip t)) with (dg_bpg t). rewrite <-(Nat2N.id j) at 2. rewrite <-N2Nat.inj_div. split; [by intros ->|]. intros HH. by apply N2Nat.inj. }
    assert (Hbkp : ps' !! N.to_nat bk = Some p_none).
    { rewrite Hlk', bool_decide_eq_true_2 by done. rewrite list_lookup_insert by (by eapply lookup_lt_Some). done. }
    unfold dg_pl. cbn [dg_plain]. rewrite (proj2 (N.ltb_lt _ _)) by lia. rewrite Hbkp. cbn [of_option mbind res_bind p_none p_size N.eqb].
    unfold dg_clear_bucket. rewrite count_t by done. cbn [dg_b]. change (dg_b t1) with (dg_b t). rewrite (proj2 (N.ltb_lt _ _)) by lia. cbn [chk mbind res_bind].
    unfold dg_pl. cbn [dg_plain]. rewrite (proj2 (N.ltb_lt _ _)) by lia. rewrite Hbkp. cbn [of_option mbind res_bind].
    eexists. split; [done|]. split; [done|]. split; [done|]. split.
    + cbn [dg_set_pl dg_groups]. rewrite Hgs1. cbn. eexists. split; [done|]. rewrite Ei, list_insert_insert. intros j g0 Hj. rewrite Hch.
      apply list_lookup_insert_Some in Hj as [(<- & <- & _)|[Hne Hj]].
      * rewrite bool_decide_eq_true_2 by done. destruct Hr' as (A1 & A2 & _). split; [done|]. split; [done|]. left. split; [apply fresh_clear|done].
      * rewrite bool_decide_eq_false_2 by done. by apply Hgrp.
    + cbn [dg_set_pl dg_plain]. cbn. eexists. split; [done|]. apply Hother.
      * by rewrite insert_length.
      * intros j Hj. rewrite list_lookup_insert_ne by done. rewrite Hlk', list_lookup_insert_ne by done.
        destruct (decide ((j / gbpg (gstrip t))%nat = (N.to_nat bk / gbpg (gstrip t))%nat)) as [Hd|Hd].
        -- rewrite bool_decide_eq_true_2 by done. destruct (ps !! j) as [q|] eqn:Eq; [|by left]. right. split; [done|]. intros es2 Hes2.
           eapply (chunk_none_elem (gbpg (gstrip t)) (<[N.to_nat bk := es']> ess) _ j); [lia| |exact Hd|by rewrite list_lookup_insert_ne].
           rewrite Hch, bool_decide_eq_true_2 by done. done.
        -- rewrite bool_decide_eq_false_2 by done. by left.
      * exists p_none. rewrite list_lookup_insert by (rewrite Hl'; by eapply lookup_lt_Some). split; [done|]. rewrite Hes'. by repeat split.
  - cbn [mbind res_bind].
    assert (Hplb : <[N.to_nat bk := p']> ps !! N.to_nat bk = Some p') by (apply list_lookup_insert; by eapply lookup_lt_Some).
    assert (Epl : dg_pl t1 bk = Ok p').
    { unfold dg_pl. rewrite Hps1, insert_length, (proj2 (N.ltb_lt _ _)), Hplb by lia. done. }
    rewrite Epl. cbn [mbind res_bind].
    assert (Hgg : forall j g0, <[(N.to_nat bk / gbpg (gstrip t))%nat := g']> gs !! j = Some g0 -> dgrepr (dg_b t) g0 (chunk (gbpg (gstrip t)) (<[N.to_nat bk := es']> ess) j)).
    { intros j g0 Hj. rewrite Hch. apply list_lookup_insert_Some in Hj as [(<- & <- & _)|[Hne Hj]].
      - by rewrite bool_decide_eq_true_2.
      - rewrite bool_decide_eq_false_2 by done. by apply Hgrp. }
    cbn [p' p_size]. destruct (N.eqb_spec (N.of_nat (length es')) 0) as [Ee|Ee].
    + (* the bucket has become empty *)
      unfold dg_clear_bucket. rewrite count_t by done. change (dg_b t1) with (dg_b t). rewrite (proj2 (N.ltb_lt _ _)) by lia. cbn [chk mbind res_bind].
      rewrite Epl. cbn [mbind res_bind]. eexists. split; [done|]. split; [done|]. split; [done|]. split; [by eexists|].
      cbn [dg_set_pl dg_plain]. rewrite Hps1. cbn. eexists. split; [done|]. rewrite list_insert_insert. apply Hother.
      * by rewrite insert_length.
      * intros j Hj. rewrite list_lookup_insert_ne by done. by left.
      * exists p_none. rewrite list_lookup_insert by (by eapply lookup_lt_Some). split; [done|]. assert (es' = []) as -> by (apply nil_length_inv; lia). by repeat split.
    + cbn [mbind res_bind]. eexists. split; [done|]. split; [done|]. split; [done|]. split; [by eexists|].
      eexists. split; [exact Hps1|]. apply Hother.
      * by rewrite insert_length.
      * intros j Hj. rewrite list_lookup_insert_ne by done. by left.
      * exists p'. split; [done|]. split; [done|]. intros E. by rewrite E in Ee.
Qed.

(** ** Writing *)
Lemma dwrite t ess x k v v' : dgrep t ess -> nav_at ess x = Some (k, v) -> v' < 2^vw ->
  exists t' es, ess !! N.to_nat (fst x) = Some es /\ dg_write_value pf t x v' = Ok t' /\ dg_b t' = dg_b t
    /\ dgrep t' (<[N.to_nat (fst x) := <[N.to_nat (snd x) := (k, v')]> es]> ess).
Proof.
  intros H Hx Hv. pose proof (dr_rep _ _ H) as HR. destruct (gnav_bucket True pf c kw vw bmin _ _ _ _ _ HR Hx) as (es & He & Hp & H255).
  destruct (gwrite True pf c kw vw bmin OK _ _ _ _ _ _ HR Hx Hv) as (t0 & es0 & He0 & E0 & _ & HR0). rewrite He in He0. injection He0 as <-.
  destruct x as [bk i]. cbn [fst snd] in *.
  destruct (dgroup_at _ _ _ _ H He) as (gs & g & Hgs & Hg & Eg & Hr & Hc). destruct (dplain_at _ _ _ _ H He) as (ps & p & Hps & Hpl & Ep & [[Hs Hcell] Hcell0]).
  pose proof (lookup_lt_Some _ _ _ He) as Hblt. pose proof Hr as (Hr255 & H127 & _).
  set (bss := chunk (gbpg (gstrip t)) ess (N.to_nat bk / gbpg (gstrip t))) in *. set (es' := <[N.to_nat i := (k, v')]> es) in *.
  destruct (dkv_write_spec pf (bw (dg_b t)) vwn g _ (g_rank (gstrip t) bk) (qent (dg_b t) <$> es) (N.to_nat i) (bq (dg_b t) k) v v' vwr
    (dgrepr_nonempty _ _ _ _ _ _ _ Hr Hc Hp)) as (g' & Eg' & Hg' & _); [by apply qbss_lookup|by rewrite list_lookup_fmap, Hp|by apply small_n|].
  destruct Hcell as [Hk1 Hv1]; [intros ->; done|].
  set (p' := DPlain (p_keys p) ((fun l => <[N.to_nat i := v']> l) <$> p_vals p) (p_size p)).
  assert (Hp' : prep p' es').
  { subst p'. rewrite Hk1, Hv1, Hs. split; [split|]; cbn [p_keys p_vals p_size].
    - subst es'. by rewrite insert_length.
    - intros _. cbn. subst es'. rewrite !list_fmap_insert. split; [|done]. f_equal. symmetry. apply list_insert_id. by rewrite list_lookup_fmap, Hp.
    - intros E. apply (f_equal length) in E. subst es'. rewrite insert_length in E. apply lookup_lt_Some in Hp. cbn in E. lia. }
  assert (Ew : dg_write_value pf t (bk, i) v' = Ok (dg_set_pl (dg_set (dg_set_n t (dg_n t)) bk g') bk p')).
  { unfold dg_write_value. rewrite (dcount _ _ H), <-(dlen _ _ H). rewrite (proj2 (N.eqb_neq _ _)), (proj2 (N.ltb_lt _ _)) by lia. cbn [chk mbind res_bind].
    rewrite (dmax_value t v' (dvw _ _ H) Hv). cbn [chk mbind res_bind]. rewrite Ep. cbn [mbind res_bind]. rewrite Hv1.
    rewrite (pcell_at _ _ v) by (by rewrite list_lookup_fmap, Hp). cbn [mbind res_bind]. rewrite <-Hv1. fold p'.
    change (dg_group (dg_set_pl t bk p') bk) with (dg_group t bk). rewrite Eg. cbn [mbind res_bind].
    change (g_rank (gstrip (dg_set_pl t bk p')) bk) with (g_rank (gstrip t) bk). change (gvw (gstrip (dg_set_pl t bk p'))) with (gvw (gstrip t)).
    rewrite dvw_eq by apply (dvw _ _ H). rewrite Eg'. cbn [mbind res_bind]. by destruct t. }
  eexists _, es. split; [done|]. split; [exact Ew|]. split; [done|]. eapply dgrep_set; [done|exact He|..|exact Hp'|].
  - fold bss. split; [|split; [by rewrite insert_length|]].
    + destruct (concat_upd_set bss (g_rank (gstrip t) bk) es (N.to_nat i) k v v' Hc Hp) as (Rc & HP1c & HP2c).
      apply Permutation_length in HP1c. apply Permutation_length in HP2c. cbn [length] in HP1c, HP2c. fold es' in HP2c. fold es'. lia.
    + right. subst es'. rewrite qbss_insert, list_fmap_insert. exact Hg'.
  - apply dg_write_value_eq in Ew. rewrite E0 in Ew. injection Ew as <-. done.
Qed.

(** ** Navigators *)
Lemma dshows t ess : dgrep t ess -> NavProofs.shows eq (dg_view pf c t) (dg_b t) ess.
Proof.
  intros H. pose proof (db_range _ _ H) as Hb. pose proof (dbb _ _ H) as Hbb. pose proof (dlen _ _ H) as Hlen. pose proof (dr_rep _ _ H) as HR.
  assert (Hsize : forall bk es, ess !! N.to_nat bk = Some es -> dg_bucket_size t bk = Ok (N.of_nat (length es)) /\ (length es <= 255)%nat).
  { intros bk es He. destruct (dgroup_at _ _ _ _ H He) as (gs & g & Hgs & Hg & Eg & Hr & Hc). unfold dg_bucket_size.
    pose proof (lookup_lt_Some _ _ _ He). rewrite (dcount _ _ H), (proj2 (N.ltb_lt _ _)) by lia. cbn [chk mbind res_bind].
    rewrite Eg. cbn [mbind res_bind]. destruct (dgrepr_bucketsize _ _ _ _ _ Hr Hc) as [-> ?]. done. }
  constructor; [done|apply (dcount _ _ H)|done|exact Hsize|..].
  - intros x k v Hx. destruct (gnav_bucket True pf c kw vw bmin _ _ _ _ _ HR Hx) as (es & He & Hp & H255).
    destruct (dgroup_at _ _ _ _ H He) as (gs & g & Hgs & Hg & Eg & Hr & Hc). destruct x as [bk p]. cbn [fst snd] in *.
    destruct (home_at _ _ _ _ H He k v) as [Hk Ebk]; [by eapply elem_of_list_lookup_2|].
    destruct (z_map _ _ _ _ _ Hho (dg_b t) k Hbb Hk) as (_ & _ & Hqw & Hinv).
    assert (Hmod : bq (dg_b t) k mod 2^64 = bq (dg_b t) k).
    { apply N.mod_small. eapply N.lt_le_trans; [exact Hqw|]. apply N.pow_le_mono_r; [done|]. pose proof (bwr _ Hbb). lia. }
    unfold vn_key. cbn [dg_view v_quot v_hash v_b v_storebits]. unfold dg_quotient_at, dg_valid. destruct (Hsize _ _ He) as [-> _]. cbn [mbind res_bind].
    pose proof (lookup_lt_Some _ _ _ Hp). rewrite (proj2 (N.ltb_lt p _)) by lia. cbn [chk mbind res_bind].
    rewrite (dwidth t (dkw _ _ H) Hbb). cbn [mbind res_bind]. pose proof (lookup_lt_Some _ _ _ He). rewrite (dcount _ _ H), (proj2 (N.ltb_lt bk _)) by lia. cbn [chk mbind res_bind].
    rewrite Eg. cbn [mbind res_bind]. rewrite (dkw _ _ H). change (remainder_width (ghm c kw) (dg_b t)) with (zw (gc_hash c) (gc_keybits c) 64 kw (dg_b t)).
    rewrite (dgrepr_key _ _ _ _ _ _ _ _ Hbb Hr Hc Hp). cbn [mbind res_bind]. rewrite Hmod. destruct (dz_map _ _ Hbb Hk) as [_ Hdinv]. rewrite Ebk in Hdinv. rewrite Hdinv. cbn [mbind res_bind].
    exists k. split; [|done]. rewrite Hmod. by rewrite <-Ebk.
  - intros x k v Hx. destruct (gnav_bucket True pf c kw vw bmin _ _ _ _ _ HR Hx) as (es & He & Hp & H255).
    destruct (dgroup_at _ _ _ _ H He) as (gs & g & Hgs & Hg & Eg & Hr & Hc). destruct x as [bk p]. cbn [fst snd] in *.
    unfold vn_value. cbn [dg_view v_value]. unfold dg_value_at, dg_valid. destruct (Hsize _ _ He) as [-> _]. cbn [mbind res_bind].
    pose proof (lookup_lt_Some _ _ _ Hp). rewrite (proj2 (N.ltb_lt p _)) by lia. cbn [chk mbind res_bind]. pose proof (lookup_lt_Some _ _ _ He) as Hlt.
    rewrite (dcount _ _ H), (proj2 (N.eqb_neq _ _)), (proj2 (N.ltb_lt _ _)) by lia. cbn [chk mbind res_bind]. rewrite Eg. cbn [mbind res_bind].
    rewrite dvw_eq by apply (dvw _ _ H). by eapply dgrepr_value.
Qed.

(** ** The instance *)
Notation dfullb t ess bk := (gfullb (gstrip t) ess bk).
Lemma debug_group_chain fuel : (64 <= fuel)%nat ->
  chain_ok (dg_impl pf c fuel) kw vw bmin bmax eq dg_b bb dgrep dgzero (fun t ess bk => dfullb t ess bk) (dg_find_or_insert pf c)
    (fun ins t n => dg_reserve_with pf c ins t n 0) fuel.
Proof.
  intros Hfuel. pose proof (zbmax_le _ _ _ _ _ Hho) as H63. pose proof (ho_bmin _ _ _ _ _ Hho) as Hbm. pose proof dkw_range as Hkwr.
  constructor; cbn [dg_impl i_view i_find i_insert i_write i_erase i_erase_at i_size i_reserve i_clear].
  - lia.
  - done.
  - intros b k Hb Hk. by destruct (z_map _ _ _ _ _ Hho b k Hb Hk) as (_ & ? & _).
  - intros t ess H. by apply (dbb t ess).
  - intros t ess H. exact (gr_placed _ _ _ _ _ _ _ _ (dr_rep _ _ H)).
  - intros t ess H. exact (gr_nodup _ _ _ _ _ _ _ _ (dr_rep _ _ H)).
  - intros t ess k v H Hin. exact (gr_range _ _ _ _ _ _ _ _ (dr_rep _ _ H) _ _ Hin).
  - apply dshows.
  - intros t [(_ & _ & Hb & _) _]. cbn. unfold g_bucket_count. by rewrite Hb.
  - intros t ess es k H Hk He. by eapply dfind_ok.
  - intros t k [(_ & _ & Hb & _) _]. unfold dg_find. change (gt_b (gstrip t)) with (dg_b t) in Hb. by rewrite Hb.
  - done.
  - intros f t ess es k v p H Hk He Hp. by eapply dfound.
  - intros f t ess es k v H Hk Hv He Hn Hfull. by eapply dpush.
  - intros f t ess es k v H Hk Hv He Hn Hfull. by eapply dfull.
  - intros t ess k H Hk Hnk Hfull. exact (ggrow True pf c kw vw bmin OK _ _ _ (dr_rep _ _ H) Hk Hnk Hfull).
  - intros t ess n H Hn Hb. by apply dreserve.
  - done.
  - intros t n [(E1 & E2 & Hb & Hn0 & _ & Hbp) _] Hn Hlog. change (gt_b (gstrip t)) with (dg_b t) in Hb. unfold dg_reserve, dg_reserve_with. rewrite Hb. cbn [N.eqb].
    by apply dalloc.
  - intros f t [(E1 & E2 & Hb & Hn0 & _ & Hbp) _]. change (gt_b (gstrip t)) with (dg_b t) in Hb. change (gt_kw (gstrip t)) with (dg_kw t) in E1.
    destruct (go_init _ _ _ _ OK) as [Hkw3 Hini].
    destruct (dalloc t (N.min (kw - 1) 8)) as (t' & ess0 & Ea & HR & Hc & Hbt); try done.
    { split; [lia|]. etrans; [apply N.le_min_r|done]. }
    exists t', ess0. split; [done|]. split; [done|]. intros k v. destruct (dg_enter _ _ HR) as [F1 F2]. cbn [dg_find_or_insert]. rewrite F1, F2, Hb, E1. cbn [N.eqb].
    rewrite (proj2 (N.ltb_lt 1 kw)) by lia. cbn [chk mbind res_bind]. rewrite sub64_small by lia. rewrite Ea. cbn [mbind res_bind]. done.
  - intros t ess x k v H Hx. by eapply derase_at.
  - done.
  - intros t ess es k H Hk He. unfold dg_erase, dg_locate. destruct (dg_enter _ _ H) as [_ F2]. pose proof (db_range _ _ H). rewrite F2. rewrite (proj2 (N.ltb_lt 0 _)) by lia.
    cbn [chk mbind res_bind]. rewrite (dmap_ok t k (dkw _ _ H) (dbb _ _ H) Hk). cbn [mbind res_bind]. rewrite (dlocate _ _ _ _ H Hk He). cbn [mbind res_bind].
    by destruct (first_index k (keys_of es)).
  - intros t k [(_ & _ & Hb & _) _]. unfold dg_erase. change (gt_b (gstrip t)) with (dg_b t) in Hb. by rewrite Hb.
  - intros t ess x k v v' H Hx Hv. by eapply dwrite.
  - intros t ess H. exact (dn_eq t ess H).
  - by intros t [(_ & _ & _ & Hn & _) _].
  - intros t ess H. by eapply dclear.
  - intros t H. by apply dclear0.
Qed.
End group.
