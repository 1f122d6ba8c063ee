(** C125: what comes after std::bad_alloc. *)
From Verif Require Import AllocGroup GroupTable GroupHist GroupSerial PropGroup PropSerial MapProofs PropAllocGroup.

(** The functions of the table other than size() and empty() do not read m_elements. *)
Section count.
Context (pf : platform) (c : gcfg).
Lemma set_n_gt t n : gt_b (g_set_n t n) = gt_b t.
Proof. done. Qed.
Lemma set_n_twice t n n' : g_set_n (g_set_n t n) n' = g_set_n t n'.
Proof. done. Qed.
Lemma alloc_n t n m t' : g_alloc t m = Ok t' -> g_alloc (g_set_n t n) m = Ok (g_set_n t' n).
Proof.
  unfold g_alloc. change (g_div (g_set_n t n)) with (g_div t). destruct (reserve_bits m) as [b| | |]; cbn [mbind res_bind]; try done.
  destruct (g_div t (2^b)) as [q| | |]; cbn [mbind res_bind]; try done. by intros [= <-].
Qed.
Lemma reserve_n ins t n m t' : g_reserve_with pf c ins t m 0 = Ok t' -> exists n', g_reserve_with pf c ins (g_set_n t n) m 0 = Ok (g_set_n t' n').
Proof.
  unfold g_reserve_with. rewrite set_n_gt. destruct (gt_b t =? 0).
  - intros E. exists n. by apply alloc_n.
  - intros E. exists (gt_n t'). replace (g_set_n t' (gt_n t')) with t' by (by destruct t'). exact E.
Qed.
(** find_or_insert once there are buckets *)
Definition g_rest (f : nat) (t : gtable) (k v : N) : res (gtable * nav) :=
  qb ← hash_map (ghm c (gt_kw t)) k (gt_b t);
  let '(q, bk) := (qb : N * N) in
  g ← g_group t bk;
  n ← kv_bucketsize g (g_rank t bk);
  pos ← g_locate_q pf c t bk q;
  match (pos : option N) with
  | Some p => Ok (t, (bk, p))
  | None =>
      if g_size g =? g_max_group then
        n ← shl64 1 (gt_b t + 1);
        t ← g_reserve_with pf c (g_find_or_insert pf c f) t n 0;
        g_find_or_insert pf c f t k v
      else
        let g := if kv_initialized g then g else kv_init g (gbpg t) (gqw c t) (gvw t) in
        g ← kv_push pf g (gbpg t) (g_rank t bk) q (gqw c t) v (gvw t);
        Ok (g_set (g_set_n t (u64 (gt_n t + 1))) bk g, (bk, N.of_nat n))
  end.
Lemma foi_rest f t k v : g_find_or_insert pf c (S f) t k v = (t ← (if gt_b t =? 0 then g_alloc t (N.min (sub64 (gt_kw t) 1) 8) else Ok t); g_rest f t k v).
Proof. done. Qed.
Lemma foi_n f : forall t n k v t' x, g_find_or_insert pf c f t k v = Ok (t', x) -> exists n', g_find_or_insert pf c f (g_set_n t n) k v = Ok (g_set_n t' n', x).
Proof.
  induction f as [|f IH]; intros t n k v t' x; [done|]. rewrite !foi_rest, set_n_gt.
  assert (Hrest : forall t n, g_rest f t k v = Ok (t', x) -> exists n', g_rest f (g_set_n t n) k v = Ok (g_set_n t' n', x)).
  { clear t n. intros t n. unfold g_rest. change (gt_kw (g_set_n t n)) with (gt_kw t). rewrite set_n_gt.
    destruct (hash_map (ghm c (gt_kw t)) k (gt_b t)) as [[q bk]| | |]; cbn [mbind res_bind]; try done.
    change (g_group (g_set_n t n) bk) with (g_group t bk). destruct (g_group t bk) as [g| | |]; cbn [mbind res_bind]; try done.
    change (g_rank (g_set_n t n) bk) with (g_rank t bk). destruct (kv_bucketsize g (g_rank t bk)) as [s| | |]; cbn [mbind res_bind]; try done.
    change (g_locate_q pf c (g_set_n t n) bk q) with (g_locate_q pf c t bk q). destruct (g_locate_q pf c t bk q) as [[p|]| | |]; cbn [mbind res_bind]; try done.
    { intros [= <- <-]. by exists n. }
    destruct (g_size g =? g_max_group).
    - destruct (shl64 1 (gt_b t + 1)) as [m| | |]; cbn [mbind res_bind]; try done.
      destruct (g_reserve_with pf c (g_find_or_insert pf c f) t m 0) as [t1| | |] eqn:Er; cbn [mbind res_bind]; try done.
      destruct (reserve_n _ _ n _ _ Er) as (n1 & ->). cbn [mbind res_bind]. apply IH.
    - change (gbpg (g_set_n t n)) with (gbpg t). change (gqw c (g_set_n t n)) with (gqw c t). change (gvw (g_set_n t n)) with (gvw t). cbv zeta.
      destruct (kv_push pf _ (gbpg t) (g_rank t bk) q (gqw c t) v (gvw t)) as [g'| | |]; cbn [mbind res_bind]; try done.
      intros [= <- <-]. exists (u64 (n + 1)). done. }
  destruct (gt_b t =? 0).
  - change (gt_kw (g_set_n t n)) with (gt_kw t). destruct (g_alloc t (N.min (sub64 (gt_kw t) 1) 8)) as [t1| | |] eqn:Ea; cbn [mbind res_bind]; try done.
    rewrite (alloc_n _ n _ _ Ea). cbn [mbind res_bind]. apply Hrest.
  - cbn [mbind res_bind]. apply Hrest.
Qed.
Lemma erase_at_n t n x t' r : g_erase_at pf c t x = Ok (t', r) -> exists n', g_erase_at pf c (g_set_n t n) x = Ok (g_set_n t' n', r).
Proof.
  unfold g_erase_at. destruct x as [bk p]. destruct (p =? ones64); [intros [= <- <-]; by exists n|].
  change (g_group (g_set_n t n) bk) with (g_group t bk). destruct (g_group t bk) as [g| | |]; cbn [mbind res_bind]; try done.
  change (gbpg (g_set_n t n)) with (gbpg t). change (gqw c (g_set_n t n)) with (gqw c t). change (gvw (g_set_n t n)) with (gvw t).
  change (g_rank (g_set_n t n) bk) with (g_rank t bk).
  destruct (kv_erase pf g (gbpg t) (g_rank t bk) (N.to_nat p) (gqw c t) (gvw t)) as [g'| | |]; cbn [mbind res_bind]; try done.
  intros [= <- <-]. exists (sub64 n 1). done.
Qed.
Lemma write_n t n x v t' : g_write_value pf t x v = Ok t' -> g_write_value pf (g_set_n t n) x v = Ok (g_set_n t' n).
Proof.
  unfold g_write_value. destruct x as [bk p]. change (g_bucket_count (g_set_n t n)) with (g_bucket_count t). destruct (bk =? g_bucket_count t); [done|].
  change (g_group (g_set_n t n) bk) with (g_group t bk). destruct (g_group t bk) as [g| | |]; cbn [mbind res_bind]; try done.
  change (gvw (g_set_n t n)) with (gvw t). change (g_rank (g_set_n t n) bk) with (g_rank t bk).
  destruct (kv_write_value pf g (g_rank t bk) (N.to_nat p) v (gvw t)) as [g'| | |]; cbn [mbind res_bind]; try done. by intros [= <-].
Qed.
(** Calls that do not read the number of elements *)
Definition no_size (o : op) : Prop := match o with OpSize | OpEmpty => False | _ => True end.
Lemma run_op_n fuel t n o t' r : no_size o -> m_run_op (g_impl pf c fuel) t o = Ok (t', r) ->
  exists n', m_run_op (g_impl pf c fuel) (g_set_n t n) o = Ok (g_set_n t' n', r).
Proof.
  intros Ho. destruct o as [k|k|k v|k|k v|k|k| | |m| |]; cbn [m_run_op g_impl i_find i_view i_insert i_write i_erase i_erase_at i_reserve i_clear] in *; try done.
  - change (g_find pf c (g_set_n t n) k) with (g_find pf c t k). change (g_view pf c (g_set_n t n)) with (g_view pf c t).
    destruct (g_find pf c t k) as [x| | |]; cbn [mbind res_bind]; try done.
    destruct (v_iter_at (g_view pf c t) x) as [a| | |]; cbn [mbind res_bind]; try done. intros [= <- <-]. by exists n.
  - change (g_find pf c (g_set_n t n) k) with (g_find pf c t k). change (g_view pf c (g_set_n t n)) with (g_view pf c t).
    destruct (g_find pf c t k) as [x| | |]; cbn [mbind res_bind]; try done.
    destruct (vn_eq (g_view pf c t) x end_nav) as [a| | |]; cbn [mbind res_bind]; try done. intros [= <- <-]. by exists n.
  - destruct (g_find_or_insert pf c fuel t k v) as [[t1 x]| | |] eqn:E; cbn [mbind res_bind]; try done.
    destruct (foi_n _ _ n _ _ _ _ E) as (n1 & ->). cbn [mbind res_bind]. change (g_view pf c (g_set_n t1 n1)) with (g_view pf c t1).
    destruct (v_iter_at (g_view pf c t1) x) as [a| | |]; cbn [mbind res_bind]; try done. intros [= <- <-]. by exists n1.
  - destruct (g_find_or_insert pf c fuel t k 0) as [[t1 x]| | |] eqn:E; cbn [mbind res_bind]; try done.
    destruct (foi_n _ _ n _ _ _ _ E) as (n1 & ->). cbn [mbind res_bind]. change (g_view pf c (g_set_n t1 n1)) with (g_view pf c t1).
    destruct (vn_value (g_view pf c t1) x) as [a| | |]; cbn [mbind res_bind]; try done. intros [= <- <-]. by exists n1.
  - destruct (g_find_or_insert pf c fuel t k 0) as [[t1 x]| | |] eqn:E; cbn [mbind res_bind]; try done.
    destruct (foi_n _ _ n _ _ _ _ E) as (n1 & ->). cbn [mbind res_bind].
    destruct (g_write_value pf t1 x v) as [t2| | |] eqn:Ew; cbn [mbind res_bind]; try done. rewrite (write_n _ n1 _ _ _ Ew). cbn [mbind res_bind].
    intros [= <- <-]. by exists n1.
  - unfold g_erase. rewrite set_n_gt. destruct (gt_b t =? 0); [cbn [mbind res_bind]; intros [= <- <-]; by exists n|].
    change (g_locate pf c (g_set_n t n) k) with (g_locate pf c t k). destruct (g_locate pf c t k) as [[bk p]| | |]; cbn [mbind res_bind]; try done.
    destruct (g_erase_at pf c t _) as [[t1 y]| | |] eqn:E; cbn [mbind res_bind]; try done.
    destruct (erase_at_n _ n _ _ _ E) as (n1 & ->). cbn [mbind res_bind]. intros [= <- <-]. by exists n1.
  - change (g_find pf c (g_set_n t n) k) with (g_find pf c t k). destruct (g_find pf c t k) as [x| | |]; cbn [mbind res_bind]; try done.
    destruct (g_erase_at pf c t x) as [[t1 y]| | |] eqn:E; cbn [mbind res_bind]; try done.
    destruct (erase_at_n _ n _ _ _ E) as (n1 & ->). cbn [mbind res_bind]. intros [= <- <-]. by exists n1.
  - unfold g_reserve. destruct (g_reserve_with pf c (g_find_or_insert pf c fuel) t m 0) as [t1| | |] eqn:E; cbn [mbind res_bind]; try done.
    destruct (reserve_n _ _ n _ _ E) as (n1 & ->). cbn [mbind res_bind]. intros [= <- <-]. by exists n1.
  - intros [= <- <-]. by exists n.
  - change (g_clear (g_set_n t n)) with (g_clear t). destruct (g_clear t) as [t1| | |]; cbn [mbind res_bind]; try done. intros [= <- <-].
    exists (gt_n t1). by destruct t1.
Qed.
Lemma run_n fuel : forall ops t n t' rs, Forall no_size ops -> m_run_ops (g_impl pf c fuel) t ops = Ok (t', rs) ->
  exists n', m_run_ops (g_impl pf c fuel) (g_set_n t n) ops = Ok (g_set_n t' n', rs).
Proof.
  induction ops as [|o ops IH]; intros t n t' rs Hno; [intros [= <- <-]; by exists n|].
  apply Forall_cons in Hno as [Ho Hno]. rewrite !m_run_cons.
  destruct (m_run_op (g_impl pf c fuel) t o) as [[t1 r]| | |] eqn:E; cbn [mbind res_bind]; try done.
  destruct (run_op_n _ _ n _ _ _ Ho E) as (n1 & ->). cbn [mbind res_bind].
  destruct (m_run_ops (g_impl pf c fuel) t1 ops) as [[t2 rs2]| | |] eqn:E2; cbn [mbind res_bind]; try done.
  destruct (IH _ n1 _ _ Hno E2) as (n2 & ->). cbn [mbind res_bind]. intros [= <- <-]. by exists n2.
Qed.
End count.

(** t' serves every history without size() and empty() as a finite map m' *)
Definition serves (pf : platform) (c : gcfg) (kw vw bmin : N) (t' : gtable) (m' : gmap N N) : Prop :=
  forall fuel ops, (64 <= fuel)%nat -> valid_ops kw vw bmin (zbmax (gc_hash c) kw) ops -> Forall no_size ops ->
  exists t2, m_run_ops (g_impl pf c fuel) t' ops = Ok (t2, snd (spec_run m' ops)).
Lemma lossy_serves pf c kw vw bmin t ess t' : group_ok c kw vw bmin -> grep True pf c kw vw bmin t ess -> lossy pf c kw vw bmin t ess t' ->
  exists m', m' ⊆ emap (concat ess) /\ serves pf c kw vw bmin t' m'.
Proof.
  intros OK H (En & ess' & H' & HS). exists (emap (concat ess')). split.
  - apply map_subseteq_spec. intros k v Hk. apply emap_Some in Hk; [|apply H']. apply emap_Some; [apply H|]. by eapply elem_of_submseteq.
  - intros fuel ops Hf Hv Hno. destruct (group_run pf c kw vw bmin OK True fuel ops (g_set_n t' (N.of_nat (length (concat ess')) mod 2^64)) (emap (concat ess')) Hf) as (t1 & E & _); [right; by exists ess'|done|by left|].
    destruct (run_n pf c fuel ops _ (gt_n t') _ _ Hno E) as (n' & E'). rewrite set_n_twice in E'.
    replace (g_set_n t' (gt_n t')) with t' in E' by (by destruct t'). by eexists.
Qed.
Lemma rep_serves pf c kw vw bmin t m : group_ok c kw vw bmin -> gmrep pf c kw vw bmin True t m -> serves pf c kw vw bmin t m.
Proof.
  intros OK HM fuel ops Hf Hv _. destruct (group_run pf c kw vw bmin OK True fuel ops t m Hf HM Hv) as (t1 & E & _); [by left|]. by exists t1.
Qed.
(** ** C125: after an insertion or a reserve that was left by std::bad_alloc at any request the table goes on as a finite map with some of the elements
    it had: every history of calls other than size() and empty() returns what that map returns. *)
Theorem C125_insert_later : forall pf c kw vw bmin fuel t m k v h t', g_reached pf c kw vw bmin t m -> (64 <= fuel)%nat -> k < 2^kw -> v < 2^vw ->
  ag_find_or_insert pf c fuel t k v h = Ok (Bad t') -> exists m', m' ⊆ m /\ serves pf c kw vw bmin t' m'.
Proof.
  intros pf c kw vw bmin fuel t m k v h t' HR Hf Hk Hv Hbad. destruct (g_reached_rep _ _ _ _ _ _ _ HR) as [OK HM].
  destruct HM as [[Hz ->]|(ess & H & <-)].
  - destruct fuel as [|f]; [lia|]. destruct (go_init _ _ _ _ OK) as [Hkw3 Hini]. pose proof (ho_kw _ _ _ _ _ (go_hash _ _ _ _ OK)) as Hkw.
    pose proof Hz as (E1 & E2 & Hb & Hn0 & _ & Hbp).
    destruct (galloc True pf c kw vw bmin t (N.min (kw - 1) 8)) as (t1 & ess0 & Ea & HR1 & Hc & Hbt); try done.
    { split; [lia|]. etrans; [apply N.le_min_r|done]. }
    pose proof (b_range _ _ _ _ _ _ OK _ _ HR1) as Hbr.
    destruct (request_cases h) as [[-> Hreq]|(Hh0 & h1 & Hreq & Hh1)].
    + cbn [ag_find_or_insert] in Hbad. rewrite Hb, E1 in Hbad. cbn [N.eqb] in Hbad. unfold ag_alloc in Hbad. rewrite sub64_small, Ea in Hbad by lia.
      cbn [mbind res_bind] in Hbad. rewrite Hreq in Hbad. cbn [mbind res_bind] in Hbad. injection Hbad as <-. exists ∅. split; [done|]. apply rep_serves; [done|by left].
    + assert (Ega : ag_find_or_insert pf c (S f) t k v h = ag_find_or_insert pf c (S f) t1 k v h1).
      { cbn [ag_find_or_insert]. rewrite Hb, E1. cbn [N.eqb]. unfold ag_alloc. rewrite sub64_small, Ea by lia. cbn [mbind res_bind]. rewrite Hreq. cbn [mbind res_bind].
        rewrite (proj2 (N.eqb_neq (gt_b t1) 0)) by lia. done. }
      rewrite Ega in Hbad. destruct (ainsert_spec pf c kw vw bmin OK (S f) t1 ess0 k v h1 HR1 (fuel_enough _ _ _ _ _ _ OK Hf) Hk Hv) as [HT _].
      destruct HT as [(a & h' & Ed & _)|(t2 & Eb & HL & _)]; [congruence|]. rewrite Hbad in Eb. injection Eb as <-.
      destruct (lossy_serves _ _ _ _ _ _ _ _ OK HR1 HL) as (m' & Hm & Hs). rewrite Hc in Hm. by exists m'.
  - destruct (ainsert_spec pf c kw vw bmin OK fuel t ess k v h H (fuel_enough _ _ _ _ _ _ OK Hf) Hk Hv) as [HT _].
    destruct HT as [(a & h' & Ed & _)|(t2 & Eb & HL & _)]; [congruence|]. rewrite Hbad in Eb. injection Eb as <-. by eapply lossy_serves.
Qed.
Print Assumptions C125_insert_later.
Theorem C125_reserve_later : forall pf c kw vw bmin fuel t m n h t', g_reached pf c kw vw bmin t m -> (64 <= fuel)%nat ->
  2^bmin / 2 < n -> n <= 2^zbmax (gc_hash c) kw ->
  ag_reserve pf c fuel t n 0 h = Ok (Bad t') -> exists m', m' ⊆ m /\ serves pf c kw vw bmin t' m'.
Proof.
  intros pf c kw vw bmin fuel t m n h t' HR Hf Hlo Hhi Hbad. destruct (g_reached_rep _ _ _ _ _ _ _ HR) as [OK HM].
  destruct (range_log _ _ _ _ _ OK Hlo Hhi) as [Hn Hlog]. destruct HM as [[Hz ->]|(ess & H & <-)].
  - pose proof Hz as (E1 & E2 & Hb & Hn0 & _ & Hbp). destruct (galloc True pf c kw vw bmin t n) as (t1 & ess0 & Ea & _); try done.
    unfold ag_reserve, ag_reserve_with in Hbad. rewrite Hb in Hbad. cbn [N.eqb] in Hbad. unfold ag_alloc in Hbad. rewrite Ea in Hbad. cbn [mbind res_bind] in Hbad.
    destruct (request true h); [done|]. injection Hbad as <-. exists ∅. split; [done|]. apply rep_serves; [done|by left].
  - destruct (areserve_spec pf c kw vw bmin OK (ag_find_or_insert pf c fuel) (g_find_or_insert pf c fuel) t ess n h H Hn Hlog) as [HT _].
    { intros t2 ess2 k2 v2 HR2 Hb2 Hk2 Hv2. apply (foi_spec _ _ _ _ _ _ _ _ _ _ _ _ _ _ (group_chain True pf c kw vw bmin OK 64 I (le_n 64))); [done| |done|done].
      by eapply fuel_enough. }
    { intros t2 ess2 k2 v2 h2 HR2 Hb2 Hk2 Hv2. apply ainsert_spec; [done|done| |done|done]. by eapply fuel_enough. }
    unfold ag_reserve in Hbad. destruct HT as [(a & h' & Ed & _)|(t2 & Eb & HL & _)]; [congruence|]. rewrite Hbad in Eb. injection Eb as <-. by eapply lossy_serves.
Qed.
Print Assumptions C125_reserve_later.
(** Instance: a reserve whose second request fails on a table with at least 256 elements goes on with strictly fewer elements *)
Theorem C125_fewer_later : forall pf c kw vw bmin fuel t m n, g_reached pf c kw vw bmin t m -> (64 <= fuel)%nat ->
  2^bmin / 2 < n -> n <= 2^zbmax (gc_hash c) kw -> n <= 64 -> (256 <= size m)%nat ->
  exists t' m', ag_reserve pf c fuel t n 0 (Some 1%nat) = Ok (Bad t') /\ m' ⊂ m /\ serves pf c kw vw bmin t' m'.
Proof.
  intros pf c kw vw bmin fuel t m n HR Hf Hlo Hhi H64 H256.
  destruct (C125_lost_refuted _ _ _ _ _ fuel t m n HR Hf Hlo Hhi H64 H256) as (t' & k & v & E & Hk & Hfind & _).
  destruct (C125_reserve_later _ _ _ _ _ fuel t m n _ t' HR Hf Hlo Hhi E) as (m' & Hm & Hserve). exists t', m'.
  split; [exact E|]. split; [|exact Hserve]. split; [exact Hm|]. intros Hm'.
  assert (Hk' : m' !! k = Some v) by (by eapply lookup_weaken).
  assert (Hkw : k < 2^kw).
  { destruct (g_reached_rep _ _ _ _ _ _ _ HR) as [OK [[_ ->]|(ess & H & <-)]]; [done|].
    apply emap_Some in Hk; [|apply H]. exact (proj1 (gr_range _ _ _ _ _ _ _ _ H _ _ Hk)). }
  destruct (Hserve fuel [OpFind k] Hf) as (t2 & E2).
  { apply List.Forall_cons; [exact Hkw|apply List.Forall_nil]. }
  { apply List.Forall_cons; [exact I|apply List.Forall_nil]. }
  rewrite m_run_cons, Hfind in E2. cbn [m_run_ops mbind res_bind spec_run spec_step snd] in E2. rewrite Hk' in E2. done.
Qed.
Print Assumptions C125_fewer_later.
(** The table of C125_case has 300 elements. *)
Example C125_later_case : exists t t' m', ag_reserve loose_pf ex_gx 64 t 64 0 (Some 1%nat) = Ok (Bad t') /\ m' ⊂ fst (spec_run ∅ ex_ag_ops)
  /\ serves loose_pf ex_gx 20 9 1 t' m'.
Proof.
  destruct C125_case as (t & HR & Hs & Hlo & Hhi). revert HR Hs. generalize (fst (spec_run ∅ ex_ag_ops)). intros m HR Hs.
  exists t. apply (C125_fewer_later _ _ _ _ _ _ _ _ _ HR (le_n 64) Hlo Hhi (N.le_refl 64)). rewrite Hs. lia.
Qed.
