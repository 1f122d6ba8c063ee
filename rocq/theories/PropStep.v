(** C75: steps of iterators; C76: clear() of array_overflow. *)
From Verif Require Import NavStep CompactProofs GroupHist PropTable PropSerial PropOverflow PropCompact PropGroup.

(** ** C75: operator-- undoes operator++ and the other way round.  In a table without overflow, from every valid position; a step that
    leaves the table yields end(). *)
Theorem C75_step_table : forall pf c kw vw t m x, params pf c kw vw -> reachable pf c kw vw t m -> c_ov c = OvDummy -> nav_invalid pf t x = Ok false ->
  (exists y, nav_next pf t x = Ok y /\ (nav_invalid pf t y = Ok false /\ nav_prev pf t y = Ok x \/ nav_eq pf t y end_nav = Ok true))
  /\ (exists y, nav_prev pf t x = Ok y /\ (nav_invalid pf t y = Ok false /\ nav_next pf t y = Ok x \/ nav_eq pf t y end_nav = Ok true)).
Proof.
  intros pf c kw vw t m x P Hr Hd Hx. apply (reachable_rep _ _ _ _ P) in Hr. pose proof (reach_ok0 _ _ _ _ P) as OK.
  destruct Hr as [[Hz _]|(sl & ess & ovl & H & _)].
  { exfalso. destruct x as [bk p]. unfold nav_invalid, bucket_count in Hx. destruct Hz as (Hb & _ & _ & _ & Ho & _).
    rewrite Hb, (ov_zero_size _ _ _ Ho) in Hx. cbn [N.eqb N.ltb andb] in Hx. rewrite (proj2 (N.leb_le 0 bk)) in Hx by lia. done. }
  destruct (dummy_nil _ _ _ _ _ _ _ _ _ _ _ H Hd) as [_ ->].
  assert (Hlt : fst x < bucket_count t).
  { destruct x as [bk p]. unfold nav_invalid in Hx. rewrite (tinv_noov _ _ _ _ _ _ _ _ _ _ H) in Hx. cbn [andb fst] in *. by destruct (N.leb_spec (bucket_count t) bk). }
  destruct (tinv_bc _ _ _ _ _ _ _ OK _ _ _ _ H) as [_ Hc].
  assert (Hend : forall y, bucket_count t <= fst y -> nav_eq pf t y end_nav = Ok true).
  { intros [bk p] Hy. cbn [fst] in Hy. rewrite Hc in Hy. exact (nav_eq_invalid _ _ _ _ _ _ _ OK _ _ _ _ _ H Hy). }
  split.
  - destruct (tstep_next _ _ _ _ _ _ _ OK _ _ _ _ _ H Hx Hlt) as (y & E & Hin & _). exists y. split; [done|].
    destruct (N.lt_ge_cases (fst y) (bucket_count t)) as [Hy|Hy]; [left; by apply Hin|right; by apply Hend].
  - destruct (tstep_prev _ _ _ _ _ _ _ OK _ _ _ _ _ H Hx Hlt) as (y & E & Hin & _). exists y. split; [done|].
    destruct (N.lt_ge_cases (fst y) (bucket_count t)) as [Hy|Hy]; [left; by apply Hin|right; by apply Hend].
Qed.
Print Assumptions C75_step_table.
Definition ex_step_ops : list op := ex_inserts [5; 9; 300; 41; 77].
Definition ex_step_t : table := ex_hist ex_var 20 9 ex_step_ops.
Lemma ex_step_reach : reachable lax_pf ex_var 20 9 ex_step_t (fst (spec_run ∅ ex_step_ops)).
Proof.
  assert (H20 : 2^20 = 1048576) by done. assert (H9 : 2^9 = 512) by done.
  apply ex_hist_reach; [exact ex_var_ok|done|]. unfold ex_step_ops, ex_inserts, valid_ops; cbn [map].
  repeat (apply List.Forall_cons; [cbn [valid_op]; rewrite ?H20, ?H9; lia|]). apply List.Forall_nil.
Qed.
(** Bucket 2 holds two elements, the next element is in bucket 6. *)
Example C75_case : params lax_pf ex_var 20 9 /\ reachable lax_pf ex_var 20 9 ex_step_t (fst (spec_run ∅ ex_step_ops)) /\ nav_invalid lax_pf ex_step_t (2, 1) = Ok false
  /\ nav_next lax_pf ex_step_t (2, 0) = Ok (2, 1) /\ nav_next lax_pf ex_step_t (2, 1) = Ok (6, 0) /\ nav_prev lax_pf ex_step_t (6, 0) = Ok (2, 1)
  /\ nav_next lax_pf ex_step_t (15, 0) = Ok (16, 0) /\ exists y, nav_prev lax_pf ex_step_t (2, 0) = Ok y /\ nav_eq lax_pf ex_step_t y end_nav = Ok true.
Proof.
  split; [exact ex_var_ok|]. split; [exact ex_step_reach|]. do 5 (split; [vm_compute; reflexivity|]). exists (ones64, 0). split; vm_compute; reflexivity.
Qed.

(** With an overflow the same holds as long as both positions are in buckets or both in the overflow. *)
Definition same_part (t : table) (x y : nav) : Prop := fst x < bucket_count t /\ fst y < bucket_count t \/ fst x = bucket_count t /\ fst y = bucket_count t.
Theorem C75_step_overflow_partial : forall pf c kw vw t m x, params pf c kw vw /\ reachable pf c kw vw t m \/ arr_params pf c kw vw /\ arr_reach pf c kw vw t m ->
  nav_invalid pf t x = Ok false ->
  (exists y, nav_next pf t x = Ok y /\ (nav_invalid pf t y = Ok false -> same_part t x y -> nav_prev pf t y = Ok x))
  /\ (exists y, nav_prev pf t x = Ok y /\ (nav_invalid pf t y = Ok false -> same_part t x y -> nav_next pf t y = Ok x)).
Proof.
  intros pf c kw vw t m x HP Hx.
  assert (Hr : table_ok0 pf c kw vw 1 (bits_max c kw) /\ trep pf c kw vw 1 (bits_max c kw) True t m).
  { destruct HP as [[P Hr]|[P Hr]].
    - split; [exact (reach_ok0 _ _ _ _ P)|exact (reachable_rep _ _ _ _ P _ _ Hr)].
    - split; [exact (arr_ok pf c kw vw P)|exact (arr_reach_rep pf c kw vw P _ _ Hr)]. }
  destruct Hr as [OK [[Hz _]|(sl & ess & ovl & H & _)]].
  { exfalso. destruct x as [bk p]. unfold nav_invalid, bucket_count in Hx. destruct Hz as (Hb & _ & _ & _ & Ho & _).
    rewrite Hb, (ov_zero_size _ _ _ Ho) in Hx. cbn [N.eqb N.ltb andb] in Hx. rewrite (proj2 (N.leb_le 0 bk)) in Hx by lia. done. }
  destruct (N.lt_ge_cases (fst x) (bucket_count t)) as [Hlt|Hge].
  - split.
    + destruct (tstep_next _ _ _ _ _ _ _ OK _ _ _ _ _ H Hx Hlt) as (y & E & Hin & _). exists y. split; [done|].
      intros _ [[_ Hy]|[Hy _]]; [by apply Hin|lia].
    + destruct (tstep_prev _ _ _ _ _ _ _ OK _ _ _ _ _ H Hx Hlt) as (y & E & Hin & _). exists y. split; [done|].
      intros _ [[_ Hy]|[Hy _]]; [by apply Hin|lia].
  - assert (Hb : fst x = bucket_count t).
    { destruct x as [bk p]. cbn [fst] in *. unfold nav_invalid in Hx. destruct (N.eqb_spec bk (bucket_count t)) as [|]; [done|].
      rewrite andb_false_r in Hx. cbn [andb] in Hx. by rewrite (proj2 (N.leb_le _ _) Hge) in Hx. }
    destruct x as [bk p]. cbn [fst] in Hb. subst bk. destruct (tstep_over _ _ _ _ _ _ _ OK _ _ _ _ _ H Hx) as ((q & E & Hq) & Hp & H0). split.
    + exists (bucket_count t, q). split; [done|]. intros Hv _. by apply Hq.
    + destruct (N.eq_dec p 0) as [->|].
      * rewrite (H0 eq_refl). eexists. split; [done|]. intros _ [[? _]|[_ ?]]; cbn [fst] in *; [lia|].
        destruct (tinv_bc _ _ _ _ _ _ _ OK _ _ _ _ H) as [_ Hc]. pose proof (pow2_pos (t_b t)). lia.
      * destruct Hp as (q' & E' & Hq'); [lia|]. exists (bucket_count t, q'). split; [done|]. intros Hv _. by apply Hq'.
Qed.
Print Assumptions C75_step_overflow_partial.
(** The step from the buckets into the overflow cannot be undone: -- yields a position that is not valid. *)
Theorem C75_step_overflow_refuted : exists pf c kw vw t m x y, params pf c kw vw /\ reachable pf c kw vw t m /\ nav_invalid pf t x = Ok false
  /\ nav_next pf t x = Ok y /\ nav_invalid pf t y = Ok false /\ exists z, nav_prev pf t y = Ok z /\ nav_invalid pf t z = Ok true.
Proof.
  exists lax_pf, ex_umap, 16, 16, (ex_hist ex_umap 16 16 (ex_inserts [16; 34; 0; 35])), (fst (spec_run ∅ (ex_inserts [16; 34; 0; 35]))), (0, 1), (16, 0).
  split; [exact ex_umap_ok|]. split; [apply ex_umap_reach; repeat (apply List.Forall_cons; [done|]); apply List.Forall_nil|].
  split; [vm_compute; reflexivity|]. split; [vm_compute; reflexivity|]. split; [vm_compute; reflexivity|].
  exists (15, ones64). split; vm_compute; reflexivity.
Qed.
Print Assumptions C75_step_overflow_refuted.
Example C75_overflow_case : let t := ex_hist ex_umap 16 16 (ex_inserts [16; 34; 0; 35]) in
  reachable lax_pf ex_umap 16 16 t (fst (spec_run ∅ (ex_inserts [16; 34; 0; 35]))) /\ nav_next lax_pf t (16, 0) = Ok (16, 3)
  /\ nav_invalid lax_pf t (16, 3) = Ok false /\ nav_prev lax_pf t (16, 3) = Ok (16, 0).
Proof.
  split; [apply ex_umap_reach; repeat (apply List.Forall_cons; [done|]); apply List.Forall_nil|]. vm_compute. auto.
Qed.
Example C75_array_case : let t := ex_arr2_t ex_arr2_ops in arr_reach zero_pf ex_arr2 16 16 t (fst (spec_run ∅ ex_arr2_ops))
  /\ nav_next zero_pf t (16, 0) = Ok (16, 1) /\ nav_prev zero_pf t (16, 1) = Ok (16, 0) /\ nav_invalid zero_pf t (16, 1) = Ok false.
Proof.
  split; [|vm_compute; repeat split; reflexivity]. assert (H16 : 2^16 = 65536) by done.
  apply ex_arr2_reach; unfold ex_arr2_ops, ex_inserts, valid_ops; cbn [map];
    (repeat (apply List.Forall_cons; [cbn [valid_op grow_op]; rewrite ?H16; lia|]); apply List.Forall_nil).
Qed.

(** The compact map and the group table (without overflow). *)
Theorem C75_step_compact : forall pf c kw vw bmin fuel t m x, compact_ok pf c kw vw bmin -> (64 <= fuel)%nat -> c_after pf c kw vw bmin fuel t m ->
  vn_invalid (c_view pf c t) x = Ok false ->
  (exists y, vn_next (c_view pf c t) x = Ok y /\ (vn_invalid (c_view pf c t) y = Ok false /\ vn_prev (c_view pf c t) y = Ok x \/ vn_eq (c_view pf c t) y end_nav = Ok true))
  /\ (exists y, vn_prev (c_view pf c t) x = Ok y /\ (vn_invalid (c_view pf c t) y = Ok false /\ vn_next (c_view pf c t) y = Ok x \/ vn_eq (c_view pf c t) y end_nav = Ok true)).
Proof.
  intros pf c kw vw bmin fuel t m x OK Hf Ha Hx. pose proof (c_after_rep _ _ _ _ _ _ _ _ OK Hf Ha) as HR.
  destruct HR as [[Hz Em]|(ess & HR & Hm)].
  { exfalso. destruct x as [bk p]. unfold vn_invalid in Hx. cbn [c_view v_count] in Hx. destruct Hz as (_ & _ & Hb & _).
    unfold c_bucket_count in Hx. rewrite Hb in Hx. cbn [N.eqb] in Hx. by rewrite (proj2 (N.leb_le 0 bk)) in Hx by lia. }
  exact (vsteps _ _ _ _ (cshows pf c kw vw bmin OK t ess HR) x Hx).
Qed.
Print Assumptions C75_step_compact.
Theorem C75_step_group : forall pf c kw vw bmin t m x, g_reached pf c kw vw bmin t m -> vn_invalid (g_view pf c t) x = Ok false ->
  (exists y, vn_next (g_view pf c t) x = Ok y /\ (vn_invalid (g_view pf c t) y = Ok false /\ vn_prev (g_view pf c t) y = Ok x \/ vn_eq (g_view pf c t) y end_nav = Ok true))
  /\ (exists y, vn_prev (g_view pf c t) x = Ok y /\ (vn_invalid (g_view pf c t) y = Ok false /\ vn_next (g_view pf c t) y = Ok x \/ vn_eq (g_view pf c t) y end_nav = Ok true)).
Proof.
  intros pf c kw vw bmin t m x (OK & HR)%g_reached_rep Hx. destruct HR as [[Hz Em]|(ess & HR & Hm)].
  { exfalso. destruct x as [bk p]. unfold vn_invalid in Hx. cbn [g_view v_count] in Hx. destruct Hz as (_ & _ & Hb & _).
    unfold g_bucket_count in Hx. rewrite Hb in Hx. cbn [N.eqb] in Hx. by rewrite (proj2 (N.leb_le 0 bk)) in Hx by lia. }
  exact (vsteps _ _ _ _ (gshows _ _ _ _ _ _ OK t ess HR) x Hx).
Qed.
Print Assumptions C75_step_group.
Example C75_group_case : g_reached strict_pf ex_gx 20 9 1 ex_g_tab ex_g_map
  /\ (x ← g_begin ex_g_tab; y ← vn_next (g_view strict_pf ex_gx ex_g_tab) x; z ← vn_prev (g_view strict_pf ex_gx ex_g_tab) y; Ok (x, y, z)) = Ok ((167, 0), (169, 0), (167, 0)).
Proof. split; [exact ex_g_reached|]. vm_compute. reflexivity. Qed.

(** ** C76: clear() of an array_overflow frees both arrays but keeps the number of elements, so that it cannot be used again. *)
Theorem C76_array_overflow_clear_refuted : forall pf kb vb ks vs n full o', ov_clear pf kb vb (OArray ks vs n full) = Ok o' ->
  ov_size o' = n /\ (forall p, p < n -> ov_valid pf o' p = true) /\ (forall k, ov_find pf kb o' k = Ub NullDeref)
  /\ (forall p, ov_key pf kb o' p = Ub NullDeref /\ ov_get pf vb o' p = Ub NullDeref)
  /\ (forall bk k v, bk < N.of_nat (length full) -> ov_insert pf kb vb o' bk k v = Ub NullDeref).
Proof.
  intros pf kb vb ks vs n full o' E. cbn [ov_clear] in E. unfold b_clear in E.
  destruct (b_free pf (KPlain kb) ks); cbn [mbind res_bind] in E; [|done..]. destruct (b_free pf (KPlain vb) vs); cbn [mbind res_bind] in E; [|done..].
  injection E as <-. cbn [ov_size ov_valid]. split; [done|]. split; [intros p Hp; by apply N.ltb_lt|]. split; [done|]. split; [done|]. intros bk k v Hb. cbn [ov_insert]. unfold bv_set.
  by rewrite (proj2 (N.ltb_lt _ _) Hb).
Qed.
Print Assumptions C76_array_overflow_clear_refuted.
(** A table that has used its array: after clear() size() is 0, but a loop from begin() dereferences a null pointer. *)
Theorem C76_table_clear_refuted : forall pf c kw vw t m, arr_params pf c kw vw -> arr_reach pf c kw vw t m -> 0 < ov_size (t_ov t) ->
  exists t', clear pf c t = Ok t' /\ TableModel.size t' = 0 /\ forall f, forward pf c (S f) t' = Ub NullDeref.
Proof.
  intros pf c kw vw t m P Hr Hov. pose proof (arr_reach_rep pf c kw vw P _ _ Hr) as HR. destruct HR as [[Hz _]|(sl & ess & ovl & H & _)].
  { destruct Hz as (_ & _ & _ & _ & Ho & _). rewrite (ov_zero_size _ _ _ Ho) in Hov. lia. }
  destruct (clear_any _ _ _ _ _ _ _ (arr_ok pf c kw vw P) _ _ _ _ H) as (o' & Eo & E). eexists. split; [exact E|]. split; [done|]. intros f.
  assert (Ha : exists ks vs n full, t_ov t = OArray ks vs n full).
  { pose proof (ti_ov _ _ _ _ _ _ _ _ _ _ _ H) as Ho. pose proof (arr_ov pf c kw vw P) as Hk. destruct (t_ov t) as [|ks vs n full|nb els full]; [done|eauto|].
    exfalso. destruct Ho as (_ & (_ & _ & Hs & _) & _). by rewrite Hk in Hs. }
  destruct Ha as (ks & vs & n & full & Et). rewrite Et in Eo, Hov. destruct (C76_array_overflow_clear_refuted _ _ _ _ _ _ _ _ Eo) as (Hs & Hv & _ & Hk & _).
  cbn [ov_size] in Hov. unfold forward, begin_nav, begin_scan, bucket_count. cbn [t_b t_ov N.eqb N.to_nat]. rewrite Hs, (proj2 (N.ltb_lt _ _) Hov).
  cbn [mbind res_bind iterate]. unfold nav_eq, nav_invalid, end_nav, bucket_count. cbn [t_b t_ov N.eqb].
  rewrite Hs, (proj2 (N.ltb_lt _ _) Hov).
  rewrite (Hv 0 Hov). change (ones64 =? 0) with false. change (0 <=? ones64) with true. cbn [andb negb mbind res_bind fst snd]. change (0 =? ones64) with false. cbn [andb].
  unfold nav_read, nav_key, bucket_count. cbn [t_b t_ov N.eqb]. rewrite Hs, (proj2 (N.ltb_lt _ _) Hov). cbn [andb]. by rewrite (proj1 (Hk 0)).
Qed.
Print Assumptions C76_table_clear_refuted.
Example C76_case : let t := ex_arr2_t ex_arr2_ops in arr_reach zero_pf ex_arr2 16 16 t (fst (spec_run ∅ ex_arr2_ops)) /\ ov_size (t_ov t) = 2
  /\ (t' ← clear zero_pf ex_arr2 t; find_or_insert zero_pf ex_arr2 64 t' 35 1) = Ub NullDeref.
Proof.
  split; [|vm_compute; repeat split; reflexivity]. assert (H16 : 2^16 = 65536) by done.
  apply ex_arr2_reach; unfold ex_arr2_ops, ex_inserts, valid_ops; cbn [map];
    (repeat (apply List.Forall_cons; [cbn [valid_op grow_op]; rewrite ?H16; lia|]); apply List.Forall_nil).
Qed.
