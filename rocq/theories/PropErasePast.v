(** C126: erase through navigators. *)
From Verif Require Import NavModel NavStep CompactProofs GroupTable GroupHist GroupSerial MapProofs TableInv TableReach PropTable PropSerial PropCompact PropGroup PropNavEq.

(** Erasing through a navigator that is not end() erases the key it denotes. *)
Lemma chain_erase {T} (I : mapimpl T) kw vw bmin bmax okey bits hb Rep Zero full foi resv fuel :
  chain_ok I kw vw bmin bmax okey bits hb Rep Zero full foi resv fuel -> forall t m x, mrep Rep Zero t m -> vn_invalid (i_view I t) x = Ok false ->
  exists k v t', m !! k = Some v /\ i_find I t k = Ok x /\ i_erase_at I t x = Ok (t', 1) /\ mrep Rep Zero t' (delete k m).
Proof.
  intros C t m x HR Hx. destruct (chain_compares _ _ _ _ _ _ _ _ _ _ _ _ _ _ C t m HR x x) as (ix & iy & E1 & E2 & H).
  rewrite Hx in E1, E2. injection E1 as <-. injection E2 as <-. cbn [orb] in H. destruct H as (k & _ & (v & Hk) & _ & Hf & _).
  assert (Hkw : k < 2^kw).
  { destruct HR as [[_ ->]|(ess & H & <-)]; [done|]. apply emap_Some in Hk; [|by eapply ch_nodup]. by destruct (ch_range _ _ _ _ _ _ _ _ _ _ _ _ _ _ C _ _ _ _ H Hk). }
  destruct (m_step_rep _ _ _ _ _ _ _ _ _ _ _ _ _ _ C t m (OpEraseIt k) HR Hkw (pow2_pos vw)) as (t' & r & E & Hr & HR'). cbn [spec_step] in *. rewrite Hk in *.
  cbn [m_run_op fst snd] in *. rewrite Hf in E. cbn [mbind res_bind] in E. destruct (i_erase_at I t x) as [[t1 n]| | |] eqn:Ee; cbn [mbind res_bind] in E; try done.
  injection E as -> <-. assert (n = 1) as -> by (by inversion Hr). by exists k, v, t'.
Qed.
Theorem C126_group_valid : forall pf c kw vw bmin t m x, g_reached pf c kw vw bmin t m -> vn_invalid (g_view pf c t) x = Ok false ->
  exists k v t', m !! k = Some v /\ g_find pf c t k = Ok x /\ g_erase_at pf c t x = Ok (t', 1)
  /\ forall fuel ops, (64 <= fuel)%nat -> valid_ops kw vw bmin (zbmax (gc_hash c) kw) ops ->
       exists t2, m_run_ops (g_impl pf c fuel) t' ops = Ok (t2, snd (spec_run (delete k m) ops)).
Proof.
  intros pf c kw vw bmin t m x (OK & HR)%g_reached_rep Hx.
  destruct (chain_erase _ _ _ _ _ _ _ _ _ _ _ _ _ _ (group_chain True pf c kw vw bmin OK 64 I (Nat.le_refl _)) t m x HR Hx) as (k & v & t' & H1 & H2 & H3 & H4).
  exists k, v, t'. do 3 (split; [done|]). intros fuel ops Hf Hv.
  destruct (group_run pf c kw vw bmin OK True fuel ops t' _ Hf H4 Hv) as (t2 & E & _); [by left|]. by exists t2.
Qed.
Print Assumptions C126_group_valid.
Theorem C126_compact_valid : forall pf c kw vw bmin fuel t m x, compact_ok pf c kw vw bmin -> (64 <= fuel)%nat -> c_after pf c kw vw bmin fuel t m ->
  vn_invalid (c_view pf c t) x = Ok false ->
  exists k v t', m !! k = Some v /\ c_find pf c t k = Ok x /\ c_erase_at pf c t x = Ok (t', 1)
  /\ forall ops, valid_ops kw vw bmin (zbmax (cc_hash c) kw) ops ->
       exists t2 rs, m_run_ops (c_impl pf c fuel) t' ops = Ok (t2, rs)
         /\ Forall2 same_but_keys rs (snd (spec_run (delete k m) ops)) /\ (quotients_fit c kw bmin -> rs = snd (spec_run (delete k m) ops)).
Proof.
  intros pf c kw vw bmin fuel t m x OK Hf Ha Hx. pose proof (c_after_rep _ _ _ _ _ _ _ _ OK Hf Ha) as HR.
  pose proof (compact_chain pf c kw vw bmin OK fuel Hf) as C.
  destruct (chain_erase _ _ _ _ _ _ _ _ _ _ _ _ _ _ C t m x HR Hx) as (k & v & t' & H1 & H2 & H3 & H4).
  exists k, v, t'. do 3 (split; [done|]). intros ops Hv.
  destruct (m_run_rep _ _ _ _ _ _ _ _ _ _ _ _ _ _ C ops t' _ H4 Hv) as (t2 & rs & E & Hr & _). exists t2, rs. split; [exact E|]. split.
  - eapply Forall2_impl; [exact Hr|]. intros a e. apply oout_weak.
  - intros Hfit. rewrite cokey_fit in Hr by done. by apply oout_eq.
Qed.
Print Assumptions C126_compact_valid.

(** ** A navigator that ran past the last bucket equals end(), but only end() itself can be passed to erase. *)
Lemma past_end_eq V bk p : v_count V <= bk -> v_count V <= ones64 -> vn_eq V (bk, p) end_nav = Ok true.
Proof.
  intros H1 H2. unfold vn_eq, vn_invalid, end_nav. rewrite (proj2 (N.leb_le _ _) H1), (proj2 (N.leb_le _ _) H2). done.
Qed.
(** separate_chaining_table: undefined in every table with buckets, unless the navigator addresses the overflow *)
Theorem C126_table_past_end_refuted : forall pf c kw vw t m bk p, params pf c kw vw -> reachable pf c kw vw t m -> bucket_count t <> 0 ->
  bucket_count t <= bk -> p <> ones64 -> ov_size (t_ov t) = 0 \/ bk <> bucket_count t ->
  nav_eq pf t (bk, p) end_nav = Ok true /\ exists u, erase_at pf c t (bk, p) = Ub u.
Proof.
  intros pf c kw vw t m bk p P Hr H0 Hbk Hp Hov. pose proof (reach_ok0 _ _ _ _ P) as OK.
  destruct (reachable_rep _ _ _ _ P _ _ Hr) as [[Hz _]|(sl & ess & ovl & H & _)].
  { destruct Hz as (Hb & _). unfold bucket_count in H0. rewrite Hb in H0. done. }
  destruct (tinv_bc _ _ _ _ _ _ _ OK _ _ _ _ H) as [_ Hc]. pose proof (ti_len _ _ _ _ _ _ _ _ _ _ _ H) as Hl.
  assert (Ho : (0 <? ov_size (t_ov t)) && (bk =? bucket_count t) = false).
  { destruct Hov as [->|Hne]; [done|]. rewrite (proj2 (N.eqb_neq _ _) Hne). by rewrite andb_false_r. }
  assert (Hlt : bucket_count t < ones64).
  { rewrite Hc. assert (t_b t <= 63) by (pose proof (tinv_b _ _ _ _ _ _ _ OK _ _ _ _ H); lia).
    apply N.le_lt_trans with (2^63); [by apply N.pow_le_mono_r|done]. }
  split.
  - unfold nav_eq, nav_invalid, end_nav. rewrite Ho. cbn [andb]. rewrite (proj2 (N.leb_le _ _) Hbk).
    rewrite (proj2 (N.eqb_neq ones64 (bucket_count t))) by lia. rewrite andb_false_r. cbn [andb]. rewrite (proj2 (N.leb_le (bucket_count t) ones64)) by lia. done.
  - unfold erase_at. rewrite (proj2 (N.eqb_neq _ _) Hp), Ho. unfold get_slot. rewrite (ti_slots _ _ _ _ _ _ _ _ _ _ _ H).
    rewrite (proj2 (N.ltb_ge _ _)) by lia. by exists OobRead.
Qed.
Print Assumptions C126_table_past_end_refuted.
(** compact_chaining_map: undefined in every map *)
Theorem C126_compact_past_end_refuted : forall pf c kw vw bmin fuel t m bk p, compact_ok pf c kw vw bmin -> (64 <= fuel)%nat -> c_after pf c kw vw bmin fuel t m ->
  c_bucket_count t <= bk -> p <> ones64 ->
  vn_eq (c_view pf c t) (bk, p) end_nav = Ok true /\ exists u, c_erase_at pf c t (bk, p) = Ub u.
Proof.
  intros pf c kw vw bmin fuel t m bk p OK Hf Ha Hbk Hp. pose proof (c_after_rep _ _ _ _ _ _ _ _ OK Hf Ha) as HR.
  destruct (ch_b _ _ _ _ _ _ _ _ _ _ _ _ _ _ (compact_chain pf c kw vw bmin OK fuel Hf)) as (Hb1 & _ & Hb63).
  assert (Hb : cm_b t <= 63). { destruct HR as [[(_ & _ & -> & _) _]|(ess & H & _)]; [done|]. pose proof (cr_b _ _ _ _ _ _ H). lia. }
  split.
  - apply past_end_eq; [exact Hbk|]. cbn [c_view v_count]. unfold c_bucket_count. destruct (cm_b t =? 0); [done|].
    apply N.le_trans with (2^63); [by apply N.pow_le_mono_r|done].
  - unfold c_erase_at. rewrite (proj2 (N.eqb_neq _ _) Hp). unfold c_slot.
    destruct HR as [[(_ & _ & _ & _ & ->) _]|(ess & H & _)]; [by exists NullDeref|].
    destruct (cr_slots _ _ _ _ _ _ H) as (sl & -> & H2). apply Forall2_length in H2. pose proof (cr_len _ _ _ _ _ _ H) as Hl.
    unfold c_bucket_count in Hbk. pose proof (cr_b _ _ _ _ _ _ H).
    rewrite (proj2 (N.eqb_neq (cm_b t) 0)) in Hbk by lia. rewrite (proj2 (N.ltb_ge _ _)) by lia. by exists OobRead.
Qed.
Print Assumptions C126_compact_past_end_refuted.
(** group_chaining_table: there is one group more than the buckets need, so the call may well be defined; but then it reports an erased element and
    counts one less, whatever happened to the elements *)
Theorem C126_group_past_end_refuted : forall pf c kw vw bmin t m bk p, g_reached pf c kw vw bmin t m ->
  g_bucket_count t <= bk -> p <> ones64 ->
  vn_eq (g_view pf c t) (bk, p) end_nav = Ok true
  /\ forall t' r, g_erase_at pf c t (bk, p) = Ok (t', r) -> r = 1 /\ g_size_of t' <> g_size_of t.
Proof.
  intros pf c kw vw bmin t m bk p (OK & HR)%g_reached_rep Hbk Hp.
  destruct (ch_b _ _ _ _ _ _ _ _ _ _ _ _ _ _ (group_chain True pf c kw vw bmin OK 64 I (Nat.le_refl _))) as (Hb1 & _ & Hb63).
  assert (Hb : gt_b t <= 63 /\ gt_n t < 2^64).
  { destruct HR as [[(_ & _ & -> & -> & _) _]|(ess & H & _)]; [done|]. pose proof (gr_b _ _ _ _ _ _ _ _ H). rewrite (gr_n _ _ _ _ _ _ _ _ H).
    split; [lia|by apply N.mod_lt]. }
  split.
  - apply past_end_eq; [exact Hbk|]. cbn [g_view v_count]. unfold g_bucket_count. destruct (gt_b t =? 0); [done|].
    apply N.le_trans with (2^63); [apply N.pow_le_mono_r; [done|apply Hb]|done].
  - intros t' r. unfold g_erase_at. rewrite (proj2 (N.eqb_neq _ _) Hp). destruct (g_group t bk) as [g| | |]; cbn [mbind res_bind]; try done.
    destruct (kv_erase pf g _ _ _ _ _) as [g'| | |]; cbn [mbind res_bind]; try done. intros [= <- <-]. split; [done|]. unfold g_size_of. cbn [g_set g_set_n gt_n].
    destruct Hb as [_ Hn]. unfold sub64, u64. change (2^64) with 18446744073709551616 in *.
    destruct (N.eq_dec (gt_n t) 0) as [->|]; [done|]. intros E.
    pose proof (N.div_mod (gt_n t + 18446744073709551616 - 1) 18446744073709551616). dlia.
Qed.
Print Assumptions C126_group_past_end_refuted.
(** What a defined call may do: advancing from the only element and erasing removes that element; *)
Definition ex_past (ks : list N) : gtable :=
  match m_run_ops (g_impl strict_pf ex_gx 64) (g_new 20 9) (map (fun k => OpInsert k 1) ks) with Ok (t, _) => t | _ => g_new 20 9 end.
Lemma ex_past_reached ks : Forall (fun k => k < 2^20) ks -> g_reached strict_pf ex_gx 20 9 1 (ex_past ks) (fst (spec_run ∅ (map (fun k => OpInsert k 1) ks))).
Proof.
  intros H. exists 64%nat, (map (fun k => OpInsert k 1) ks).
  assert (Hv : valid_ops 20 9 1 (zbmax (gc_hash ex_gx) 20) (map (fun k => OpInsert k 1) ks)).
  { apply List.Forall_map. eapply List.Forall_impl; [|exact H]. intros k Hk. by split. }
  destruct (group_run strict_pf ex_gx 20 9 1 ex_gx_ok True 64 _ (g_new 20 9) ∅ (le_n 64) (gmrep_new _ _ _ _ _ _) Hv) as (t & E & _); [by left|].
  eexists. split; [exact ex_gx_ok|]. split; [lia|]. split; [exact Hv|]. split; [|reflexivity]. unfold ex_past. by rewrite E.
Qed.
Definition ex_past_erased (ks : list N) : gtable := match g_erase_at strict_pf ex_gx (ex_past ks) (8, 0) with Ok (t, _) => t | _ => g_new 20 9 end.
Theorem C126_group_lost_refuted : exists pf c kw vw bmin t m k v x y t', g_reached pf c kw vw bmin t m /\ m = {[k := v]}
  /\ g_find pf c t k = Ok x /\ vn_next (g_view pf c t) x = Ok y /\ vn_eq (g_view pf c t) y end_nav = Ok true
  /\ g_erase_at pf c t y = Ok (t', 1) /\ g_find pf c t' k = Ok end_nav.
Proof.
  exists strict_pf, ex_gx, 20, 9, 1, (ex_past [5]), {[5 := 1]}, 5, 1, (6, 0), (8, 0), (ex_past_erased [5]).
  split; [apply (ex_past_reached [5]); by apply List.Forall_cons|]. split; [done|]. split; [vm_compute; reflexivity|].
  split; [vm_compute; reflexivity|]. split; [vm_compute; reflexivity|]. split; vm_compute; reflexivity.
Qed.
Print Assumptions C126_group_lost_refuted.
(** with two elements it keeps both, size() is 1 and a later insertion is undefined. *)
Theorem C126_group_broken_refuted : exists pf c kw vw bmin fuel t m k1 k2 k3 v t' y, g_reached pf c kw vw bmin t m /\ (64 <= fuel)%nat
  /\ m = <[k2 := v]> {[k1 := v]} /\ k1 <> k2 /\ k3 < 2^kw /\ v < 2^vw /\ vn_next (g_view pf c t) (6, 1) = Ok y
  /\ g_erase_at pf c t y = Ok (t', 1) /\ g_size_of t' = 1
  /\ m_run_op (g_impl pf c fuel) t' (OpFind k1) = Ok (t', OutEntry (Some (k1, v)))
  /\ m_run_op (g_impl pf c fuel) t' (OpFind k2) = Ok (t', OutEntry (Some (k2, v)))
  /\ exists u, g_find_or_insert pf c fuel t' k3 v = Ub u.
Proof.
  exists strict_pf, ex_gx, 20, 9, 1, 64%nat, (ex_past [5; 13]), (<[13 := 1]> {[5 := 1]}), 5, 13, 4, 1, (ex_past_erased [5; 13]), (8, 0).
  split; [apply (ex_past_reached [5; 13]); apply List.Forall_cons; [done|]; by apply List.Forall_cons|]. split; [lia|]. split; [done|]. split; [done|].
  split; [done|]. split; [done|]. split; [vm_compute; reflexivity|]. split; [vm_compute; reflexivity|]. split; [vm_compute; reflexivity|].
  split; [vm_compute; reflexivity|]. split; [vm_compute; reflexivity|]. exists OobRead. vm_compute. reflexivity.
Qed.
Print Assumptions C126_group_broken_refuted.

(** Cases *)
Example C126_group_case : g_reached strict_pf ex_gx 20 9 1 ex_g_tab ex_g_map /\ vn_invalid (g_view strict_pf ex_gx ex_g_tab) (167, 0) = Ok false
  /\ g_bucket_count ex_g_tab = 512.
Proof. split; [exact ex_g_reached|]. split; vm_compute; reflexivity. Qed.
Definition ex_past_c : cmap := match m_run_ops (c_impl loose_pf ex_c64 64) (c_new 20 9) [OpInsert 5 7; OpInsert 13 8] with Ok (t, _) => t | _ => c_new 20 9 end.
Example C126_compact_case : compact_ok loose_pf ex_c64 20 9 1 /\ c_after loose_pf ex_c64 20 9 1 64 ex_past_c (<[13 := 8]> {[5 := 7]})
  /\ exists x y, c_find loose_pf ex_c64 ex_past_c 13 = Ok x /\ vn_invalid (c_view loose_pf ex_c64 ex_past_c) x = Ok false
     /\ vn_next (c_view loose_pf ex_c64 ex_past_c) x = Ok y /\ c_bucket_count ex_past_c = fst y /\ snd y = 0.
Proof.
  split; [exact ex_c64_ok|]. split.
  - exists [OpInsert 5 7; OpInsert 13 8]. eexists. split; [repeat (apply List.Forall_cons; [by split|]); apply List.Forall_nil|].
    split; [vm_compute; reflexivity|]. done.
  - eexists _, _. split; [vm_compute; reflexivity|]. split; [vm_compute; reflexivity|]. split; [vm_compute; reflexivity|]. split; vm_compute; reflexivity.
Qed.
Example C126_table_case : params lax_pf ex_var 20 9 /\ reachable lax_pf ex_var 20 9 (ex_hist ex_var 20 9 ex_ops) (fst (spec_run ∅ ex_ops))
  /\ bucket_count (ex_hist ex_var 20 9 ex_ops) <> 0 /\ ov_size (t_ov (ex_hist ex_var 20 9 ex_ops)) = 0.
Proof.
  split; [exact ex_var_ok|]. split; [apply ex_hist_reach; [exact ex_var_ok|done|apply ex_ops_valid; cbn; lia]|]. split; vm_compute; [discriminate|reflexivity].
Qed.
