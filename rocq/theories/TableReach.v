(** Reachable tables and the facts about them that the property theorems state. *)
From Verif Require Export TableMore.

(** Parameters for which the table is expected to work from the start. *)
Definition params (pf : platform) (c : cfg) (kw vw : N) : Prop := cfg_ok pf c kw vw 1 /\ 3 <= kw.

(** t is reached from a new table by a valid history, after which a finite map holds m.
    A set is a map whose values all read 1. *)
Inductive reachable (pf : platform) (c : cfg) (kw vw : N) : table -> gmap N N -> Prop :=
| reach_map fuel ops t outs : (64 <= fuel)%nat -> c_val c <> KNull -> valid_ops kw vw 1 (bits_max c kw) ops ->
    run_ops pf c fuel (new_table pf c kw vw) ops = Ok (t, outs) ->
    reachable pf c kw vw t (fst (spec_run ∅ ops))
| reach_set fuel ops t outs : (64 <= fuel)%nat -> c_val c = KNull -> Forall (valid_sop kw 1 (bits_max c kw)) ops ->
    run_sops pf c fuel (new_table pf c kw vw) ops = Ok (t, outs) ->
    reachable pf c kw vw t (gset_to_gmap 1 (fst (set_run ∅ ops))).

Lemma params_init pf c kw vw : params pf c kw vw -> init_ok kw 1 (bits_max c kw).
Proof.
  intros [H Hkw]. split; [done|]. pose proof (co_kw _ _ _ _ _ H) as Hk. split.
  - apply (N.log2_up_le_mono 2). lia.
  - unfold bits_max. assert (N.log2_up (N.min (kw - 1) 16) <= N.log2_up (kw - 1)) by (apply N.log2_up_le_mono; lia).
    destruct (c_hash c).
    + pose proof (N.log2_up_lt_lin (kw - 1)). lia.
    + assert (N.log2_up (kw - 1) <= N.log2_up 64) by (apply N.log2_up_le_mono; lia). change (N.log2_up 64) with 6 in *. lia.
Qed.

Section reach.
Context (pf : platform) (c : cfg) (kw vw : N).
Hypothesis P : params pf c kw vw.
Notation bmax := (bits_max c kw).
Notation trep := (trep pf c kw vw 1 bmax True).
Notation trep_full := (trep_full pf c kw vw 1 bmax True).
Notation tinv := (tinv pf c kw vw 1 bmax True).

Lemma reach_ok : table_ok pf c kw vw 1 bmax.
Proof. apply cfg_table_ok, P. Qed.
Lemma reach_ok0 : table_ok0 pf c kw vw 1 bmax.
Proof. apply reach_ok. Qed.
Lemma noarr : c_ov c <> OvArray.
Proof. eapply cfg_noarr, P. Qed.
Lemma noarr_ops ops : c_ov c = OvArray -> Forall grow_op ops.
Proof. by intros ?%noarr. Qed.
Lemma new_trep : trep (new_table pf c kw vw) ∅.
Proof. left. split; [|done]. apply (new_table_zero _ _ _ _ _ _ reach_ok0). Qed.

Lemma null_values t m : c_val c = KNull -> trep t m -> m = gset_to_gmap 1 (dom m).
Proof.
  intros Hn Hr. apply map_eq. intros k. rewrite lookup_gset_to_gmap. destruct (m !! k) as [v|] eqn:Ek.
  - rewrite option_guard_True by (by apply elem_of_dom). f_equal.
    destruct Hr as [[_ ->]|(sl & ess & ovl & H & <-)]; [by rewrite lookup_empty in Ek|].
    apply emap_Some in Ek; [|apply H]. apply (ti_range _ _ _ _ _ _ _ _ _ _ _ H) in Ek as [_ Hv].
    rewrite <-Hv. unfold nv. by rewrite Hn.
  - rewrite option_guard_False; [done|]. by apply not_elem_of_dom.
Qed.

Lemma reachable_rep t m : reachable pf c kw vw t m -> trep t m.
Proof.
  intros [fuel ops t' outs Hf Hv Hops Hrun|fuel ops t' outs Hf Hv Hops Hrun].
  - destruct (run_rep pf c kw vw 1 bmax True fuel reach_ok Hf ops _ ∅ new_trep (params_init _ _ _ _ P) Hv) as (t2 & E & Hr); [|done|by intros ?%noarr|].
    + intros v Hlt. eapply cfg_values; [apply P|done|done].
    + rewrite Hrun in E. by injection E as -> _.
  - destruct (set_run_rep pf c kw vw 1 bmax True fuel reach_ok Hf ops (new_table pf c kw vw) ∅) as (t2 & E & Hr); [|apply (params_init _ _ _ _ P)|done|done|].
    + exists ∅. split; [apply new_trep|]. set_solver.
    + rewrite Hrun in E. injection E as -> _. destruct Hr as (m2 & Hm & <-). by rewrite <-(null_values _ _ Hv Hm).
Qed.
Lemma reachable_keys t m k v : reachable pf c kw vw t m -> m !! k = Some v -> k < 2^kw.
Proof.
  intros Hr Hk. apply reachable_rep in Hr as [[_ ->]|(sl & ess & ovl & H & <-)]; [by rewrite lookup_empty in Hk|].
  apply emap_Some in Hk; [|apply H]. by apply (ti_range _ _ _ _ _ _ _ _ _ _ _ H) in Hk as [[? _] _].
Qed.

(** Refinement of histories. *)
Lemma map_history fuel ops : c_val c <> KNull -> (64 <= fuel)%nat -> valid_ops kw vw 1 bmax ops ->
  exists t, run_ops pf c fuel (new_table pf c kw vw) ops = Ok (t, snd (spec_run ∅ ops)).
Proof.
  intros Hv Hf Hops.
  destruct (run_rep pf c kw vw 1 bmax True fuel reach_ok Hf ops _ ∅ new_trep (params_init _ _ _ _ P) Hv) as (t & E & _); [|done|by intros ?%noarr|by exists t].
  intros v Hlt. eapply cfg_values; [apply P|done|done].
Qed.
Lemma set_history fuel ops : c_val c = KNull -> (64 <= fuel)%nat -> Forall (valid_sop kw 1 bmax) ops ->
  exists t, run_sops pf c fuel (new_table pf c kw vw) ops = Ok (t, snd (set_run ∅ ops)).
Proof.
  intros Hv Hf Hops.
  destruct (set_run_rep pf c kw vw 1 bmax True fuel reach_ok Hf ops (new_table pf c kw vw) ∅) as (t2 & E & Hr); [|apply (params_init _ _ _ _ P)|done|done|by exists t2].
  exists ∅. split; [apply new_trep|]. set_solver.
Qed.

(** Histories can be continued. *)
Lemma run_ops_app fuel : forall ops1 ops2 t, run_ops pf c fuel t (ops1 ++ ops2) =
  (r ← run_ops pf c fuel t ops1; let '(t1, o1) := (r : table * list out) in
   r2 ← run_ops pf c fuel t1 ops2; let '(t2, o2) := (r2 : table * list out) in Ok (t2, o1 ++ o2)).
Proof.
  induction ops1 as [|o ops1 IH]; intros ops2 t; cbn [app run_ops].
  - cbn [mbind res_bind]. by destruct (run_ops pf c fuel t ops2) as [[]| | |].
  - destruct (run_op pf c fuel t o) as [[t1 x]| | |]; cbn [mbind res_bind]; [|done..]. rewrite IH.
    destruct (run_ops pf c fuel t1 ops1) as [[t2 xs]| | |]; cbn [mbind res_bind]; [|done..].
    by destruct (run_ops pf c fuel t2 ops2) as [[]| | |].
Qed.

Lemma insert_fact t m fuel k v : reachable pf c kw vw t m -> c_val c <> KNull -> (64 <= fuel)%nat -> k < 2^kw -> v < 2^vw ->
  exists t' x, find_or_insert pf c fuel t k v = Ok (t', x)
    /\ nav_invalid pf t' x = Ok false /\ nav_key pf c t' x = Ok k /\ nav_value pf c t' x = Ok (default v (m !! k))
    /\ (is_Some (m !! k) -> t' = t) /\ trep_full t' (match m !! k with Some _ => m | None => <[k := v]> m end)
    /\ (forall v', v' < 2^vw -> exists t'', write_value pf c t' x v' = Ok t'' /\ trep_full t'' (<[k := v']> m)).
Proof.
  intros Hr Hv Hf Hk Hvv. apply reachable_rep in Hr.
  assert (Hnv : forall v, v < 2^vw -> nv c vw v = v) by (intros; eapply cfg_values; [apply P|done|done]).
  destruct (insert_rep pf c kw vw 1 bmax True fuel reach_ok Hf t m k v Hr) as (t' & x & E & sl & ess & ovl & H & Hres).
  - intros _. apply (params_init _ _ _ _ P).
  - apply (kdom_intro _ _ _ noarr Hk).
  - left. by apply Hnv.
  - exists t', x. split; [done|]. rewrite (Hnv v) in Hres by done.
    assert (Hent : nav_entry pf t' ess x = Some (k, default v (m !! k))
       /\ emap (concat ess ++ ovl) = match m !! k with Some _ => m | None => <[k := v]> m end).
    { destruct (m !! k) as [v0|]; [destruct Hres as (_ & ? & ?)|destruct Hres as (? & ?)]; done. }
    destruct Hent as [Hent Hm].
    destruct (nav_entry_read _ _ _ _ _ _ _ reach_ok0 _ _ _ _ _ _ _ H Hent) as (H1 & H2 & H3).
    do 3 (split; [done|]). split; [|split].
    + intros [v0 Hs]. rewrite Hs in Hres. by destruct Hres as [-> _].
    + by exists sl, ess, ovl.
    + intros v' Hv'. destruct (write_rep pf c kw vw 1 bmax True reach_ok t' sl ess ovl x k _ v' H Hent) as (t'' & Ew & Hw); [by apply Hnv|].
      exists t''. split; [done|]. rewrite Hm in Hw. destruct (m !! k); [done|]. by rewrite insert_insert in Hw.
Qed.

Lemma full_shows t m : trep_full t m -> shows pf c kw t m.
Proof. intros H. apply (trep_shows _ _ _ _ _ _ True reach_ok0 _ _ noarr). by right. Qed.
Lemma rep_shows t m : trep t m -> shows pf c kw t m.
Proof. apply (trep_shows _ _ _ _ _ _ True reach_ok0 _ _ noarr). Qed.

Lemma erase_fact t m k : reachable pf c kw vw t m -> k < 2^kw ->
  exists t', erase pf c t k = Ok (t', match m !! k with Some _ => 1 | None => 0 end) /\ trep t' (delete k m).
Proof.
  intros Hr Hk. apply reachable_rep in Hr as [[Hz ->]|(sl & ess & ovl & H & Hm)].
  - rewrite (erase_zero pf c kw vw) by done. exists t. rewrite lookup_empty. split; [done|]. left. split; [done|apply delete_empty].
  - pose proof (erase_spec _ _ _ _ _ _ _ reach_ok0 _ _ _ _ k (fun _ => noarr) H (kdom_intro _ _ _ noarr Hk)) as He. rewrite Hm in He. destruct (m !! k) as [v|] eqn:Ek.
    + destruct He as (t' & sl' & ess' & ovl' & E & H' & _ & HP). exists t'. split; [done|]. right. exists sl', ess', ovl'.
      split; [done|]. rewrite <-Hm. eapply emap_delete; [apply H|exact HP].
    + exists t. split; [done|]. rewrite delete_notin by done. right. by exists sl, ess, ovl.
Qed.
(** Erasing through a valid navigator removes the key it refers to. *)
Lemma erase_at_fact t m x : reachable pf c kw vw t m -> nav_invalid pf t x = Ok false ->
  exists k v t', nav_key pf c t x = Ok k /\ m !! k = Some v /\ erase_at pf c t x = Ok (t', 1) /\ trep t' (delete k m).
Proof.
  intros Hr Hx. apply reachable_rep in Hr. destruct (trep_valid_nav _ _ _ _ _ _ True reach_ok0 _ _ _ Hr Hx) as (k & v & Hk & Hv & Hm).
  destruct Hr as [[Hz ->]|(sl & ess & ovl & H & Em)]; [by rewrite lookup_empty in Hm|].
  destruct (nav_valid_entry _ _ _ _ _ _ _ reach_ok0 _ _ _ _ _ H Hx) as ([k1 v1] & He).
  destruct (nav_entry_read _ _ _ _ _ _ _ reach_ok0 _ _ _ _ _ _ _ H He) as (_ & Hk1 & Hv1).
  rewrite Hk in Hk1. injection Hk1 as <-. rewrite Hv in Hv1. injection Hv1 as <-.
  destruct (erase_at_spec _ _ _ _ _ _ _ reach_ok0 _ _ _ _ _ _ _ (fun _ => noarr) H He) as (t' & sl' & ess' & ovl' & E & H' & _ & HP & _).
  exists k, v, t'. do 3 (split; [done|]). right. exists sl', ess', ovl'. split; [done|]. rewrite <-Em.
  eapply emap_delete; [apply H|exact HP].
Qed.

Lemma reserve_fact t m fuel n : reachable pf c kw vw t m -> (64 <= fuel)%nat -> 2 <= n <= 2^bmax ->
  exists t', reserve pf c fuel t n = Ok t' /\ trep_full t' m /\ n <= bucket_count t' /\ exists b, b <= bmax /\ bucket_count t' = 2^b.
Proof.
  intros Hr Hf Hn. apply reachable_rep in Hr.
  destruct (log2_up_range pf c kw vw 1 bmax fuel reach_ok Hf n) as [Hn1 Hb]; [change (2^1/2) with 1; lia|lia|].
  assert (Hup : n <= 2^N.log2_up n) by (apply N.log2_up_spec; lia).
  destruct Hr as [[Hz ->]|(sl & ess & ovl & H & Hm)].
  - destruct (reserve_zero _ _ _ _ _ _ True reach_ok0 fuel t n Hz Hn1 Hb) as (t' & sl' & ess' & E & H' & Hb' & Hc).
    exists t'. split; [done|]. split; [exists sl', ess', []; by rewrite Hc|].
    destruct (tinv_bc _ _ _ _ _ _ _ reach_ok0 _ _ _ _ H') as [_ ->]. rewrite Hb'. split; [done|]. exists (N.log2_up n). split; [lia|done].
  - destruct (reserve_spec _ _ _ _ _ _ _ reach_ok0 fuel t sl ess ovl n (ok_spread _ _ _ _ _ _ reach_ok) H Hn1 Hb) as (t' & sl' & ess' & ovl' & E & H' & Hb' & HP).
    { pose proof (ok_b _ _ _ _ _ _ reach_ok0). lia. }
    exists t'. split; [done|]. split; [exists sl', ess', ovl'; split; [done|]; rewrite <-Hm; apply emap_perm; [apply H'|done]|].
    destruct (tinv_bc _ _ _ _ _ _ _ reach_ok0 _ _ _ _ H') as [_ ->].
    split; [etrans; [exact Hup|]; by apply N.pow_le_mono_r|]. exists (t_b t'). split; [|done]. pose proof (ti_b _ _ _ _ _ _ _ _ _ _ _ H'). lia.
Qed.

Lemma reserve_one_fact t m fuel : reachable pf c kw vw t m -> (64 <= fuel)%nat -> exists t', reserve pf c fuel t 1 = Ok t' /\ trep t' m.
Proof.
  intros Hr Hf. apply reachable_rep in Hr. pose proof (ok_b _ _ _ _ _ _ reach_ok0) as Hb.
  destruct Hr as [[Hz ->]|(sl & ess & ovl & H & Hm)].
  - destruct (reserve_one_zero pf c kw vw fuel t Hz) as (t' & E & Hz'). exists t'. split; [done|]. by left.
  - destruct (reserve_one _ _ _ _ _ _ _ reach_ok0 fuel t sl ess ovl (ok_spread _ _ _ _ _ _ reach_ok) (params_init _ _ _ _ P) H) as (t' & E & Ht'); [lia|].
    exists t'. split; [done|]. destruct Ht' as [[Hz HE]|(sl' & ess' & ovl' & H' & HP)].
    + left. split; [done|]. by rewrite <-Hm, HE.
    + right. exists sl', ess', ovl'. split; [done|]. rewrite <-Hm. apply emap_perm; [apply H'|done].
Qed.
(** All later histories on a table that holds m. *)
Lemma rep_history t m fuel ops : trep t m -> c_val c <> KNull -> (64 <= fuel)%nat -> valid_ops kw vw 1 bmax ops ->
  exists t', run_ops pf c fuel t ops = Ok (t', snd (spec_run m ops)).
Proof.
  intros Hr Hv Hf Hops.
  assert (Hnv : forall v, v < 2^vw -> nv c vw v = v) by (intros; eapply cfg_values; [apply P|done|done]).
  destruct (run_rep pf c kw vw 1 bmax True fuel reach_ok Hf ops _ m Hr (params_init _ _ _ _ P) Hv Hnv Hops (noarr_ops ops)) as (t' & E & _). by exists t'.
Qed.

Lemma shrink_fact t m : reachable pf c kw vw t m ->
  exists t', shrink_to_fit pf c t = Ok t' /\ trep t' m
    /\ (forall x, iter_at pf c t' x = iter_at pf c t x)
    /\ (c_ov c = OvDummy -> capacity c t' = Ok (TableModel.size t')
        /\ forall f, (size m <= f)%nat -> forward pf c f t' = forward pf c f t).
Proof.
  intros Hr. apply reachable_rep in Hr. destruct Hr as [[Hz ->]|(sl & ess & ovl & H & Hm)].
  - exists t. rewrite (shrink_zero pf c kw vw) by done. split; [done|]. split; [by left|]. split; [done|]. intros _. split; [|done].
    destruct Hz as (Hb & Hn & _). unfold capacity, TableModel.size. by rewrite Hb, Hn.
  - destruct (shrink_spec _ _ _ _ _ _ _ reach_ok0 _ _ _ _ H) as (t' & sl' & E & H' & Hb & HF). exists t'. split; [done|].
    split; [right; by exists sl', ess, ovl|].
    assert (Ho : t_ov t' = t_ov t).
    { unfold shrink_to_fit in E. destruct (t_b t =? 0); [by injection E as <-|]. destruct (t_slots t); [|done].
      destruct (rmap _ _); try done. cbn [mbind res_bind] in E. by injection E as <-. }
    destruct (same_navs _ _ _ _ _ _ _ reach_ok0 _ _ _ _ _ _ H H' Hb Ho) as (_ & Hit & Hfw).
    { eapply Forall2_impl; [exact HF|]. by intros s s' [? _]. }
    split; [done|]. intros Hd. split.
    + by apply (shrink_capacity _ _ _ _ _ _ _ reach_ok0 _ _ _ _ _ _ I Hd H H').
    + intros f Hf. destruct (dummy_nil _ _ _ _ _ _ _ _ _ _ _ H Hd) as [_ ->]. apply Hfw; [|done].
      rewrite <-Hm in Hf. rewrite emap_size in Hf by apply H. by rewrite app_nil_r in Hf.
Qed.
Lemma capacity_fact t m : reachable pf c kw vw t m -> c_ov c = OvDummy -> bucket_count t <= 2^56 ->
  exists cap, capacity c t = Ok cap /\ TableModel.size t <= cap.
Proof.
  intros Hr Hd Hb. apply reachable_rep in Hr. destruct Hr as [[Hz ->]|(sl & ess & ovl & H & Hm)].
  - destruct Hz as (Hb0 & Hn & _). unfold capacity, TableModel.size. rewrite Hb0, Hn. by exists 0.
  - apply (capacity_ge _ _ _ _ _ _ _ reach_ok0 _ _ _ _ I Hd H).
    destruct (tinv_bc _ _ _ _ _ _ _ reach_ok0 _ _ _ _ H) as [_ E]. rewrite E in Hb. by apply N.pow_le_mono_r_iff in Hb.
Qed.

Lemma clear_fact t m : reachable pf c kw vw t m -> exists t', clear pf c t = Ok t' /\ trep t' ∅ /\ TableModel.size t' = 0.
Proof.
  intros Hr. apply reachable_rep in Hr.
  assert (Hz : exists t', clear pf c t = Ok t' /\ tzero pf c kw vw t').
  { destruct Hr as [[Hz ->]|(sl & ess & ovl & H & Hm)]; [by apply (clear_zero _ _ _ _ _ noarr)|by apply (clear_spec _ _ _ _ _ _ _ reach_ok0 _ _ _ _ noarr H)]. }
  destruct Hz as (t' & E & Hz). exists t'. split; [done|]. split; [by left|]. unfold TableModel.size. by destruct Hz as (_ & -> & _).
Qed.
Lemma clear_history t m t' fuel ops : reachable pf c kw vw t m -> clear pf c t = Ok t' -> c_val c <> KNull -> (64 <= fuel)%nat ->
  valid_ops kw vw 1 bmax ops ->
  exists t1 t2 outs, run_ops pf c fuel t' ops = Ok (t1, outs) /\ run_ops pf c fuel (new_table pf c kw vw) ops = Ok (t2, outs).
Proof.
  intros Hr Hc Hv Hf Hops. destruct (clear_fact _ _ Hr) as (t1 & E & H1 & _). rewrite Hc in E. injection E as <-.
  assert (Hnv : forall v, v < 2^vw -> nv c vw v = v) by (intros; eapply cfg_values; [apply P|done|done]).
  destruct (run_rep pf c kw vw 1 bmax True fuel reach_ok Hf ops _ ∅ H1 (params_init _ _ _ _ P) Hv Hnv Hops (noarr_ops ops)) as (t1 & E1 & _).
  destruct (run_rep pf c kw vw 1 bmax True fuel reach_ok Hf ops _ ∅ new_trep (params_init _ _ _ _ P) Hv Hnv Hops (noarr_ops ops)) as (t2 & E2 & _).
  by exists t1, t2, (snd (spec_run ∅ ops)).
Qed.
Lemma clear_set_history t m t' fuel ops : reachable pf c kw vw t m -> clear pf c t = Ok t' -> c_val c = KNull -> (64 <= fuel)%nat ->
  Forall (valid_sop kw 1 bmax) ops ->
  exists t1 t2 outs, run_sops pf c fuel t' ops = Ok (t1, outs) /\ run_sops pf c fuel (new_table pf c kw vw) ops = Ok (t2, outs).
Proof.
  intros Hr Hc Hv Hf Hops. destruct (clear_fact _ _ Hr) as (t1 & E & H1 & _). rewrite Hc in E. injection E as <-.
  destruct (set_run_rep pf c kw vw 1 bmax True fuel reach_ok Hf ops t' ∅) as (t1 & E1 & _); [exists ∅; split; [done|set_solver]|apply (params_init _ _ _ _ P)|done|done|].
  destruct (set_run_rep pf c kw vw 1 bmax True fuel reach_ok Hf ops (new_table pf c kw vw) ∅) as (t2 & E2 & _); [exists ∅; split; [apply new_trep|set_solver]|apply (params_init _ _ _ _ P)|done|done|].
  by exists t1, t2, (snd (set_run ∅ ops)).
Qed.

Lemma limits_fact t m : reachable pf c kw vw t m ->
  (forall bk s, bk < bucket_count t -> get_slot t bk = Ok s ->
     s_size s <= c_maxb c /\ s_size s <= 255
     /\ (N.to_nat (s_size s) <= block_room (c_key c) (qwidth c t) (s_keys s))%nat
     /\ (1 <= vw -> (N.to_nat (s_size s) <= block_room (c_val c) (vwidth t) (s_vals s))%nat))
  /\ (forall bk, bk < bucket_count t -> exists s, get_slot t bk = Ok s)
  /\ (c_ov c = OvDummy -> N.of_nat (size m) <= c_maxb c * bucket_count t)
  /\ (c_ov c = OvDummy -> c_maxb c * bucket_count t < 2^64 -> TableModel.size t <= max_size c t).
Proof.
  intros Hr. apply reachable_rep in Hr. pose proof (proj2 (rep_shows _ _ Hr)) as Hsz.
  destruct Hr as [[Hz ->]|(sl & ess & ovl & H & Hm)].
  - destruct Hz as (Hb & Hn & _). unfold bucket_count, TableModel.size. rewrite Hb, Hn. cbn [N.eqb].
    split; [intros; lia|]. split; [intros; lia|]. split; [intros; rewrite map_size_empty; lia|]. intros. lia.
  - assert (Hf : trep_full t m) by (by exists sl, ess, ovl). split; [|split; [|split]].
    + intros bk s _ Hg. destruct (bucket_limits _ _ _ _ _ _ _ reach_ok0 _ _ _ _ Hf Hg) as (H1 & H2 & H3 & H4).
      split; [done|]. split; [done|]. split; [done|]. intros Hvw. apply H4. lia.
    + intros bk Hbk. destruct (tinv_bc _ _ _ _ _ _ _ reach_ok0 _ _ _ _ H) as [_ E]. rewrite E in Hbk.
      destruct (tinv_slot _ _ _ _ _ _ _ _ _ _ _ bk H Hbk) as (s & _ & Hg & _). by exists s.
    + apply (size_limit _ _ _ _ _ _ True reach_ok0 _ _ Hf).
    + intros Hd Hlt. pose proof (size_limit _ _ _ _ _ _ True reach_ok0 _ _ Hf Hd) as Hl. rewrite Hsz. unfold max_size.
      rewrite u64_small by done. rewrite N.mod_small by lia. done.
Qed.

(** Iteration *)
Lemma iterate_fact t m : reachable pf c kw vw t m -> ov_size (t_ov t) = 0 ->
  exists l, NoDup (map fst l) /\ list_to_map l = m /\ length l = size m
    /\ (forall f, (length l <= f)%nat -> forward pf c f t = Ok l)
    /\ (m <> ∅ -> forall f, (length l <= f)%nat -> backward pf c f t = Ok (rev l)
         /\ exists t', drain pf c f t = Ok (t', rev l) /\ TableModel.size t' = 0 /\ shows pf c kw t' ∅).
Proof.
  intros Hr Ho. apply reachable_rep in Hr. destruct Hr as [[Hz ->]|(sl & ess & ovl & H & Hm)].
  - exists []. split; [constructor|]. split; [done|]. split; [by rewrite map_size_empty|]. split; [|done].
    intros f _. pose proof (end_nav_invalid_zero _ _ _ _ _ Hz) as Hi. destruct Hz as (Hb & _). unfold forward, begin_nav, bucket_count. rewrite Hb.
    cbn [N.eqb N.to_nat begin_scan]. rewrite Ho. cbn [N.ltb N.compare mbind res_bind].
    destruct f; cbn [iterate]; unfold nav_eq; rewrite Hi; done.
  - assert (ovl = []) as ->.
    { rewrite (ov_size_spec _ _ _ _ _ _ (ti_ov _ _ _ _ _ _ _ _ _ _ _ H)) in Ho. destruct ovl; [done|cbn in Ho; lia]. }
    rewrite app_nil_r in Hm. pose proof (ti_nodup _ _ _ _ _ _ _ _ _ _ _ H) as Hnd. rewrite app_nil_r in Hnd.
    exists (concat ess). split; [exact Hnd|]. split; [done|]. split; [by rewrite <-Hm, emap_size by done|].
    split; [apply (forward_spec _ _ _ _ _ _ _ reach_ok0 _ _ _ H)|]. intros Hne f Hf.
    assert (Hc : concat ess <> []) by (intros Hc; apply Hne; by rewrite <-Hm, Hc).
    split; [by apply (backward_spec _ _ _ _ _ _ _ reach_ok0 _ _ _ H Hc)|].
    destruct (drain_all _ _ _ _ _ _ _ reach_ok0 _ _ _ H Hc f Hf) as (t' & sl' & ess' & E & H' & Hc'). exists t'. split; [done|].
    assert (Hs : shows pf c kw t' ∅).
    { apply rep_shows. right. exists sl', ess', []. split; [done|]. by rewrite Hc'. }
    split; [|done]. rewrite (proj2 Hs). by rewrite map_size_empty.
Qed.

(** Growing terminates, for maps and sets. *)
Lemma growth_fact t m fuel k v : reachable pf c kw vw t m -> (64 <= fuel)%nat -> k < 2^kw -> c_val c = KNull \/ v < 2^vw ->
  exists t' x, find_or_insert pf c fuel t k v = Ok (t', x) /\ nav_key pf c t' x = Ok k
    /\ bucket_count t' <= 2^bmax /\ (1 <= qwidth c t')%nat.
Proof.
  intros Hr Hf Hk Hvv. apply reachable_rep in Hr.
  destruct (insert_rep pf c kw vw 1 bmax True fuel reach_ok Hf t m k v Hr) as (t' & x & E & sl & ess & ovl & H & Hres).
  - intros _. apply (params_init _ _ _ _ P).
  - apply (kdom_intro _ _ _ noarr Hk).
  - destruct (c_val c) eqn:Ev; [left..|by right];
      (eapply cfg_values; [apply P|by rewrite Ev|by destruct Hvv]).
  - exists t', x. split; [done|].
    assert (Hent : exists v1, nav_entry pf t' ess x = Some (k, v1)).
    { destruct (m !! k) as [v0|]; [destruct Hres as (_ & ? & ?)|destruct Hres as (? & ?)]; by eexists. }
    destruct Hent as [v1 Hent]. split; [by apply (nav_entry_read _ _ _ _ _ _ _ reach_ok0 _ _ _ _ _ _ _ H Hent)|].
    destruct (tinv_bc _ _ _ _ _ _ _ reach_ok0 _ _ _ _ H) as [_ ->]. pose proof (ti_b _ _ _ _ _ _ _ _ _ _ _ H) as Hb.
    split; [apply N.pow_le_mono_r; lia|]. unfold qwidth, remainder_width, hm. cbn [h_kind h_width]. unfold bits_max in Hb.
    rewrite (ti_kw _ _ _ _ _ _ _ _ _ _ _ H). pose proof (co_kw _ _ _ _ _ (proj1 P)).
    destruct (c_hash c); [rewrite sub8_small by lia|]; lia.
Qed.

(** rbegin_nav on a table with buckets but without elements runs below index 0. *)
Lemma rbegin_scan_empty t sl : t_slots t = Some sl -> N.of_nat (length sl) <= 2^63 -> Forall (fun s => s_size s = 0) sl ->
  forall fuel bk, bk < N.of_nat (length sl) -> (N.to_nat bk + 1 < fuel)%nat -> rbegin_scan fuel t bk = Ub OobRead.
Proof.
  intros Hsl Hlen Hz. induction fuel as [|f IH]; intros bk Hbk Hf; [lia|]. cbn [rbegin_scan].
  unfold bucket_size at 1, get_slot at 1. rewrite Hsl, (proj2 (N.ltb_lt _ _)) by done.
  destruct (lookup_lt_is_Some_2 sl (N.to_nat bk)) as [s Hs]; [lia|]. rewrite Hs. cbn [of_option mbind res_bind].
  rewrite Forall_lookup in Hz. rewrite (Hz _ _ Hs). cbn [N.ltb N.compare].
  destruct (decide (bk = 0)) as [->|Hne].
  - destruct f as [|f]; [lia|]. cbn [rbegin_scan]. unfold bucket_size, get_slot. rewrite Hsl.
    assert (E : sub64 0 1 = 18446744073709551615) by reflexivity. rewrite E.
    assert (2^63 = 9223372036854775808) by reflexivity.
    rewrite (proj2 (N.ltb_ge _ _)) by lia. done.
  - assert (2^63 < 2^64) by reflexivity. rewrite sub64_small by lia. apply IH; lia.
Qed.
Lemma rbegin_fact t : reachable pf c kw vw t ∅ -> c_ov c = OvDummy ->
  rbegin_nav t = if bucket_count t =? 0 then Ok end_nav else Ub OobRead.
Proof.
  intros Hr Hd. apply reachable_rep in Hr. destruct Hr as [[Hz _]|(sl & ess & ovl & H & Hm)].
  - destruct Hz as (Hb & Hn & _ & _ & Ho & _). unfold rbegin_nav, bucket_count. rewrite Hb. cbn [N.eqb].
    assert (ov_size (t_ov t) = 0) as ->; [|done]. exact (ov_zero_size _ _ _ Ho).
  - destruct (dummy_nil _ _ _ _ _ _ _ _ _ _ _ H Hd) as [Hod ->]. unfold rbegin_nav. rewrite Hod. cbn [ov_size N.ltb N.compare].
    destruct (tinv_bc _ _ _ _ _ _ _ reach_ok0 _ _ _ _ H) as [_ ->]. pose proof (ti_b _ _ _ _ _ _ _ _ _ _ _ H) as Hb.
    pose proof (pow2_pos (t_b t)) as Hp. rewrite (proj2 (N.eqb_neq _ _)) by lia.
    pose proof (ok_b _ _ _ _ _ _ reach_ok0) as Hob.
    assert (2^t_b t <= 2^63) by (apply N.pow_le_mono_r; lia). assert (2^63 < 2^64) by reflexivity.
    rewrite sub64_small by lia. pose proof (ti_len _ _ _ _ _ _ _ _ _ _ _ H) as Hl.
    eapply rbegin_scan_empty; [apply H|lia| |lia|lia].
    assert (Hc : concat ess = []).
    { destruct (concat ess ++ []) as [|[k v] l] eqn:E; [by apply app_nil in E as [? _]|]. exfalso.
      apply (f_equal (.!! k)) in Hm. rewrite lookup_empty in Hm. cbn in Hm. by rewrite lookup_insert in Hm. }
    pose proof (ti_repr _ _ _ _ _ _ _ _ _ _ _ H) as HF. clear -HF Hc. induction HF as [|s es sl ess Hs HF IH]; [constructor|].
    cbn [concat] in Hc. apply app_nil in Hc as [-> Hc]. constructor; [by destruct Hs as (-> & _)|auto].
Qed.
End reach.

(** Histories of a table whose remainder fits only from bmin bucket bits on, after a reservation. *)
Lemma narrow_history pf c kw vw bmin fuel n ops : cfg_ok pf c kw vw bmin -> c_val c <> KNull -> (64 <= fuel)%nat ->
  2^bmin / 2 < n <= 2^(bits_max c kw) -> valid_ops kw vw bmin (bits_max c kw) ops -> Forall (fun o => o <> OpClear) ops ->
  exists t, run_ops pf c fuel (new_table pf c kw vw) (OpReserve n :: ops) = Ok (t, snd (spec_run ∅ (OpReserve n :: ops))).
Proof.
  intros H Hv Hf Hn Hops Hc. pose proof (cfg_table_ok _ _ _ _ _ H) as OK. pose proof (ok_base _ _ _ _ _ _ OK) as OK0.
  destruct (log2_up_range pf c kw vw bmin (bits_max c kw) fuel OK Hf n) as [Hn1 Hb]; [lia|lia|].
  destruct (reserve_zero _ _ _ _ _ _ True OK0 fuel (new_table pf c kw vw) n) as (t' & sl' & ess' & E & H' & Hb' & Hc'); [by apply (new_table_zero _ _ _ _ _ _ OK0)|done|done|].
  destruct (run_full pf c kw vw bmin (bits_max c kw) True fuel OK Hf ops t' ∅) as (t2 & E2 & _); [|done| |done|by intros ?%(cfg_noarr _ _ _ _ _ H)|done|].
  - exists sl', ess', []. split; [done|]. by rewrite Hc'.
  - intros v Hlt. eapply cfg_values; [apply H|done|done].
  - exists t2. cbn [run_ops run_op spec_run spec_step]. rewrite E. cbn [mbind res_bind]. rewrite E2. cbn [mbind res_bind].
    by destruct (spec_run ∅ ops).
Qed.

(** maxb + 1 keys that agree in the low 63 bits of their hash values cannot all be inserted. *)
Definition insert_all (pf : platform) (c : cfg) (fuel : nat) (ks : list N) (t : table) : res table :=
  rfold (fun t k => r ← find_or_insert pf c fuel t k 0; Ok (fst (r : table * nav))) ks t.
Lemma colliding_fact pf c kw vw f ks : cfg_ok0 pf c kw vw 1 -> 3 <= kw -> c_ov c = OvDummy -> c_hash c = HAdapter f ->
  NoDup ks -> N.of_nat (length ks) = c_maxb c + 1 -> (forall k, k ∈ ks -> k < 2^kw) ->
  (forall k k', k ∈ ks -> k' ∈ ks -> u64 (f k) mod 2^63 = u64 (f k') mod 2^63) ->
  forall fuel r, insert_all pf c fuel ks (new_table pf c kw vw) <> Ok r.
Proof.
  intros H Hkw Hd Hh Hnd Hlen Hks Hall fuel r. pose proof (cfg_table_ok0 _ _ _ _ _ H) as OK0.
  pose proof (co_maxb _ _ _ _ _ H) as Hm. pose proof (co_kw _ _ _ _ _ H) as Hk64.
  assert (Hbm : bits_max c kw = 63) by (unfold bits_max; by rewrite Hh).
  destruct fuel as [|fuel]; [by destruct ks; [cbn in Hlen; lia|]|].
  (* the first insertion allocates *)
  destruct ks as [|k0 ks]; [cbn in Hlen; lia|].
  assert (Hi : init_ok kw 1 (bits_max c kw)).
  { split; [done|]. rewrite Hbm. split; [apply (N.log2_up_le_mono 2); lia|].
    assert (N.log2_up (N.min (kw - 1) 16) <= N.log2_up 64) by (apply N.log2_up_le_mono; lia). change (N.log2_up 64) with 6 in *. lia. }
  destruct (find_or_insert_zero _ _ _ _ _ _ True OK0 fuel (new_table pf c kw vw) k0 0 (new_table_zero _ _ _ _ _ _ OK0) Hi)
    as (t1 & _ & E1 & sl & ess & H1 & Hc).
  assert (E : insert_all pf c (S fuel) (k0 :: ks) (new_table pf c kw vw) = insert_all pf c (S fuel) (k0 :: ks) t1).
  { unfold insert_all. cbn [rfold]. by rewrite E1. }
  rewrite E. clear E E1.
  destruct (exists_last (l := k0 :: ks)) as (ks1 & k1 & Es); [done|]. rewrite Es in *. clear Es.
  unfold insert_all. rewrite rfold_app.
  rewrite app_length in Hlen. cbn [length] in Hlen.
  destruct (push_many pf c kw vw 1 (bits_max c kw) True OK0 fuel Hd ks1 t1 []) as (t2 & E2 & Ef & Ht2 & HE2).
  - exists sl, ess, []. split; [done|]. split; [lia|]. by rewrite Hc.
  - rewrite app_nil_r. by apply NoDup_app in Hnd as [? _].
  - intros k Hk. apply kdom_intro; [congruence|]. apply Hks. apply elem_of_app. by left.
  - cbn [length]. lia.
  - rewrite Ef. cbn [mbind res_bind rfold].
    cbn [keys_of map] in HE2. rewrite app_nil_r in HE2.
    destruct (find_or_insert pf c (S fuel) t2 k1 0) as [r1| | |] eqn:E3; [|done..]. exfalso. revert E3.
    apply (stuck pf c kw vw 1 (bits_max c kw) True OK0 Hbm Hd (S fuel) t2 E2 k1 0 Ht2).
    + transitivity (N.of_nat (length ks1)); [|lia]. f_equal. apply Permutation_length in HE2. unfold keys_of in HE2. by rewrite map_length in HE2.
    + apply kdom_intro; [congruence|]. apply Hks. apply elem_of_app. right. by constructor.
    + rewrite HE2. apply NoDup_app in Hnd as (_ & Hn & _). intros Hin. apply (Hn _ Hin). by constructor.
    + intros b k' Hb Hk'. rewrite HE2 in Hk'.
      assert (E63 : u64 (f k') mod 2^63 = u64 (f k1) mod 2^63).
      { apply Hall; apply elem_of_app; [by left|right; by constructor]. }
      unfold hb, hmk. rewrite Hh. rewrite !hash_map_adapter by lia.
      assert (Hred : forall x, x mod 2^b = (x mod 2^63) mod 2^b).
      { intros x. replace 63 with (b + (63 - b)) by lia. rewrite N.pow_add_r, N.mod_mul_r by (apply N.pow_nonzero; done).
        rewrite (N.mul_comm (2^b)), N.mod_add, N.mod_mod by (apply N.pow_nonzero; done). done. }
      rewrite Hred, E63, <-Hred. done.
Qed.
