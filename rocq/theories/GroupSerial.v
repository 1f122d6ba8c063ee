(** Iteration and serialization of group_chaining_table. *)
From Verif Require Import SerialProofs.
From Verif Require Export GroupTable.

Section iter.
Context (er : Prop) (pf : platform) (c : gcfg) (kw vw bmin : N).
Hypothesis OK : group_ok c kw vw bmin.
Notation grep := (grep er pf c kw vw bmin).
Notation grepr := (grepr er pf c kw vw).

(** ** begin *)
Lemma first_bucket_spec b g bss : grepr b g bss -> forall n i, (i + n = length bss)%nat ->
  (exists r es, g_first_bucket g n i = Ok (Some r) /\ (i <= r)%nat /\ bss !! r = Some es /\ es <> []
     /\ (forall j es, (i <= j < r)%nat -> bss !! j = Some es -> es = []))
  \/ (g_first_bucket g n i = Ok None /\ forall j es, (i <= j)%nat -> bss !! j = Some es -> es = []).
Proof.
  intros Hr. induction n as [|n IH]; intros i Hi; cbn [g_first_bucket].
  - right. split; [done|]. intros j es Hj He. apply lookup_lt_Some in He. lia.
  - destruct (lookup_lt_is_Some_2 bss i) as (es & He); [lia|].
    destruct (grepr_bucketsize _ _ _ _ _ _ _ _ _ _ Hr He) as [-> _]. cbn [mbind res_bind]. destruct es as [|e es].
    + cbn [length Nat.ltb Nat.leb]. destruct (IH (S i)) as [(r & es & E & Hir & Her & Hne & Hemp)|[E Hemp]]; [lia|..].
      * left. exists r, es. split; [done|]. split; [lia|]. split; [done|]. split; [done|]. intros j es' Hj He'.
        destruct (decide (j = i)) as [->|]; [congruence|]. apply (Hemp j); [lia|done].
      * right. split; [done|]. intros j es' Hj He'. destruct (decide (j = i)) as [->|]; [congruence|]. apply (Hemp j); [lia|done].
    + left. exists i, (e :: es). split; [done|]. split; [lia|]. split; [done|]. split; [done|]. intros; lia.
Qed.
Lemma chunk_empty_nth n ess gi : concat (chunk n ess gi) = [] -> forall r, (r < n)%nat -> nthb ess (gi * n + r) = [].
Proof.
  intros H r Hr. pose proof (concat_length_pos _ _ _ (chunk_lookup n ess gi r Hr)) as Hle. rewrite H in Hle. cbn in Hle.
  apply nil_length_inv. lia.
Qed.
Lemma empty_group b g n ess gi : grepr b g (chunk n ess gi) -> kv_empty g = true -> forall r, (r < n)%nat -> nthb ess (gi * n + r) = [].
Proof.
  intros Hr He. apply chunk_empty_nth. unfold kv_empty in He. rewrite (grepr_size _ _ _ _ _ _ _ _ Hr) in He. apply N.eqb_eq in He.
  apply nil_length_inv. lia.
Qed.
Lemma split_index n gi j : (gi * n <= j)%nat -> exists r, (j = gi * n + r)%nat.
Proof. intros H. exists (j - gi * n)%nat. lia. Qed.
Lemma begin_scan_spec t ess : grep t ess -> forall gs gi,
  (forall j g, gs !! j = Some g -> grepr (gt_b t) g (chunk (gbpg t) ess (gi + j))) ->
  (exists r, g_begin_scan t gs gi = Ok (N.of_nat r, 0) /\ nthb ess r <> [] /\ (forall j, (gi * gbpg t <= j < r)%nat -> nthb ess j = []))
  \/ (g_begin_scan t gs gi = Ok end_nav /\ forall j, (gi * gbpg t <= j < (gi + length gs) * gbpg t)%nat -> nthb ess j = []).
Proof.
  intros H. pose proof (gbpg_pos _ _ _ _ _ _ _ _ H) as Hbp. induction gs as [|g gs IH]; intros gi Hg; cbn [g_begin_scan].
  { right. split; [done|]. cbn [length]. intros j Hj. lia. }
  pose proof (Hg 0%nat g eq_refl) as Hr. rewrite Nat.add_0_r in Hr.
  assert (Hthis : (exists r es, (if kv_empty g then Ok None else g_first_bucket g (gbpg t) 0) = Ok (Some r) /\ (r < gbpg t)%nat /\ nthb ess (gi * gbpg t + r) = es /\ es <> []
       /\ (forall j, (j < r)%nat -> nthb ess (gi * gbpg t + j) = []))
    \/ ((if kv_empty g then Ok None else g_first_bucket g (gbpg t) 0) = Ok None /\ forall j, (j < gbpg t)%nat -> nthb ess (gi * gbpg t + j) = [])).
  { destruct (kv_empty g) eqn:Ee; [right; split; [done|]; by eapply empty_group|].
    destruct (first_bucket_spec _ _ _ Hr (gbpg t) 0) as [(r & es & E & _ & Her & Hne & Hemp)|[E Hemp]]; [by rewrite chunk_length|..].
    - left. pose proof (lookup_lt_Some _ _ _ Her) as Hlt. rewrite chunk_length in Hlt. rewrite chunk_lookup in Her by done. injection Her as <-.
      eexists r, _. split; [done|]. split; [done|]. split; [done|]. split; [done|]. intros j Hj. apply (Hemp j); [lia|]. apply chunk_lookup. lia.
    - right. split; [done|]. intros j Hj. apply (Hemp j); [lia|]. by apply chunk_lookup. }
  destruct Hthis as [(r & es & -> & Hrb & Hes & Hne & Hemp)|[-> Hemp]]; cbn [mbind res_bind].
  - left. exists (gi * gbpg t + r)%nat. split; [done|]. split; [by rewrite Hes|]. intros j Hj.
    destruct (split_index (gbpg t) gi j) as (x & ->); [lia|]. apply Hemp. lia.
  - destruct (IH (S gi)) as [(r & E & Hne & Hem2)|[E Hem2]].
    { intros j g' Hj. replace (S gi + j)%nat with (gi + S j)%nat by lia. by apply Hg. }
    + left. exists r. split; [done|]. split; [done|]. intros j Hj. destruct (Nat.lt_ge_cases j (S gi * gbpg t)) as [Hlt|Hge].
      * destruct (split_index (gbpg t) gi j) as (x & ->); [lia|]. apply Hemp. lia.
      * apply Hem2. lia.
    + right. split; [done|]. cbn [length]. intros j Hj. destruct (Nat.lt_ge_cases j (S gi * gbpg t)) as [Hlt|Hge].
      * destruct (split_index (gbpg t) gi j) as (x & ->); [lia|]. apply Hemp. lia.
      * apply Hem2. lia.
Qed.
Lemma nthb_ne ess r : nthb ess r <> [] -> exists es, ess !! r = Some es /\ es <> [].
Proof. unfold nthb. destruct (ess !! r) as [es|]; [|done]. cbn. eauto. Qed.
Lemma nthb_all_nil ess : (forall j, (j < length ess)%nat -> nthb ess j = []) -> concat ess = [].
Proof.
  intros H. apply nil_length_inv. destruct (concat ess) as [|e l] eqn:E; [done|]. exfalso.
  assert (Hin : e ∈ concat ess) by (rewrite E; by left). apply elem_of_concat in Hin as (i & es & Hi & Hin).
  specialize (H i (lookup_lt_Some _ _ _ Hi)). rewrite (nthb_Some _ _ _ Hi) in H. subst es. by apply elem_of_nil in Hin.
Qed.
Lemma begin_spec t ess : grep t ess ->
  (exists r es, g_begin t = Ok (r, 0) /\ ess !! N.to_nat r = Some es /\ es <> [] /\ (forall i es, (i < N.to_nat r)%nat -> ess !! i = Some es -> es = []))
  \/ (g_begin t = Ok end_nav /\ concat ess = []).
Proof.
  intros H. unfold g_begin. destruct (gr_groups _ _ _ _ _ _ _ _ H) as (gs & Hgs & Hl & Hg).
  rewrite (ggroup_count _ _ _ _ _ _ OK _ _ _ H Hgs Hl). cbn [mbind res_bind]. rewrite Hgs. change (default [] (Some gs)) with gs. rewrite N.ltb_irrefl, Nat2N.id, take_ge by lia.
  destruct (begin_scan_spec _ _ H gs 0 Hg) as [(r & -> & Hne & Hemp)|[-> Hemp]].
  - left. apply nthb_ne in Hne as (es & He & Hne). exists (N.of_nat r), es. rewrite Nat2N.id. split; [done|]. split; [done|]. split; [done|].
    intros i es' Hi He'. rewrite <-(nthb_Some _ _ _ He'). apply Hemp. lia.
  - right. split; [done|]. apply nthb_all_nil. intros j Hj. apply Hemp. pose proof (ggroups_enough _ _ _ _ _ _ _ _ _ H Hl). lia.
Qed.
Lemma gforward t ess f : grep t ess -> (length (concat ess) <= f)%nat -> g_forward pf c f t = Ok (concat ess).
Proof.
  intros H Hf. pose proof (gshows _ _ _ _ _ _ OK _ _ H) as Hsh. unfold g_forward.
  destruct (begin_spec _ _ H) as [(r & es & -> & He & Hne & Hemp)|[-> Hc]]; cbn [mbind res_bind].
  - destruct (v_iterate_first _ _ _ _ Hsh r es f He Hne Hemp Hf) as (l & -> & HF). by rewrite (oent_eq _ _ HF).
  - rewrite Hc. by eapply v_iterate_end_nav.
Qed.
Lemma gforward0 t f : gzero kw vw t -> g_forward pf c f t = Ok [].
Proof.
  intros (_ & _ & Hb & _ & Hg & _). unfold g_forward, g_begin, g_group_count. rewrite Hg. cbn [mbind res_bind default length N.of_nat N.ltb].
  assert (Ee : vn_eq (g_view pf c t) end_nav end_nav = Ok true).
  { unfold vn_eq, vn_invalid, end_nav. cbn [g_view v_count]. unfold g_bucket_count. by rewrite Hb. }
  cbn. destruct f; cbn [v_iterate]; by rewrite Ee.
Qed.

(** ** rbegin_nav *)
Lemma last_bucket_spec b g bss : grepr b g bss -> forall n, (n <= length bss)%nat ->
  (exists r es, g_last_bucket g n = Ok (Some (r, length es)) /\ (r < n)%nat /\ bss !! r = Some es /\ es <> []
     /\ (forall j es, (r < j < n)%nat -> bss !! j = Some es -> es = []))
  \/ (g_last_bucket g n = Ok None /\ forall j es, (j < n)%nat -> bss !! j = Some es -> es = []).
Proof.
  intros Hr. induction n as [|n IH]; intros Hn; cbn [g_last_bucket].
  - right. split; [done|]. intros; lia.
  - destruct (lookup_lt_is_Some_2 bss n) as (es & He); [lia|].
    destruct (grepr_bucketsize _ _ _ _ _ _ _ _ _ _ Hr He) as [-> _]. cbn [mbind res_bind]. destruct es as [|e es].
    + cbn [length Nat.ltb Nat.leb]. destruct IH as [(r & es & E & Hir & Her & Hne & Hemp)|[E Hemp]]; [lia|..].
      * left. exists r, es. split; [done|]. split; [lia|]. split; [done|]. split; [done|]. intros j es' Hj He'.
        destruct (decide (j = n)) as [->|]; [congruence|]. apply (Hemp j); [lia|done].
      * right. split; [done|]. intros j es' Hj He'. destruct (decide (j = n)) as [->|]; [congruence|]. apply (Hemp j); [lia|done].
    + left. exists n, (e :: es). split; [done|]. split; [lia|]. split; [done|]. split; [done|]. intros; lia.
Qed.
Lemma rbegin_scan_spec t ess : grep t ess -> forall gs,
  (forall j g, gs !! j = Some g -> grepr (gt_b t) g (chunk (gbpg t) ess j)) ->
  (exists r, g_rbegin_scan t (rev gs) = Ok (N.of_nat r, N.of_nat (length (nthb ess r))) /\ nthb ess r <> []
     /\ (forall j, (r < j < length gs * gbpg t)%nat -> nthb ess j = []))
  \/ (g_rbegin_scan t (rev gs) = Ok end_nav /\ forall j, (j < length gs * gbpg t)%nat -> nthb ess j = []).
Proof.
  intros H. pose proof (gbpg_pos _ _ _ _ _ _ _ _ H) as Hbp. induction gs as [|g gs IH] using rev_ind; intros Hg.
  { right. split; [done|]. cbn [length]. intros j Hj. lia. }
  rewrite rev_app_distr. cbn [rev app g_rbegin_scan]. rewrite rev_length, app_length. cbn [length].
  pose proof (Hg (length gs) g) as Hr. rewrite lookup_app_r, Nat.sub_diag in Hr by lia. specialize (Hr eq_refl).
  set (gi := length gs) in *.
  assert (Hthis : (exists r es, (if kv_empty g then Ok None else g_last_bucket g (gbpg t)) = Ok (Some (r, length es)) /\ (r < gbpg t)%nat /\ nthb ess (gi * gbpg t + r) = es /\ es <> []
       /\ (forall j, (r < j < gbpg t)%nat -> nthb ess (gi * gbpg t + j) = []))
    \/ ((if kv_empty g then Ok None else g_last_bucket g (gbpg t)) = Ok None /\ forall j, (j < gbpg t)%nat -> nthb ess (gi * gbpg t + j) = [])).
  { destruct (kv_empty g) eqn:Ee; [right; split; [done|]; by eapply empty_group|].
    destruct (last_bucket_spec _ _ _ Hr (gbpg t)) as [(r & es & E & Hrb & Her & Hne & Hemp)|[E Hemp]]; [by rewrite chunk_length|..].
    - left. rewrite chunk_lookup in Her by done. injection Her as <-.
      eexists r, _. split; [done|]. split; [done|]. split; [done|]. split; [done|]. intros j Hj. apply (Hemp j); [lia|]. apply chunk_lookup. lia.
    - right. split; [done|]. intros j Hj. apply (Hemp j); [lia|]. by apply chunk_lookup. }
  destruct Hthis as [(r & es & -> & Hrb & Hes & Hne & Hemp)|[-> Hemp]]; cbn [mbind res_bind].
  - left. exists (gi * gbpg t + r)%nat. rewrite Hes. split; [done|]. split; [done|]. intros j Hj.
    destruct (split_index (gbpg t) gi j) as (x & ->); [lia|]. apply Hemp. lia.
  - destruct IH as [(r & E & Hne & Hem2)|[E Hem2]].
    { intros j g' Hj. apply Hg. rewrite lookup_app_l; [done|by eapply lookup_lt_Some]. }
    + left. exists r. split; [done|]. split; [done|]. intros j Hj. destruct (Nat.lt_ge_cases j (gi * gbpg t)) as [Hlt|Hge].
      * apply Hem2. lia.
      * destruct (split_index (gbpg t) gi j) as (x & ->); [lia|]. apply Hemp. lia.
    + right. split; [done|]. intros j Hj. destruct (Nat.lt_ge_cases j (gi * gbpg t)) as [Hlt|Hge].
      * apply Hem2. lia.
      * destruct (split_index (gbpg t) gi j) as (x & ->); [lia|]. apply Hemp. lia.
Qed.
Lemma rbegin_spec t ess : grep t ess ->
  (exists r es, g_rbegin t = Ok (r, N.of_nat (length es)) /\ ess !! N.to_nat r = Some es /\ es <> [] /\ concat (drop (S (N.to_nat r)) ess) = [])
  \/ (g_rbegin t = Ok end_nav /\ concat ess = []).
Proof.
  intros H. unfold g_rbegin. destruct (gr_groups _ _ _ _ _ _ _ _ H) as (gs & Hgs & Hl & Hg).
  rewrite (ggroup_count _ _ _ _ _ _ OK _ _ _ H Hgs Hl). cbn [mbind res_bind]. rewrite Hgs. change (default [] (Some gs)) with gs.
  rewrite (count_eq _ _ _ _ _ _ OK _ _ H). rewrite (proj2 (N.eqb_neq _ _)) by (pose proof (pow2_pos (gt_b t)); lia).
  rewrite N.ltb_irrefl, Nat2N.id, take_ge by lia. pose proof (ggroups_enough _ _ _ _ _ _ _ _ _ H Hl) as Hen.
  destruct (rbegin_scan_spec _ _ H gs Hg) as [(r & -> & Hne & Hemp)|[-> Hemp]].
  - left. apply nthb_ne in Hne as (es & He & Hne). rewrite (nthb_Some _ _ _ He). exists (N.of_nat r), es. rewrite Nat2N.id. split; [done|]. split; [done|]. split; [done|].
    apply nthb_all_nil. intros j Hj. rewrite drop_length in Hj. unfold nthb. rewrite lookup_drop. apply Hemp. lia.
  - right. split; [done|]. apply nthb_all_nil. intros j Hj. apply Hemp. lia.
Qed.
Lemma gbackward t ess f : grep t ess -> g_backward pf c f t = Ok [].
Proof.
  intros H. pose proof (gshows _ _ _ _ _ _ OK _ _ H) as Hsh. unfold g_backward.
  destruct (rbegin_spec _ _ H) as [(r & es & -> & He & Hne & Hemp)|[-> Hc]]; cbn [mbind res_bind].
  - assert (Ee : vn_eq (g_view pf c t) (r, N.of_nat (length es)) end_nav = Ok true).
    { unfold vn_eq. rewrite (vn_invalid_end _ _ _ _ Hsh). cbn [mbind res_bind].
      unfold vn_invalid. destruct (_ <=? r); [done|]. destruct (sh_size _ _ _ _ Hsh _ _ He) as [-> _]. cbn [mbind res_bind].
      by rewrite N.leb_refl. }
    destruct f; cbn [v_iterate_rev]; by rewrite Ee.
  - pose proof (sh_pow _ _ _ _ Hsh). assert (2^63 < ones64) by done. eapply v_iterate_rev_end; [exact Hsh|lia].
Qed.
(** From one step before rbegin_nav() on, everything is visited. *)
Lemma gbackward_prev t ess f : grep t ess -> concat ess <> [] -> (length (concat ess) <= f)%nat ->
  (x ← g_rbegin t; x ← vn_prev (g_view pf c t) x; v_iterate_rev (g_view pf c t) f x) = Ok (rev (concat ess)).
Proof.
  intros H Hc Hf. pose proof (gshows _ _ _ _ _ _ OK _ _ H) as Hsh.
  destruct (rbegin_spec _ _ H) as [(r & es & -> & He & Hne & Hemp)|[-> Hc']]; [|done]. cbn [mbind res_bind].
  assert (Ec : concat (take (N.to_nat r) ess) ++ take (N.to_nat (N.of_nat (length es))) es = concat ess).
  { rewrite Nat2N.id, (take_ge es) by lia. by rewrite (concat_split _ _ _ He), Hemp, app_nil_r. }
  destruct (vn_prev_spec _ _ _ _ Hsh r (N.of_nat (length es)) es He) as [(bk' & p' & es' & -> & He' & Hp' & E)|[_ E]]; [lia| |congruence].
  cbn [mbind res_bind].
  destruct (v_iterate_rev_spec _ _ _ _ Hsh (rev (concat ess)) bk' p' es' He' Hp') with (f := f) as (l & -> & HF).
  - by rewrite rev_involutive, <-E.
  - by rewrite rev_length.
  - by rewrite (oent_eq _ _ HF).
Qed.
End iter.

(** ** Serialization *)
Section serial.
Context (pf : platform).
#[local] Open Scope nat_scope.
Lemma core_roundtrip er w d xs : core_rep er pf w d xs -> exists s, cg_serialize d w (length xs) = Ok s
  /\ forall s', exists d', cg_deserialize pf (s ++ s') w (length xs) = (d', s') /\ core_rep (8 <= slack pf) pf w d' xs.
Proof.
  intros (l & -> & Hm & Hl & _ & Hs & Hf). unfold cg_serialize. pose proof (cdiv_block _ _ Hm Hl) as Hb.
  rewrite (proj2 (Nat.leb_le _ _)) by done. eexists. split; [done|]. intros s'. unfold cg_deserialize, fresh_bits.
  assert (Hlen : length (take (64 * cdiv (w * length xs) 64) l) = 64 * cdiv (w * length xs) 64) by (rewrite take_length; lia).
  rewrite st_read_app by (by rewrite replicate_length). eexists. split; [done|]. eexists. split; [done|].
  rewrite Hlen. split; [apply mul64_mod|]. pose proof (cdiv_ge (w * length xs) 64 ltac:(lia)) as Hge. split; [lia|]. split; [by right|]. split; [done|].
  intros i x Hi. rewrite <-(Hf i x Hi). apply list_eq. intros j. rewrite !rdbits_lookup. case_decide; [|done].
  pose proof (lookup_lt_Some _ _ _ Hi) as Hlt. pose proof (field_in i _ w Hlt). rewrite lookup_take by lia. done.
Qed.
Lemma border_read_spec ws s : Forall (fun x => (x < 2^64)%N) ws -> border_read pf (length ws) (concat (map (nbits 64) ws) ++ s) = Ok (ws, s).
Proof.
  induction 1 as [|x ws Hx _ IH]; [done|]. cbn [length border_read map concat]. rewrite <-app_assoc, read_var_app; [|unfold fresh_bits; by rewrite replicate_length|done].
  cbn [used of_option mbind res_bind]. by rewrite IH.
Qed.
Lemma kv_roundtrip er qw vw g bss : kv_rep er pf qw vw g bss -> exists s, kv_serialize g (length bss) qw vw = Ok s
  /\ forall s', exists g', kv_deserialize pf (s ++ s') (length bss) qw vw = Ok (g', s')
    /\ if (g_size g =? 0)%N then g' = kv_new else kv_rep (8 <= slack pf) pf qw vw g' bss.
Proof.
  intros H. pose proof H as (Hb & Hsz & H32 & Hk & Hv & ws & Hws & Hr). unfold kv_serialize. destruct (N.eqb_spec (g_size g) 0) as [E0|E0].
  { eexists. split; [done|]. intros s'. exists kv_new. split; [|done]. unfold kv_deserialize. rewrite read_var_app by done. done. }
  rewrite Hws. pose proof Hr as (Hw64 & Hwl & _). rewrite tot_lens, lens_length in Hwl.
  assert (Hm : kv_border_words (g_size g) (length bss) = length ws).
  { rewrite Hwl, (kv_words_spec bss (g_size g) (length (concat bss) + 1)) by lia. f_equal. lia. }
  rewrite Hm, Nat.ltb_irrefl. rewrite take_ge by lia. rewrite Hsz, Nat2N.id.
  destruct (core_roundtrip _ _ _ _ Hk) as (sk & Ek & Hdk). rewrite fmap_length in Ek, Hdk. rewrite Ek. cbn [mbind res_bind].
  destruct (core_roundtrip _ _ _ _ Hv) as (sv & Ev & Hdv). rewrite fmap_length in Ev, Hdv. rewrite Ev. cbn [mbind res_bind].
  eexists. split; [done|]. intros s'. unfold kv_deserialize. rewrite <-!app_assoc. rewrite read_var_app by (try done; cbn; lia).
  cbn [used of_option mbind res_bind]. rewrite (proj2 (N.eqb_neq _ _)) by lia. rewrite <-Hsz, Hm. rewrite border_read_spec by done. cbn [mbind res_bind].
  destruct (Hdk (sv ++ s')) as (dk & Edk & Hdk'). rewrite Hsz, Nat2N.id, Edk. destruct (Hdv s') as (dv & Edv & Hdv'). rewrite Edv.
  eexists. split; [done|]. split; [done|]. split; [done|]. split; [done|]. split; [done|]. split; [done|]. exists ws. done.
Qed.
End serial.

Section table.
Context (er : Prop) (pf : platform) (c : gcfg) (kw vw bmin : N).
Hypothesis OK : group_ok c kw vw bmin.
Notation er8 := (8 <= slack pf)%nat.
Lemma qbss_len b bss : length (qbss c kw b bss) = length bss.
Proof. apply qbss_length. Qed.
Lemma grepr_roundtrip b g bss : grepr er pf c kw vw b g bss ->
  exists s, kv_serialize g (length bss) (N.to_nat (zw (gc_hash c) (gc_keybits c) 64 kw b)) (N.to_nat vw) = Ok s
  /\ forall s', exists g', kv_deserialize pf (s ++ s') (length bss) (N.to_nat (zw (gc_hash c) (gc_keybits c) 64 kw b)) (N.to_nat vw) = Ok (g', s')
    /\ grepr er8 pf c kw vw b g' bss.
Proof.
  intros H. pose proof (grepr_size _ _ _ _ _ _ _ _ H) as Hsz. destruct H as (H255 & H127 & [[-> Hc]|H]).
  - eexists. split; [done|]. intros s'. exists kv_new. split; [|by split; [|split; [|left]]]. unfold kv_deserialize. rewrite read_var_app by done. done.
  - destruct (kv_roundtrip _ _ _ _ _ _ H) as (s & Es & Hd). rewrite qbss_len in Es, Hd. exists s. split; [done|]. intros s'.
    destruct (Hd s') as (g' & Ed & Hg'). exists g'. split; [done|]. split; [done|]. split; [done|]. destruct (N.eqb_spec (g_size g) 0) as [E0|E0].
    + left. split; [done|]. apply nil_length_inv. lia.
    + by right.
Qed.
Lemma groups_roundtrip t0 n b : gbpg t0 = n -> gqw c t0 = N.to_nat (zw (gc_hash c) (gc_keybits c) 64 kw b) -> gvw t0 = N.to_nat vw -> forall gs bsss,
  Forall2 (fun g bss => length bss = n /\ grepr er pf c kw vw b g bss) gs bsss ->
  exists l, rmap (fun g => kv_serialize g n (N.to_nat (zw (gc_hash c) (gc_keybits c) 64 kw b)) (N.to_nat vw)) gs = Ok l
  /\ forall s', exists gs', g_read_groups pf c t0 (length gs) (concat l ++ s') = Ok (gs', s') /\ Forall2 (grepr er8 pf c kw vw b) gs' bsss.
Proof.
  intros E1 E2 E3. induction 1 as [|g bss gs bsss [Hl Hg] _ (l & El & IH)].
  { exists []. split; [done|]. intros s'. exists []. split; [done|constructor]. }
  destruct (grepr_roundtrip _ _ _ Hg) as (s & Es & Hd). rewrite Hl in Es, Hd. exists (s :: l). cbn [rmap]. rewrite Es. cbn [mbind res_bind]. rewrite El.
  split; [done|]. intros s'. cbn [length g_read_groups concat]. rewrite E1, E2, E3, <-app_assoc. destruct (Hd (concat l ++ s')) as (g' & -> & Hg'). cbn [mbind res_bind].
  destruct (IH s') as (gs' & -> & Hgs'). cbn [mbind res_bind]. exists (g' :: gs'). split; [done|]. by apply List.Forall2_cons.
Qed.
Lemma chunks_Forall2 (P : kvgroup -> list entries -> Prop) n ess gs : (forall i g, gs !! i = Some g -> P g (chunk n ess i)) ->
  Forall2 P gs (map (chunk n ess) (seq 0 (length gs))).
Proof.
  intros H. apply Forall2_same_length_lookup_2; [by rewrite map_length, seq_length|]. intros i g bss Hi Hb.
  change (map ?f ?l) with (f <$> l) in Hb. pose proof (lookup_lt_Some _ _ _ Hi). rewrite list_lookup_fmap, lookup_seq_lt in Hb by done.
  injection Hb as <-. by apply H.
Qed.
(** A table that clear() accepts *)
Definition clearable (t : gtable) : Prop := exists t', g_clear t = Ok t'.
Lemma clear_members t t' : g_clear t = Ok t' -> t' = g_clear_structure t.
Proof.
  unfold g_clear. destruct (g_group_count t) as [n| | |]; cbn [mbind res_bind]; try done.
  destruct (gt_groups t) as [gs|]; [|by intros [= <-]]. destruct (_ <? n); [done|]. by intros [= <-].
Qed.
Lemma kw_small : kw < 2^8 /\ vw < 2^8.
Proof. pose proof (ho_kw _ _ _ _ _ (go_hash _ _ _ _ OK)). pose proof (go_vw _ _ _ _ OK). change (2^8) with 256. lia. Qed.

Lemma groundtrip t ess : grep er pf c kw vw bmin t ess -> N.of_nat (length (concat ess)) < 2^64 -> concat ess <> [] ->
  exists s, g_serialize c t = Ok s /\ forall t0 s', clearable t0 ->
  exists t', g_deserialize pf c t0 (s ++ s') = Ok (t', s') /\ grep er8 pf c kw vw bmin t' ess.
Proof.
  intros H Hsz Hne. pose proof (b_range _ _ _ _ _ _ OK _ _ H) as Hb. pose proof (gr_n _ _ _ _ _ _ _ _ H) as Hn. rewrite N.mod_small in Hn by done.
  assert (Hn0 : gt_n t <> 0) by (rewrite Hn; destruct (concat ess); [done|cbn [length]; lia]).
  destruct (gr_groups _ _ _ _ _ _ _ _ H) as (gs & Hgs & Hl & Hg). pose proof (gr_bpg _ _ _ _ _ _ _ _ H) as Hbp.
  unfold g_serialize. rewrite (proj2 (N.eqb_neq _ _)) by done. rewrite (ggroup_count _ _ _ _ _ _ OK _ _ _ H Hgs Hl). cbn [mbind res_bind].
  rewrite Hgs. change (default [] (Some gs)) with gs. rewrite N.ltb_irrefl, Nat2N.id, take_ge by lia.
  set (t1 := GTable (Some (replicate (length gs) kv_new)) (gt_b t) (gt_n t) kw vw (gt_bpg t)).
  assert (Eq : gqw c t = N.to_nat (zw (gc_hash c) (gc_keybits c) 64 kw (gt_b t))) by (apply gqw_eq, H).
  assert (Eq1 : gqw c t1 = N.to_nat (zw (gc_hash c) (gc_keybits c) 64 kw (gt_b t))) by done.
  assert (Ev : gvw t = N.to_nat vw) by (apply gvw_eq, H).
  assert (HF : Forall2 (fun g bss => length bss = gbpg t /\ grepr er pf c kw vw (gt_b t) g bss) gs (map (chunk (gbpg t) ess) (seq 0 (length gs)))).
  { apply chunks_Forall2. intros i g Hi. split; [apply chunk_length|by apply Hg]. }
  destruct (groups_roundtrip t1 (gbpg t) (gt_b t) eq_refl Eq1 eq_refl gs _ HF) as (l & El & Hd). rewrite Eq, Ev, El. cbn [mbind res_bind].
  eexists. split; [done|]. intros t0 s' (t0' & Hcl). unfold g_deserialize. rewrite Hcl. cbn [mbind res_bind]. apply clear_members in Hcl as ->.
  unfold g_clear_structure. cbn [gt_groups gt_b gt_n gt_kw gt_vw gt_bpg]. pose proof kw_small as [Hk8 Hv8].
  rewrite (gr_kw _ _ _ _ _ _ _ _ H), (gr_vw _ _ _ _ _ _ _ _ H).
  rewrite <-!app_assoc. rewrite (read_var_app 8 kw), (read_var_app 8 vw) by done. unfold fresh_bits.
  rewrite (read_var_app 8 (gt_b t)) by (try (rewrite replicate_length; done); change (2^N.of_nat 8) with 256; lia).
  rewrite (read_var_app 64 (gt_n t)) by (try done; rewrite Hn; exact Hsz).
  rewrite (read_var_app 8 (gt_bpg t)) by (try done; change (2^N.of_nat 8) with 256; lia).
  cbn [used of_option mbind res_bind]. rewrite (proj2 (N.eqb_neq _ _)) by done.
  rewrite shl64_1 by lia. cbn [mbind res_bind]. unfold g_alloc.
  rewrite reserve_bits_spec by (split; [pose proof (pow2_pos (gt_b t)); lia|apply pow2_le_63; lia]). rewrite N.log2_up_pow2 by lia. cbn [mbind res_bind].
  unfold g_div. cbn [gt_bpg gt_n gt_kw gt_vw]. rewrite (proj2 (N.eqb_neq _ _)) by lia. cbn [mbind res_bind].
  rewrite <-Hl, Nat2N.id. fold t1.
  assert (Egc : g_group_count t1 = Ok (N.of_nat (length gs))).
  { unfold g_group_count, g_bucket_count, g_div. cbn [t1 gt_groups gt_b gt_bpg]. rewrite !(proj2 (N.eqb_neq _ _)) by lia. cbn [mbind res_bind]. by rewrite Hl. }
  rewrite Egc. cbn [mbind res_bind]. rewrite Nat2N.id. destruct (Hd s') as (gs' & -> & HF'). cbn [mbind res_bind]. eexists. split; [done|].
  cbn [t1 gt_b gt_n gt_kw gt_vw gt_bpg].
  constructor; cbn [gt_groups gt_b gt_n gt_kw gt_vw gt_bpg]; try done; try apply H.
  exists gs'. split; [done|]. pose proof (Forall2_length _ _ _ HF') as Hl'. rewrite map_length, seq_length in Hl'. split; [by rewrite Hl'|].
  intros i g Hi. unfold gbpg at 1. cbn [gt_bpg]. fold (gbpg t). destruct (Forall2_lookup_l _ _ _ _ _ HF' Hi) as (bss & Hbss & Hr).
  change (map ?f ?l) with (f <$> l) in Hbss. pose proof (lookup_lt_Some _ _ _ Hi). rewrite list_lookup_fmap, lookup_seq_lt in Hbss by lia.
  by injection Hbss as <-.
Qed.
Lemma groundtrip0 t : gt_n t = 0 -> gt_kw t = kw -> gt_vw t = vw -> gt_b t < 64 -> 1 <= gt_bpg t <= 127 ->
  exists s, g_serialize c t = Ok s /\ forall t0 s', clearable t0 ->
  exists t', g_deserialize pf c t0 (s ++ s') = Ok (t', s') /\ gzero kw vw t'.
Proof.
  intros Hn E1 E2 Hb Hbp. unfold g_serialize. rewrite Hn, E1, E2. cbn [N.eqb]. eexists. split; [done|]. intros t0 s' (t0' & Hcl). unfold g_deserialize. rewrite Hcl. cbn [mbind res_bind]. apply clear_members in Hcl as ->.
  unfold g_clear_structure. cbn [gt_groups gt_b gt_n gt_kw gt_vw gt_bpg]. pose proof kw_small as [Hk8 Hv8].
  rewrite <-!app_assoc. rewrite (read_var_app 8 kw), (read_var_app 8 vw) by done. unfold fresh_bits.
  rewrite (read_var_app 8 (gt_b t)) by (try (rewrite replicate_length; done); change (2^N.of_nat 8) with 256; lia).
  rewrite (read_var_app 64 0) by done.
  rewrite (read_var_app 8 (gt_bpg t)) by (try done; change (2^N.of_nat 8) with 256; lia).
  cbn [used of_option mbind res_bind N.eqb]. eexists. split; [done|]. unfold gzero. cbn. done.
Qed.

(** ** Tables whose groups may have no room after the last element: erase on a platform with slack *)
Definition slack_pf : platform := Platform 8 (zero_fresh pf) (loose_free pf) (um_hash pf) (um_policy pf).
Lemma core_other_pf (er2 : Prop) pf2 w d xs : (er2 -> (8 <= slack pf2)%nat) -> core_rep er pf w d xs -> core_rep er2 pf2 w d xs.
Proof. intros Hi (l & H1 & H2 & H3 & H4 & H5). exists l. split; [done|]. split; [done|]. split; [done|]. split; [|done]. intros He. right. auto. Qed.
Lemma kv_other_pf (er2 : Prop) pf2 qw vw' g bss : (er2 -> (8 <= slack pf2)%nat) -> kv_rep er pf qw vw' g bss -> kv_rep er2 pf2 qw vw' g bss.
Proof. intros Hi (? & ? & ? & ? & ? & ?). do 3 (split; [done|]). split; [by apply core_other_pf|]. split; [by apply core_other_pf|done]. Qed.
Lemma grep_other_pf (er2 : Prop) pf2 t ess : (er2 -> (8 <= slack pf2)%nat) -> grep er pf c kw vw bmin t ess -> grep er2 pf2 c kw vw bmin t ess.
Proof.
  intros Hi H. destruct (gr_groups _ _ _ _ _ _ _ _ H) as (gs & Hgs & Hl & Hg). constructor; try apply H.
  exists gs. split; [done|]. split; [done|]. intros i g Hi'. destruct (Hg i g Hi') as (H1 & H2 & [H3|H3]); (split; [done|split; [done|]]).
  - by left.
  - right. by apply kv_other_pf.
Qed.
End table.

Section runs.
Context (pf : platform) (c : gcfg) (kw vw bmin : N).
Hypothesis OK : group_ok c kw vw bmin.
Notation bmax := (zbmax (gc_hash c) kw).
Definition gmrep (er : Prop) (t : gtable) (m : gmap N N) : Prop := mrep (grep er pf c kw vw bmin) (gzero kw vw) t m.

Lemma erases_slack : erases False pf c kw vw bmin (g_erase_at (slack_pf pf) c).
Proof.
  split; [done|]. intros t ess x k v H Hx.
  assert (H' : grep True (slack_pf pf) c kw vw bmin t ess) by (eapply grep_other_pf; [|exact H]; intros _; cbn; lia).
  destruct (gerase_at True (slack_pf pf) c kw vw bmin OK t ess x k v I H' Hx) as (t' & es & H1 & H2 & H3 & H4).
  exists t', es. split; [done|]. split; [done|]. split; [done|]. eapply grep_other_pf; [|exact H4]. done.
Qed.
(** Histories without erasures *)
Definition no_erase (o : op) : Prop := match o with OpErase _ | OpEraseIt _ => False | _ => True end.
Lemma m_run_cons {T} (I : mapimpl T) t o ops : m_run_ops I t (o :: ops) =
  r ← m_run_op I t o; let '(t, x) := (r : T * out) in rs ← m_run_ops I t ops; let '(t, xs) := (rs : T * list out) in Ok (t, x :: xs).
Proof. done. Qed.
Lemma run_no_erase fuel ea : forall ops t, Forall no_erase ops ->
  m_run_ops (g_impl pf c fuel) t ops = m_run_ops (g_impl_with pf c fuel ea) t ops.
Proof.
  induction ops as [|o ops IH]; intros t H; [done|]. apply Forall_cons in H as [Ho H]. rewrite !m_run_cons.
  assert (E : m_run_op (g_impl pf c fuel) t o = m_run_op (g_impl_with pf c fuel ea) t o) by (by destruct o).
  rewrite E. clear E. destruct (m_run_op (g_impl_with pf c fuel ea) t o) as [[t1 r]| | |]; cbn [mbind res_bind]; try done. by rewrite (IH t1 H).
Qed.
Lemma group_run (er : Prop) fuel ops t m : (64 <= fuel)%nat -> gmrep er t m -> valid_ops kw vw bmin bmax ops -> er \/ Forall no_erase ops ->
  exists t', m_run_ops (g_impl pf c fuel) t ops = Ok (t', snd (spec_run m ops))
    /\ (er -> gmrep er t' (fst (spec_run m ops))) /\ gmrep False t' (fst (spec_run m ops)).
Proof.
  intros Hf HR Hv [He|Hno].
  - destruct (m_run_rep _ _ _ _ _ _ _ _ _ _ _ _ _ _ (group_chain er pf c kw vw bmin OK fuel He Hf) ops t m HR Hv) as (t' & rs & E & Hr & HR').
    rewrite (oout_eq _ _ Hr) in E. exists t'. split; [done|]. split; [done|]. destruct HR' as [HZ|(ess & H1 & H2)]; [by left|right].
    exists ess. split; [|done]. eapply grep_other_pf; [|exact H1]. done.
  - assert (HR' : gmrep False t m).
    { destruct HR as [HZ|(ess & H1 & H2)]; [by left|right]. exists ess. split; [|done]. eapply grep_other_pf; [|exact H1]. done. }
    destruct (m_run_rep _ _ _ _ _ _ _ _ _ _ _ _ _ _ (group_chain_with False pf c kw vw bmin OK fuel _ erases_slack Hf) ops t m HR' Hv) as (t' & rs & E & Hr & HR2).
    rewrite <-run_no_erase in E by done. rewrite (oout_eq _ _ Hr) in E. exists t'. split; [done|]. split; [|done].
    intros He. destruct (m_run_rep _ _ _ _ _ _ _ _ _ _ _ _ _ _ (group_chain er pf c kw vw bmin OK fuel He Hf) ops t m HR Hv) as (t2 & rs2 & E2 & _ & HR3).
    rewrite E in E2. by injection E2 as <- <-.
Qed.
Lemma gmrep_new er : gmrep er (g_new kw vw) ∅.
Proof. left. split; [apply gzero_new|done]. Qed.
Lemma gmrep_clearable er t m : gmrep er t m -> clearable t.
Proof.
  intros [[HZ _]|(ess & H & _)].
  - exists t. by eapply gclear0.
  - destruct (gclear er pf c kw vw bmin OK t ess H) as (t' & E & _). by exists t'.
Qed.
Lemma gmrep_roundtrip er t m : gmrep er t m -> N.of_nat (size m) < 2^64 ->
  exists s, g_serialize c t = Ok s /\ forall t0 s', clearable t0 ->
  exists t', g_deserialize pf c t0 (s ++ s') = Ok (t', s') /\ gmrep (8 <= slack pf)%nat t' m.
Proof.
  intros HR Hsz.
  assert (H0 : (gt_n t = 0 /\ gt_kw t = kw /\ gt_vw t = vw /\ gt_b t < 64 /\ 1 <= gt_bpg t <= 127 /\ m = ∅)
    \/ exists ess, grep er pf c kw vw bmin t ess /\ concat ess <> [] /\ emap (concat ess) = m).
  { destruct HR as [[(E1 & E2 & Hb & Hn & _ & Hbp) ->]|(ess & H & Hm)].
    - left. rewrite Hb. repeat split; try done; lia.
    - destruct (concat ess) as [|e l] eqn:Ec; [left|right; exists ess; rewrite Ec; done].
      pose proof (b_range _ _ _ _ _ _ OK _ _ H). pose proof (gr_n _ _ _ _ _ _ _ _ H) as Hn. rewrite Ec in Hn.
      split; [done|]. split; [apply H|]. split; [apply H|]. split; [lia|]. split; [apply H|]. by rewrite <-Hm. }
  destruct H0 as [(Hn & E1 & E2 & Hb & Hbp & ->)|(ess & H & Hne & Hm)].
  - destruct (groundtrip0 pf c kw vw bmin OK t Hn E1 E2 Hb Hbp) as (s & Es & Hd). exists s. split; [done|]. intros t0 s' Hc.
    destruct (Hd t0 s' Hc) as (t' & Ed & Hz). exists t'. split; [done|]. by left.
  - assert (Hl : N.of_nat (length (concat ess)) < 2^64) by (rewrite <-Hm, emap_size in Hsz by apply H; done).
    destruct (groundtrip er pf c kw vw bmin OK t ess H Hl Hne) as (s & Es & Hd). exists s. split; [done|]. intros t0 s' Hc.
    destruct (Hd t0 s' Hc) as (t' & Ed & HR'). exists t'. split; [done|]. right. by exists ess.
Qed.
Lemma gmrep_forward er t m f : gmrep er t m -> (size m <= f)%nat -> exists l, g_forward pf c f t = Ok l /\ l ≡ₚ map_to_list m.
Proof.
  intros [[HZ ->]|(ess & H & <-)] Hf.
  - exists []. split; [by eapply gforward0|by rewrite map_to_list_empty].
  - rewrite emap_size in Hf by apply H. exists (concat ess). split; [by eapply gforward|]. symmetry. apply map_to_list_to_map, H.
Qed.

(** reserve(n, nkw) on a table with buckets *)
Lemma greserve_width er fuel t ess n nkw bmin' : (64 <= fuel)%nat -> grep er pf c kw vw bmin t ess -> group_ok c nkw vw bmin' ->
  1 <= n <= 2^63 -> bmin' <= N.log2_up n <= zbmax (gc_hash c) nkw -> (forall k v, (k, v) ∈ concat ess -> k < 2^nkw) ->
  exists t' ess', g_reserve pf c fuel t n nkw = Ok t' /\ grep True pf c nkw vw bmin' t' ess' /\ concat ess' ≡ₚ concat ess.
Proof.
  intros Hf H OK' Hn Hb Hk. pose proof (ho_kw _ _ _ _ _ (go_hash _ _ _ _ OK')) as Hnkw. pose proof (zbmax_le _ _ _ _ _ (go_hash _ _ _ _ OK')).
  unfold g_reserve. rewrite (greserve_gen er pf c kw vw bmin OK t ess n nkw H Hn). rewrite (proj2 (N.eqb_neq nkw 0)) by lia. rewrite u8_small by lia.
  assert (Hlog : N.log2_up (2^N.log2_up n) = N.log2_up n) by (apply N.log2_up_pow2; lia).
  destruct (galloc True pf c nkw vw bmin' (GTable None 0 0 nkw vw 64) (2^N.log2_up n)) as (tmp & ess0 & Ea & HR & Hc & Hbt); try done.
  { split; [pose proof (pow2_pos (N.log2_up n)); lia|]. apply pow2_le_63. lia. }
  { by rewrite Hlog. }
  rewrite Ea. cbn [mbind res_bind].
  pose proof (group_chain True pf c nkw vw bmin' OK' fuel I Hf) as C.
  destruct (fun h => ins_fold_spec nkw vw gt_b (grep True pf c nkw vw bmin') (g_find_or_insert pf c fuel) 0 h (concat ess) tmp ess0) as (t' & ess' & E & HR' & _ & HP).
  - intros t1 ess1 k v HR1 _ Hk1 Hv1. eapply (foi_spec _ _ _ _ _ _ _ _ _ _ _ _ _ _ C); try done. lia.
  - done.
  - lia.
  - rewrite Hc, app_nil_r. apply H.
  - intros k v Hin. split; [by eapply Hk|]. by eapply (gr_range _ _ _ _ _ _ _ _ H).
  - exists t', ess'. split; [done|]. split; [done|]. by rewrite Hc, app_nil_r in HP.
Qed.
End runs.
