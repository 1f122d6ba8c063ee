(** Property theorems about the debug build of bucket_table (NDEBUG not defined): C89, C90, C91. *)
From Verif Require Import DebugBtRep PropBt.

(** ** C89: the checks of the debug build observe only.  Whenever no check fails, a table goes through the same states and returns the same
    results as in a release build, whatever the state it starts from; m_plainkeys and the lengths stored in the buckets have no influence. *)
Theorem C89_debug_bt_is_release : forall pf c,
  (forall junk t, dbt_new c junk = Ok t -> bstrip t = bt_new)
  /\ (forall t ops t' outs, dbt_run pf c t ops = Ok (t', outs) -> bt_run pf c (bstrip t) ops = Ok (bstrip t', outs))
  /\ (forall t k v, dbt_at pf c t k = Ok v -> bt_at pf c (bstrip t) k = Ok v)
  /\ (forall fuel t p l, dbt_iter pf c fuel t p = Ok l -> bt_iter pf c fuel (bstrip t) p = Ok l)
  /\ (forall fuel t p l, dbt_riter pf c fuel t p = Ok l -> bt_riter pf c fuel (bstrip t) p = Ok l)
  /\ (forall ow a o a' o', dbt_move_assign pf c ow a o = Ok (a', o') -> bt_move_assign pf c (bstrip a) (bstrip o) = Ok (bstrip a', bstrip o'))
  /\ (forall ow a o a' o', dbt_swap c ow a o = Ok (a', o') -> bt_swap (bstrip a) (bstrip o) = (bstrip a', bstrip o')).
Proof.
  intros pf c. split; [|split; [|split; [|split; [|split; [|split]]]]].
  - intros junk t. unfold dbt_new. destruct (_ <=? _)%nat; [|done]. cbn [chk mbind res_bind]. by intros [= <-].
  - intros t ops t' outs E. exact (dbt_run_eq pf c ops t _ E).
  - intros t k v. exact (dbt_at_eq pf c t k v).
  - intros fuel t p l. exact (dbt_iter_eq pf c fuel t p l).
  - intros fuel t p l. exact (dbt_riter_eq pf c fuel t p l).
  - intros ow a o a' o' E. exact (proj2 (dbt_move_eq pf c ow a o _ E)).
  - intros ow a o a' o'. unfold dbt_swap. destruct (_ =? _)%nat; [|done]. cbn [chk mbind res_bind]. by intros [= <- <-].
Qed.
Print Assumptions C89_debug_bt_is_release.
Definition ex_dbt (s : bstrat) : dbt := match dbt_new (ex_bt s) (Some 3) with Ok t => t | _ => DBt (fresh_dbk None) (fresh_dbk None) 0 0 None end.
Definition ex_dbt1 (s : bstrat) : res dbt := r ← dbt_run lax_pf (ex_bt s) (ex_dbt s) (take 11 ex_bt_ops); Ok (fst (r : dbt * list out)).
Example C89_case :
  (snd <$> dbt_run lax_pf (ex_bt BArb) (ex_dbt BArb) ex_bt_ops) = Ok (snd (spec_run ∅ ex_bt_ops))
  /\ (t ← ex_dbt1 BInc; dbt_iter lax_pf (ex_bt BInc) 9 t bt_begin) = Ok [(7, 1); (100, 65535); (3000, 0); (8191, 2)]
  /\ (t ← ex_dbt1 BArb; dbt_riter lax_pf (ex_bt BArb) 9 t (bt_rbegin (bstrip t))) = Ok [(8191, 2); (3000, 0); (100, 65535); (7, 1)]
  /\ (t ← ex_dbt1 BArb; dbt_at lax_pf (ex_bt BArb) t 100) = Ok 65535
  /\ is_ok (t ← ex_dbt1 BArb; dbt_move_assign lax_pf (ex_bt BArb) 13 t t) = true /\ is_ok (t ← ex_dbt1 BArb; dbt_swap (ex_bt BArb) 13 t (ex_dbt BArb)) = true.
Proof. split; [vm_compute; reflexivity|]. split; [vm_compute; reflexivity|]. split; [vm_compute; reflexivity|]. split; [vm_compute; reflexivity|]. split; vm_compute; reflexivity. Qed.

(** ** C90: no check fails in a valid history within the growth limit, nor in iterations over the table it leaves, forwards and backwards, nor
    when stored values are read with operator[] const; all results are those of a finite map.  The members that no constructor sets may
    hold anything. *)
Theorem C90_no_check_fails : forall pf c junk es, bok pf c es ->
  exists t, dbt_new c junk = Ok t
  /\ forall ops, Forall bt_has_op ops -> valid_ops (N.of_nat (bc_width c)) (N.of_nat es) 0 0 ops -> never_above (growth_limit (bc_strat c)) ∅ ops ->
     exists t', dbt_run pf c t ops = Ok (t', snd (spec_run ∅ ops))
     /\ (exists l, list_to_map l = fst (spec_run ∅ ops) /\ NoDup (map fst l)
         /\ forall f, (length l < f)%nat -> dbt_iter pf c f t' bt_begin = Ok l /\ dbt_riter pf c f t' (bt_rbegin (bstrip t')) = Ok (rev l))
     /\ (forall k v, fst (spec_run ∅ ops) !! k = Some v -> dbt_at pf c t' k = Ok v)
     /\ (N.of_nat (size (fst (spec_run ∅ ops))) < 2^32 - 1 -> is_ok (dbt_max_bucket c t') = true).
Proof.
  intros pf c junk es OK. destruct (new_ok pf c junk es (width_fits pf c es OK)) as (t & Et & Ht). exists t. split; [done|]. intros ops Hh Hv Hs.
  destruct (drun_ok pf c es OK ops t ∅ Ht Hh Hv Hs) as (t' & Er & E & HE & Hm). exists t'. split; [done|]. rewrite <-Hm. pose proof (brep_nodup _ _ _ _ _ (proj1 HE)) as Hnd.
  split; [|split].
  - exists E. split; [done|]. split; [done|]. intros f Hf. split; [exact (diter_spec pf c es OK t' E HE (length E) 0 f eq_refl Hf)|].
    destruct (decide (E = [])) as [->|Hne].
    + destruct (hnil pf c es t' HE) as (_ & _ & Hz). destruct f as [|f]; [cbn in Hf; lia|]. unfold bt_rbegin. rewrite Hz. cbn [dbt_riter]. unfold bn_eq, bn_invalid. rewrite Hz. done.
    + destruct (hfull pf c es t' E HE Hne) as [Hf' _]. pose proof (bfull_n _ _ _ _ _ Hf') as Hn. unfold bt_rbegin. rewrite BtProofs.u32_pred by lia. rewrite (bf_n _ _ _ _ _ Hf') in *.
      replace (N.of_nat (length E) - 1) with (N.of_nat (length E - 1)) by lia.
      rewrite (driter_spec pf c es OK t' E HE Hne) by lia. rewrite take_ge by lia. by rewrite rev_alt.
  - intros k v Hk. assert (Hkw : k < 2^N.of_nat (bc_width c)).
    { apply emap_Some in Hk; [|done]. apply elem_of_list_lookup in Hk as [i Hi]. destruct (Forall_lookup_1 _ _ _ _ (brep_ok _ _ _ _ _ (proj1 HE)) Hi) as [H _]. exact H. }
    rewrite (dat_ok pf c es OK t' (emap E) k) by (done || by exists E). by rewrite Hk.
  - rewrite emap_size by done. intros Hsz. unfold dbt_max_bucket, st_size. rewrite (brep_length _ _ _ _ _ (proj1 HE)) in Hsz. cbn [bstrip bt_n] in Hsz.
    destruct (bc_strat c) eqn:Es; [by rewrite (proj2 (N.ltb_lt _ _)) by done|].
    assert (Hl : h_len t' < 2^32 - 1); [|by rewrite (proj2 (N.ltb_lt _ _)) by done].
    pose proof (dbt_run_eq pf c ops t _ Er) as Er'. cbn [fst snd] in Er'. pose proof (run_len pf c Es ops _ _ _ Er') as Hl. cbn [bstrip bt_len] in Hl.
    enough (h_len t <= 255) by (specialize (Hl ltac:(done)); lia). unfold dbt_new in Et. destruct (_ <=? _)%nat; [|done]. cbn [chk mbind res_bind] in Et. injection Et as <-. cbn. lia.
Qed.
Print Assumptions C90_no_check_fails.
(** Nor when one table is assigned to another or both are swapped, if their widths agree; both can be used further.  A table that is moved from
    has handed over all its blocks. *)
Theorem C90_move : forall pf c junk es ops1 ops2 t t1 t2 o1 o2, bok pf c es -> dbt_new c junk = Ok t ->
  Forall bt_has_op ops1 -> valid_ops (N.of_nat (bc_width c)) (N.of_nat es) 0 0 ops1 -> never_above (growth_limit (bc_strat c)) ∅ ops1 ->
  Forall bt_has_op ops2 -> valid_ops (N.of_nat (bc_width c)) (N.of_nat es) 0 0 ops2 -> never_above (growth_limit (bc_strat c)) ∅ ops2 ->
  dbt_run pf c t ops1 = Ok (t1, o1) -> dbt_run pf c t ops2 = Ok (t2, o2) ->
  exists t1' t2' t1'' t2'', dbt_move_assign pf c (bc_width c) t1 t2 = Ok (t1', t2') /\ dbt_swap c (bc_width c) t1 t2 = Ok (t1'', t2'')
  /\ (k_b (h_keys t2') = None /\ k_b (h_vals t2') = None /\ h_plain t2' = None)
  /\ forall u m ops, (u, m) ∈ [(t1', fst (spec_run ∅ ops2)); (t2', ∅); (t1'', fst (spec_run ∅ ops2)); (t2'', fst (spec_run ∅ ops1))] ->
     Forall bt_has_op ops -> valid_ops (N.of_nat (bc_width c)) (N.of_nat es) 0 0 ops -> never_above (growth_limit (bc_strat c)) m ops ->
     exists u', dbt_run pf c u ops = Ok (u', snd (spec_run m ops)).
Proof.
  intros pf c junk es ops1 ops2 t t1 t2 o1 o2 OK Et Hh1 Hv1 Hs1 Hh2 Hv2 Hs2 E1 E2.
  assert (Ht : hmrep pf c es t ∅) by (exists []; split; [by eapply hrep_new|done]).
  destruct (drun_ok pf c es OK ops1 t ∅ Ht Hh1 Hv1 Hs1) as (u1 & F1 & R1). rewrite F1 in E1. injection E1 as -> _.
  destruct (drun_ok pf c es OK ops2 t ∅ Ht Hh2 Hv2 Hs2) as (u2 & F2 & R2). rewrite F2 in E2. injection E2 as -> _.
  pose proof R1 as (L1 & H1 & _). pose proof R2 as (L2 & H2 & _). destruct (dmove_ok pf c es t1 t2 L1 L2 H1 H2) as (o' & Em & Ho' & Hbl).
  exists t2, o', t2, t1. split; [exact Em|]. split; [unfold dbt_swap; by rewrite Nat.eqb_refl|]. split; [exact Hbl|].
  assert (Hgo : forall u m ops, hmrep pf c es u m -> Forall bt_has_op ops -> valid_ops (N.of_nat (bc_width c)) (N.of_nat es) 0 0 ops ->
    never_above (growth_limit (bc_strat c)) m ops -> exists u', dbt_run pf c u ops = Ok (u', snd (spec_run m ops))).
  { intros u m ops R Hh Hv Hs. destruct (drun_ok pf c es OK ops u m R Hh Hv Hs) as (u' & E & _). by exists u'. }
  intros u m ops Hin Hh Hv Hs. apply Hgo; try done. repeat (apply elem_of_cons in Hin as [[= -> ->]|Hin]; [try done|]); [by exists []|]. by apply not_elem_of_nil in Hin.
Qed.
Print Assumptions C90_move.
Example C90_case : bok lax_pf (ex_bt BArb) 16 /\ Forall bt_has_op ex_bt_ops /\ valid_ops 13 16 0 0 ex_bt_ops
  /\ dbt_new (ex_bt BArb) (Some 3) = Ok (ex_dbt BArb) /\ dbt_new (ex_bt BArb) None = Ok (DBt (fresh_dbk None) (fresh_dbk None) 0 0 None)
  /\ (t ← ex_dbt1 BArb; r ← dbt_move_assign lax_pf (ex_bt BArb) 13 (ex_dbt BArb) t; let '(a, b) := (r : dbt * dbt) in
      x ← dbt_run lax_pf (ex_bt BArb) a [OpErase 100; OpSize]; y ← dbt_run lax_pf (ex_bt BArb) b [OpInsert 6 7; OpFind 100; OpSize]; Ok (snd (x : dbt * list out), snd (y : dbt * list out)))
     = Ok ([OutNum 1; OutNum 3], [OutEntry (Some (6, 7)); OutEntry None; OutNum 1]).
Proof.
  split; [apply ex_bt_ok|]. split; [repeat (apply List.Forall_cons; [exact I|]); apply List.Forall_nil|].
  split; [repeat (apply List.Forall_cons; [cbn [valid_op]; vm_compute; auto|]); apply List.Forall_nil|].
  split; [reflexivity|]. split; [reflexivity|]. vm_compute; reflexivity.
Qed.

(** ** C91: invalid calls that the debug build catches.  Keys above max_key, whatever the state; positions at or behind the end, whatever the state;
    tables of different widths, and a width above that of the key type. *)
Theorem C91_caught_always : forall pf c es t, bok pf c es ->
  (forall k v, 2^N.of_nat (bc_width c) <= k -> dbt_insert pf c t k v = Throw /\ dbt_at pf c t k = Throw)
  /\ (forall p v, h_n t <= p -> dbn_next t p = Throw /\ dbn_prev t p = Throw /\ dbn_key pf c t p = Throw /\ dbn_value pf c t p = Throw /\ dbn_write pf c t p v = Throw)
  /\ (forall ow o, ow <> bc_width c -> dbt_move_assign pf c ow t o = Throw /\ dbt_swap c ow t o = Throw).
Proof.
  intros pf c es t OK. split; [|split].
  - intros k v Hk. split; [exact (dinsert_wide pf c es OK t k v Hk)|exact (dat_wide pf c es OK t k Hk)].
  - intros p v Hp. unfold dbn_next, dbn_prev, dbn_key, dbn_value, dbn_write, dbn_valid. by rewrite (proj2 (N.ltb_ge _ _)) by done.
  - intros ow o Hw. unfold dbt_move_assign, dbt_swap. by rewrite (proj2 (Nat.eqb_neq _ _)) by congruence.
Qed.
Print Assumptions C91_caught_always.
Theorem C91_constructor : forall c junk, dbt_new c junk = Throw <-> (val_bits (bc_key c) < bc_width c)%nat.
Proof. intros c junk. unfold dbt_new. destruct (Nat.leb_spec (bc_width c) (val_bits (bc_key c))); cbn [chk mbind res_bind]; split; try done; lia. Qed.
Print Assumptions C91_constructor.
(** After any valid history operator[] const fails a check exactly if the key is not stored, and the key that exceeds the growth limit of
    arbitrary_resize_bucket fails a check, as it does with incremental_resize and AVX2 keys. *)
Theorem C91_caught_partial : forall pf c junk es ops t t' outs k v, bok pf c es -> dbt_new c junk = Ok t -> Forall bt_has_op ops ->
  valid_ops (N.of_nat (bc_width c)) (N.of_nat es) 0 0 ops -> never_above (growth_limit (bc_strat c)) ∅ ops -> dbt_run pf c t ops = Ok (t', outs) ->
  k < 2^N.of_nat (bc_width c) -> fst (spec_run ∅ ops) !! k = None ->
  dbt_at pf c t' k = Throw
  /\ (bc_strat c = BArb \/ (exists w, bc_key c = KAvx w) -> N.of_nat (size (fst (spec_run ∅ ops))) = growth_limit (bc_strat c) -> dbt_insert pf c t' k v = Throw).
Proof.
  intros pf c junk es ops t t' outs k v OK Et Hh Hv Hs Er Hk Hn. assert (Ht : hmrep pf c es t ∅) by (exists []; split; [by eapply hrep_new|done]).
  destruct (drun_ok pf c es OK ops t ∅ Ht Hh Hv Hs) as (u & F & R). rewrite F in Er. injection Er as -> _.
  split; [rewrite (dat_ok pf c es OK t' _ k R Hk); by rewrite Hn|]. destruct R as (E & HE & Hm). rewrite <-Hm in *. pose proof (brep_nodup _ _ _ _ _ (proj1 HE)) as Hnd.
  rewrite emap_size by done. intros Hc Hsz. apply emap_None in Hn. unfold growth_limit in Hsz. destruct (bc_strat c) eqn:Es.
  - destruct Hc as [?|[w Hw]]; [done|]. pose proof (dinsert_2_32 pf c es OK t' E k v Es HE Hsz Hn Hk) as H. by rewrite Hw in H.
  - apply (dinsert_256 pf c es OK t' E); try done. lia.
Qed.
Print Assumptions C91_caught_partial.
(** With incremental_resize and other keys the counter wraps to 0, DCHECK_LE(0, 0) holds, and the key that exceeds the limit leads to undefined
    behaviour in the debug build as well. *)
Theorem C91_wrap_refuted : forall pf c junk es ops t t' outs k v, bok pf c es -> dbt_new c junk = Ok t -> Forall bt_has_op ops ->
  valid_ops (N.of_nat (bc_width c)) (N.of_nat es) 0 0 ops -> never_above (2^32 - 1) ∅ ops -> dbt_run pf c t ops = Ok (t', outs) ->
  bc_strat c = BInc -> (forall w, bc_key c <> KAvx w) -> k < 2^N.of_nat (bc_width c) -> fst (spec_run ∅ ops) !! k = None ->
  N.of_nat (size (fst (spec_run ∅ ops))) = 2^32 - 1 -> is_ub (dbt_insert pf c t' k v) = true.
Proof.
  intros pf c junk es ops t t' outs k v OK Et Hh Hv Hs Er Es Hx Hk Hn Hsz. assert (Ht : hmrep pf c es t ∅) by (exists []; split; [by eapply hrep_new|done]).
  destruct (drun_ok pf c es OK ops t ∅ Ht Hh Hv) as (u & F & R); [unfold blim; by rewrite Es|]. rewrite F in Er. injection Er as -> _.
  destruct R as (E & HE & Hm). rewrite <-Hm in *. pose proof (brep_nodup _ _ _ _ _ (proj1 HE)) as Hnd. rewrite emap_size in Hsz by done. apply emap_None in Hn.
  pose proof (dinsert_2_32 pf c es OK t' E k v Es HE Hsz Hn Hk) as H. destruct (bc_key c); try done. by destruct (Hx es0).
Qed.
Print Assumptions C91_wrap_refuted.
Lemma nat_for (x : N) : exists n, N.of_nat n = x.
Proof. exists (N.to_nat x). apply N2Nat.id. Qed.
(** Such histories exist for keys of at least 32 bits. *)
Theorem C91_wrap_reached_refuted : forall pf c junk es t, bok pf c es -> dbt_new c junk = Ok t -> bc_strat c = BInc -> (forall w, bc_key c <> KAvx w) -> (32 <= bc_width c)%nat ->
  exists ops t' outs, Forall bt_has_op ops /\ valid_ops (N.of_nat (bc_width c)) (N.of_nat es) 0 0 ops
    /\ dbt_run pf c t ops = Ok (t', outs) /\ is_ub (dbt_insert pf c t' (2^32 - 1) 0) = true.
Proof.
  intros pf c junk es t OK Et Es Hx Hw. destruct (nat_for (2^32 - 1)) as [n Hn]. rewrite <-Hn.
  assert (Hlt : N.of_nat n < 2^N.of_nat (bc_width c)). { rewrite Hn. apply N.lt_le_trans with (2^32); [done|]. apply N.pow_le_mono_r; lia. }
  destruct (fill_run n 0 ∅) as (H1 & H2 & H3); [done|]. rewrite map_size_empty in H1, H3. cbn [Nat.add] in H1, H3. rewrite Hn in H3.
  destruct (fill_valid (N.of_nat (bc_width c)) (N.of_nat es) n) as [Hv Hh]; [lia|].
  assert (Ht : hmrep pf c es t ∅) by (exists []; split; [by eapply hrep_new|done]).
  destruct (drun_ok pf c es OK (fill 0 n) t ∅ Ht Hh Hv) as (t' & E & _). { unfold blim. by rewrite Es. }
  exists (fill 0 n), t'. eexists. split; [done|]. split; [done|]. split; [exact E|].
  apply (C91_wrap_refuted pf c junk es (fill 0 n) t t' _ _ _ OK Et Hh Hv H3 E Es Hx Hlt); [apply H2; lia|by rewrite H1].
Qed.
Print Assumptions C91_wrap_reached_refuted.
Definition ex_dbt33 : bcfg := BCfg (KVar 8) (KClass 16) BInc 33.
Lemma ex_dbt33_ok : bok lax_pf ex_dbt33 16.
Proof. split; cbn; try done; try lia; [split; [by left|lia]|split; [by right|by right; left]]. Qed.
Example C91_case :
  (t ← ex_dbt1 BInc; dbt_at lax_pf (ex_bt BInc) t 101) = Throw /\ dbt_at lax_pf (ex_bt BInc) (ex_dbt BInc) 101 = Throw
  /\ dbt_insert lax_pf (ex_bt BInc) (ex_dbt BInc) 8192 0 = Throw /\ (t ← ex_dbt1 BInc; dbn_next t 4) = Throw /\ (t ← ex_dbt1 BInc; dbn_next t 3) = Ok 4
  /\ dbt_new (BCfg (KPlain 16) (KClass 16) BInc 17) None = Throw
  /\ bok lax_pf ex_dbt33 16 /\ (forall w, bc_key ex_dbt33 <> KAvx w) /\ growth_limit (bc_strat (ex_bt BArb)) < 2^N.of_nat (bc_width (ex_bt BArb)).
Proof.
  split; [vm_compute; reflexivity|]. split; [vm_compute; reflexivity|]. split; [vm_compute; reflexivity|]. split; [vm_compute; reflexivity|].
  split; [vm_compute; reflexivity|]. split; [vm_compute; reflexivity|]. split; [apply ex_dbt33_ok|]. split; [discriminate|vm_compute; reflexivity].
Qed.
