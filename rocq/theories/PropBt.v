(** Property theorems about bucket_table. *)
From Verif Require Export BtProofs PropSerial.

(** Elements up to which the buckets of a bucket_table grow as needed: the counter is a uint32_t; arbitrary_resize_bucket
    never asks for more than 255 elements. *)
Definition growth_limit (s : bstrat) : N := match s with BInc => 2^32 - 1 | BArb => 255 end.

(** C23, both strategies up to their limit: every history of calls gives the results of a finite map and no undefined
    behaviour. *)
Theorem C23_history_partial : forall pf c es ops, bok pf c es -> Forall bt_has_op ops ->
  valid_ops (N.of_nat (bc_width c)) (N.of_nat es) 0 0 ops -> never_above (growth_limit (bc_strat c)) ∅ ops ->
  exists t, bt_run pf c bt_new ops = Ok (t, snd (spec_run ∅ ops)).
Proof.
  intros pf c es ops OK Hh Hv Hs. destruct (run_spec pf c es OK ops bt_new ∅ (mrep_new pf c es) Hh Hv Hs) as (t & E & _). by exists t.
Qed.
Print Assumptions C23_history_partial.
(** incremental_resize with keys of at most 31 bits never reaches its limit. *)
Lemma bounded_never kw vw n ops : forall m : gmap N N, 2^kw <= n -> valid_ops kw vw 0 0 ops ->
  (forall k, is_Some (m !! k) -> k < 2^kw) -> never_above n m ops.
Proof.
  induction ops as [|o ops IH]; intros m Hn Hv Hm; [done|]. unfold valid_ops in Hv. apply Forall_cons in Hv as [Ho Hv].
  assert (Hm' : forall k, is_Some ((spec_step m o).1 !! k) -> k < 2^kw).
  { intros k [x Hx]. destruct o as [k'|k'|k' v|k'|k' v|k'|k'| | |q| |]; cbn in Ho, Hx; try (apply Hm; by exists x); try done.
    - destruct (m !! k') eqn:E; cbn in Hx; [apply Hm; by eexists|]. apply lookup_insert_Some in Hx as [[<- _]|[_ Hx]]; [apply Ho|apply Hm; by eexists].
    - destruct (m !! k') eqn:E; cbn in Hx; [apply Hm; by eexists|]. apply lookup_insert_Some in Hx as [[<- _]|[_ Hx]]; [apply Ho|apply Hm; by eexists].
    - apply lookup_insert_Some in Hx as [[<- _]|[_ Hx]]; [apply Ho|apply Hm; by eexists].
    - destruct (m !! k') eqn:E; cbn in Hx; [|apply Hm; by eexists]. apply lookup_delete_Some in Hx as [_ Hx]. apply Hm. by eexists.
    - destruct (m !! k') eqn:E; cbn in Hx; [|apply Hm; by eexists]. apply lookup_delete_Some in Hx as [_ Hx]. apply Hm. by eexists. }
  split; [|by apply IH]. etrans; [|exact Hn]. generalize dependent (spec_step m o).1. clear. intros m Hm.
  assert (Hs : dom m ⊆ (list_to_set (N.of_nat <$> seq 0 (N.to_nat (2^kw))) : gset N)).
  { intros k Hk. apply elem_of_list_to_set, elem_of_list_fmap. apply elem_of_dom, Hm in Hk.
    exists (N.to_nat k). split; [lia|]. apply elem_of_seq. lia. }
  apply subseteq_size in Hs. rewrite size_dom, (size_list_to_set (C:=gset N)) in Hs.
  - rewrite fmap_length, seq_length in Hs. lia.
  - apply (NoDup_fmap_2 N.of_nat), NoDup_seq.
Qed.
Theorem C23_incremental_31 : forall pf c es ops, bok pf c es -> bc_strat c = BInc -> (bc_width c <= 31)%nat -> Forall bt_has_op ops ->
  valid_ops (N.of_nat (bc_width c)) (N.of_nat es) 0 0 ops ->
  exists t, bt_run pf c bt_new ops = Ok (t, snd (spec_run ∅ ops)).
Proof.
  intros pf c es ops OK Es Hw Hh Hv. apply (C23_history_partial pf c es ops OK Hh Hv). rewrite Es.
  eapply bounded_never; [|exact Hv|]; [|intros k [x Hx]; done]. cbn [growth_limit].
  transitivity (2^31); [apply N.pow_le_mono_r; lia|vm_compute; discriminate].
Qed.
Print Assumptions C23_incremental_31.
Definition ex_bt (s : bstrat) : bcfg := BCfg (KVar 8) (KClass 16) s 13.
Lemma ex_bt_ok s : bok lax_pf (ex_bt s) 16.
Proof. split; cbn; try done; try lia; [split; [by left|lia]|split; [by right|by right; left]]. Qed.
Definition ex_bt_ops : list op :=
  [OpInsert 8191 5; OpInsert 7 1; OpWrite 100 65535; OpRead 7; OpInsert 7 9; OpErase 8191; OpErase 8191; OpRead 3000; OpShrink;
   OpInsert 8191 2; OpFind 100; OpFind 101; OpCount 3000; OpSize; OpEmpty; OpClear; OpSize; OpInsert 1 1; OpErase 1; OpEmpty].
Example C23_case : bok lax_pf (ex_bt BArb) 16 /\ Forall bt_has_op ex_bt_ops /\ valid_ops 13 16 0 0 ex_bt_ops
  /\ never_above 255 ∅ ex_bt_ops /\ (snd <$> bt_run lax_pf (ex_bt BArb) bt_new ex_bt_ops) = Ok (snd (spec_run ∅ ex_bt_ops)).
Proof.
  split; [apply ex_bt_ok|]. split; [repeat (apply List.Forall_cons; [exact I|]); apply List.Forall_nil|].
  split; [repeat (apply List.Forall_cons; [cbn [valid_op]; vm_compute; auto|]); apply List.Forall_nil|].
  split; [vm_compute; repeat split; discriminate|vm_compute; reflexivity].
Qed.

(** C23 fails beyond the limit: whatever the history, one more key leads to undefined behaviour (a write outside of the
    bucket), for every legal instance. *)
Theorem C23_limit_refuted : forall pf c es ops t outs k v, bok pf c es -> Forall bt_has_op ops ->
  valid_ops (N.of_nat (bc_width c)) (N.of_nat es) 0 0 ops -> never_above (growth_limit (bc_strat c)) ∅ ops ->
  bt_run pf c bt_new ops = Ok (t, outs) -> N.of_nat (size (fst (spec_run ∅ ops))) = growth_limit (bc_strat c) ->
  fst (spec_run ∅ ops) !! k = None -> k < 2^N.of_nat (bc_width c) ->
  is_ub (bt_insert pf c t k v) = true.
Proof.
  intros pf c es ops t outs k v OK Hh Hv Hs Er Hsz Hk Hkw.
  destruct (run_spec pf c es OK ops bt_new ∅ (mrep_new pf c es) Hh Hv Hs) as (t' & E & Hr).
  rewrite E in Er. injection Er as -> _. destruct Hr as (E' & Hr & Hm). rewrite <-Hm in Hsz, Hk.
  rewrite emap_size in Hsz by (by eapply brep_nodup).
  destruct Hr as [[_ ->]|Hf]; [cbn in Hsz; by destruct (bc_strat c)|].
  apply (BtProofs.insert_full pf c es OK t E'); [done|exact Hsz|by apply emap_None|done].
Qed.
Print Assumptions C23_limit_refuted.
(** Histories that reach the limit exist for every instance whose keys suffice. *)
Theorem C23_reaches_limit_refuted : forall pf c es, bok pf c es -> growth_limit (bc_strat c) < 2^N.of_nat (bc_width c) ->
  exists ops t outs, Forall bt_has_op ops /\ valid_ops (N.of_nat (bc_width c)) (N.of_nat es) 0 0 ops
    /\ bt_run pf c bt_new ops = Ok (t, outs) /\ is_ub (bt_insert pf c t (growth_limit (bc_strat c)) 0) = true.
Proof.
  intros pf c es OK Hw. set (n := N.to_nat (growth_limit (bc_strat c))).
  assert (Hn : N.of_nat n = growth_limit (bc_strat c)) by (subst n; apply N2Nat.id). clearbody n. rewrite <-Hn in Hw |- *.
  destruct (fill_run n 0 ∅) as (H1 & H2 & H3); [done|]. rewrite map_size_empty in H1, H3. cbn [Nat.add] in H1, H3. rewrite Hn in H3.
  destruct (fill_valid (N.of_nat (bc_width c)) (N.of_nat es) n) as [Hv Hh]; [lia|].
  destruct (C23_history_partial pf c es _ OK Hh Hv H3) as [t E].
  exists (fill 0 n), t. eexists. split; [done|]. split; [done|]. split; [exact E|].
  apply (C23_limit_refuted pf c es (fill 0 n) t _ _ _ OK Hh Hv H3 E); [by rewrite H1|apply H2; lia|done].
Qed.
Print Assumptions C23_reaches_limit_refuted.
Example C23_limit_case : exists ops t outs, bok lax_pf (ex_bt BArb) 16 /\ growth_limit (bc_strat (ex_bt BArb)) = 255
  /\ bt_run lax_pf (ex_bt BArb) bt_new ops = Ok (t, outs) /\ is_ub (bt_insert lax_pf (ex_bt BArb) t 255 0) = true.
Proof.
  destruct (C23_reaches_limit_refuted lax_pf (ex_bt BArb) 16 (ex_bt_ok BArb) ltac:(vm_compute; reflexivity)) as (ops & t & outs & _ & _ & E & U).
  exists ops, t, outs. split; [apply ex_bt_ok|]. split; [reflexivity|]. split; [exact E|exact U].
Qed.

(** C57: traversal of a bucket_table.  Forward iteration lists every entry once; rbegin_nav with -- lists the same
    entries in reverse order. *)
Theorem C57_bt_iteration : forall pf c es ops t outs, bok pf c es -> Forall bt_has_op ops ->
  valid_ops (N.of_nat (bc_width c)) (N.of_nat es) 0 0 ops -> never_above (growth_limit (bc_strat c)) ∅ ops ->
  bt_run pf c bt_new ops = Ok (t, outs) ->
  exists l, list_to_map l = fst (spec_run ∅ ops) /\ NoDup (map fst l)
    /\ forall f, (length l < f)%nat -> bt_iter pf c f t bt_begin = Ok l /\ bt_riter pf c f t (bt_rbegin t) = Ok (rev l).
Proof.
  intros pf c es ops t outs OK Hh Hv Hs Er.
  destruct (run_spec pf c es OK ops bt_new ∅ (mrep_new pf c es) Hh Hv Hs) as (t' & E & Hr).
  rewrite E in Er. injection Er as -> _. destruct Hr as (E' & Hr & Hm). exists E'. split; [exact Hm|].
  split; [by apply brep_nodup in Hr|]. intros f Hf. split.
  - apply (BtProofs.iter_spec pf c es OK t E' Hr (length E') 0); lia.
  - destruct Hr as [[(H1 & H2 & H3) ->]|Hr].
    + destruct f as [|f]; [cbn in Hf; lia|]. unfold bt_rbegin. rewrite H3. cbn [bt_riter]. unfold bn_eq, bn_invalid. rewrite H3. done.
    + pose proof (bfull_n _ _ _ _ _ Hr) as Hn. unfold bt_rbegin. rewrite BtProofs.u32_pred by lia. rewrite (bf_n _ _ _ _ _ Hr) in *.
      replace (N.of_nat (length E') - 1) with (N.of_nat (length E' - 1)) by lia.
      rewrite (BtProofs.riter_spec pf c es OK t E' Hr) by lia. rewrite take_ge by lia. by rewrite rev_alt.
Qed.
Print Assumptions C57_bt_iteration.
Example C57_case : match bt_run lax_pf (ex_bt BInc) bt_new (take 11 ex_bt_ops) with
  | Ok (t, _) => bt_iter lax_pf (ex_bt BInc) 9 t bt_begin = Ok [(7, 1); (100, 65535); (3000, 0); (8191, 2)]
  | _ => False
  end.
Proof. vm_compute. auto. Qed.

(** C58: move assignment and swap of bucket tables.  The target has the contents of the source, the source is empty and
    both can be used further. *)
Theorem C58_bt_move : forall pf c es ops1 ops2 t1 t2 o1 o2, bok pf c es ->
  Forall bt_has_op ops1 -> valid_ops (N.of_nat (bc_width c)) (N.of_nat es) 0 0 ops1 -> never_above (growth_limit (bc_strat c)) ∅ ops1 ->
  Forall bt_has_op ops2 -> valid_ops (N.of_nat (bc_width c)) (N.of_nat es) 0 0 ops2 -> never_above (growth_limit (bc_strat c)) ∅ ops2 ->
  bt_run pf c bt_new ops1 = Ok (t1, o1) -> bt_run pf c bt_new ops2 = Ok (t2, o2) ->
  (exists t1' t2', bt_move_assign pf c t1 t2 = Ok (t1', t2') /\
     forall m t ops, (t, m) = (t1', fst (spec_run ∅ ops2)) \/ (t, m) = (t2', ∅) -> Forall bt_has_op ops ->
       valid_ops (N.of_nat (bc_width c)) (N.of_nat es) 0 0 ops -> never_above (growth_limit (bc_strat c)) m ops ->
       exists t', bt_run pf c t ops = Ok (t', snd (spec_run m ops)))
  /\ (forall m t ops, (t, m) = (fst (bt_swap t1 t2), fst (spec_run ∅ ops2)) \/ (t, m) = (snd (bt_swap t1 t2), fst (spec_run ∅ ops1)) ->
       Forall bt_has_op ops -> valid_ops (N.of_nat (bc_width c)) (N.of_nat es) 0 0 ops -> never_above (growth_limit (bc_strat c)) m ops ->
       exists t', bt_run pf c t ops = Ok (t', snd (spec_run m ops))).
Proof.
  intros pf c es ops1 ops2 t1 t2 o1 o2 OK Hh1 Hv1 Hs1 Hh2 Hv2 Hs2 E1 E2.
  destruct (run_spec pf c es OK ops1 bt_new ∅ (mrep_new pf c es) Hh1 Hv1 Hs1) as (u1 & F1 & R1). rewrite F1 in E1. injection E1 as -> _.
  destruct (run_spec pf c es OK ops2 bt_new ∅ (mrep_new pf c es) Hh2 Hv2 Hs2) as (u2 & F2 & R2). rewrite F2 in E2. injection E2 as -> _.
  assert (Hgo : forall t m ops, mrep pf c es t m -> Forall bt_has_op ops -> valid_ops (N.of_nat (bc_width c)) (N.of_nat es) 0 0 ops ->
    never_above (growth_limit (bc_strat c)) m ops -> exists t', bt_run pf c t ops = Ok (t', snd (spec_run m ops))).
  { intros t m ops R Hh Hv Hs. destruct (run_spec pf c es OK ops t m R Hh Hv Hs) as (t' & E & _). by exists t'. }
  split.
  - destruct R1 as (L1 & R1 & _). destruct (BtProofs.clear_spec pf c es t1 L1 R1) as (t0 & Ec & _).
    unfold bt_move_assign. rewrite Ec. cbn [mbind res_bind]. eexists _, _. split; [done|].
    intros m t ops [[= -> ->]|[= -> ->]] Hh Hv Hs; apply Hgo; try done.
    + by destruct t2.
    + exists []. split; [|done]. left. done.
  - intros m t ops [[= -> ->]|[= -> ->]] Hh Hv Hs; by apply Hgo.
Qed.
Print Assumptions C58_bt_move.
Example C58_case : match bt_run lax_pf (ex_bt BInc) bt_new (take 3 ex_bt_ops), bt_run lax_pf (ex_bt BInc) bt_new (take 11 ex_bt_ops) with
  | Ok (t1, _), Ok (t2, _) =>
      match bt_move_assign lax_pf (ex_bt BInc) t1 t2 with
      | Ok (t1', t2') => bt_size t1' = 4 /\ bt_size t2' = 0
                         /\ (snd <$> bt_run lax_pf (ex_bt BInc) t2' [OpInsert 6 7; OpFind 100; OpSize]) = Ok [OutEntry (Some (6, 7)); OutEntry None; OutNum 1]
      | _ => False
      end
  | _, _ => False
  end.
Proof. vm_compute. auto. Qed.
