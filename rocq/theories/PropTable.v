(** Property theorems about separate_chaining_table: histories, single calls, iteration. *)
From Verif Require Export TableReach PropBucket.

(** Instances used in the examples: packed and plain buckets, small buckets so that growth happens early. *)
Definition ex_var : cfg := Cfg (KVar 8) (KVar 8) (HBij Xorshift) 64 true 2 OvDummy.
Definition ex_plain : cfg := Cfg (KPlain 64) (KPlain 16) (HAdapter splitmix) 64 false 3 OvDummy.
Definition ex_set : cfg := Cfg (KAvx 32) KNull (HBij Multiplicative) 32 false 2 OvDummy.
Definition ex_ov : cfg := Cfg (KClass 32) (KPlain 16) (HBij Xorshift) 32 true 2 OvMap.
Lemma lax_fair : um_fair lax_pf.
Proof. intros cur n Hn. cbn [um_policy lax_pf]. assert (2^63 < 2^64) by done. lia. Qed.
Ltac core_solve := split; cbn; unfold width_ok; try lia; repeat split; auto; try lia.
Ltac cfg_solve := split; [core_solve|cbn; auto].
Ltac params_solve := split; [|lia]; split; [cfg_solve|cbn; lia|try done].
Lemma ex_var_ok : params lax_pf ex_var 20 9.
Proof. params_solve. Qed.
Lemma ex_plain_ok : params strict_pf ex_plain 64 16.
Proof. params_solve. apply splitmix_spreading; cbn; lia. Qed.
Lemma ex_set_ok : params strict_pf ex_set 30 0.
Proof. params_solve. Qed.
Lemma ex_ov_ok : params lax_pf ex_ov 32 16.
Proof. params_solve. right. split; [done|]. split; [done|]. apply lax_fair. Qed.

Definition ex_ops : list op :=
  [OpInsert 5 7; OpWrite 1048575 511; OpInsert 77 0; OpInsert 5 9; OpInsert 1 1; OpInsert 2 2; OpInsert 3 3; OpInsert 4 4;
   OpWrite 77 8; OpErase 2; OpErase 2; OpShrink; OpReserve 64; OpSize].
Lemma ex_ops_valid kw vw b : 20 <= kw -> 9 <= vw -> 6 <= b -> valid_ops kw vw 1 b ex_ops.
Proof.
  intros Hk Hv Hb. assert (2^20 <= 2^kw) by (by apply N.pow_le_mono_r). assert (2^9 <= 2^vw) by (by apply N.pow_le_mono_r).
  assert (2^6 <= 2^b) by (by apply N.pow_le_mono_r).
  change (2^20) with 1048576 in *. change (2^9) with 512 in *. change (2^6) with 64 in *.
  unfold ex_ops, valid_ops. repeat (apply List.Forall_cons; [cbn [valid_op]; change (2^1/2) with 1; lia|]). apply List.Forall_nil.
Qed.
Lemma ex_reach : exists t, reachable lax_pf ex_var 20 9 t (fst (spec_run ∅ ex_ops)).
Proof.
  destruct (map_history _ _ _ _ ex_var_ok 64 ex_ops) as (t & E); [done|lia|apply ex_ops_valid; cbn; lia|].
  exists t. eapply reach_map with (fuel := 64%nat); [lia|done|apply ex_ops_valid; cbn; lia|exact E].
Qed.
Lemma ex_reach_plain : exists t, reachable strict_pf ex_plain 64 16 t (fst (spec_run ∅ ex_ops)).
Proof.
  destruct (map_history _ _ _ _ ex_plain_ok 64 ex_ops) as (t & E); [done|lia|apply ex_ops_valid; cbn; lia|].
  exists t. eapply reach_map with (fuel := 64%nat); [lia|done|apply ex_ops_valid; cbn; lia|exact E].
Qed.

(** C01: every valid history from a new map terminates without undefined behaviour and every call returns
    what the finite map returns. *)
Theorem C01_map_history : forall pf c kw vw fuel ops,
  params pf c kw vw -> c_ov c = OvDummy -> c_val c <> KNull -> (64 <= fuel)%nat ->
  valid_ops kw vw 1 (bits_max c kw) ops ->
  exists t, run_ops pf c fuel (new_table pf c kw vw) ops = Ok (t, snd (spec_run ∅ ops)).
Proof. intros pf c kw vw fuel ops P _ Hv Hf Ho. exact (map_history pf c kw vw P fuel ops Hv Hf Ho). Qed.
Print Assumptions C01_map_history.
Example C01_case :
  params lax_pf ex_var 20 9 /\ valid_ops 20 9 1 (bits_max ex_var 20) ex_ops
  /\ match run_ops lax_pf ex_var 64 (new_table lax_pf ex_var 20 9) ex_ops with
     | Ok (t, outs) => bucket_count t = 64 /\ nth 3 outs OutUnit = OutEntry (Some (5, 7)) /\ nth 9 outs OutUnit = OutNum 1
                       /\ nth 10 outs OutUnit = OutNum 0 /\ nth 13 outs OutUnit = OutNum 6
     | _ => False
     end.
Proof. split; [exact ex_var_ok|]. split; [apply ex_ops_valid; cbn; lia|]. vm_compute. auto. Qed.

(** C02: the same for sets. *)
Theorem C02_set_history : forall pf c kw vw fuel ops,
  params pf c kw vw -> c_val c = KNull -> (64 <= fuel)%nat -> Forall (valid_sop kw 1 (bits_max c kw)) ops ->
  exists t, run_sops pf c fuel (new_table pf c kw vw) ops = Ok (t, snd (set_run ∅ ops)).
Proof. intros pf c kw vw fuel ops P Hv Hf Ho. exact (set_history pf c kw vw P fuel ops Hv Hf Ho). Qed.
Print Assumptions C02_set_history.
Example C02_case :
  params strict_pf ex_set 30 0
  /\ match run_sops strict_pf ex_set 64 (new_table strict_pf ex_set 30 0)
           [SInsert 9; SInsert 3; SInsert 9; SInsert 1000000; SCount 3; SErase 3; SFind 3; SFind 9; SSize] with
     | Ok (_, outs) => outs = [SoKey (Some 9); SoKey (Some 3); SoKey (Some 9); SoKey (Some 1000000); SoNum 1; SoNum 1; SoKey None; SoKey (Some 9); SoNum 2]
     | _ => False
     end.
Proof. split; [exact ex_set_ok|]. vm_compute. reflexivity. Qed.

(** C03: find_or_insert adds exactly the missing pair and otherwise changes nothing. *)
Theorem C03_insert_exact : forall pf c kw vw t m fuel k v,
  params pf c kw vw -> reachable pf c kw vw t m -> c_val c <> KNull -> (64 <= fuel)%nat -> k < 2^kw -> v < 2^vw ->
  shows pf c kw t m /\
  exists t' x, find_or_insert pf c fuel t k v = Ok (t', x)
    /\ nav_key pf c t' x = Ok k /\ nav_value pf c t' x = Ok (default v (m !! k))
    /\ (is_Some (m !! k) -> t' = t)
    /\ shows pf c kw t' (match m !! k with Some _ => m | None => <[k := v]> m end).
Proof.
  intros pf c kw vw t m fuel k v P Hr Hv Hf Hk Hvv. split; [apply (rep_shows _ _ _ _ P), (reachable_rep _ _ _ _ P), Hr|].
  destruct (insert_fact pf c kw vw P t m fuel k v Hr Hv Hf Hk Hvv) as (t' & x & H1 & _ & H2 & H3 & H4 & H5 & _).
  exists t', x. do 4 (split; [done|]). exact (full_shows pf c kw vw P _ _ H5).
Qed.
Print Assumptions C03_insert_exact.
Example C03_case : exists t, reachable lax_pf ex_var 20 9 t (fst (spec_run ∅ ex_ops))
  /\ fst (spec_run ∅ ex_ops) !! 5 = Some 7 /\ fst (spec_run ∅ ex_ops) !! 6 = None.
Proof. destruct ex_reach as (t & Hr). exists t. split; [done|]. split; vm_compute; reflexivity. Qed.

(** C04: erase(k) reports and removes exactly k. *)
Theorem C04_erase_exact : forall pf c kw vw t m k,
  params pf c kw vw -> reachable pf c kw vw t m -> k < 2^kw ->
  shows pf c kw t m /\
  exists t' n, erase pf c t k = Ok (t', n)
    /\ n = (match m !! k with Some _ => 1 | None => 0 end)
    /\ shows pf c kw t' (delete k m).
Proof.
  intros pf c kw vw t m k P Hr Hk. split; [apply (rep_shows _ _ _ _ P), (reachable_rep _ _ _ _ P), Hr|].
  destruct (erase_fact pf c kw vw P t m k Hr Hk) as (t' & H1 & H2). eexists t', _. split; [exact H1|]. split; [done|].
  exact (rep_shows pf c kw vw P _ _ H2).
Qed.
Print Assumptions C04_erase_exact.
Example C04_case : exists t t', reachable lax_pf ex_var 20 9 t (fst (spec_run ∅ ex_ops))
  /\ erase lax_pf ex_var t 77 = Ok (t', 1) /\ shows lax_pf ex_var 20 t' (delete 77 (fst (spec_run ∅ ex_ops))).
Proof.
  destruct ex_reach as (t & Hr). destruct (C04_erase_exact _ _ _ _ _ _ 77 ex_var_ok Hr ltac:(done)) as (_ & t' & n & E & Hn & H).
  vm_compute in Hn. subst n. by exists t, t'.
Qed.

(** C05: size() is the number of distinct keys (modulo 2^64), empty() tells whether it is 0, and no two
    positions hold the same key. *)
Theorem C05_size_counts_keys : forall pf c kw vw t m,
  params pf c kw vw -> reachable pf c kw vw t m ->
  TableModel.size t = N.of_nat (size m) mod 2^64
  /\ TableModel.empty t = (TableModel.size t =? 0)
  /\ (forall x y k, nav_invalid pf t x = Ok false -> nav_invalid pf t y = Ok false ->
        nav_key pf c t x = Ok k -> nav_key pf c t y = Ok k -> x = y)
  /\ (forall x, nav_invalid pf t x = Ok false -> exists k v, nav_key pf c t x = Ok k /\ nav_value pf c t x = Ok v /\ m !! k = Some v)
  /\ (forall k v, m !! k = Some v -> exists x, TableModel.find pf c t k = Ok x /\ nav_invalid pf t x = Ok false /\ nav_key pf c t x = Ok k).
Proof.
  intros pf c kw vw t m P Hr. pose proof (reachable_rep _ _ _ _ P _ _ Hr) as Hrep. split; [apply (rep_shows _ _ _ _ P _ _ Hrep)|].
  split; [done|]. split; [intros x y k; exact (trep_unique _ _ _ _ _ _ _ (reach_ok0 _ _ _ _ P) t m x y k Hrep)|].
  split; [intros x; exact (trep_valid_nav _ _ _ _ _ _ _ (reach_ok0 _ _ _ _ P) t m x Hrep)|].
  intros k v Hk. pose proof (reachable_keys _ _ _ _ P _ _ _ _ Hr Hk) as Hlt.
  destruct Hrep as [[_ ->]|(sl & ess & ovl & H & Hm)]; [by rewrite lookup_empty in Hk|].
  pose proof (find_spec _ _ _ _ _ _ _ (reach_ok0 _ _ _ _ P) _ _ _ _ k H (kdom_intro _ _ _ (noarr _ _ _ _ P) Hlt)) as Hf. rewrite Hm, Hk in Hf.
  destruct Hf as (x & Ef & He). destruct (nav_entry_read _ _ _ _ _ _ _ (reach_ok0 _ _ _ _ P) _ _ _ _ _ _ _ H He) as (H1 & H2 & _).
  by exists x.
Qed.
Print Assumptions C05_size_counts_keys.
Example C05_case : exists t, reachable lax_pf ex_var 20 9 t (fst (spec_run ∅ ex_ops)) /\ TableModel.size t = 6.
Proof.
  destruct ex_reach as (t & Hr). exists t. split; [done|].
  rewrite (proj1 (C05_size_counts_keys _ _ _ _ _ _ ex_var_ok Hr)). vm_compute. reflexivity.
Qed.

(** C06: reserve(n) keeps the contents and leaves at least n buckets, a power of two. *)
Theorem C06_reserve_preserves : forall pf c kw vw t m fuel n,
  params pf c kw vw -> reachable pf c kw vw t m -> (64 <= fuel)%nat -> 2 <= n <= 2^(bits_max c kw) ->
  shows pf c kw t m /\
  exists t', reserve pf c fuel t n = Ok t' /\ shows pf c kw t' m /\ n <= bucket_count t'
    /\ exists b, b <= bits_max c kw /\ bucket_count t' = 2^b.
Proof.
  intros pf c kw vw t m fuel n P Hr Hf Hn. split; [apply (rep_shows _ _ _ _ P), (reachable_rep _ _ _ _ P), Hr|].
  destruct (reserve_fact pf c kw vw P t m fuel n Hr Hf Hn) as (t' & H1 & H2 & H3 & H4). exists t'. split; [done|].
  split; [exact (full_shows pf c kw vw P _ _ H2)|]. done.
Qed.
Print Assumptions C06_reserve_preserves.
Example C06_case : exists t t', reachable lax_pf ex_var 20 9 t (fst (spec_run ∅ ex_ops))
  /\ reserve lax_pf ex_var 64 t 1000 = Ok t' /\ shows lax_pf ex_var 20 t' (fst (spec_run ∅ ex_ops)) /\ 1000 <= bucket_count t'.
Proof.
  destruct ex_reach as (t & Hr). destruct (C06_reserve_preserves _ _ _ _ _ _ 64 1000 ex_var_ok Hr ltac:(lia)) as (_ & t' & E & H & Hle & _).
  - cbn [bits_max ex_var c_hash]. change (2^(20-1)) with 524288. lia.
  - by exists t, t'.
Qed.

(** C07: growing terminates.  64 nested calls of find_or_insert always suffice, the number of buckets stays
    below 2^bits_max (bits_max = key width - 1 for bijective hash functions, 63 otherwise), the remainder keeps a bit. *)
Theorem C07_growth_terminates : forall pf c kw vw t m fuel k v,
  params pf c kw vw -> reachable pf c kw vw t m -> (64 <= fuel)%nat -> k < 2^kw -> c_val c = KNull \/ v < 2^vw ->
  exists t' x, find_or_insert pf c fuel t k v = Ok (t', x) /\ nav_key pf c t' x = Ok k
    /\ bucket_count t' <= 2^(bits_max c kw) /\ (1 <= qwidth c t')%nat.
Proof. intros pf c kw vw t m fuel k v P. exact (growth_fact pf c kw vw P t m fuel k v). Qed.
Print Assumptions C07_growth_terminates.
Definition ex_fill (n : nat) : list op := map (fun i => OpInsert (N.of_nat i) 1) (seq 0 n).
Example C07_case : (* a history that grows from 16 to at least 64 buckets *)
  match run_ops lax_pf ex_var 64 (new_table lax_pf ex_var 20 9) (ex_fill 3), run_ops lax_pf ex_var 64 (new_table lax_pf ex_var 20 9) (ex_fill 70) with
  | Ok (t, _), Ok (t', _) => bucket_count t = 16 /\ 64 <= bucket_count t' /\ TableModel.size t' = 70
  | _, _ => False
  end.
Proof. vm_compute. split; [reflexivity|]. split; [discriminate|reflexivity]. Qed.

(** C08 fails: with a constant hash function, inserting max_bucket_size() + 1 keys never finishes. *)
Definition const_hash : cfg := Cfg (KPlain 64) (KPlain 64) (HAdapter (fun _ => 0)) 64 true 255 OvDummy.
Lemma const_hash_ok : cfg_ok0 strict_pf const_hash 64 64 1.
Proof. cfg_solve. Qed.
Theorem C08_growth_refuted : exists c ks, cfg_ok0 strict_pf c 64 64 1 /\ NoDup ks /\ (forall k, k ∈ ks -> k < 2^64)
  /\ (length ks = 256)%nat
  /\ forall fuel r, insert_all strict_pf c fuel ks (new_table strict_pf c 64 64) <> Ok r.
Proof.
  exists const_hash, (map N.of_nat (seq 0 256)). split; [exact const_hash_ok|]. split; [|split; [|split]].
  - apply NoDup_fmap_2; [intros x y; lia|]. apply NoDup_seq.
  - intros k Hk. apply elem_of_list_fmap in Hk as (y & -> & Hy). apply elem_of_seq in Hy.
    assert (2^64 = 18446744073709551616) by reflexivity. lia.
  - reflexivity.
  - apply (colliding_fact strict_pf const_hash 64 64 (fun _ => 0)); try done; try exact const_hash_ok.
    + apply NoDup_fmap_2; [intros x y; lia|]. apply NoDup_seq.
    + intros k Hk. apply elem_of_list_fmap in Hk as (y & -> & Hy). apply elem_of_seq in Hy.
      assert (2^64 = 18446744073709551616) by reflexivity. lia.
Qed.
Print Assumptions C08_growth_refuted.
(** The exact condition: if the hash function spreads, every insertion into every reachable table finishes;
    if it does not, some sequence of insertions does not finish. *)
Theorem C08_growth_iff_spreading_partial : forall pf c kw vw f,
  cfg_ok0 pf c kw vw 1 -> 3 <= kw -> 2 <= c_maxb c -> c_ov c = OvDummy -> c_hash c = HAdapter f ->
  (spreading f kw (c_maxb c) ->
     forall t m fuel k v, reachable pf c kw vw t m -> (64 <= fuel)%nat -> k < 2^kw -> c_val c = KNull \/ v < 2^vw ->
     exists t' x, find_or_insert pf c fuel t k v = Ok (t', x) /\ nav_key pf c t' x = Ok k)
  /\ (forall ks, NoDup ks -> N.of_nat (length ks) = c_maxb c + 1 -> (forall k, k ∈ ks -> k < 2^kw) ->
       (forall k k', k ∈ ks -> k' ∈ ks -> u64 (f k) mod 2^63 = u64 (f k') mod 2^63) ->
       forall fuel r, insert_all pf c fuel ks (new_table pf c kw vw) <> Ok r).
Proof.
  intros pf c kw vw f H Hkw Htwo Hd Hh. split.
  - intros Hs t m fuel k v Hr Hf Hk Hv. assert (P : params pf c kw vw) by (split; [split; [done|done|by rewrite Hh]|done]).
    destruct (growth_fact pf c kw vw P t m fuel k v Hr Hf Hk Hv) as (t' & x & H1 & H2 & _). by exists t', x.
  - intros ks. exact (colliding_fact pf c kw vw f ks H Hkw Hd Hh).
Qed.
Print Assumptions C08_growth_iff_spreading_partial.
Example C08_case : cfg_ok0 strict_pf ex_plain 64 16 1 /\ spreading splitmix 64 (c_maxb ex_plain).
Proof. split; [apply ex_plain_ok|apply splitmix_spreading; cbn; lia]. Qed.

(** C09: size limits.  [block_room] is the number of elements that fit into the allocated block. *)
Theorem C09_bucket_limits : forall pf c kw vw t m, params pf c kw vw -> reachable pf c kw vw t m ->
  (forall bk, bk < bucket_count t -> exists s, get_slot t bk = Ok s
     /\ s_size s <= c_maxb c /\ s_size s <= 255
     /\ (N.to_nat (s_size s) <= block_room (c_key c) (qwidth c t) (s_keys s))%nat
     /\ (1 <= vw -> (N.to_nat (s_size s) <= block_room (c_val c) (vwidth t) (s_vals s))%nat))
  /\ (c_ov c = OvDummy -> N.of_nat (size m) <= c_maxb c * bucket_count t)
  /\ (c_ov c = OvDummy -> c_maxb c * bucket_count t < 2^64 -> TableModel.size t <= max_size c t).
Proof.
  intros pf c kw vw t m P Hr. destruct (limits_fact pf c kw vw P t m Hr) as (H1 & H2 & H3 & H4). split; [|done].
  intros bk Hbk. destruct (H2 bk Hbk) as [s Hs]. exists s. split; [done|]. by apply (H1 bk).
Qed.
Print Assumptions C09_bucket_limits.
Example C09_case : exists t, reachable lax_pf ex_var 20 9 t (fst (spec_run ∅ ex_ops)) /\ size (fst (spec_run ∅ ex_ops)) = 6%nat.
Proof. destruct ex_reach as (t & Hr). exists t. split; [done|]. vm_compute. reflexivity. Qed.

(** C10: forward iteration yields the pairs of the map, each once; any loop bound of at least size() suffices. *)
Theorem C10_forward_iteration : forall pf c kw vw t m, params pf c kw vw -> reachable pf c kw vw t m -> ov_size (t_ov t) = 0 ->
  exists l, NoDup l /\ (forall k v, (k, v) ∈ l <-> m !! k = Some v)
    /\ forall f, (size m <= f)%nat -> forward pf c f t = Ok l.
Proof.
  intros pf c kw vw t m P Hr Ho. destruct (iterate_fact pf c kw vw P t m Hr Ho) as (l & Hnd & Hm & Hl & Hf & _).
  exists l. split; [by eapply NoDup_fmap_1|]. split; [|intros f Hle; apply Hf; lia].
  intros k v. rewrite <-Hm. by apply elem_of_list_to_map.
Qed.
Print Assumptions C10_forward_iteration.
(** C11: reverse iteration yields the forward sequence reversed. *)
Theorem C11_reverse_iteration : forall pf c kw vw t m, params pf c kw vw -> reachable pf c kw vw t m -> ov_size (t_ov t) = 0 -> m <> ∅ ->
  exists l, NoDup l /\ (forall k v, (k, v) ∈ l <-> m !! k = Some v)
    /\ forall f, (size m <= f)%nat -> forward pf c f t = Ok l /\ backward pf c f t = Ok (rev l).
Proof.
  intros pf c kw vw t m P Hr Ho Hne. destruct (iterate_fact pf c kw vw P t m Hr Ho) as (l & Hnd & Hm & Hl & Hf & Hb).
  exists l. split; [by eapply NoDup_fmap_1|].
  split; [|intros f Hle; split; [apply Hf; lia|by apply Hb; [|lia]]].
  intros k v. rewrite <-Hm. by apply elem_of_list_to_map.
Qed.
Print Assumptions C11_reverse_iteration.
(** C12: erasing while iterating backwards visits every pair once and empties the table. *)
Theorem C12_reverse_drain : forall pf c kw vw t m, params pf c kw vw -> reachable pf c kw vw t m -> ov_size (t_ov t) = 0 -> m <> ∅ ->
  exists l, NoDup l /\ (forall k v, (k, v) ∈ l <-> m !! k = Some v)
    /\ forall f, (size m <= f)%nat ->
       exists t', drain pf c f t = Ok (t', l) /\ TableModel.size t' = 0 /\ shows pf c kw t' ∅.
Proof.
  intros pf c kw vw t m P Hr Ho Hne. destruct (iterate_fact pf c kw vw P t m Hr Ho) as (l & Hnd & Hm & Hl & Hf & Hb).
  exists (rev l). split; [apply NoDup_ListNoDup, NoDup_rev, NoDup_ListNoDup; by eapply NoDup_fmap_1|].
  split; [|intros f Hle; by apply Hb; [|lia]].
  intros k v. rewrite <-Hm. rewrite elem_of_list_In, <-in_rev, <-elem_of_list_In. by apply elem_of_list_to_map.
Qed.
Print Assumptions C12_reverse_drain.
Example C10_C11_C12_case :
  match run_ops lax_pf ex_var 64 (new_table lax_pf ex_var 20 9) ex_ops with
  | Ok (t, _) => forward lax_pf ex_var 6 t = Ok [(1048575, 511); (77, 8); (5, 7); (4, 4); (3, 3); (1, 1)]
                 /\ ov_size (t_ov t) = 0
                 /\ match drain lax_pf ex_var 6 t with Ok (t', l) => length l = 6%nat /\ TableModel.size t' = 0 | _ => False end
  | _ => False
  end.
Proof. vm_compute. auto. Qed.

(** C13 fails: after inserting and erasing one key, rbegin_nav() reads outside of the bucket array. *)
Definition ex_hist (c : cfg) (kw vw : N) (ops : list op) : table :=
  match run_ops lax_pf c 64 (new_table lax_pf c kw vw) ops with Ok (t, _) => t | _ => new_table lax_pf c kw vw end.
Lemma ex_hist_reach c kw vw ops : params lax_pf c kw vw -> c_val c <> KNull -> valid_ops kw vw 1 (bits_max c kw) ops ->
  reachable lax_pf c kw vw (ex_hist c kw vw ops) (fst (spec_run ∅ ops)).
Proof.
  intros P Hv Ho. destruct (map_history _ _ _ _ P 64 ops Hv ltac:(lia) Ho) as (t & E). unfold ex_hist. rewrite E.
  by eapply (reach_map _ _ _ _ 64); [lia|..|exact E].
Qed.
Theorem C13_rbegin_refuted : exists c t, params lax_pf c 20 9 /\ reachable lax_pf c 20 9 t ∅
  /\ TableModel.size t = 0 /\ rbegin_nav t = Ub OobRead.
Proof.
  exists ex_var, (ex_hist ex_var 20 9 [OpInsert 5 7; OpErase 5]). split; [exact ex_var_ok|]. split; [|vm_compute; auto].
  assert (E : fst (spec_run ∅ [OpInsert 5 7; OpErase 5]) = ∅).
  { cbn [spec_run spec_step fst]. rewrite lookup_empty, lookup_insert. by apply delete_insert. }
  rewrite <-E.
  apply ex_hist_reach; [exact ex_var_ok|done|]. repeat (apply List.Forall_cons; [cbn [valid_op]; lia|]). apply List.Forall_nil.
Qed.
Print Assumptions C13_rbegin_refuted.
(** The exact behaviour: safe only as long as the table has no buckets. *)
Theorem C13_rbegin_exact_partial : forall pf c kw vw t, params pf c kw vw -> reachable pf c kw vw t ∅ -> c_ov c = OvDummy ->
  rbegin_nav t = if bucket_count t =? 0 then Ok end_nav else Ub OobRead.
Proof. intros pf c kw vw t P. exact (rbegin_fact pf c kw vw P t). Qed.
Print Assumptions C13_rbegin_exact_partial.
Example C13_case : reachable lax_pf ex_var 20 9 (new_table lax_pf ex_var 20 9) ∅ /\ bucket_count (new_table lax_pf ex_var 20 9) = 0.
Proof. split; [|done]. apply (reach_map _ _ _ _ 64 [] _ []); [lia|done|apply List.Forall_nil|done]. Qed.

(** C29: shrink_to_fit changes no answer, no iteration; then capacity() = size(). *)
Theorem C29_shrink : forall pf c kw vw t m, params pf c kw vw -> reachable pf c kw vw t m -> c_ov c = OvDummy ->
  exists t', shrink_to_fit pf c t = Ok t' /\ shows pf c kw t m /\ shows pf c kw t' m
    /\ (forall x, iter_at pf c t' x = iter_at pf c t x)
    /\ (forall f, (size m <= f)%nat -> forward pf c f t' = forward pf c f t)
    /\ capacity c t' = Ok (TableModel.size t') /\ TableModel.size t' = TableModel.size t.
Proof.
  intros pf c kw vw t m P Hr Hd. destruct (shrink_fact pf c kw vw P t m Hr) as (t' & E & H1 & H2 & H3).
  destruct (H3 Hd) as [H4 H5]. exists t'. split; [done|].
  pose proof (rep_shows _ _ _ _ P _ _ (reachable_rep _ _ _ _ P _ _ Hr)) as Hs. pose proof (rep_shows _ _ _ _ P _ _ H1) as Hs'.
  do 5 (split; [done|]). by rewrite (proj2 Hs), (proj2 Hs').
Qed.
Print Assumptions C29_shrink.
Example C29_case :
  let c := Cfg (KVar 8) (KVar 8) (HBij Xorshift) 64 true 9 OvDummy in
  let t := ex_hist c 20 9 (ex_fill 40 ++ [OpErase 3; OpErase 17]) in
  TableModel.size t = 38 /\ capacity c t <> Ok 38 /\ (t' ← shrink_to_fit lax_pf c t; capacity c t') = Ok 38.
Proof. vm_compute. split; [reflexivity|]. split; [discriminate|reflexivity]. Qed.

(** C30, without deserialize and without overflow storage: capacity() >= size(). *)
Theorem C30_capacity_partial : forall pf c kw vw t m, params pf c kw vw -> reachable pf c kw vw t m -> c_ov c = OvDummy ->
  bucket_count t <= 2^56 -> exists cap, capacity c t = Ok cap /\ TableModel.size t <= cap.
Proof. intros pf c kw vw t m P. exact (capacity_fact pf c kw vw P t m). Qed.
Print Assumptions C30_capacity_partial.

(** C31: clear() leaves an empty table that cannot be told apart from a new one. *)
Theorem C31_clear_as_new : forall pf c kw vw t m, params pf c kw vw -> reachable pf c kw vw t m ->
  exists t', clear pf c t = Ok t' /\ TableModel.size t' = 0 /\ bucket_count t' = 0 /\ shows pf c kw t' ∅
    /\ (forall fuel ops, c_val c <> KNull -> (64 <= fuel)%nat -> valid_ops kw vw 1 (bits_max c kw) ops ->
          exists t1 t2 outs, run_ops pf c fuel t' ops = Ok (t1, outs) /\ run_ops pf c fuel (new_table pf c kw vw) ops = Ok (t2, outs))
    /\ (forall fuel ops, c_val c = KNull -> (64 <= fuel)%nat -> Forall (valid_sop kw 1 (bits_max c kw)) ops ->
          exists t1 t2 outs, run_sops pf c fuel t' ops = Ok (t1, outs) /\ run_sops pf c fuel (new_table pf c kw vw) ops = Ok (t2, outs)).
Proof.
  intros pf c kw vw t m P Hr. destruct (clear_fact pf c kw vw P t m Hr) as (t' & E & H1 & H2). exists t'.
  split; [done|]. split; [done|]. split; [|split; [exact (rep_shows _ _ _ _ P _ _ H1)|split]].
  - unfold clear in E. unfold bucket_count. destruct (t_slots t) eqn:Es.
    + destruct (rmap _ _); try done. cbn [mbind res_bind] in E. unfold clear_structure in E. cbn [t_slots] in E.
      destruct (rfold _ _ _); try done. cbn [mbind res_bind] in E. destruct (ov_clear _ _ _ _); try done. cbn [mbind res_bind] in E.
      by injection E as <-.
    + destruct H1 as [[(-> & _) _]|(sl & ess & ovl & H & _)]; [done|]. exfalso.
      destruct (ov_clear _ _ _ _); try done. cbn [mbind res_bind] in E. injection E as <-.
      pose proof (ti_slots _ _ _ _ _ _ _ _ _ _ _ H) as Hs. cbn in Hs. congruence.
  - intros fuel ops. exact (clear_history pf c kw vw P t m t' fuel ops Hr E).
  - intros fuel ops. exact (clear_set_history pf c kw vw P t m t' fuel ops Hr E).
Qed.
Print Assumptions C31_clear_as_new.
Example C31_case : match clear lax_pf ex_var (ex_hist ex_var 20 9 ex_ops) with
  | Ok t' => t' = new_table lax_pf ex_var 20 9 /\ TableModel.size (ex_hist ex_var 20 9 ex_ops) = 6
  | _ => False end.
Proof. vm_compute. auto. Qed.

(** C34 fails for key widths 1 and 2: undefined behaviour on the first insertion, and a lost element. *)
Theorem C34_small_widths_refuted :
  (forall pf c fuel vw k v, exists u, find_or_insert pf c (S fuel) (new_table pf c 1 vw) k v = Ub u)
  /\ exists c k v, cfg_ok0 strict_pf c 2 16 1 /\ k < 2^2 /\ v < 2^16 /\
     match find_or_insert strict_pf c 64 (new_table strict_pf c 2 16) k v with
     | Ok (t, x) => nav_invalid strict_pf t x = Ok true /\ TableModel.size t = 1 /\ lookup_of strict_pf c t k = Ok None
     | _ => False
     end.
Proof.
  split; [intros; eexists; reflexivity|].
  exists (Cfg (KPlain 64) (KPlain 16) (HBij Xorshift) 64 true 255 OvDummy), 1, 7.
  split; [cfg_solve|]. split; [done|]. split; [done|]. vm_compute. auto.
Qed.
Print Assumptions C34_small_widths_refuted.
(** From width 3 on every key is found right after inserting it. *)
Theorem C34_widths_from_3_partial : forall pf c kw vw fuel k v,
  cfg_ok pf c kw vw 1 -> 3 <= kw -> c_val c <> KNull -> (64 <= fuel)%nat -> k < 2^kw -> v < 2^vw ->
  exists t x, find_or_insert pf c fuel (new_table pf c kw vw) k v = Ok (t, x)
    /\ nav_invalid pf t x = Ok false /\ lookup_of pf c t k = Ok (Some v).
Proof.
  intros pf c kw vw fuel k v H Hkw Hv Hf Hk Hvv. assert (P : params pf c kw vw) by done.
  destruct (insert_fact pf c kw vw P (new_table pf c kw vw) ∅ fuel k v) as (t' & x & H1 & H2 & _ & _ & _ & H5 & _); try done.
  - apply (reach_map _ _ _ _ 64 [] _ []); [lia|done|apply List.Forall_nil|done].
  - exists t', x. split; [done|]. split; [done|]. rewrite lookup_empty in H5.
    rewrite (proj1 (full_shows pf c kw vw P _ _ H5) k Hk). by rewrite lookup_insert.
Qed.
Print Assumptions C34_widths_from_3_partial.
Example C34_case : cfg_ok strict_pf (Cfg (KPlain 8) (KPlain 8) (HBij Multiplicative) 64 true 2 OvDummy) 3 8 1.
Proof. split; [cfg_solve|cbn; lia|done]. Qed.

(** C39: a map with map_overflow behaves like a finite map. *)
Theorem C39_map_overflow_history : forall pf c kw vw fuel ops,
  params pf c kw vw -> c_ov c = OvMap -> (64 <= fuel)%nat -> valid_ops kw vw 1 (bits_max c kw) ops ->
  exists t, run_ops pf c fuel (new_table pf c kw vw) ops = Ok (t, snd (spec_run ∅ ops)).
Proof.
  intros pf c kw vw fuel ops P Ho Hf Hops. apply (map_history pf c kw vw P fuel ops); [|done|done].
  destruct (co_ov _ _ _ _ _ (proj1 P)) as [E|(_ & Hv & _)]; [by rewrite E in Ho|done].
Qed.
Print Assumptions C39_map_overflow_history.
Example C39_case : params lax_pf ex_ov 32 16 /\ valid_ops 32 16 1 (bits_max ex_ov 32) ex_ops
  /\ ov_size (t_ov (ex_hist ex_ov 32 16 (ex_fill 40))) = 8.
Proof. split; [exact ex_ov_ok|]. split; [apply ex_ops_valid; cbn; lia|]. vm_compute. reflexivity. Qed.

(** C44: a narrow remainder type suffices once enough buckets are reserved. *)
Theorem C44_narrow_storage : forall pf c kw vw bmin fuel n ops,
  cfg_ok pf c kw vw bmin -> c_val c <> KNull -> (64 <= fuel)%nat -> 2^bmin / 2 < n <= 2^(bits_max c kw) ->
  valid_ops kw vw bmin (bits_max c kw) ops -> Forall (fun o => o <> OpClear) ops ->
  exists t, run_ops pf c fuel (new_table pf c kw vw) (OpReserve n :: ops) = Ok (t, snd (spec_run ∅ (OpReserve n :: ops))).
Proof. exact narrow_history. Qed.
Print Assumptions C44_narrow_storage.
(** 8-bit remainders of 20-bit keys after reserving 2^12 buckets *)
Definition ex_narrow : cfg := Cfg (KPlain 8) (KPlain 16) (HBij Xorshift) 64 true 255 OvDummy.
Example C44_case : cfg_ok strict_pf ex_narrow 20 16 12 /\ 2^12 / 2 < 4096 <= 2^(bits_max ex_narrow 20) /\ 20 > 8.
Proof. split; [split; [cfg_solve|cbn; lia|done]|]. split; [vm_compute; split; [reflexivity|discriminate]|done]. Qed.
(** C45 fails: without the reservation two different keys are taken for the same. *)
Theorem C45_narrow_without_reserve_refuted : exists ops, valid_ops 64 16 1 63 ops /\
  match run_ops strict_pf ex_narrow 64 (new_table strict_pf ex_narrow 64 16) ops with
  | Ok (_, outs) => outs <> snd (spec_run ∅ ops)
  | _ => False
  end.
Proof.
  exists [OpInsert 0 7; OpFind 10891173114949470385]. split; [|vm_compute; discriminate].
  repeat (apply List.Forall_cons; [vm_compute; auto|]). apply List.Forall_nil.
Qed.
Print Assumptions C45_narrow_without_reserve_refuted.

(** C46: handles. *)
Theorem C46_handles : forall pf c kw vw t m fuel k v,
  params pf c kw vw -> reachable pf c kw vw t m -> c_val c <> KNull -> (64 <= fuel)%nat -> k < 2^kw -> v < 2^vw ->
  exists t' x, find_or_insert pf c fuel t k v = Ok (t', x)
    /\ nav_invalid pf t' x = Ok false /\ nav_key pf c t' x = Ok k /\ nav_value pf c t' x = Ok (default v (m !! k))
    /\ (forall v', v' < 2^vw -> exists t'', write_value pf c t' x v' = Ok t'' /\ shows pf c kw t'' (<[k := v']> m))
    /\ (exists y, TableModel.find pf c t' k = Ok y /\ iter_at pf c t' y = Ok (Some (k, default v (m !! k)))).
Proof.
  intros pf c kw vw t m fuel k v P Hr Hv Hf Hk Hvv.
  destruct (insert_fact pf c kw vw P t m fuel k v Hr Hv Hf Hk Hvv) as (t' & x & H1 & H2 & H3 & H4 & _ & H6 & H7).
  exists t', x. do 4 (split; [done|]). split.
  - intros v' Hv'. destruct (H7 v' Hv') as (t'' & E & Hw). exists t''. split; [done|]. exact (full_shows pf c kw vw P _ _ Hw).
  - destruct H6 as (sl & ess & ovl & H & Hm).
    pose proof (find_spec _ _ _ _ _ _ _ (reach_ok0 _ _ _ _ P) _ _ _ _ k H (kdom_intro _ _ _ (noarr _ _ _ _ P) Hk)) as Hfs. rewrite Hm in Hfs.
    assert (Hl : match m !! k with Some _ => m | None => <[k := v]> m end !! k = Some (default v (m !! k))).
    { destruct (m !! k) eqn:Ek; [done|]. by rewrite lookup_insert. }
    rewrite Hl in Hfs. destruct Hfs as (y & Ef & He). exists y. split; [done|]. unfold iter_at.
    destruct (nav_entry_read _ _ _ _ _ _ _ (reach_ok0 _ _ _ _ P) _ _ _ _ _ _ _ H He) as (-> & -> & ->). done.
Qed.
Print Assumptions C46_handles.
Example C46_case : reachable lax_pf ex_var 20 9 (ex_hist ex_var 20 9 ex_ops) (fst (spec_run ∅ ex_ops)) /\ 6 < 2^20 /\ 510 < 2^9.
Proof. split; [apply ex_hist_reach; [exact ex_var_ok|done|apply ex_ops_valid; cbn; lia]|done]. Qed.

(** C47: erasing end() does nothing; erasing a valid navigator removes its key. *)
Theorem C47_erase_end : forall pf c kw vw t m, params pf c kw vw -> reachable pf c kw vw t m ->
  erase_at pf c t end_nav = Ok (t, 0)
  /\ forall x, nav_invalid pf t x = Ok false ->
       exists k v t', nav_key pf c t x = Ok k /\ m !! k = Some v /\ erase_at pf c t x = Ok (t', 1) /\ shows pf c kw t' (delete k m).
Proof.
  intros pf c kw vw t m P Hr. split; [done|]. intros x Hx.
  destruct (erase_at_fact pf c kw vw P t m x Hr Hx) as (k & v & t' & H1 & H2 & H3 & H4). exists k, v, t'.
  do 3 (split; [done|]). exact (rep_shows pf c kw vw P _ _ H4).
Qed.
Print Assumptions C47_erase_end.
Example C47_case : reachable lax_pf ex_var 20 9 (ex_hist ex_var 20 9 ex_ops) (fst (spec_run ∅ ex_ops))
  /\ (x ← TableModel.find lax_pf ex_var (ex_hist ex_var 20 9 ex_ops) 77; nav_invalid lax_pf (ex_hist ex_var 20 9 ex_ops) x) = Ok false.
Proof. split; [apply ex_hist_reach; [exact ex_var_ok|done|apply ex_ops_valid; cbn; lia]|]. vm_compute. reflexivity. Qed.

(** C48 fails: advancing past the last element gives a navigator that equals end_nav() but cannot be erased. *)
Theorem C48_erase_past_end_refuted : exists c t m x y, params lax_pf c 20 9 /\ reachable lax_pf c 20 9 t m
  /\ nav_invalid lax_pf t x = Ok false /\ nav_next lax_pf t x = Ok y /\ nav_eq lax_pf t y end_nav = Ok true
  /\ exists u, erase_at lax_pf c t y = Ub u.
Proof.
  exists ex_var, (ex_hist ex_var 20 9 [OpInsert 5 7]), (fst (spec_run ∅ [OpInsert 5 7])), (6, 0), (16, 0).
  split; [exact ex_var_ok|]. split; [|vm_compute; eauto].
  apply ex_hist_reach; [exact ex_var_ok|done|]. repeat (apply List.Forall_cons; [cbn [valid_op]; lia|]). apply List.Forall_nil.
Qed.
Print Assumptions C48_erase_past_end_refuted.

(** C52 fails: reserve(0) and reserve(n) for n > 2^63 shift too far, in every state.  Reserving more than
    2^(key width) buckets succeeds, but the next insertion writes outside of its bucket. *)
Theorem C52_reserve_refuted :
  (forall pf c fuel t, exists u, reserve pf c fuel t 0 = Ub u)
  /\ (forall pf c fuel t n, 2^63 < n < 2^64 -> exists u, reserve pf c fuel t n = Ub u)
  /\ (params lax_pf ex_var 10 9 /\
      match reserve lax_pf ex_var 64 (new_table lax_pf ex_var 10 9) 2048 with
      | Ok t => find_or_insert lax_pf ex_var 64 t 5 7 = Ub OobWrite
      | _ => False
      end).
Proof.
  assert (Hz : reserve_bits 0 = Ub ShiftTooLarge) by reflexivity.
  assert (Hn : forall n, 2^63 < n < 2^64 -> reserve_bits n = Ub ShiftTooLarge).
  { intros n Hn. unfold reserve_bits. rewrite most_significant_bit_log2 by lia.
    assert (E : N.log2 n = 63) by (apply N.log2_unique; lia). rewrite E.
    change (Z.to_N (Z.of_N 63 mod 2 ^ 8)) with 63. change (shl64 1 63) with (Ok (2^63) : res N). cbn [mbind res_bind].
    rewrite (proj2 (N.eqb_neq _ _)) by lia. reflexivity. }
  split; [|split; [|split; [params_solve|vm_compute; reflexivity]]]; intros; exists ShiftTooLarge; unfold reserve, reserve_with, alloc_table; [rewrite Hz|rewrite Hn by done]; by destruct (t_b t =? 0).
Qed.
Print Assumptions C52_reserve_refuted.
(** From 1 bucket up to the largest number of buckets the reservation is handled, and so are all later histories.
    (A reservation of one bucket leaves a table without elements without buckets.) *)
Theorem C52_reserve_range_partial : forall pf c kw vw t m fuel n,
  params pf c kw vw -> reachable pf c kw vw t m -> (64 <= fuel)%nat -> 1 <= n <= 2^(bits_max c kw) ->
  exists t', reserve pf c fuel t n = Ok t' /\ shows pf c kw t' m
    /\ (forall ops, c_val c <> KNull -> valid_ops kw vw 1 (bits_max c kw) ops -> exists t2, run_ops pf c fuel t' ops = Ok (t2, snd (spec_run m ops))).
Proof.
  intros pf c kw vw t m fuel n P Hr Hf Hn.
  assert (H : exists t', reserve pf c fuel t n = Ok t' /\ trep pf c kw vw 1 (bits_max c kw) True t' m).
  { destruct (N.eq_dec n 1) as [->|Hne]; [exact (reserve_one_fact pf c kw vw P t m fuel Hr Hf)|].
    destruct (reserve_fact pf c kw vw P t m fuel n Hr Hf) as (t' & H1 & H2 & _); [lia|]. exists t'. split; [done|]. by right. }
  destruct H as (t' & H1 & H2). exists t'. split; [done|]. split; [exact (rep_shows pf c kw vw P _ _ H2)|].
  intros ops Hv Hops. exact (rep_history pf c kw vw P t' m fuel ops H2 Hv Hf Hops).
Qed.
Print Assumptions C52_reserve_range_partial.
Example C52_case : (* reserve(1) on a table with 6 elements; then a further history *)
  let t := ex_hist ex_var 20 9 ex_ops in
  params lax_pf ex_var 20 9 /\ reachable lax_pf ex_var 20 9 t (fst (spec_run ∅ ex_ops)) /\
  match reserve lax_pf ex_var 64 t 1 with
  | Ok t' => TableModel.size t' = 6 /\ bucket_count t' = 16
             /\ match run_ops lax_pf ex_var 64 t' [OpFind 77; OpErase 5; OpFind 5] with Ok (_, outs) => outs = [OutEntry (Some (77, 8)); OutNum 1; OutEntry None] | _ => False end
  | _ => False
  end.
Proof.
  split; [exact ex_var_ok|]. split; [apply ex_hist_reach; [exact ex_var_ok|done|apply ex_ops_valid; vm_compute; discriminate]|].
  vm_compute. repeat split; reflexivity.
Qed.
