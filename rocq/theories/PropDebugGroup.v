(** Property theorems about the debug build of group_chaining (NDEBUG not defined, HEAVY_DEBUG not defined). *)
From Verif Require Import DebugGroupConf PropBucket PropCompact PropGroup.

(** ** C83: the checks of the debug build observe only.  Whenever no check fails, a core_group, a keyvalue_group and a
    group_chaining_table go through the same states and return the same results as in a release build, whatever the state
    they start from. *)
Theorem C83_debug_group_is_release : forall pf c,
  (forall w dn ops dn' outs, dcrun pf w dn ops = Ok (dn', outs) -> crun pf w (c_d (fst dn), snd dn) ops = Ok ((c_d (fst dn'), snd dn'), outs))
  /\ (forall bpg kw vw g ops g' outs, dgrun pf bpg kw vw g ops = Ok (g', outs) -> grun pf bpg kw vw (kstrip g) ops = Ok (kstrip g', outs))
  /\ (forall kw vw t, dg_new c kw vw = Ok t -> gstrip t = g_new (u8 kw) (u8 vw))
  /\ (forall fuel t ops t' outs, m_run_ops (dg_impl pf c fuel) t ops = Ok (t', outs) -> m_run_ops (g_impl pf c fuel) (gstrip t) ops = Ok (gstrip t', outs))
  /\ (forall fuel t l, dg_forward pf c fuel t = Ok l -> g_forward pf c fuel (gstrip t) = Ok l).
Proof.
  intros pf c. split; [|split; [|split; [|split]]].
  - intros w dn ops dn' outs. exact (dcrun_eq pf w ops dn dn' outs).
  - intros bpg kw vw g ops g' outs. exact (dgrun_eq pf bpg kw vw ops g g' outs).
  - intros kw vw t. exact (dg_new_eq c kw vw t).
  - intros fuel t ops t' outs E. exact (dg_runs pf c fuel ops t _ E).
  - intros fuel t l. exact (dg_forward_eq pf c fuel t l).
Qed.
Print Assumptions C83_debug_group_is_release.
Definition ex_dc (w : nat) : dcore := match dc_init dc_new w with Ok d => d | _ => dc_new end.
Definition ex_dkv (n kw vw : nat) : dkv := match dkv_init dkv_new n kw vw with Ok g => g | _ => dkv_new end.
Definition ex_dgnew (c : gcfg) (kw vw : N) : dgtable := match dg_new c kw vw with Ok t => t | _ => DGTable None 0 0 0 0 0 None end.
Definition ex_dc_ops : list cop := [CIns 0 9; CIns 0 8; CIns 1 137438953471; CGet 1; CFind 0 3 9; CSet 0 5; CDel 1; CGet 0; CFind 1 1 5].
Definition ex_dg_ops : list gop := [GPush 2 5 511; GPush 0 7 1; GPush 2 6 2; GRead 2 1; GFind 2 6; GErase 2 0; GSize 2; GWrite 2 0 77; GRead 2 0].
Definition ex_d_ins : list op := [OpInsert 5 7; OpInsert 1048575 511; OpInsert 77 0; OpErase 77; OpReserve 5; OpInsert 99 12; OpFind 5].
Example C83_case :
  (snd <$> dcrun strict_pf 37 (ex_dc 37, 0%nat) ex_dc_ops) = Ok [CUnit; CUnit; CUnit; CNum 137438953471; CPos (Some 2%nat); CUnit; CUnit; CNum 5; CPos None]
  /\ (snd <$> dgrun strict_pf 3 13 9 (ex_dkv 3 13 9) ex_dg_ops) =
     Ok [GUnit; GUnit; GUnit; GPair (6, 2); GPos (Some 1%nat); GUnit; GNum 1; GUnit; GPair (6, 77)]
  /\ (snd <$> m_run_ops (dg_impl strict_pf ex_gx 64) (ex_dgnew ex_gx 20 9) ex_d_ins) = Ok (snd (spec_run ∅ ex_d_ins))
  /\ (r ← m_run_ops (dg_impl strict_pf ex_gx 64) (ex_dgnew ex_gx 20 9) ex_d_ins; l ← dg_forward strict_pf ex_gx 3 (fst (r : dgtable * list out)); Ok (length l)) = Ok 3%nat.
Proof. split; [vm_compute; reflexivity|]. split; [vm_compute; reflexivity|]. split; vm_compute; reflexivity. Qed.

(** ** C84: no check fails in a valid history: of a core_group from initialize on (with searches of at least one element, see below), of a
    keyvalue_group, of a new table, iterations and reserve(n, w) on it included. *)
Theorem C84_core_partial : forall pf w d ops, (1 <= w <= 64)%nat -> dc_init dc_new w = Ok d -> cvalid_ops w [] ops -> Forall cfind_some ops ->
  exists d', dcrun pf w (d, 0%nat) ops = Ok (d', length (fst (cspec_run [] ops)), snd (cspec_run [] ops)).
Proof.
  intros pf w d ops Hw E Hv HF. destruct (dcore_init pf w dc_new) as (d0 & E0 & H); [lia|done|done|]. rewrite E in E0. injection E0 as <-.
  destruct (dcore_history pf w Hw ops d [] H Hv HF) as (d' & Er & _). by exists d'.
Qed.
Print Assumptions C84_core_partial.
Theorem C84_kv : forall pf n kw vw g ops, (1 <= n <= 255)%nat -> (1 <= kw <= 64)%nat -> (1 <= vw <= 64)%nat -> dkv_init dkv_new n kw vw = Ok g ->
  gvalid_ops kw vw (replicate n []) ops -> exists g', dgrun pf n kw vw g ops = Ok (g', snd (gspec_run (replicate n []) ops)).
Proof.
  intros pf n kw vw g ops Hn Hk Hv E Hval. destruct (dkv_init_spec pf kw vw dkv_new n) as (g0 & E0 & H & _); try done; try lia; [by apply List.Forall_nil|]. rewrite E in E0. injection E0 as <-.
  destruct (dkv_history pf kw vw Hk Hv ops g _ H Hval) as (g' & Er & _). rewrite replicate_length in Er. by exists g'.
Qed.
Print Assumptions C84_kv.
Theorem C84_table : forall pf c kw vw bmin fuel, group_ok c kw vw bmin -> (64 <= fuel)%nat ->
  exists t, dg_new c kw vw = Ok t
  /\ forall ops, valid_ops kw vw bmin (zbmax (gc_hash c) kw) ops ->
     exists t', m_run_ops (dg_impl pf c fuel) t ops = Ok (t', snd (spec_run ∅ ops))
     /\ forall f, (size (fst (spec_run ∅ ops)) <= f)%nat -> exists l, dg_forward pf c f t' = Ok l /\ l ≡ₚ map_to_list (fst (spec_run ∅ ops)).
Proof.
  intros pf c kw vw bmin fuel OK Hf. destruct (dg_new_ok c kw vw bmin OK) as (t & E & Hz). exists t. split; [done|]. intros ops Hv.
  destruct (debug_group_run pf c kw vw bmin OK fuel ops t ∅ Hf) as (t' & Er & HR); [by left|done|]. exists t'. split; [done|]. intros f Hs.
  by apply (dgmrep_forward pf c kw vw bmin OK).
Qed.
Print Assumptions C84_table.
Theorem C84_reserve_width : forall pf c kw vw bmin fuel ops t t' outs n w bmin', group_ok c kw vw bmin -> (64 <= fuel)%nat ->
  valid_ops kw vw bmin (zbmax (gc_hash c) kw) ops -> dg_new c kw vw = Ok t -> m_run_ops (dg_impl pf c fuel) t ops = Ok (t', outs) -> dg_b t' <> 0 ->
  group_ok c w vw bmin' -> 1 <= n <= 2^63 -> bmin' <= N.log2_up n <= zbmax (gc_hash c) w ->
  (forall k v, fst (spec_run ∅ ops) !! k = Some v -> k < 2^w) ->
  exists t2, dg_reserve pf c fuel t' n w = Ok t2 /\ dg_kw t2 = w
  /\ forall ops2, valid_ops w vw bmin' (zbmax (gc_hash c) w) ops2 ->
     exists t3, m_run_ops (dg_impl pf c fuel) t2 ops2 = Ok (t3, snd (spec_run (fst (spec_run ∅ ops)) ops2)).
Proof.
  intros pf c kw vw bmin fuel ops t t' outs n w bmin' OK Hf Hv En Er Hb OK' Hn Hlog Hk. destruct (dg_new_ok c kw vw bmin OK) as (t0 & E0 & Hz). rewrite En in E0. injection E0 as <-.
  destruct (debug_group_run pf c kw vw bmin OK fuel ops t ∅ Hf) as (t1 & E1 & HR); [by left|done|]. rewrite E1 in Er. injection Er as <- _.
  destruct HR as [[[(_ & _ & Hz1 & _) _] _]|(ess & HR & Hm)]; [done|]. rewrite <-Hm in *.
  pose proof (gr_nodup _ _ _ _ _ _ _ _ (dr_rep _ _ _ _ _ _ _ HR)) as Hnd.
  destruct (dreserve_width pf c kw vw bmin fuel t1 ess n w bmin' OK Hf HR OK' Hn Hlog) as (t2 & ess2 & E2 & HR2 & HP).
  { intros k v Hin. apply (Hk k v). unfold emap. by apply elem_of_list_to_map. }
  exists t2. split; [done|]. split; [exact (dkw _ _ _ _ _ _ _ HR2)|]. intros ops2 Hv2.
  destruct (debug_group_run pf c w vw bmin' OK' fuel ops2 t2 (emap (concat ess)) Hf) as (t3 & E3 & _); [|done|by exists t3].
  right. exists ess2. split; [done|]. apply emap_perm; [|done]. exact (gr_nodup _ _ _ _ _ _ _ _ (dr_rep _ _ _ _ _ _ _ HR2)).
Qed.
Print Assumptions C84_reserve_width.
Example C84_case : (exists d, dc_init dc_new 37 = Ok d) /\ cvalid_ops 37 [] ex_dc_ops /\ Forall cfind_some ex_dc_ops
  /\ (exists g, dkv_init dkv_new 3 13 9 = Ok g) /\ gvalid_ops 13 9 (replicate 3 []) ex_dg_ops
  /\ group_ok ex_gx 20 9 1 /\ valid_ops 20 9 1 (zbmax (gc_hash ex_gx) 20) ex_d_ins
  /\ dg_new ex_gx 20 9 = Ok (ex_dgnew ex_gx 20 9)
  /\ group_ok ex_gx 32 9 1
  /\ (r ← m_run_ops (dg_impl strict_pf ex_gx 64) (ex_dgnew ex_gx 20 9) ex_d_ins;
      t ← dg_reserve strict_pf ex_gx 64 (fst (r : dgtable * list out)) 64 32;
      x ← m_run_ops (dg_impl strict_pf ex_gx 64) t [OpFind 1048575; OpInsert 4294967295 3; OpRead 4294967295; OpErase 5; OpSize];
      Ok (dg_b (fst r), dg_b t, snd (x : dgtable * list out)))
     = Ok (3, 6, [OutEntry (Some (1048575, 511)); OutEntry (Some (4294967295, 3)); OutNum 3; OutNum 1; OutNum 3]).
Proof.
  split; [eexists; reflexivity|]. split.
  { unfold ex_dc_ops. cbn. repeat first [split | lia]. }
  split; [unfold ex_dc_ops; repeat (apply List.Forall_cons; [cbn; lia|]); apply List.Forall_nil|].
  split; [eexists; vm_compute; reflexivity|]. split.
  { unfold ex_dg_ops. cbn [gvalid_ops]. vm_compute. repeat first [split | apply le_n | apply le_S | discriminate | exact I | reflexivity]. }
  split; [exact ex_gx_ok|]. split; [valid_solve|]. split; [vm_compute; reflexivity|]. split; [exact ex_gx_ok32|]. vm_compute; reflexivity.
Qed.
(** A search of zero elements is answered by the release build (nothing found), and fails DDCHECK_GT(length, 0) in the debug build. *)
Theorem C84_empty_search_refuted : exists pf w d ops r, (1 <= w <= 64)%nat /\ dc_init dc_new w = Ok d /\ cvalid_ops w [] ops
  /\ crun pf w (c_d d, 0%nat) ops = Ok r /\ dcrun pf w (d, 0%nat) ops = Throw.
Proof.
  exists strict_pf, 37%nat, (ex_dc 37), [CFind 0 0 5], ((c_d (ex_dc 37), 0%nat), [CPos None]). split; [lia|]. split; [reflexivity|].
  split; [cbn; lia|]. split; vm_compute; reflexivity.
Qed.
Print Assumptions C84_empty_search_refuted.

(** ** C85: what the debug build refuses.  After any valid history, find_or_insert of a key of key_width bits fails a check exactly if the key
    is new and the value has more than value_width bits; otherwise it succeeds and the table holds the new pair, or what it held before. *)
Theorem C85_wide_value : forall pf c kw vw bmin fuel ops t t' outs k v, group_ok c kw vw bmin -> (64 <= fuel)%nat ->
  valid_ops kw vw bmin (zbmax (gc_hash c) kw) ops -> dg_new c kw vw = Ok t -> m_run_ops (dg_impl pf c fuel) t ops = Ok (t', outs) -> k < 2^kw ->
  let m := fst (spec_run ∅ ops) in
  (dg_find_or_insert pf c fuel t' k v = Throw <-> m !! k = None /\ 2^vw <= v)
  /\ (~ (m !! k = None /\ 2^vw <= v) -> exists t2 x, dg_find_or_insert pf c fuel t' k v = Ok (t2, x)
      /\ forall f, let m2 := match m !! k with None => <[k := v]> m | Some _ => m end in (size m2 <= f)%nat ->
         exists l, dg_forward pf c f t2 = Ok l /\ l ≡ₚ map_to_list m2).
Proof.
  intros pf c kw vw bmin fuel ops t t' outs k v OK Hf Hv En Er Hk m. destruct (dg_new_ok c kw vw bmin OK) as (t0 & E0 & Hz). rewrite En in E0. injection E0 as <-.
  destruct (debug_group_run pf c kw vw bmin OK fuel ops t ∅ Hf) as (t1 & E1 & HR); [by left|done|]. rewrite E1 in Er. injection Er as <- _. fold m in HR.
  destruct (insert_throws_iff pf c kw vw bmin OK fuel t1 m k v Hf HR Hk) as [H1 H2]. split; [exact H1|]. intros Hn.
  destruct (H2 Hn) as (t2 & x & E2 & HR2). exists t2, x. split; [done|]. intros f m2 Hs. by apply (dgmrep_forward pf c kw vw bmin OK).
Qed.
Print Assumptions C85_wide_value.
(** Keys of more than key_width bits are refused by find_or_insert with an invertible hash function, after any valid history. *)
Theorem C85_wide_key : forall pf c kw vw bmin fuel ops t t' outs k v x, group_ok c kw vw bmin -> gc_hash c = HBij x -> (64 <= fuel)%nat ->
  valid_ops kw vw bmin (zbmax (gc_hash c) kw) ops -> dg_new c kw vw = Ok t -> m_run_ops (dg_impl pf c fuel) t ops = Ok (t', outs) -> 2^kw <= k ->
  dg_find_or_insert pf c fuel t' k v = Throw /\ (dg_b t' <> 0 -> dg_find pf c t' k = Throw).
Proof.
  intros pf c kw vw bmin fuel ops t t' outs k v x OK Hh Hf Hv En Er Hk. destruct (dg_new_ok c kw vw bmin OK) as (t0 & E0 & Hz). rewrite En in E0. injection E0 as <-.
  destruct (debug_group_run pf c kw vw bmin OK fuel ops t ∅ Hf) as (t1 & E1 & HR); [by left|done|]. rewrite E1 in Er. injection Er as <- _.
  split; [by eapply insert_wide_key|]. intros Hb. by eapply find_wide_key.
Qed.
Print Assumptions C85_wide_key.
(** write_value refuses such a value in every state, for every bucket of the table. *)
Theorem C85_wide_write : forall pf t bk pos v, bk < g_bucket_count (gstrip t) -> g_max_value (gstrip t) < v -> dg_write_value pf t (bk, pos) v = Throw.
Proof. exact write_wide. Qed.
Print Assumptions C85_wide_write.
(** The release build stores the low bits of the value without notice; the debug build refuses the value, and a key of 21 bits. *)
Example C85_case : group_ok ex_gx 20 9 1 /\ valid_ops 20 9 1 (zbmax (gc_hash ex_gx) 20) [OpInsert 5 7; OpInsert 6 8]
  /\ match m_run_ops (dg_impl strict_pf ex_gx 64) (ex_dgnew ex_gx 20 9) [OpInsert 5 7; OpInsert 6 8] with
     | Ok (t, _) => dg_find_or_insert strict_pf ex_gx 64 t 77 519 = Throw /\ (is_ok (dg_find_or_insert strict_pf ex_gx 64 t 77 511) = true)
         /\ (is_ok (dg_find_or_insert strict_pf ex_gx 64 t 5 519) = true) /\ dg_find_or_insert strict_pf ex_gx 64 t 1048576 1 = Throw
         /\ dg_find strict_pf ex_gx t 1048577 = Throw /\ dg_write_value strict_pf t (0, 0) 512 = Throw
         /\ (snd <$> m_run_ops (g_impl strict_pf ex_gx 64) (gstrip t) [OpInsert 77 519; OpRead 77]) = Ok [OutEntry (Some (77, 7)); OutNum 7]
     | _ => False
     end.
Proof. split; [exact ex_gx_ok|]. split; [valid_solve|]. vm_compute. repeat split. Qed.
