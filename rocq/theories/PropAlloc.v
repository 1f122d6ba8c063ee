(** Property theorems about separate_chaining_table on a heap where operator new can fail. *)
From Verif Require Export AllocRun PropTable.

Definition malloc_kind (kd : bkind) : Prop := match kd with KClass _ => False | _ => True end.
Lemma malloc_kind_new kd : malloc_kind kd -> kind_new kd = false.
Proof. by destruct kd. Qed.

(** C97: a map whose buckets use malloc.  In every valid history in which any of the calls can run out of memory at any request, each call
    returns what the finite map returns, or throws std::bad_alloc and changes nothing.  Only calls that add an element throw (reserve: C98). *)
Theorem C97_failing_history : forall pf c kw vw fuel ops,
  params pf c kw vw -> c_ov c = OvDummy -> malloc_kind (c_key c) -> malloc_kind (c_val c) -> c_val c <> KNull -> (64 <= fuel)%nat ->
  valid_ops kw vw 1 (bits_max c kw) (map fst ops) -> (forall n h, (OpReserve n, h) ∈ ops -> h = None) ->
  exists t outs m, a_run pf c fuel (new_table pf c kw vw) ops = Ok (t, outs) /\ failing_run ∅ ops outs m /\ shows pf c kw t m.
Proof.
  intros pf c kw vw fuel ops P D HK HV Hv Hf Ho Hr.
  destruct (a_history pf c kw vw P D (malloc_kind_new _ HK) (malloc_kind_new _ HV) fuel ops _ ∅ (new_trep _ _ _ _ P) Hv Hf Ho Hr) as (t & outs & m & E & HF & Ht).
  exists t, outs, m. split; [done|]. split; [done|]. by apply (rep_shows _ _ _ _ P).
Qed.
Print Assumptions C97_failing_history.
(** Failing requests while the first buckets are allocated, while the table grows and in a call that needs none. *)
Definition ex_bad_ops : list (op * heap) :=
  [(OpReserve 2, None); (OpInsert 5 7, None); (OpInsert 77 0, None); (OpInsert 1 1, Some 0%nat); (OpInsert 2 2, Some 1%nat); (OpInsert 3 3, Some 0%nat);
   (OpWrite 4 4, Some 0%nat); (OpWrite 4 4, Some 2%nat); (OpInsert 6 6, Some 1%nat); (OpErase 77, Some 0%nat); (OpShrink, Some 0%nat); (OpClear, Some 0%nat); (OpRead 8, Some 1%nat); (OpSize, None)].
Example C97_case : params lax_pf ex_var 20 9 /\ valid_ops 20 9 1 (bits_max ex_var 20) (map fst ex_bad_ops)
  /\ match a_run lax_pf ex_var 64 (new_table lax_pf ex_var 20 9) ex_bad_ops with
     | Ok (_, outs) => map (fun x => match x with Some _ => true | None => false end) outs
         = [true; true; true; false; true; false; true; true; false; true; true; true; false; true]
     | _ => False
     end.
Proof.
  split; [apply ex_var_ok|]. split; [|vm_compute; reflexivity].
  unfold ex_bad_ops. cbn [map fst]. unfold valid_ops. repeat (apply List.Forall_cons; [cbn [valid_op]; change (2^1/2) with 1; try (vm_compute; by repeat split)|]). apply List.Forall_nil.
Qed.

(** C98: maps and sets whose buckets use malloc.  A reserve of at least as many buckets as there are that fails leaves the very same table;
    an insertion that fails leaves a table holding the same elements, and does not fail if the key is present. *)
Theorem C98_reserve : forall pf c kw vw t m fuel n h,
  params pf c kw vw -> c_ov c = OvDummy -> malloc_kind (c_key c) -> malloc_kind (c_val c) -> reachable pf c kw vw t m -> (64 <= fuel)%nat ->
  2 <= n <= 2^bits_max c kw -> bucket_count t <= n ->
  a_reserve pf c fuel t n h = Ok (Bad t)
  \/ exists t' h', a_reserve pf c fuel t n h = Ok (Done t' h') /\ reserve pf c fuel t n = Ok t' /\ shows pf c kw t' m /\ n <= bucket_count t'.
Proof.
  intros pf c kw vw t m fuel n h P D HK HV Hr Hf Hn Hb.
  destruct (a_reserve_keeps pf c kw vw P D (malloc_kind_new _ HK) (malloc_kind_new _ HV) t m n h fuel (reachable_rep _ _ _ _ P _ _ Hr) Hf Hn Hb) as [(t' & h' & E)|?]; [|by left].
  right. exists t', h'. split; [done|]. apply a_reserve_done in E. split; [done|].
  destruct (reserve_fact _ _ _ _ P t m fuel n Hr Hf Hn) as (t1 & E1 & H1 & H2 & _). rewrite E in E1. injection E1 as <-.
  split; [by apply (full_shows _ _ _ _ P)|done].
Qed.
Print Assumptions C98_reserve.
Theorem C98_insert : forall pf c kw vw t m fuel k v h,
  params pf c kw vw -> c_ov c = OvDummy -> malloc_kind (c_key c) -> malloc_kind (c_val c) -> reachable pf c kw vw t m -> (64 <= fuel)%nat ->
  k < 2^kw -> c_val c = KNull \/ v < 2^vw ->
  (exists r h', a_find_or_insert pf c fuel t k v h = Ok (Done r h') /\ find_or_insert pf c fuel t k v = Ok r)
  \/ exists t' n, a_find_or_insert pf c fuel t k v h = Ok (Bad t') /\ h = Some n /\ m !! k = None /\ shows pf c kw t' m
      /\ (c_val c <> KNull -> forall ops, valid_ops kw vw 1 (bits_max c kw) ops -> exists t'', run_ops pf c fuel t' ops = Ok (t'', snd (spec_run m ops))).
Proof.
  intros pf c kw vw t m fuel k v h P D HK HV Hr Hf Hk Hv.
  destruct (a_insert_keeps pf c kw vw P D (malloc_kind_new _ HK) (malloc_kind_new _ HV) t m k v h fuel (reachable_rep _ _ _ _ P _ _ Hr) Hf) as [(r & h' & E)|(t' & E & Ht & _ & Hm & Hh)].
  - apply kdom_intro; [apply (noarr _ _ _ _ P)|done].
  - destruct (c_val c) eqn:Ev; [left..|by right]; (eapply cfg_values; [apply P|by rewrite Ev|by destruct Hv]).
  - left. exists r, h'. split; [done|]. by apply a_insert_done in E.
  - right. destruct h as [n|]; [|done]. exists t', n. split; [done|]. split; [done|]. split; [done|]. split; [by apply (rep_shows _ _ _ _ P)|].
    intros Hnull ops Hops. by apply (rep_history _ _ _ _ P).
Qed.
Print Assumptions C98_insert.
Example C98_case : exists t, reachable lax_pf ex_var 20 9 t (fst (spec_run ∅ ex_ops)) /\ bucket_count t <= 128
  /\ a_reserve lax_pf ex_var 64 t 128 (Some 1%nat) = Ok (Bad t) /\ match a_reserve lax_pf ex_var 64 t 128 (Some 2%nat) with Ok (Done t' _) => bucket_count t' = 128 | _ => False end.
Proof.
  set (t0 := match run_ops lax_pf ex_var 64 (new_table lax_pf ex_var 20 9) ex_ops with Ok (t, _) => t | _ => new_table lax_pf ex_var 20 9 end).
  exists t0. split.
  - eapply reach_map with (fuel := 64%nat) (outs := snd (spec_run ∅ ex_ops)); [lia|done|apply ex_ops_valid; cbn; lia|].
    destruct (map_history _ _ _ _ ex_var_ok 64 ex_ops) as (t1 & E1); [done|lia|apply ex_ops_valid; cbn; lia|]. unfold t0. by rewrite E1.
  - vm_compute. repeat split; discriminate.
Qed.
(** A set has one array less: one request suffices, and a failing first request is reported. *)
Example C98_set_case : params strict_pf ex_set 30 0
  /\ match a_find_or_insert strict_pf ex_set 64 (new_table strict_pf ex_set 30 0) 5 0 (Some 1%nat) with Ok (Done (t, _) h) => TableModel.size t = 1 /\ h = Some 0%nat | _ => False end
  /\ a_find_or_insert strict_pf ex_set 64 (new_table strict_pf ex_set 30 0) 5 0 (Some 0%nat) = Ok (Bad (new_table strict_pf ex_set 30 0)).
Proof. split; [exact ex_set_ok|]. vm_compute. repeat split. Qed.

(** C99: whatever the buckets are, an insertion, a reserve or a shrink_to_fit that runs out of memory does nothing undefined itself, and the table it
    leaves behind can be destroyed. *)
Theorem C99_failing_calls_defined : forall pf c kw vw t m fuel h,
  params pf c kw vw -> c_ov c = OvDummy -> reachable pf c kw vw t m -> (64 <= fuel)%nat ->
  (forall k v, k < 2^kw -> c_val c = KNull \/ v < 2^vw ->
     (exists r h', a_find_or_insert pf c fuel t k v h = Ok (Done r h') /\ find_or_insert pf c fuel t k v = Ok r)
     \/ (exists t' t'', a_find_or_insert pf c fuel t k v h = Ok (Bad t') /\ clear pf c t' = Ok t''))
  /\ (forall n, 2 <= n <= 2^bits_max c kw ->
     (exists t' h', a_reserve pf c fuel t n h = Ok (Done t' h') /\ reserve pf c fuel t n = Ok t')
     \/ (exists t' t'', a_reserve pf c fuel t n h = Ok (Bad t') /\ clear pf c t' = Ok t''))
  /\ ((exists t' h', a_shrink_to_fit pf c t h = Ok (Done t' h') /\ shrink_to_fit pf c t = Ok t')
     \/ (exists t' t'', a_shrink_to_fit pf c t h = Ok (Bad t') /\ clear pf c t' = Ok t'')).
Proof.
  intros pf c kw vw t m fuel h P D Hr Hf. apply (reachable_rep _ _ _ _ P) in Hr. split; [|split].
  - intros k v Hk Hv. destruct (a_insert_any pf c kw vw P D t m k v h fuel Hr Hf) as [(r & h' & E)|?]; [| | |by right].
    + apply kdom_intro; [apply (noarr _ _ _ _ P)|done].
    + destruct (c_val c) eqn:Ev; [left..|by right]; (eapply cfg_values; [apply P|by rewrite Ev|by destruct Hv]).
    + left. exists r, h'. split; [done|]. by apply a_insert_done in E.
  - intros n Hn. destruct (a_reserve_any pf c kw vw P D t m n h fuel Hr Hf Hn) as [(t' & h' & E)|?]; [|by right].
    left. exists t', h'. split; [done|]. by apply a_reserve_done in E.
  - destruct (a_shrink_any pf c kw vw P t m h Hr) as [(t' & h' & E)|(t' & t'' & E & Ec & _)]; [|right; by exists t', t''].
    left. exists t', h'. split; [done|]. by apply a_shrink_done in E.
Qed.
Print Assumptions C99_failing_calls_defined.
(** If no request fails, the calls are those of the other theorems. *)
Theorem C99_no_failure : forall pf c fuel t,
  (forall k v, a_find_or_insert pf c fuel t k v None = (r ← find_or_insert pf c fuel t k v; Ok (Done r None)))
  /\ (forall n, a_reserve pf c fuel t n None = (t' ← reserve pf c fuel t n; Ok (Done t' None)))
  /\ a_shrink_to_fit pf c t None = (t' ← shrink_to_fit pf c t; Ok (Done t' None)).
Proof. intros pf c fuel t. split; [intros; apply a_insert_none|]. split; [intros; apply a_reserve_none|apply a_shrink_none]. Qed.
Print Assumptions C99_no_failure.

(** Instances with class keys or class values. *)
Definition ex_class : cfg := Cfg (KClass 32) (KPlain 16) (HBij Xorshift) 32 false 2 OvDummy.
Definition ex_cval : cfg := Cfg (KPlain 32) (KClass 16) (HBij Xorshift) 32 true 4 OvDummy.
Definition ex_pl2 : cfg := Cfg (KPlain 64) (KPlain 16) (HBij Xorshift) 64 true 2 OvDummy.
Lemma ex_class_ok : params lax_pf ex_class 4 16.
Proof. params_solve. Qed.
Lemma ex_cval_ok : params lax_pf ex_cval 4 16.
Proof. params_solve. Qed.
Lemma ex_pl2_ok : params lax_pf ex_pl2 4 16.
Proof. params_solve. Qed.
Definition ex_small (c : cfg) (ops : list op) : table := match run_ops lax_pf c 64 (new_table lax_pf c 4 16) ops with Ok (t, _) => t | _ => new_table lax_pf c 4 16 end.
Lemma ex_small_reach c ops : params lax_pf c 4 16 -> c_val c <> KNull -> valid_ops 4 16 1 (bits_max c 4) ops ->
  reachable lax_pf c 4 16 (ex_small c ops) (fst (spec_run ∅ ops)).
Proof.
  intros P Hv Ho. destruct (map_history _ _ _ _ P 64 ops) as (t1 & E1); [done|lia|done|].
  eapply reach_map with (fuel := 64%nat) (outs := snd (spec_run ∅ ops)); [lia|done|done|]. unfold ex_small. by rewrite E1.
Qed.
Ltac small_solve := apply ex_small_reach; [params_solve|done|];
  unfold valid_ops; repeat (apply List.Forall_cons; [cbn [valid_op]; change (2^1/2) with 1; vm_compute; by repeat split|]); apply List.Forall_nil.
Definition ex_class_ops : list op := [OpReserve 2; OpInsert 0 0; OpInsert 1 1; OpInsert 2 2; OpInsert 3 3].
Example C99_case : reachable lax_pf ex_class 4 16 (ex_small ex_class ex_class_ops) (fst (spec_run ∅ ex_class_ops))
  /\ match a_find_or_insert lax_pf ex_class 64 (ex_small ex_class ex_class_ops) 4 4 (Some 4%nat) with Ok (Bad t') => t_n t' = 4 | _ => False end
  /\ match a_find_or_insert lax_pf ex_class 64 (ex_small ex_class ex_class_ops) 4 4 (Some 40%nat) with Ok (Done (t', _) _) => t_n t' = 5 | _ => False end.
Proof. split; [small_solve|]. vm_compute. done. Qed.

(** C100: with class_bucket keys a failing insertion does not leave the table as it was.  The growth it caused can lose elements that were present,
    while size() still counts them. *)
Theorem C100_failing_insert_refuted : exists pf c kw vw t m t' k v n k0 v0,
  params pf c kw vw /\ c_ov c = OvDummy /\ reachable pf c kw vw t m /\ k < 2^kw /\ v < 2^vw /\ m !! k0 = Some v0
  /\ a_find_or_insert pf c 64 t k v (Some n) = Ok (Bad t')
  /\ TableModel.count pf c t k0 = Ok 1 /\ TableModel.count pf c t' k0 = Ok 0 /\ TableModel.size t' = N.of_nat (size m).
Proof.
  exists lax_pf, ex_class, 4, 16, (ex_small ex_class ex_class_ops), (fst (spec_run ∅ ex_class_ops)).
  exists (match a_find_or_insert lax_pf ex_class 64 (ex_small ex_class ex_class_ops) 4 4 (Some 4%nat) with Ok (Bad t') => t' | _ => new_table lax_pf ex_class 4 16 end).
  exists 4, 4, 4%nat, 2, 2. split; [apply ex_class_ok|]. split; [done|]. split; [small_solve|]. vm_compute. repeat split.
Qed.
Print Assumptions C100_failing_insert_refuted.
(** If the bucket of the new key is empty, every failing insertion leaves size() one too high, and the next lookup of the key dereferences a null pointer. *)
Theorem C100_empty_bucket : forall pf c kw vw t m fuel k v es q bk,
  params pf c kw vw -> c_ov c = OvDummy -> c_key c = KClass es -> reachable pf c kw vw t m -> k < 2^kw -> bucket_count t <> 0 ->
  hash_map (hm c t) k (t_b t) = Ok (q, bk) -> bucket_size t bk = Ok 0 ->
  exists t', a_find_or_insert pf c (S fuel) t k v (Some O) = Ok (Bad t') /\ TableModel.size t' = (TableModel.size t + 1) mod 2^64
    /\ TableModel.find pf c t' k = Ub NullDeref.
Proof.
  intros pf c kw vw t m fuel k v es q bk P D Hc Hr Hk Hb Hh Hs.
  apply (a_class_insert pf c kw vw P D t m fuel k v es q bk (reachable_rep _ _ _ _ P _ _ Hr) Hc); [apply kdom_intro; [apply (noarr _ _ _ _ P)|done]| |done|done].
  intros E. apply Hb. unfold bucket_count. by rewrite E.
Qed.
Print Assumptions C100_empty_bucket.
Example C100_empty_case : reachable lax_pf ex_class 4 16 (ex_small ex_class [OpReserve 4; OpInsert 0 0]) (fst (spec_run ∅ [OpReserve 4; OpInsert 0 0]))
  /\ exists q bk, hash_map (hm ex_class (ex_small ex_class [OpReserve 4; OpInsert 0 0])) 1 2 = Ok (q, bk)
     /\ bucket_size (ex_small ex_class [OpReserve 4; OpInsert 0 0]) bk = Ok 0.
Proof. split; [small_solve|]. eexists _, _. split; vm_compute; reflexivity. Qed.
(** In a bucket with elements the next lookup of a key that is not present reads behind the bucket. *)
Theorem C100_full_bucket_refuted : exists pf c kw vw t m t' k v n,
  params pf c kw vw /\ c_ov c = OvDummy /\ reachable pf c kw vw t m /\ k < 2^kw /\ v < 2^vw
  /\ a_find_or_insert pf c 64 t k v (Some n) = Ok (Bad t') /\ TableModel.find pf c t k = Ok end_nav /\ TableModel.find pf c t' k = Ub OobRead.
Proof.
  exists lax_pf, ex_class, 4, 16, (ex_small ex_class [OpReserve 2; OpInsert 0 0]), (fst (spec_run ∅ [OpReserve 2; OpInsert 0 0])).
  exists (match a_find_or_insert lax_pf ex_class 64 (ex_small ex_class [OpReserve 2; OpInsert 0 0]) 2 4 (Some 0%nat) with Ok (Bad t') => t' | _ => new_table lax_pf ex_class 4 16 end).
  exists 2, 4, 0%nat. split; [apply ex_class_ok|]. split; [done|]. split; [small_solve|]. vm_compute. repeat split.
Qed.
Print Assumptions C100_full_bucket_refuted.

(** C101: a reserve of fewer buckets than there are can lose elements if a request fails, whatever the buckets are: the temporary map has to grow
    after the first buckets of the table have been cleared. *)
Theorem C101_shrinking_reserve_refuted : exists pf c kw vw t m t' n h k0 v0,
  params pf c kw vw /\ c_ov c = OvDummy /\ malloc_kind (c_key c) /\ malloc_kind (c_val c) /\ reachable pf c kw vw t m /\ 2 <= n <= 2^bits_max c kw
  /\ m !! k0 = Some v0 /\ a_reserve pf c 64 t n h = Ok (Bad t')
  /\ TableModel.count pf c t k0 = Ok 1 /\ TableModel.count pf c t' k0 = Ok 0 /\ TableModel.size t' = N.of_nat (size m).
Proof.
  set (ops := [OpReserve 8; OpInsert 0 0; OpInsert 1 1; OpInsert 2 2; OpInsert 3 3; OpInsert 4 4; OpInsert 5 5; OpInsert 6 6]).
  exists lax_pf, ex_pl2, 4, 16, (ex_small ex_pl2 ops), (fst (spec_run ∅ ops)).
  exists (match a_reserve lax_pf ex_pl2 64 (ex_small ex_pl2 ops) 2 (Some 2%nat) with Ok (Bad t') => t' | _ => new_table lax_pf ex_pl2 4 16 end).
  exists 2, (Some 2%nat), 3, 3. split; [apply ex_pl2_ok|]. split; [done|]. split; [done|]. split; [done|]. split; [small_solve|]. vm_compute. repeat split; discriminate.
Qed.
Print Assumptions C101_shrinking_reserve_refuted.

(** C102: shrink_to_fit.  With class_bucket values and arbitrary_resize a failing call leaves a bucket whose keys have less room than its capacity
    entry says; the next insertion writes behind it. *)
Theorem C102_failing_shrink_refuted : exists pf c kw vw t m t' n k v,
  params pf c kw vw /\ c_ov c = OvDummy /\ reachable pf c kw vw t m /\ a_shrink_to_fit pf c t (Some n) = Ok (Bad t')
  /\ k < 2^kw /\ v < 2^vw /\ find_or_insert pf c 64 t' k v = Ub OobWrite.
Proof.
  set (ops := [OpReserve 2; OpInsert 0 0; OpInsert 2 2]).
  exists lax_pf, ex_cval, 4, 16, (ex_small ex_cval ops), (fst (spec_run ∅ ops)).
  exists (match a_shrink_to_fit lax_pf ex_cval (ex_small ex_cval ops) (Some 0%nat) with Ok (Bad t') => t' | _ => new_table lax_pf ex_cval 4 16 end).
  exists 0%nat, 4, 4. split; [apply ex_cval_ok|]. split; [done|]. split; [small_solve|]. vm_compute. repeat split.
Qed.
Print Assumptions C102_failing_shrink_refuted.
(** In all other tables a failing shrink_to_fit keeps every element and every later call works; if neither keys nor values are class buckets it cannot fail. *)
Theorem C102_otherwise : forall pf c kw vw t m h,
  params pf c kw vw -> malloc_kind (c_val c) \/ c_arb c = false -> reachable pf c kw vw t m ->
  (exists t' h', a_shrink_to_fit pf c t h = Ok (Done t' h'))
  \/ (exists t', a_shrink_to_fit pf c t h = Ok (Bad t') /\ ~ (malloc_kind (c_key c) /\ malloc_kind (c_val c)) /\ shows pf c kw t' m
      /\ (c_val c <> KNull -> forall fuel ops, (64 <= fuel)%nat -> valid_ops kw vw 1 (bits_max c kw) ops -> exists t'', run_ops pf c fuel t' ops = Ok (t'', snd (spec_run m ops)))).
Proof.
  intros pf c kw vw t m h P Hx Hr. pose proof Hr as Hr0. apply (reachable_rep _ _ _ _ P) in Hr.
  destruct (a_shrink_any pf c kw vw P t m h Hr) as [?|(t' & t'' & E & Ec & Hk)]; [by left|].
  right. exists t'. split; [done|]. split.
  - intros [HK HV]. destruct (shrink_fact _ _ _ _ P t m Hr0) as (t1 & E1 & _).
    rewrite (a_shrink_malloc pf c (malloc_kind_new _ HK) (malloc_kind_new _ HV) t h t1 E1) in E. done.
  - assert (Ht : trep pf c kw vw 1 (bits_max c kw) True t' m) by (apply Hk; destruct Hx; [left; by apply malloc_kind_new|by right]).
    split; [by apply (rep_shows _ _ _ _ P)|]. intros Hn fuel ops Hf Ho. by apply (rep_history _ _ _ _ P).
Qed.
Print Assumptions C102_otherwise.
Example C102_case : malloc_kind (c_val ex_class) /\ reachable lax_pf ex_class 4 16 (ex_small ex_class ex_class_ops) (fst (spec_run ∅ ex_class_ops))
  /\ match a_shrink_to_fit lax_pf ex_class (ex_small ex_class ex_class_ops) (Some 1%nat) with Ok (Bad t') => t_n t' = 4 | _ => False end.
Proof. split; [done|]. split; [small_solve|]. vm_compute. done. Qed.
