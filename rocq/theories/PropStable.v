(** Property theorems: how insertions and erasures move the other elements. *)
From Verif Require Import TableStable PropTable.

(** C67: an insertion that keeps the number of buckets leaves every position valid, with the same key and value.
    An insertion into a table with buckets adds buckets only if the key is new and its bucket is full; without
    overflow storage it then at least doubles their number. *)
Theorem C67_insert_stability : forall pf c kw vw t m fuel k v, params pf c kw vw -> reachable pf c kw vw t m ->
  (64 <= fuel)%nat -> k < 2^kw -> v < 2^vw \/ c_val c = KNull ->
  exists t' x, find_or_insert pf c fuel t k v = Ok (t', x) /\ bucket_count t <= bucket_count t'
    /\ (bucket_count t' = bucket_count t -> forall y k0 v0, fst y < bucket_count t -> refers pf c t y k0 v0 -> refers pf c t' y k0 v0)
    /\ (0 < bucket_count t < bucket_count t' -> m !! k = None
          /\ exists q bk, hash_map (hm c t) k (t_b t) = Ok (q, bk) /\ bucket_size t bk = Ok (c_maxb c))
    /\ (c_ov c = OvDummy -> 0 < bucket_count t -> m !! k = None -> forall q bk, hash_map (hm c t) k (t_b t) = Ok (q, bk) ->
          bucket_size t bk = Ok (c_maxb c) -> 2 * bucket_count t <= bucket_count t').
Proof. intros pf c kw vw t m fuel k v P. exact (insert_stable pf c kw vw P t m fuel k v). Qed.
Print Assumptions C67_insert_stability.
Definition ex_st : cfg := Cfg (KVar 8) (KVar 8) (HBij Xorshift) 64 true 2 OvDummy.
Lemma ex_st_ok : params lax_pf ex_st 20 9.
Proof. params_solve. Qed.
Definition ex_st_t : table := ex_hist ex_st 20 9 (ex_fill 18).
Lemma ex_st_reach : reachable lax_pf ex_st 20 9 ex_st_t (fst (spec_run ∅ (ex_fill 18))).
Proof.
  apply ex_hist_reach; [exact ex_st_ok|done|]. apply Forall_forall. intros o Ho. apply elem_of_list_fmap in Ho as (i & -> & Hi%elem_of_seq).
  cbn [valid_op]. change (2^20) with 1048576. change (2^9) with 512. lia.
Qed.
(* key 20 stays within 16 buckets, key 27 meets a full bucket and doubles them; position (0,1) holds key 11 *)
Example C67_case : params lax_pf ex_st 20 9 /\ reachable lax_pf ex_st 20 9 ex_st_t (fst (spec_run ∅ (ex_fill 18)))
  /\ bucket_count ex_st_t = 16
  /\ (p ← find_or_insert lax_pf ex_st 64 ex_st_t 20 7; Ok (bucket_count (fst p))) = Ok 16
  /\ (p ← find_or_insert lax_pf ex_st 64 ex_st_t 27 7; Ok (bucket_count (fst p))) = Ok 32
  /\ (p ← hash_map (hm ex_st ex_st_t) 27 (t_b ex_st_t); bucket_size ex_st_t (snd p)) = Ok 2
  /\ refers lax_pf ex_st ex_st_t (0, 1) 11 1.
Proof.
  split; [exact ex_st_ok|]. split; [exact ex_st_reach|]. do 4 (split; [vm_compute; reflexivity|]).
  split; [vm_compute; reflexivity|]. split; vm_compute; reflexivity.
Qed.

(** C68: erase(position) moves the later elements of the same bucket down by one and leaves every other position alone. *)
Theorem C68_erase_stability : forall pf c kw vw t m x, params pf c kw vw -> reachable pf c kw vw t m ->
  nav_invalid pf t x = Ok false -> fst x < bucket_count t ->
  exists t', erase_at pf c t x = Ok (t', 1) /\ bucket_count t' = bucket_count t
    /\ (forall y k v, fst y < bucket_count t -> fst y <> fst x \/ snd y < snd x -> refers pf c t' y k v <-> refers pf c t y k v)
    /\ (forall p k v, snd x <= p -> refers pf c t' (fst x, p) k v <-> refers pf c t (fst x, p + 1) k v).
Proof. intros pf c kw vw t m x P. exact (erase_stable pf c kw vw P t m x). Qed.
Print Assumptions C68_erase_stability.
Example C68_case : params lax_pf ex_st 20 9 /\ reachable lax_pf ex_st 20 9 ex_st_t (fst (spec_run ∅ (ex_fill 18)))
  /\ nav_invalid lax_pf ex_st_t (0, 0) = Ok false /\ nav_invalid lax_pf ex_st_t (0, 1) = Ok false /\ bucket_count ex_st_t = 16.
Proof. split; [exact ex_st_ok|]. split; [exact ex_st_reach|].
  do 2 (split; [vm_compute; reflexivity|]). vm_compute. reflexivity. Qed.
