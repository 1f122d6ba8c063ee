(** C115: what the limits reported by compact_chaining_map mean; destruction of group tables. *)
From Verif Require Import CompactModel CompactBits CompactProofs HashChain GroupModel GroupSerial PropCompact PropCompactMem PropGroup PropSerial.

(** max_size() is 255 elements for each allocated bucket, no bucket has more, and size() stays below it; before the first insertion there
    are no buckets and it is 0.  From 2^57 buckets on the product does not fit 64 bits. *)
Theorem C115_compact_limits : forall pf c kw vw bmin fuel t m, compact_ok pf c kw vw bmin -> (64 <= fuel)%nat -> c_after pf c kw vw bmin fuel t m ->
  (forall s, s ∈ cslots_of t -> cs_size s <= 255)
  /\ (255 * N.of_nat (length (cslots_of t)) < 2^64 ->
        c_max_size t = 255 * N.of_nat (length (cslots_of t)) /\ N.of_nat (size m) <= c_max_size t)
  /\ (2^57 <= N.of_nat (length (cslots_of t)) -> c_max_size t = 2^64 - N.of_nat (length (cslots_of t))).
Proof.
  intros pf c kw vw bmin fuel t m OK Hf Ha. destruct (c_after_rep _ _ _ _ _ _ _ _ OK Hf Ha) as [[(_ & _ & Hb & _ & Hz) ->]|(ess & H & <-)]; unfold cslots_of.
  { rewrite Hz. split; [intros s Hs; by apply elem_of_nil in Hs|]. unfold c_max_size, c_bucket_count. rewrite Hb. split; [|done].
    intros _. rewrite map_size_empty. split; [done|]. vm_compute. discriminate. }
  destruct (cr_slots _ _ _ _ _ _ H) as (sl & -> & HF).
  assert (Hs : forall s, s ∈ sl -> cs_size s <= 255).
  { intros s [i Hi]%elem_of_list_lookup. destruct (Forall2_lookup_l _ _ _ _ _ HF Hi) as (es & _ & (-> & Hl & _)). lia. }
  split; [exact Hs|].
  assert (Hlen : N.of_nat (length sl) = 2^cm_b t) by (rewrite (Forall2_length _ _ _ HF); apply (cr_len _ _ _ _ _ _ H)).
  pose proof (cr_b _ _ _ _ _ _ H) as Hb. pose proof (ho_bmin _ _ _ _ _ (CompactProofs.co_hash _ _ _ _ _ OK)) as Hmin.
  pose proof (zbmax_le _ _ _ _ _ (CompactProofs.co_hash _ _ _ _ _ OK)) as Hmax.
  unfold c_max_size, c_bucket_count, c_max_bucket. destruct (N.eqb_spec (cm_b t) 0) as [|_]; [lia|]. rewrite <-Hlen. split.
  - intros Hlt. rewrite u64_small by done. split; [done|]. rewrite emap_size by apply H. rewrite <-(sizes_total _ _ _ _ _ _ HF).
    enough (sum_list_with (fun s => N.to_nat (cs_size s)) sl <= 255 * length sl)%nat by lia. clear - Hs. induction sl as [|s sl IH]; [cbn; lia|].
    specialize (IH (fun s' H' => Hs s' (elem_of_list_further _ _ _ H'))). specialize (Hs s (elem_of_list_here _ _)). cbn [sum_list_with length]. lia.
  - intros Hge. rewrite Hlen in *. unfold u64.
    assert (Hb57 : 57 <= cm_b t) by (apply (N.pow_le_mono_r_iff 2); [lia|done]).
    assert (Hb64 : cm_b t < 64) by lia.
    assert (E : 2^64 = 2^(64 - cm_b t) * 2^cm_b t) by (rewrite <-N.pow_add_r; f_equal; lia).
    assert (E8 : 2^cm_b t * 256 = 2^(cm_b t - 56) * 2^64) by (change 256 with (2^8); rewrite <-!N.pow_add_r; f_equal; lia).
    assert (2^cm_b t < 2^64) by (apply N.pow_lt_mono_r; lia). assert (1 <= 2^(cm_b t - 56)) by (pose proof (N.pow_nonzero 2 (cm_b t - 56)); lia).
    replace (255 * 2^cm_b t) with (2^64 - 2^cm_b t + (2^(cm_b t - 56) - 1) * 2^64) by nia.
    rewrite N.mod_add by done. apply N.mod_small. pose proof (N.pow_nonzero 2 (cm_b t)). lia.
Qed.
Print Assumptions C115_compact_limits.

(** capacity() is documented like that of std::vector, but it returns the number of elements: reserve does not change it. *)
Theorem C115_capacity : forall pf c kw vw bmin fuel t m, compact_ok pf c kw vw bmin -> (64 <= fuel)%nat -> c_after pf c kw vw bmin fuel t m ->
  N.of_nat (size m) < 2^64 -> c_capacity t = N.of_nat (size m) /\ c_size t = N.of_nat (size m).
Proof.
  intros pf c kw vw bmin fuel t m OK Hf Ha Hm. unfold c_capacity, c_size.
  destruct (c_after_rep _ _ _ _ _ _ _ _ OK Hf Ha) as [[(_ & _ & _ & Hn & _) ->]|(ess & H & <-)]; [by rewrite map_size_empty|].
  rewrite emap_size in * by apply H. rewrite (cr_n _ _ _ _ _ _ H), N.mod_small by done. done.
Qed.
Print Assumptions C115_capacity.
Definition ex_lim_ops : list op := [OpInsert 5 7; OpInsert 77 1; OpReserve 300].
Definition ex_lim (n : nat) : cmap := match m_run_ops (c_impl loose_pf ex_c64 64) (c_new 20 9) (take n ex_lim_ops) with Ok (t, _) => t | _ => c_new 20 9 end.
Theorem C115_capacity_refuted : exists pf c kw vw bmin t t' m n, compact_ok pf c kw vw bmin
  /\ c_after pf c kw vw bmin 64 t m /\ c_after pf c kw vw bmin 64 t' m /\ c_reserve pf c 64 t n = Ok t' /\ c_capacity t' < n /\ n <= c_max_size t'.
Proof.
  exists loose_pf, ex_c64, 20, 9, 1, (ex_lim 2), (ex_lim 3), (fst (spec_run ∅ ex_lim_ops)), 300. split; [exact ex_c64_ok|].
  split; [exists (take 2 ex_lim_ops), (snd (spec_run ∅ (take 2 ex_lim_ops))); split; [valid_solve|split; vm_compute; reflexivity]|].
  split; [exists ex_lim_ops, (snd (spec_run ∅ ex_lim_ops)); split; [valid_solve|split; vm_compute; reflexivity]|].
  split; [vm_compute; reflexivity|]. split; [vm_compute; reflexivity|]. vm_compute. discriminate.
Qed.
Print Assumptions C115_capacity_refuted.
Example C115_case : compact_ok loose_pf ex_c64 20 9 1 /\ length (cslots_of (ex_lim 3)) = 512%nat /\ c_max_size (ex_lim 3) = 130560 /\ c_size (ex_lim 3) = 2
  /\ g_reached strict_pf ex_gx 20 9 1 ex_g_tab ex_g_map /\ g_destroy ex_g_tab = Ok tt.
Proof.
  split; [exact ex_c64_ok|]. split; [vm_compute; reflexivity|]. split; [vm_compute; reflexivity|]. split; [vm_compute; reflexivity|].
  split; [exact ex_g_reached|]. vm_compute. reflexivity.
Qed.

(** Every group table that a history leaves can be destroyed (its blocks come from malloc and go to free). *)
Theorem C115_group_destroy : forall pf c kw vw bmin t m, g_reached pf c kw vw bmin t m -> g_destroy t = Ok tt.
Proof.
  intros pf c kw vw bmin t m (OK & HR)%g_reached_rep. destruct (gmrep_clearable _ _ _ _ _ OK _ _ _ HR) as (t' & E). unfold g_destroy. by rewrite E.
Qed.
Print Assumptions C115_group_destroy.
