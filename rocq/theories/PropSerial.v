(** Property theorems about serialization and about the overflow containers. *)
From Verif Require Export SerialFacts IterOv PropTable.

Definition loose_pf : platform := Platform 16 false true (fun k => k) (fun _ n => N.max 1 n).
Lemma ex_alive : alive lax_pf ex_var 20 9 (ex_hist ex_var 20 9 ex_ops) (fst (spec_run ∅ ex_ops)).
Proof.
  apply reachable_alive; [exact ex_var_ok|done|]. apply ex_hist_reach; [exact ex_var_ok|done|apply ex_ops_valid; cbn; lia].
Qed.
Lemma ex_plain_alive ops : valid_ops 64 16 1 63 ops -> alive lax_pf ex_plain 64 16 (ex_hist ex_plain 64 16 ops) (fst (spec_run ∅ ops)).
Proof.
  intros H. assert (params lax_pf ex_plain 64 16) by (params_solve; apply splitmix_spreading; cbn; lia).
  apply reachable_alive; [done|done|]. by apply ex_hist_reach.
Qed.

(** C25: what serialize writes is read back by deserialize into any table of the same type, the rest of the stream is
    left alone, and the copy cannot be told apart from the original.  [class_ok] asks for memory functions that accept
    delete[] on malloc memory if class_bucket is used (see C50). *)
Theorem C25_round_trip : forall pf c kw vw t m kw0 vw0 t0 m0,
  class_ok pf c -> alive pf c kw vw t m -> ov_size (t_ov t) = 0 -> alive pf c kw0 vw0 t0 m0 ->
  exists d, serialize pf c t = Ok d /\
    forall fuel rest, exists t', deserialize pf c fuel t0 (d ++ rest) = Ok (t', rest)
      /\ t_kw t' = kw /\ t_vw t' = vw /\ bucket_count t' = bucket_count t /\ TableModel.size t' = TableModel.size t
      /\ shows pf c kw t' m
      /\ (exists l, list_to_map l = m /\ NoDup (map fst l)
            /\ forall f, (length l <= f)%nat -> forward pf c f t = Ok l /\ forward pf c f t' = Ok l)
      /\ (forall fuel ops, (64 <= fuel)%nat -> c_val c <> KNull -> valid_ops kw vw 1 (bits_max c kw) ops ->
            exists t1 t1' outs, run_ops pf c fuel t ops = Ok (t1, outs) /\ run_ops pf c fuel t' ops = Ok (t1', outs))
      /\ (forall fuel ops, (64 <= fuel)%nat -> c_val c = KNull -> Forall (valid_sop kw 1 (bits_max c kw)) ops ->
            exists t1 t1' outs, run_sops pf c fuel t ops = Ok (t1, outs) /\ run_sops pf c fuel t' ops = Ok (t1', outs)).
Proof.
  intros pf c kw vw t m kw0 vw0 t0 m0 CL Ha Ho Ha0. destruct (round_trip pf c CL kw vw t m kw0 vw0 t0 m0 Ha Ho Ha0) as (d & E & D).
  exists d. split; [done|]. intros fuel rest. destruct (D fuel rest) as (t' & E' & _ & H1 & H2 & _ & _ & H3 & H4 & H5 & _ & H6 & H7 & H8).
  by exists t'.
Qed.
Print Assumptions C25_round_trip.
(** A table of six entries in 64 buckets is read into a table of other widths that holds other keys; one byte follows. *)
Example C25_case : class_ok lax_pf ex_var /\ alive lax_pf ex_var 20 9 (ex_hist ex_var 20 9 ex_ops) (fst (spec_run ∅ ex_ops))
  /\ ov_size (t_ov (ex_hist ex_var 20 9 ex_ops)) = 0
  /\ match serialize lax_pf ex_var (ex_hist ex_var 20 9 ex_ops) with
     | Ok d => match deserialize lax_pf ex_var 64 (ex_hist ex_var 12 3 [OpInsert 4 7; OpInsert 100 1]) (d ++ nbits 8 255) with
               | Ok (t', rest) => rest = nbits 8 255 /\ TableModel.size t' = 6 /\ lookup_of lax_pf ex_var t' 1048575 = Ok (Some 511)
                                  /\ lookup_of lax_pf ex_var t' 100 = Ok None
               | _ => False
               end
     | _ => False
     end.
Proof. split; [by split|]. split; [exact ex_alive|]. split; [vm_compute; reflexivity|]. vm_compute. auto. Qed.

(** C27 fails.  An empty stream makes deserialize use an uninitialised variable, whatever the table. *)
Theorem C27_empty_stream_refuted : forall pf c kw vw t m fuel,
  class_ok pf c -> alive pf c kw vw t m -> c_ov c = OvDummy -> deserialize pf c fuel t [] = Ub Indeterminate.
Proof. intros pf c kw vw t m fuel CL. exact (empty_stream pf c CL kw vw t m fuel). Qed.
Print Assumptions C27_empty_stream_refuted.
(** Other truncations go unnoticed: after the bucket count an empty table results, after m_elements an empty table that
    claims six elements, within the buckets a table whose lookups use indeterminate bits. *)
Theorem C27_truncated_refuted : exists d,
  serialize lax_pf ex_var (ex_hist ex_var 20 9 ex_ops) = Ok d /\
  (exists t, deserialize lax_pf ex_var 64 (new_table lax_pf ex_var 20 9) (take 24 d) = Ok (t, []) /\ TableModel.size t = 0)
  /\ (exists t, deserialize lax_pf ex_var 64 (new_table lax_pf ex_var 20 9) (take 88 d) = Ok (t, []) /\ TableModel.size t = 6
        /\ lookup_of lax_pf ex_var t 5 = Ok None)
  /\ (exists t, deserialize lax_pf ex_var 64 (new_table lax_pf ex_var 20 9) (take 650 d) = Ok (t, [])
        /\ lookup_of lax_pf ex_var t 5 = Ub Indeterminate).
Proof.
  destruct (serialize lax_pf ex_var (ex_hist ex_var 20 9 ex_ops)) as [d| | |] eqn:E; [|by vm_compute in E..].
  exists d. split; [done|]. vm_compute in E. injection E as <-. repeat split; eexists; vm_compute; repeat split; reflexivity.
Qed.
Print Assumptions C27_truncated_refuted.

(** C30 fails after deserialize with arbitrary_resize: the capacities of the buckets are not restored. *)
Theorem C30_capacity_refuted : exists t, alive lax_pf ex_var 20 9 t (fst (spec_run ∅ ex_ops)) /\
  TableModel.size t = 6 /\ capacity ex_var t = Ok 0.
Proof.
  assert (CL : class_ok lax_pf ex_var) by (by split).
  destruct (round_trip lax_pf ex_var CL _ _ _ _ _ _ _ _ ex_alive ltac:(vm_compute; reflexivity) ex_alive) as (d & E & D).
  destruct (D 64%nat []) as (t' & E' & Ha & _). exists t'. split; [done|].
  vm_compute in E. injection E as <-. vm_compute in E'. injection E' as <-. vm_compute. auto.
Qed.
Print Assumptions C30_capacity_refuted.

(** C49 fails for packed buckets: the unused bits of the last word are written as they are. *)
Theorem C49_padding_refuted : exists t m d, reachable lax_pf ex_var 20 9 t m /\ serialize lax_pf ex_var t = Ok d /\ None ∈ d.
Proof.
  exists (ex_hist ex_var 20 9 ex_ops), (fst (spec_run ∅ ex_ops)).
  destruct (serialize lax_pf ex_var (ex_hist ex_var 20 9 ex_ops)) as [d| | |] eqn:E; [|by vm_compute in E..].
  exists d. split; [apply ex_hist_reach; [exact ex_var_ok|done|apply ex_ops_valid; cbn; lia]|]. split; [done|].
  vm_compute in E. injection E as <-. apply elem_of_list_In. vm_compute. repeat first [left; reflexivity|right].
Qed.
Print Assumptions C49_padding_refuted.
(** C49, without packed buckets: the bytes contain no indeterminate bit and are determined by the widths, the number of
    buckets and the order of iteration, on every platform.  Missing: that equal histories on different platforms give equal orders. *)
Theorem C49_bytes_partial : forall pf1 pf2 c kw vw t1 m1 t2 m2,
  packed_free c -> c_ov c = OvDummy -> class_ok pf1 c -> class_ok pf2 c ->
  alive pf1 c kw vw t1 m1 -> alive pf2 c kw vw t2 m2 -> bucket_count t1 = bucket_count t2 ->
  (exists f l, forward pf1 c f t1 = Ok l /\ forward pf2 c f t2 = Ok l) ->
  exists bs, serialize pf1 c t1 = Ok (map Some bs) /\ serialize pf2 c t2 = Ok (map Some bs).
Proof. exact same_bytes. Qed.
Print Assumptions C49_bytes_partial.
(** Two different histories with the same order. *)
Example C49_case :
  let t1 := ex_hist ex_plain 64 16 [OpInsert 5 7; OpInsert 9 1; OpInsert 77 3; OpErase 9] in
  let t2 := ex_hist ex_plain 64 16 [OpInsert 77 3; OpWrite 5 6; OpWrite 5 7] in
  packed_free ex_plain /\ bucket_count t1 = bucket_count t2 /\ forward lax_pf ex_plain 9 t1 = forward lax_pf ex_plain 9 t2
  /\ (exists l, forward lax_pf ex_plain 9 t1 = Ok l /\ length l = 2%nat)
  /\ (exists m1 m2, alive lax_pf ex_plain 64 16 t1 m1 /\ alive lax_pf ex_plain 64 16 t2 m2).
Proof.
  split; [by split|]. split; [vm_compute; reflexivity|]. split; [vm_compute; reflexivity|]. split; [eexists; vm_compute; split; reflexivity|].
  eexists _, _. split; apply ex_plain_alive; repeat (apply List.Forall_cons; [vm_compute; auto|]); apply List.Forall_nil.
Qed.

(** ** Overflow containers *)
(** A bucket takes one element, the others go to the overflow array; keys 0, 16, 34, 35 share a bucket. *)
Definition ex_arr : cfg := Cfg (KPlain 32) (KPlain 16) (HBij Xorshift) 32 false 1 OvArray.
Definition zero_pf : platform := Platform 16 true false (fun k => k) (fun _ n => N.max 1 n).
Definition outs_of (pf : platform) (ops : list op) : res (list out) :=
  r ← run_ops pf ex_arr 64 (new_table pf ex_arr 16 16) ops; Ok (snd (r : table * list out)).
(** A map with unordered_map overflow whose buckets take two elements. *)
Definition ex_umap : cfg := Cfg (KPlain 32) (KPlain 16) (HBij Xorshift) 32 false 2 OvMap.
Lemma ex_umap_ok : params lax_pf ex_umap 16 16.
Proof. params_solve. right. split; [done|]. split; [done|]. apply lax_fair. Qed.
Definition ex_inserts (ks : list N) : list op := map (fun k => OpInsert k k) ks.
Lemma ex_umap_reach ks : Forall (fun k => k < 65536) ks ->
  reachable lax_pf ex_umap 16 16 (ex_hist ex_umap 16 16 (ex_inserts ks)) (fst (spec_run ∅ (ex_inserts ks))).
Proof.
  intros H. apply ex_hist_reach; [exact ex_umap_ok|done|]. unfold ex_inserts, valid_ops. apply Forall_fmap.
  eapply Forall_impl; [exact H|]. intros k Hk. cbn. by split.
Qed.

(** C37 fails: erasing 34 removes 35 instead. *)
Theorem C37_array_erase_refuted : exists ops, valid_ops 16 16 1 15 ops /\
  outs_of zero_pf ops = Ok [OutEntry (Some (16, 1)); OutEntry (Some (34, 2)); OutEntry (Some (35, 3)); OutNum 1;
                            OutEntry (Some (34, 2)); OutEntry None]
  /\ snd (spec_run ∅ ops) = [OutEntry (Some (16, 1)); OutEntry (Some (34, 2)); OutEntry (Some (35, 3)); OutNum 1;
                             OutEntry None; OutEntry (Some (35, 3))].
Proof.
  exists [OpInsert 16 1; OpInsert 34 2; OpInsert 35 3; OpErase 34; OpFind 34; OpFind 35].
  split; [repeat (apply List.Forall_cons; [vm_compute; auto|]); apply List.Forall_nil|]. vm_compute. auto.
Qed.
Print Assumptions C37_array_erase_refuted.

(** C38 fails: find scans all 256 slots.  If fresh memory is indeterminate this is undefined behaviour; if it is zero,
    key 0 counts as stored, so that it can never be inserted. *)
Theorem C38_array_find_refuted :
  (exists ops, valid_ops 16 16 1 15 ops /\ outs_of lax_pf ops = Ub Indeterminate)
  /\ (exists ops, valid_ops 16 16 1 15 ops /\ outs_of zero_pf ops = Ok [OutEntry (Some (16, 1)); OutEntry (Some (34, 2)); OutEntry None; OutNum 0; OutNum 2]
        /\ snd (spec_run ∅ ops) = [OutEntry (Some (16, 1)); OutEntry (Some (34, 2)); OutEntry (Some (0, 3)); OutNum 1; OutNum 3]).
Proof.
  split.
  - exists [OpInsert 16 1; OpInsert 34 2; OpFind 35].
    split; [repeat (apply List.Forall_cons; [vm_compute; auto|]); apply List.Forall_nil|]. vm_compute. auto.
  - exists [OpInsert 16 1; OpInsert 34 2; OpInsert 0 3; OpCount 0; OpSize].
    split; [repeat (apply List.Forall_cons; [cbn [valid_op]; change (2^16) with 65536; lia|]); apply List.Forall_nil|]. vm_compute. auto.
Qed.
Print Assumptions C38_array_find_refuted.

(** C40 fails: neither direction shows key 35. *)
Theorem C40_iteration_refuted : exists t m, reachable lax_pf ex_umap 16 16 t m /\ m !! 35 = Some 35
  /\ forward lax_pf ex_umap 10 t = Ok [(16, 16); (34, 34)] /\ backward lax_pf ex_umap 10 t = Ok [].
Proof.
  eexists _, _. split; [apply (ex_umap_reach [16; 34; 35]); repeat (apply List.Forall_cons; [done|]); apply List.Forall_nil|].
  vm_compute. auto.
Qed.
Print Assumptions C40_iteration_refuted.
(** C40, map_overflow, forwards: the bucket elements come first; the overflow elements follow, all of them, exactly if
    bucket 0 of the unordered_map is occupied.  Backwards nothing is shown if bucket number overflow.size() of the
    unordered_map is empty. *)
Theorem C40_forward_partial : forall pf c kw vw t m, params pf c kw vw -> reachable pf c kw vw t m -> 0 < ov_size (t_ov t) ->
  (exists l, NoDup (map fst l) /\ (forall k v, (k, v) ∈ l -> m !! k = Some v)
     /\ (forall f, (length l <= f)%nat -> forward pf c f t = Ok l)
     /\ (ov_valid pf (t_ov t) 0 = true -> list_to_map l = m)
     /\ (ov_valid pf (t_ov t) 0 = false -> N.of_nat (length l) + ov_size (t_ov t) = N.of_nat (size m)))
  /\ (ov_valid pf (t_ov t) (ov_size (t_ov t)) = false -> forall f, backward pf c f t = Ok []).
Proof. exact iterate_ov_fact. Qed.
Print Assumptions C40_forward_partial.
Example C40_case :
  let t := ex_hist ex_umap 16 16 (ex_inserts [16; 34; 0; 35]) in
  let m := fst (spec_run ∅ (ex_inserts [16; 34; 0; 35])) in
  reachable lax_pf ex_umap 16 16 t m /\ ov_size (t_ov t) = 2 /\ ov_valid lax_pf (t_ov t) 0 = true
  /\ forward lax_pf ex_umap 10 t = Ok [(16, 16); (34, 34); (0, 0); (35, 35)].
Proof.
  split; [apply ex_umap_reach; repeat (apply List.Forall_cons; [done|]); apply List.Forall_nil|]. vm_compute. auto.
Qed.

(** C41 fails.  A map_overflow with elements cannot be serialized at all; an array_overflow is restored without the
    flags and the room it needs. *)
Theorem C41_map_overflow_refuted : forall pf c kw vw t m, params pf c kw vw -> reachable pf c kw vw t m -> 0 < ov_size (t_ov t) ->
  serialize pf c t = Ub OobRead.
Proof.
  intros pf c kw vw t m P Hr Ho. apply (reachable_rep _ _ _ _ P) in Hr as [[Hz ->]|(sl & ess & ovl & H & Hm)].
  - exfalso. destruct Hz as (_ & _ & _ & _ & Hz & _). rewrite (ov_zero_size _ _ _ Hz) in Ho. lia.
  - pose proof (ti_ov _ _ _ _ _ _ _ _ _ _ _ H) as Hov. unfold serialize. destruct (t_ov t) as [| |nb els full]; cbn in Ho, Hov; [lia|by destruct Hov as (_ & [[]%(noarr _ _ _ _ P) _] & _)|].
    destruct els; [cbn in Ho; lia|done].
Qed.
Print Assumptions C41_map_overflow_refuted.
Example C41_case : exists t m, reachable lax_pf ex_umap 16 16 t m /\ ov_size (t_ov t) = 1.
Proof.
  eexists _, _. split; [apply (ex_umap_reach [16; 34; 35]); repeat (apply List.Forall_cons; [done|]); apply List.Forall_nil|].
  vm_compute. auto.
Qed.
Theorem C41_array_overflow_refuted : exists t outs d t',
  run_ops zero_pf ex_arr 64 (new_table zero_pf ex_arr 16 16) [OpInsert 16 1; OpInsert 34 2] = Ok (t, outs)
  /\ lookup_of zero_pf ex_arr t 34 = Ok (Some 2)
  /\ serialize zero_pf ex_arr t = Ok d /\ deserialize zero_pf ex_arr 64 (new_table zero_pf ex_arr 16 16) d = Ok (t', [])
  /\ lookup_of zero_pf ex_arr t' 35 = Ub OobRead.
Proof.
  destruct (run_ops zero_pf ex_arr 64 (new_table zero_pf ex_arr 16 16) [OpInsert 16 1; OpInsert 34 2]) as [[t outs]| | |] eqn:E; [|by vm_compute in E..].
  vm_compute in E. injection E as <- <-. eexists _, _, _, _. split; [reflexivity|]. split; [vm_compute; reflexivity|].
  split; [vm_compute; reflexivity|]. split; vm_compute; reflexivity.
Qed.
Print Assumptions C41_array_overflow_refuted.
