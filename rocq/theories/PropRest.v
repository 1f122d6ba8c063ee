(** Property theorems: bytes of tables with array_overflow, max_key and max_value, deserialisation of map_overflow. *)
From Verif Require Import PropBytes PropOverflow CompactProofs GroupSerial GroupHist PropCompact PropGroup.

(** ** C64 for tables with array_overflow: the array counts with all of its 256 slots, whether they are used or not. *)
Theorem C64_array_bytes : forall pf c kw vw sz t m, arr_params pf c kw vw -> width_ok (N.to_nat (c_keybits c)) ->
  arr_reach pf c kw vw t m ->
  let B := bucket_count t in
  let e := N.of_nat (size m) - ov_size (t_ov t) in
  let fixed := sz_strategy sz * B + sz_members sz in
  let array := 256 * (c_keybits c + N.of_nat (kind_bits (c_val c))) in
  0 < B -> fixed + 4200 * B + 5000 < 2^64 ->
  exists n, size_in_bytes c sz t = Ok n
    /\ 8 * fixed + element_bits c kw B * e + array + B <= 8 * n
    /\ 8 * n <= 8 * fixed + element_bits c kw B * e + array + B + 8 + (c_keybits c - 1) * B.
Proof.
  intros pf c kw vw sz t m P W Hr B e fixed array HB Hlt.
  pose proof (arr_ok pf c kw vw P) as OK. pose proof (ca_core _ _ _ _ _ (proj1 P)) as CC.
  pose proof (arr_val pf c kw vw P) as Hv0. pose proof (value_bits_eq _ _ _ _ CC) as Hvb.
  apply (arr_reach_rep pf c kw vw P) in Hr.
  assert (Ho : exists x, ov_size_in_bytes c sz (t_ov t) = x /\ array + B <= 8 * x /\ 8 * x <= array + B + 8 /\ x <= B + 4097).
  { destruct Hr as [[Hz _]|(sl & ess & ovl & H & _)].
    { unfold B, bucket_count in HB. rewrite (proj1 Hz) in HB. cbn [N.eqb] in HB. lia. }
    destruct (tinv_bc _ _ _ _ _ _ _ OK _ _ _ _ H) as [_ Hbc].
    pose proof (ti_ov _ _ _ _ _ _ _ _ _ _ _ H) as Ho. destruct (t_ov t) as [|ks vs n full|nb els full]; cbn [ovrel] in Ho.
    - destruct Ho as [_ [Hx _]]. rewrite (arr_ov pf c kw vw P) in Hx. done.
    - destruct Ho as (_ & _ & _ & Hf & _). cbn [ov_size_in_bytes]. eexists. split; [done|]. rewrite Hf, <-Hbc. fold B.
      assert (Hkb : c_keybits c = 8 * key_bytes c /\ key_bytes c <= 8).
      { destruct (key_bytes_eq c W). lia. }
      assert (Hvb' : N.of_nat (vbn c) / 8 = value_bytes c).
      { unfold value_bytes, vbn. destruct (c_val c); done. }
      assert (Hvb2 : 8 * value_bytes c = N.of_nat (kind_bits (c_val c))) by (rewrite Hvb; by destruct (c_val c)).
      pose proof (value_bytes_le pf c kw vw CC) as Hv8. rewrite Hvb'. unfold array, ARRAY_OVERFLOW_LENGTH.
      pose proof (N.div_mod B 8 ltac:(lia)) as Hdm. pose proof (N.mod_lt B 8 ltac:(lia)) as Hm8.
      rewrite u64_small by lia. lia.
    - destruct Ho as (_ & (_ & _ & Hx & _) & _). rewrite (arr_ov pf c kw vw P) in Hx. done. }
  destruct Ho as (x & Ex & Hx1 & Hx2 & Hx3).
  destruct (size_in_bytes_fact pf c kw vw sz OK CC W t m Hr) as (n & En & H1 & H2).
  { rewrite Ex. unfold fixed, B in *. lia. }
  exists n. split; [exact En|].
  rewrite (reach_width_eq pf c kw vw t m OK (co_kw _ _ _ _ _ CC) Hr), Hvb, Ex in H1, H2. fold B e in H1, H2. fold fixed in H1, H2.
  unfold element_bits. lia.
Qed.
Print Assumptions C64_array_bytes.
Example C64_array_case : let t := ex_arr2_t ex_arr2_ops in
  arr_reach zero_pf ex_arr2 16 16 t (fst (spec_run ∅ ex_arr2_ops)) /\ bucket_count t = 16 /\ ov_size (t_ov t) = 2
  /\ ov_size_in_bytes ex_arr2 ex_sz (t_ov t) = 1539.
Proof. cbv zeta. split; [apply C66_case|]. vm_compute. repeat split; reflexivity. Qed.

(** ** C69: max_key() and max_value() are the largest key and value that fit into the widths; nothing larger is ever stored, and
    everything up to them can be stored. *)
Lemma max_shift w : 1 <= w <= 64 -> N.shiftr ones64 (64 - w) = 2^w - 1.
Proof.
  intros Hw. rewrite N.shiftr_div_pow2. unfold ones64. symmetry. apply (N.div_unique _ _ _ (2^(64 - w) - 1)).
  - pose proof (N.pow_nonzero 2 (64 - w)). lia.
  - assert (E : 2^64 = 2^(64 - w) * 2^w) by (rewrite <-N.pow_add_r; f_equal; lia). rewrite E.
    pose proof (N.pow_nonzero 2 (64 - w)). pose proof (N.pow_nonzero 2 w). nia.
Qed.
Lemma spec_range kw vw bmin bmax ops : forall m, valid_ops kw vw bmin bmax ops -> map_Forall (fun k v => k < 2^kw /\ v < 2^vw) m ->
  map_Forall (fun k v => k < 2^kw /\ v < 2^vw) (fst (spec_run m ops)).
Proof.
  induction ops as [|o ops IH]; intros m Hv Hm; [done|]. apply Forall_cons in Hv as [Ho Hv]. cbn [spec_run].
  assert (Hs : map_Forall (fun k v => k < 2^kw /\ v < 2^vw) (fst (spec_step m o))).
  { pose proof (N.pow_nonzero 2 vw).
    destruct o as [k|k|k v|k|k v|k|k| | |n| |]; cbn [spec_step fst valid_op] in *; try done; try (destruct (m !! k); cbn [fst]; [done|]);
      try (by apply map_Forall_insert_2; [lia|]); try (destruct (m !! k); cbn [fst]; [by apply map_Forall_delete|done]); try (by apply map_Forall_delete). }
  destruct (spec_step m o) as [m1 r]. specialize (IH m1 Hv Hs). destruct (spec_run m1 ops) as [m2 rs]. exact IH.
Qed.
Theorem C69_max_key : forall kw vw, 1 <= kw <= 64 -> 1 <= vw <= 64 ->
  (forall pf c t m, params pf c kw vw -> reachable pf c kw vw t m -> c_val c <> KNull ->
     (max_key t = 2^kw - 1 /\ max_value t = 2^vw - 1)
     /\ (forall k v, m !! k = Some v -> k <= max_key t /\ v <= max_value t)
     /\ (forall k v, k <= max_key t -> v <= max_value t -> m !! k = None ->
           exists t' x, find_or_insert pf c 64 t k v = Ok (t', x) /\ TableFacts.shows pf c kw t' (<[k := v]> m)))
  /\ (forall pf c bmin fuel t m, compact_ok pf c kw vw bmin -> (64 <= fuel)%nat -> c_after pf c kw vw bmin fuel t m ->
     c_max_key t = 2^kw - 1 /\ c_max_value t = 2^vw - 1 /\ forall k v, m !! k = Some v -> k <= c_max_key t /\ v <= c_max_value t)
  /\ (forall pf c bmin t m, g_reached pf c kw vw bmin t m ->
     g_max_key t = 2^kw - 1 /\ g_max_value t = 2^vw - 1 /\ forall k v, m !! k = Some v -> k <= g_max_key t /\ v <= g_max_value t).
Proof.
  intros kw vw Hkw Hvw. pose proof (max_shift kw Hkw) as Ek. pose proof (max_shift vw Hvw) as Ev.
  pose proof (N.pow_nonzero 2 kw) as Pk. pose proof (N.pow_nonzero 2 vw) as Pv. split; [|split].
  - intros pf c t m P Hr Hv.
    assert (E : max_key t = 2^kw - 1 /\ max_value t = 2^vw - 1).
    { unfold max_key, max_value. pose proof (reachable_rep _ _ _ _ P _ _ Hr) as [[(_ & _ & -> & -> & _) _]|(sl & ess & ovl & H & _)]; [done|].
      rewrite (ti_kw _ _ _ _ _ _ _ _ _ _ _ H), (ti_vw _ _ _ _ _ _ _ _ _ _ _ H). done. }
    destruct E as [E1 E2]. rewrite E1, E2. split; [done|]. split.
    + intros k v Hk. assert (Hm : map_Forall (fun k v => k < 2^kw /\ v < 2^vw) m).
      { destruct Hr as [fuel ops t outs _ _ Hops _|fuel ops t outs _ Hn _ _]; [|done]. eapply spec_range; [exact Hops|apply map_Forall_empty]. }
      specialize (Hm k v Hk). cbv beta in Hm. lia.
    + intros k v Hk Hvv Hm. destruct (C03_insert_exact pf c kw vw t m 64 k v P Hr Hv) as (_ & t' & x & E & _ & _ & _ & Hs); [lia..|].
      exists t', x. rewrite Hm in Hs. done.
  - intros pf c bmin fuel t m OK Hf Ha.
    assert (E : c_max_key t = 2^kw - 1 /\ c_max_value t = 2^vw - 1).
    { unfold c_max_key, c_max_value. destruct (c_after_rep _ _ _ _ _ _ _ _ OK Hf Ha) as [[(-> & -> & _) _]|(ess & H & _)]; [done|].
      rewrite (cr_kw _ _ _ _ _ _ H), (cr_vw _ _ _ _ _ _ H). done. }
    destruct E as [E1 E2]. rewrite E1, E2. do 2 (split; [done|]). intros k v Hk. destruct Ha as (ops & rs & Hv & _ & <-).
    destruct (spec_range _ _ _ _ _ ∅ Hv (map_Forall_empty _) k v Hk). lia.
  - intros pf c bmin t m Hr. assert (E : g_max_key t = 2^kw - 1 /\ g_max_value t = 2^vw - 1).
    { unfold g_max_key, g_max_value. destruct (g_reached_rep _ _ _ _ _ _ _ Hr) as [_ [[(-> & -> & _) _]|(ess & H & _)]]; [done|].
      rewrite (gr_kw _ _ _ _ _ _ _ _ H), (gr_vw _ _ _ _ _ _ _ _ H). done. }
    destruct E as [E1 E2]. rewrite E1, E2. do 2 (split; [done|]). intros k v Hk. destruct Hr as (fuel & ops & rs & _ & _ & Hv & _ & ->).
    destruct (spec_range _ _ _ _ _ ∅ Hv (map_Forall_empty _) k v Hk). lia.
Qed.
Print Assumptions C69_max_key.
Example C69_case : max_key (ex_hist ex_var 20 9 ex_ops) = 1048575 /\ max_value (ex_hist ex_var 20 9 ex_ops) = 511
  /\ reachable lax_pf ex_var 20 9 (ex_hist ex_var 20 9 ex_ops) (fst (spec_run ∅ ex_ops))
  /\ c_max_key (c_new 64 1) = 18446744073709551615 /\ c_max_value (c_new 64 1) = 1 /\ g_max_key ex_g_tab = 1048575.
Proof.
  split; [vm_compute; reflexivity|]. split; [vm_compute; reflexivity|].
  split; [apply ex_hist_reach; [exact ex_var_ok|done|apply ex_ops_valid; cbn; lia]|]. vm_compute. repeat split; reflexivity.
Qed.

(** ** C70: map_overflow::deserialize inserts every record of the stream, so that afterwards the map of pairs is the old one updated
    by the records in their order.  [um_stream] is the format that deserialize reads: the count, then keys and values. *)
Definition um_stream (c : cfg) (l : list (N * N)) : stream :=
  nbits 64 (N.of_nat (length l)) ++ concat (map (fun e => nbits (kbn c) (fst e) ++ nbits (vbn c) (snd e)) l).
Lemma um_assign_map pf nb els k v : NoDup (map fst els) ->
  NoDup (map fst (snd (um_assign pf nb els k v)))
  /\ (list_to_map (snd (um_assign pf nb els k v)) : gmap N N) = <[k := v]> (list_to_map els).
Proof.
  intros Hnd. unfold um_assign. destruct (existsb (fun e => fst e =? k) els) eqn:Ex.
  - cbn [snd]. assert (Hf : map fst (map (fun e => if fst e =? k then (k, v) else e) els) = map fst els).
    { rewrite map_map. apply map_ext. intros [k' v']. cbn [fst]. destruct (N.eqb_spec k' k); cbn; congruence. }
    rewrite Hf. split; [done|]. apply map_eq. intros k'. destruct (decide (k' = k)) as [->|Hne].
    + rewrite lookup_insert. apply elem_of_list_to_map_1; [change (NoDup (map fst (map (fun e => if fst e =? k then (k, v) else e) els))); by rewrite Hf|].
      apply existsb_exists in Ex as ([k1 v1] & Hin & E). apply N.eqb_eq in E. cbn in E. subst k1.
      apply elem_of_list_fmap. exists (k, v1). cbn [fst]. rewrite N.eqb_refl. split; [done|]. by apply elem_of_list_In.
    + rewrite lookup_insert_ne by done. clear Ex Hf Hnd. induction els as [|[k1 v1] els IH]; [done|]. cbn [map fst].
      destruct (N.eqb_spec k1 k) as [->|].
      * cbn [list_to_map foldr curry uncurry fst snd]. rewrite !lookup_insert_ne by done. exact IH.
      * change (<[k1 := v1]> (list_to_map (map (fun e => if fst e =? k then (k, v) else e) els) : gmap N N) !! k' = <[k1 := v1]> (list_to_map els : gmap N N) !! k').
        destruct (decide (k' = k1)) as [->|]; [by rewrite !lookup_insert|]. rewrite !lookup_insert_ne by done. exact IH.
  - assert (Hk : k ∉ map fst els).
    { intros Hin. apply elem_of_list_fmap in Hin as ([k1 v1] & -> & Hin). cbn [fst] in Ex.
      assert (existsb (fun e => fst e =? k1) els = true); [|congruence]. apply existsb_exists. exists (k1, v1).
      split; [by apply elem_of_list_In|]. apply N.eqb_refl. }
    assert (G : NoDup (map fst (els ++ [(k, v)])) /\ (list_to_map (els ++ [(k, v)]) : gmap N N) = <[k := v]> (list_to_map els)).
    { split.
      - rewrite map_app. apply NoDup_app. split; [done|]. split; [|apply NoDup_singleton]. intros x Hx Hx'.
        apply elem_of_list_singleton in Hx'. cbn in Hx'. by subst.
      - rewrite list_to_map_app. change (list_to_map [(k, v)]) with (<[k := v]> ∅ : gmap N N). rewrite <-insert_union_r.
        + by rewrite map_union_empty.
        + by apply not_elem_of_list_to_map_1. }
    destruct (nb <? _); exact G.
Qed.
Theorem C70_map_overflow_deserialize_partial : forall pf c nb els full l rest, NoDup (map fst els) ->
  N.of_nat (length l) < 2^64 -> Forall (fun e => fst e < 2^N.of_nat (kbn c) /\ snd e < 2^N.of_nat (vbn c)) l ->
  exists nb' els', ov_deserialize pf c (OUmap nb els full) (um_stream c l ++ rest) = Ok (OUmap nb' els' full, rest)
    /\ NoDup (map fst els') /\ (list_to_map els' : gmap N N) = foldl (fun m e => <[fst e := snd e]> m) (list_to_map els) l.
Proof.
  intros pf c nb els full l rest Hnd Hlen HF. unfold um_stream. rewrite <-app_assoc. cbn [ov_deserialize].
  rewrite (read_var_app 64) by (try apply replicate_length; done). cbn [used of_option mbind res_bind]. rewrite Nat2N.id.
  generalize (um_policy pf nb (N.of_nat (length l))). clear nb Hlen.
  assert (G : forall l els nb, NoDup (map fst els) -> Forall (fun e => fst e < 2^N.of_nat (kbn c) /\ snd e < 2^N.of_nat (vbn c)) l ->
    exists nb' els', um_read pf c (length l) nb els (concat (map (fun e => nbits (kbn c) (fst e) ++ nbits (vbn c) (snd e)) l) ++ rest) = Ok (nb', els', rest)
      /\ NoDup (map fst els') /\ (list_to_map els' : gmap N N) = foldl (fun m e => <[fst e := snd e]> m) (list_to_map els) l).
  { clear. induction l as [|[k v] l IH]; intros els nb Hnd HF.
    - exists nb, els. done.
    - apply Forall_cons in HF as [[Hk Hv] HF]. cbn [length um_read map concat fst snd] in *. rewrite <-!app_assoc.
      rewrite (read_var_app (kbn c) k) by (try apply replicate_length; done). rewrite (read_var_app (vbn c) v) by (try apply replicate_length; done).
      cbn [used of_option mbind res_bind]. destruct (um_assign_map pf nb els k v Hnd) as [Hnd' Hm].
      destruct (um_assign pf nb els k v) as [nb1 els1]. cbn [snd] in *. destruct (IH els1 nb1 Hnd' HF) as (nb' & els' & E & Hn' & Hm').
      exists nb', els'. split; [exact E|]. split; [done|]. cbn [foldl fst snd]. by rewrite <-Hm. }
  intros nb. destruct (G l els nb Hnd HF) as (nb' & els' & -> & Hn' & Hm'). cbn [mbind res_bind]. by exists nb', els'.
Qed.
Print Assumptions C70_map_overflow_deserialize_partial.
Example C70_case : Forall (fun e => fst e < 2^N.of_nat (kbn ex_umap) /\ snd e < 2^N.of_nat (vbn ex_umap)) [(1, 11); (3, 33); (1, 12)]
  /\ ov_deserialize lax_pf ex_umap (OUmap 1 [(7, 8)] [true]) (um_stream ex_umap [(1, 11); (3, 33); (1, 12)] ++ [Some true])
     = Ok (OUmap 3 [(7, 8); (1, 12); (3, 33)] [true], [Some true]).
Proof.
  split; [|vm_compute; reflexivity].
  change (2^N.of_nat (kbn ex_umap)) with 4294967296. change (2^N.of_nat (vbn ex_umap)) with 65536.
  repeat (apply List.Forall_cons; [cbn; lia|]). apply List.Forall_nil.
Qed.

(** But a record is not found afterwards if another one precedes it in the same bucket of the unordered_map: insert() refuses such
    keys, deserialize() does not.  The overflow o holds 1 and 3 in different buckets; after reading its records, 3 is lost. *)
Theorem C70_map_overflow_deserialize_refuted : exists pf c o o1 o2,
  ov_insert pf (kbn c) (vbn c) (ov_resize_buckets pf (ov_new pf (kbn c) (vbn c) OvMap) 16) 0 1 11 = Ok (o1, Some 1)
  /\ ov_insert pf (kbn c) (vbn c) o1 0 3 33 = Ok (o, Some 3) /\ ov_find pf (kbn c) o 3 = Ok (Some 3)
  /\ ov_deserialize pf c (ov_new pf (kbn c) (vbn c) OvMap) (um_stream c [(1, 11); (3, 33)]) = Ok (o2, [])
  /\ ov_size o2 = 2 /\ ov_find pf (kbn c) o2 1 = Ok (Some 1) /\ ov_find pf (kbn c) o2 3 = Ok None.
Proof.
  exists lax_pf, ex_umap. do 3 eexists. split; [vm_compute; reflexivity|]. split; [vm_compute; reflexivity|]. split; [vm_compute; reflexivity|].
  split; [vm_compute; reflexivity|]. vm_compute. repeat split; reflexivity.
Qed.
Print Assumptions C70_map_overflow_deserialize_refuted.
