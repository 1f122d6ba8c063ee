(** Proofs about size_in_bytes. *)
From Verif Require Export BytesModel TableReach.

Lemma ceil_div_bounds a b : 1 <= b -> a + b <= 2^64 ->
  exists n, ceil_div a b = Ok n /\ a <= n * b /\ n * b <= a + (b - 1).
Proof.
  intros Hb Ha. unfold ceil_div. rewrite (proj2 (N.eqb_neq b 0)) by lia. eexists. split; [done|].
  assert (E : u64 (a + b + ones64) = a + b - 1).
  { unfold u64, ones64. replace (a + b + (2^64 - 1)) with (a + b - 1 + 1 * 2^64) by lia. rewrite N.mod_add by lia. apply N.mod_small. lia. }
  rewrite E. pose proof (N.div_mod (a + b - 1) b ltac:(lia)). pose proof (N.mod_lt (a + b - 1) b ltac:(lia)). nia.
Qed.

Section bytes.
Context (pf : platform) (c : cfg) (kw vw : N) (sz : sizes).
Notation bmax := (bits_max c kw).
Notation trep := (trep pf c kw vw 1 bmax True).
Hypothesis OK : table_ok0 pf c kw vw 1 bmax.
Hypothesis CC : cfg_core pf c kw vw 1.
Hypothesis W : width_ok (N.to_nat (c_keybits c)).

Lemma key_bytes_eq : key_bytes c * 8 = c_keybits c /\ 1 <= key_bytes c <= 8.
Proof.
  unfold key_bytes. destruct W as [E|[E|[E|E]]]; assert (E' : c_keybits c = N.of_nat (N.to_nat (c_keybits c))) by lia;
    rewrite E' , E; vm_compute; repeat split; discriminate.
Qed.
Lemma value_bytes_le : value_bytes c <= 8.
Proof.
  pose proof (co_val _ _ _ _ _ CC) as Hv. unfold value_bytes. destruct (c_val c) as [es|es|es|iw|]; cbn [kind_bits].
  1-3: destruct Hv as [[-> |[-> |[-> | ->]]] _]; vm_compute; discriminate.
  - vm_compute. discriminate.
  - lia.
Qed.

(** The bytes added for a list of buckets. *)
Lemma slots_bytes t (sl : list slot) : forall B, remainder_width (hm c t) (t_b t) <= 64 -> Forall (fun s => s_size s <= 255) sl ->
  let e := foldr (fun s a => s_size s + a) 0 sl in let q := remainder_width (hm c t) (t_b t) in
  B + 4096 * N.of_nat (length sl) < 2^64 ->
  exists n, rfold (slot_in_bytes c t) sl B = Ok n
    /\ 8 * (B + value_bytes c * e) + q * e <= 8 * n
    /\ 8 * n <= 8 * (B + value_bytes c * e) + q * e + (c_keybits c - 1) * N.of_nat (length sl).
Proof.
  pose proof key_bytes_eq as [Hk Hk1]. pose proof value_bytes_le as Hv.
  induction sl as [|s sl IH]; intros B Hq HF e q Hlt.
  - exists B. split; [done|]. unfold e. cbn [foldr length]. lia.
  - apply Forall_cons in HF as [Hs HF]. cbn [length] in Hlt. 
    assert (Hsq : s_size s * q <= 255 * 64) by (unfold q; nia).
    assert (H64 : 2^64 = 18446744073709551616) by reflexivity.
    destruct (ceil_div_bounds (s_size s * q) (key_bytes c * 8)) as (n & En & Hn1 & Hn2); [lia|lia|].
    assert (Es : rfold (slot_in_bytes c t) (s :: sl) B = (x ← slot_in_bytes c t B s; rfold (slot_in_bytes c t) sl x)) by done.
    rewrite Es. unfold slot_in_bytes at 2. fold q. rewrite En. cbn [mbind res_bind].
    assert (Hn : n * key_bytes c <= 2047) by lia.
    assert (Hvs : value_bytes c * s_size s <= 8 * 255) by nia.
    rewrite (u64_small (n * key_bytes c)) by lia. rewrite (u64_small (B + n * key_bytes c)) by lia.
    rewrite u64_small by lia.
    destruct (IH (B + n * key_bytes c + value_bytes c * s_size s) Hq HF) as (m & Em & Hm1 & Hm2); [lia|].
    exists m. split; [done|]. fold q in Hm1, Hm2. unfold e. cbn [foldr length].
    set (f := foldr (fun s a => s_size s + a) 0 sl) in *.
    replace (value_bytes c * (s_size s + f)) with (value_bytes c * s_size s + value_bytes c * f) by lia.
    replace (q * (s_size s + f)) with (q * s_size s + q * f) by lia.
    replace ((c_keybits c - 1) * N.of_nat (S (length sl))) with ((c_keybits c - 1) + (c_keybits c - 1) * N.of_nat (length sl)) by lia.
    rewrite <-Hk in *. lia.
Qed.

Lemma reach_width t m : trep t m -> remainder_width (hm c t) (t_b t) <= kw.
Proof.
  intros Hr. destruct Hr as [[Hz ->]|(sl & ess & ovl & H & Hm)].
  - destruct Hz as (Hb & _ & Hk & _). unfold remainder_width, hm. cbn [h_kind h_width]. rewrite Hb, Hk.
    pose proof (co_kw _ _ _ _ _ CC). destruct (c_hash c); [|lia]. rewrite sub8_small by lia. lia.
  - pose proof (tinv_qw _ _ _ _ _ _ _ _ _ _ _ H) as Hq. unfold qwidth in Hq.
    destruct (ok_kind _ _ _ _ _ _ OK _ (ti_b _ _ _ _ _ _ _ _ _ _ _ H)) as [_ Hle]. lia.
Qed.

(** e elements are in buckets. *)
Lemma size_in_bytes_fact t m : trep t m ->
  let q := remainder_width (hm c t) (t_b t) in
  let e := N.of_nat (size m) - ov_size (t_ov t) in
  let base := sz_strategy sz * bucket_count t + sz_members sz + ov_size_in_bytes c sz (t_ov t) in
  base + 4096 * bucket_count t < 2^64 ->
  exists n, size_in_bytes c sz t = Ok n
    /\ 8 * base + (q + 8 * value_bytes c) * e <= 8 * n
    /\ 8 * n <= 8 * base + (q + 8 * value_bytes c) * e + (c_keybits c - 1) * bucket_count t.
Proof.
  intros Hr q e base Hlt. pose proof (reach_width _ _ Hr) as Hq. pose proof (co_kw _ _ _ _ _ CC) as Hkw.
  assert (Hr2 := Hr). unfold size_in_bytes.
  rewrite (u64_small (_ + sz_members sz)) by (unfold base in Hlt; lia).
  destruct Hr2 as [[Hz ->]|(sl & ess & ovl & H & Hm)].
  - assert (He : e = 0). { unfold e. rewrite map_size_empty. lia. }
    assert (Hbc : bucket_count t = 0). { destruct Hz as (Hb & _). unfold bucket_count. by rewrite Hb. }
    rewrite He. unfold base in *. rewrite Hbc in *. cbn [mbind res_bind]. change (0 =? 0) with true. cbv iota. cbn [mbind res_bind].
    eexists. split; [done|]. rewrite u64_small by lia. lia.
  - destruct (tinv_bc _ _ _ _ _ _ _ OK _ _ _ _ H) as [_ Hbc].
    assert (Hne : (bucket_count t =? 0) = false). { apply N.eqb_neq. rewrite Hbc. apply N.pow_nonzero. lia. }
    rewrite Hne, (ti_slots _ _ _ _ _ _ _ _ _ _ _ H).
    assert (Hlen : N.of_nat (length sl) = bucket_count t) by (rewrite Hbc; apply H).
    rewrite take_ge by lia.
    destruct (slots_bytes t sl (sz_strategy sz * bucket_count t + sz_members sz)) as (n & En & H1 & H2).
    { lia. }
    { pose proof (ti_repr _ _ _ _ _ _ _ _ _ _ _ H) as HF. pose proof (co_maxb _ _ _ _ _ CC) as Hmx.
      clear -HF Hmx. induction HF as [|s es sl' ess' Hr _ IH]; constructor; [|done]. destruct Hr as (-> & ? & _). lia. }
    { rewrite Hlen. unfold base in Hlt. lia. }
    rewrite En. cbn [mbind res_bind].
    assert (He : foldr (fun s a => s_size s + a) 0 sl = e).
    { rewrite (sizes_sum _ _ _ _ _ _ _ _ (ti_repr _ _ _ _ _ _ _ _ _ _ _ H)). unfold e. rewrite <-Hm, emap_size by apply H.
      rewrite app_length, (ov_size_spec _ _ _ _ _ _ (ti_ov _ _ _ _ _ _ _ _ _ _ _ H)). lia. }
    assert (Hsum : 255 * bucket_count t >= e).
    { rewrite <-He, <-Hlen. pose proof (ti_repr _ _ _ _ _ _ _ _ _ _ _ H) as HF.
      pose proof (co_maxb _ _ _ _ _ CC) as Hmx.
      clear -HF Hmx. induction HF as [|s es sl' ess' Hr _ IH]; cbn [foldr length]; [lia|]. destruct Hr as (-> & ? & _). lia. }
    pose proof key_bytes_eq as [Hkb Hkb1]. pose proof value_bytes_le as Hvb.
    cbv zeta in H1, H2. rewrite He, Hlen in *. fold q in H1, H2, Hq.
    assert (q * e <= 64 * (255 * bucket_count t)) by (apply N.mul_le_mono; lia).
    assert (value_bytes c * e <= 8 * (255 * bucket_count t)) by (apply N.mul_le_mono; lia).
    assert ((c_keybits c - 1) * bucket_count t <= 63 * bucket_count t) by (apply N.mul_le_mono_r; lia).
    rewrite N.mul_add_distr_r. unfold base in *.
    eexists. split; [done|]. rewrite u64_small by lia. lia.
Qed.
End bytes.

(** The overflow counts at least the pairs it stores. *)
Lemma ov_bytes_lower pf c kw vw sz t m : params pf c kw vw -> reachable pf c kw vw t m ->
  bucket_count t + sz_pair sz * ov_capacity (t_ov t) < 2^64 ->
  ov_size (t_ov t) * sz_pair sz <= ov_size_in_bytes c sz (t_ov t).
Proof.
  intros P Hr Hlt. apply (reachable_rep _ _ _ _ P) in Hr. destruct Hr as [[Hz ->]|(sl & ess & ovl & H & Hm)].
  - destruct Hz as (_ & _ & _ & _ & Ho & _). rewrite (ov_zero_size _ _ _ Ho). lia.
  - destruct (tinv_bc _ _ _ _ _ _ _ (reach_ok0 _ _ _ _ P) _ _ _ _ H) as [_ Hbc].
    pose proof (ti_ov _ _ _ _ _ _ _ _ _ _ _ H) as Ho. destruct (t_ov t) as [|? ? ? ?|nb els full]; cbn [ovrel ov_size ov_capacity ov_size_in_bytes] in *; [lia|by destruct Ho as (_ & [[]%(noarr _ _ _ _ P) _] & _)|].
    destruct Ho as (_ & (Hnb & _) & Hnd & Hf & _). rewrite Hf, Hbc in *.
    assert (Hd : 2^t_b t / 8 <= 2^t_b t) by (apply N.div_le_upper_bound; lia).
    rewrite u64_small by lia.
    assert (N.of_nat (length els) <= nb).
    { rewrite <-(map_length (fun e => um_bucket pf nb (fst e))). apply nodup_bound; [done|]. intros x Hx.
      apply elem_of_list_fmap in Hx as (e & -> & _). unfold um_bucket. apply N.mod_lt. lia. }
    nia.
Qed.

(** The widths in terms of the key width and the number of buckets. *)
Lemma reach_width_eq pf c kw vw t m : table_ok0 pf c kw vw 1 (bits_max c kw) -> 1 <= kw <= 64 -> trep pf c kw vw 1 (bits_max c kw) True t m ->
  remainder_width (hm c t) (t_b t) = match c_hash c with HBij _ => kw - N.log2 (bucket_count t) | HAdapter _ => kw end.
Proof.
  intros OK Hk Hr. unfold remainder_width, hm. cbn [h_kind h_width].
  destruct Hr as [[Hz ->]|(sl & ess & ovl & H & Hm)].
  - destruct Hz as (Hb & _ & Hkw & _). unfold bucket_count. rewrite Hb, Hkw. destruct (c_hash c); [|done].
    rewrite sub8_small by lia. change (N.log2 (if 0 =? 0 then 0 else 2^0)) with 0. lia.
  - destruct (tinv_bc _ _ _ _ _ _ _ OK _ _ _ _ H) as [_ Hbc].
    rewrite Hbc, (ti_kw _ _ _ _ _ _ _ _ _ _ _ H), N.log2_pow2 by lia. destruct (c_hash c) eqn:Eh; [|done].
    pose proof (ti_b _ _ _ _ _ _ _ _ _ _ _ H) as Hb. unfold bits_max in Hb. rewrite Eh in Hb. rewrite sub8_small by lia. done.
Qed.
