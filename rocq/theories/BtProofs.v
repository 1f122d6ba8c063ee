(** bucket_table implements a finite map as long as its buckets can grow. *)
From Verif Require Export BtModel Chain.

Lemma brepr_prefix pf kd w cap b xs ys : brepr pf kd w cap b (xs ++ ys) -> brepr pf kd w cap b xs.
Proof.
  destruct kd; cbn.
  5: { intros [-> H]. split; [done|]. by apply Forall_app in H as [? _]. }
  all: intros (t & d & -> & Ht & H); eexists t, d; (split; [done|]); (split; [done|]); destruct d as [cs|bs]; try done.
  1-3: cbn in *; rewrite app_length in H; destruct H as (H1 & H2 & H3 & H4); repeat split; [lia|lia| |by apply Forall_app in H4 as [? _]];
       intros i x Hx; apply H3; by apply lookup_app_l_Some.
  cbn in *; rewrite app_length in H; destruct H as (H1 & H2 & H3 & H4 & H5); repeat split; [done| |done| |by apply Forall_app in H5 as [? _]].
  - etrans; [|exact H2]. apply Nat.mul_le_mono_r. lia.
  - intros i x Hx; apply H4; by apply lookup_app_l_Some.
Qed.

Definition val_kind (kd : bkind) (es : nat) : Prop := (kd = KPlain es \/ kd = KClass es) /\ width_ok es.
Lemma val_width pf vd es w w' cap b xs : val_kind vd es -> brepr pf vd w cap b xs -> brepr pf vd w' cap b xs.
Proof. intros [[->| ->] _]; exact (fun H => H). Qed.
Lemma val_kind_ok vd es w : val_kind vd es -> kind_ok vd w.
Proof. intros [[->| ->] ?]; done. Qed.
Lemma val_pf pf vd es : val_kind vd es -> pf_ok pf vd.
Proof. intros [[->| ->] _]; done. Qed.
Lemma val_norm vd es v : val_kind vd es -> v < 2^N.of_nat es -> norm vd 0 v = v.
Proof. intros [[->| ->] _] H; cbn; by apply N.mod_small. Qed.

(** Legal instances: the width fits the key type, the value type has es bits. *)
Record bok (pf : platform) (c : bcfg) (es : nat) : Prop := {
  bo_key : kind_ok (bc_key c) (bc_width c);
  bo_null : bc_key c <> KNull;
  bo_w : (1 <= bc_width c <= 64)%nat;
  bo_fit : match bc_key c with KPlain e | KClass e | KAvx e => (bc_width c <= e)%nat | _ => True end;
  bo_pf : pf_ok pf (bc_key c);
  bo_val : val_kind (bc_val c) es }.

Lemma bok_norm pf c es k : bok pf c es -> k < 2^N.of_nat (bc_width c) -> norm (bc_key c) (bc_width c) k = k.
Proof.
  intros H Hk. pose proof (bo_fit _ _ _ H) as Hf. pose proof (bo_null _ _ _ H).
  assert (forall e, (bc_width c <= e)%nat -> k mod 2^N.of_nat e = k) as Hm.
  { intros e He. apply N.mod_small. eapply N.lt_le_trans; [exact Hk|]. apply N.pow_le_mono_r; lia. }
  destruct (bc_key c); cbn; auto; done.
Qed.

(** Number of elements up to which the buckets grow as needed. *)
Definition blim (c : bcfg) : N := match bc_strat c with BInc => 2^32 - 1 | BArb => 255 end.

Lemma arb_resize_ge n : n <= 255 -> n <= arb_resize n /\ arb_resize n <= 255.
Proof.
  unfold arb_resize, MAX_BUCKET_BYTESIZE. intros H. change (255 / 4) with 63. destruct (N.ltb_spec n 63); dlia.
Qed.
Lemma arb_resize_cap n : 255 <= n -> arb_resize n = 255.
Proof.
  unfold arb_resize, MAX_BUCKET_BYTESIZE. intros H. change (255 / 4) with 63. destruct (N.ltb_spec n 63); dlia.
Qed.

Section bt.
Context (pf : platform) (c : bcfg) (es : nat).
Hypothesis OK : bok pf c es.
Notation kd := (bc_key c).
Notation vd := (bc_val c).
Notation w := (bc_width c).
Notation vb := (N.of_nat es).

Definition entry_ok (e : N * N) : Prop := e.1 < 2^N.of_nat w /\ e.2 < 2^vb.

(** The bucket table holds the entries E in this order. *)
Record bfull (t : btable) (E : entries) : Prop := {
  bf_cap : exists cap, brepr pf kd w cap (bt_keys t) E.*1 /\ brepr pf vd 0 cap (bt_vals t) E.*2 /\
             (length E <= cap)%nat /\
             match bc_strat c with BInc => True | BArb => bt_len t = N.of_nat cap /\ (cap <= 255)%nat end;
  bf_n : bt_n t = N.of_nat (length E);
  bf_lim : N.of_nat (length E) <= blim c;
  bf_nodup : NoDup (keys_of E);
  bf_ok : Forall entry_ok E;
  bf_ne : E <> [] }.
Definition bnone (t : btable) : Prop := bt_keys t = None /\ bt_vals t = None /\ bt_n t = 0.
Definition brep (t : btable) (E : entries) : Prop := (bnone t /\ E = []) \/ bfull t E.

Local Lemma Kok : kind_ok kd w. Proof. apply (bo_key _ _ _ OK). Qed.
Local Lemma Kpf : pf_ok pf kd. Proof. apply (bo_pf _ _ _ OK). Qed.
Local Lemma Vok : kind_ok vd 0. Proof. apply (val_kind_ok _ _ 0 (bo_val _ _ _ OK)). Qed.
Local Lemma Vpf : pf_ok pf vd. Proof. apply (val_pf pf _ _ (bo_val _ _ _ OK)). Qed.
Local Hint Resolve Kok Kpf Vok Vpf : core.

Lemma brepr_init b cap xs : brepr pf kd w cap b xs -> exists x, b = Some x.
Proof. pose proof (bo_null _ _ _ OK). destruct kd; cbn; try done; intros (t & d & -> & _); eauto. Qed.
Lemma bfull_init t E : bfull t E -> bt_init t = true.
Proof. intros H. destruct (bf_cap _ _ H) as (cap & Hk & _). apply brepr_init in Hk as [x Hx]. unfold bt_init. by rewrite Hx. Qed.
Lemma blim_32 : blim c <= 2^32 - 1.
Proof. unfold blim. destruct (bc_strat c); lia. Qed.
Lemma bfull_n t E : bfull t E -> 1 <= bt_n t <= 2^32 - 1.
Proof.
  intros H. pose proof blim_32. pose proof (bf_lim _ _ H). pose proof (bf_n _ _ H). pose proof (bf_ne _ _ H).
  destruct E; [done|]. cbn [length] in *. lia.
Qed.
Lemma brep_length t E : brep t E -> N.of_nat (length E) = bt_n t.
Proof. intros [[(_ & _ & ->) ->]|H]; [done|]. by rewrite (bf_n _ _ H). Qed.
Lemma brep_nodup t E : brep t E -> NoDup (keys_of E).
Proof. intros [[_ ->]|H]; [constructor|apply H]. Qed.
Lemma brep_ok t E : brep t E -> Forall entry_ok E.
Proof. intros [[_ ->]|H]; [constructor|apply H]. Qed.

Lemma locate_spec t E k : bfull t E -> k < 2^N.of_nat w ->
  bt_locate pf c t k = Ok (match first_index k (keys_of E) with Some i => N.of_nat i | None => ones64 end).
Proof.
  intros H Hk. unfold bt_locate. destruct (bf_cap _ _ H) as (cap & Hks & _).
  rewrite (bf_n _ _ H), Nat2N.id. rewrite <-(fmap_length fst E).
  rewrite (b_find_spec pf _ w cap (bt_keys t)) by (done || apply (bo_null _ _ _ OK) || by eapply bok_norm).
  cbn [mbind res_bind]. done.
Qed.

Lemma index_lt (E : entries) k i : first_index k (keys_of E) = Some i -> (i < length E)%nat.
Proof. intros H. apply fi_Some, lookup_lt_Some in H. by rewrite fmap_length in H. Qed.
Lemma index_entry (E : entries) k i : first_index k (keys_of E) = Some i -> exists v, E !! i = Some (k, v).
Proof.
  intros H. apply fi_Some in H. rewrite list_lookup_fmap in H. destruct (E !! i) as [[k' v]|] eqn:Ei; [|done].
  cbn in H. injection H as ->. by exists v.
Qed.
Lemma ones_big t E : brep t E -> bn_invalid t ones64 = true.
Proof.
  intros H. unfold bn_invalid, ones64. apply N.leb_le. destruct H as [[(_ & _ & ->) _]|H]; [lia|].
  apply bfull_n in H. lia.
Qed.
Lemma bn_key_spec t E i k v : bfull t E -> E !! i = Some (k, v) -> bn_key pf c t (N.of_nat i) = Ok k.
Proof.
  intros H Hi. destruct (bf_cap _ _ H) as (cap & Hks & _). unfold bn_key. rewrite Nat2N.id.
  eapply b_read_spec; [done..|]. rewrite list_lookup_fmap, Hi. done.
Qed.
Lemma bn_value_spec t E i k v : bfull t E -> E !! i = Some (k, v) -> bn_value pf c t (N.of_nat i) = Ok v.
Proof.
  intros H Hi. destruct (bf_cap _ _ H) as (cap & _ & Hvs & _). unfold bn_value. rewrite Nat2N.id.
  eapply b_read_spec; [done..|]. rewrite list_lookup_fmap, Hi. done.
Qed.
Lemma bn_valid t E i e : bfull t E -> E !! i = Some e -> bn_invalid t (N.of_nat i) = false.
Proof. intros H Hi. unfold bn_invalid. rewrite (bf_n _ _ H). apply lookup_lt_Some in Hi. apply N.leb_gt. lia. Qed.
Lemma bi_at_spec t E i e : bfull t E -> E !! i = Some e -> bi_at pf c t (N.of_nat i) = Ok (Some e).
Proof.
  intros H Hi. destruct e as [k v]. unfold bi_at. rewrite (bn_valid _ _ _ _ H Hi).
  rewrite (bn_key_spec _ _ _ _ _ H Hi), (bn_value_spec _ _ _ _ _ H Hi). done.
Qed.
Lemma bi_at_end t E : brep t E -> bi_at pf c t ones64 = Ok None.
Proof. intros H. unfold bi_at. by rewrite (ones_big _ _ H). Qed.

Lemma emap_index (E : entries) k : NoDup (keys_of E) ->
  match first_index k (keys_of E) with
  | Some i => exists v, E !! i = Some (k, v) /\ emap E !! k = Some v
  | None => emap E !! k = None
  end.
Proof.
  intros Hn. destruct (first_index k (keys_of E)) as [i|] eqn:Ef.
  - destruct (index_entry _ _ _ Ef) as [v Hv]. exists v. split; [done|]. apply emap_Some; [done|].
    by eapply elem_of_list_lookup_2.
  - apply fi_None in Ef. by apply emap_None.
Qed.

(** find, with the position it returns *)
Lemma find_spec t E k : brep t E -> k < 2^N.of_nat w ->
  bt_find pf c t k = Ok (match first_index k (keys_of E) with Some i => N.of_nat i | None => ones64 end).
Proof.
  intros [[(Hk & _) ->]|H] Hkk; unfold bt_find.
  - unfold bt_init. rewrite Hk. done.
  - rewrite (bfull_init _ _ H). by apply locate_spec.
Qed.

Lemma pos_not_ones t E i : bfull t E -> (i < length E)%nat -> (N.of_nat i =? ones64) = false.
Proof.
  intros H Hi. apply N.eqb_neq. pose proof (bfull_n _ _ H). rewrite (bf_n _ _ H) in *. unfold ones64. lia.
Qed.

(** the writes at the end of find_or_insert *)
Lemma u32_pred n : 1 <= n -> n < 2^32 -> u32 (n + 2^32 - 1) = n - 1.
Proof. intros. unfold u32. replace (n + 2^32 - 1) with (n - 1 + 1 * 2^32) by lia. rewrite N.mod_add by lia. apply N.mod_small. lia. Qed.

Lemma insert_last ks vs len cap E k v : brepr pf kd w cap ks E.*1 -> brepr pf vd 0 cap vs E.*2 ->
  (length E < cap)%nat -> N.of_nat (S (length E)) <= blim c ->
  match bc_strat c with BInc => True | BArb => len = N.of_nat cap /\ (cap <= 255)%nat end ->
  k ∉ keys_of E -> NoDup (keys_of E) -> Forall entry_ok E -> entry_ok (k, v) ->
  exists t, bt_last pf c (BT ks vs (N.of_nat (S (length E))) len) k v = Ok (t, N.of_nat (length E)) /\ bfull t (E ++ [(k, v)]).
Proof.
  intros Hks Hvs Hc Hl Hst Hk Hn Ho [Hk1 Hv1]. pose proof blim_32. cbn in Hk1, Hv1. unfold bt_last. cbn [bt_n bt_keys bt_vals bt_len].
  rewrite u32_pred by lia. replace (N.of_nat (S (length E)) - 1) with (N.of_nat (length E)) by lia.
  cbv zeta. rewrite Nat2N.id.
  destruct (b_write_push pf kd w cap ks _ k Kok Kpf Hks) as (ks' & E1 & Hks'); [by rewrite fmap_length|].
  rewrite fmap_length in E1. rewrite E1. cbn [mbind res_bind].
  destruct (b_write_push pf vd 0 cap vs _ v Vok Vpf Hvs) as (vs' & E2 & Hvs'); [by rewrite fmap_length|].
  rewrite fmap_length in E2. rewrite E2. cbn [mbind res_bind].
  rewrite (bok_norm _ _ _ _ OK Hk1) in Hks'. rewrite (val_norm _ _ _ (bo_val _ _ _ OK) Hv1) in Hvs'.
  eexists; split; [done|]. split.
  - exists cap. cbn. rewrite !fmap_app, app_length. cbn. split; [done|]. split; [done|]. split; [lia|].
    destruct (bc_strat c); [done|]. done.
  - cbn. rewrite app_length. cbn. lia.
  - rewrite app_length. cbn. lia.
  - rewrite fmap_app. cbn. apply NoDup_app. split; [done|]. split; [|apply NoDup_singleton].
    intros x Hx Hx'. apply elem_of_list_singleton in Hx' as ->. done.
  - apply Forall_app. split; [done|]. by apply Forall_singleton.
  - by destruct E.
Qed.

Lemma insert_spec t E k v : brep t E -> entry_ok (k, v) ->
  N.of_nat (length E) < blim c \/ k ∈ keys_of E ->
  exists t' p, bt_insert pf c t k v = Ok (t', p) /\
    match first_index k (keys_of E) with
    | Some i => t' = t /\ p = N.of_nat i
    | None => bfull t' (E ++ [(k, v)]) /\ p = N.of_nat (length E)
    end.
Proof.
  intros Hr Hkv Hl. pose proof Hkv as [Hk Hv]. cbn in Hk, Hv. pose proof blim_32 as Hb32. unfold bt_insert.
  destruct Hr as [[(Hks & Hvs & Hn) ->]|H].
  - unfold bt_init. rewrite Hks. cbn [first_index fmap list_fmap].
    destruct (insert_last (b_initialize pf kd 1 w) (b_initialize pf vd 1 (val_bits vd)) (st_assign c (bt_len t) 1) 1 [] k v)
      as (t' & Et & Hf); try done.
    + apply b_initialize_spec; [done|lia].
    + apply b_initialize_spec; [done|lia].
    + cbn. lia.
    + unfold blim. destruct (bc_strat c); cbn -[N.sub N.pow N.le]; lia.
    + unfold st_assign. destruct (bc_strat c); [done|]. split; [done|lia].
    + apply not_elem_of_nil.
    + constructor.
    + eexists _, _. split; [exact Et|]. done.
  - rewrite (bfull_init _ _ H). rewrite (locate_spec _ _ _ H Hk). cbn [mbind res_bind].
    destruct (first_index k (keys_of E)) as [i|] eqn:Ei.
    { rewrite (pos_not_ones _ _ _ H) by (by eapply index_lt). eexists _, _. split; [done|]. done. }
    change (ones64 =? ones64) with true. cbn iota.
    apply fi_None in Ei. destruct Hl as [Hl|Hl]; [|done].
    destruct (bf_cap _ _ H) as (cap & Hks & Hvs & Hc & Hst).
    rewrite (bf_n _ _ H). replace (u32 (N.of_nat (length E) + 1)) with (N.of_nat (S (length E)))
      by (unfold u32; rewrite N.mod_small; lia).
    rewrite (u32_pred (N.of_nat (S (length E)))) by lia.
    replace (N.of_nat (S (length E)) - 1) with (N.of_nat (length E)) by lia. rewrite Nat2N.id.
    assert (Hgrow : forall newsize len, (length E < N.to_nat newsize)%nat ->
      match bc_strat c with BInc => True | BArb => len = newsize /\ newsize <= 255 end ->
      exists t', (ks ← b_resize pf kd (bt_keys t) (length E) (N.to_nat newsize) w;
                 vs ← b_resize pf vd (bt_vals t) (length E) (N.to_nat newsize) 0;
                 bt_last pf c (BT ks vs (N.of_nat (S (length E))) len) k v) = Ok (t', N.of_nat (length E)) /\ bfull t' (E ++ [(k, v)])).
    { intros newsize len Hns Hst'.
      destruct (b_resize_spec pf kd w cap _ _ (N.to_nat newsize) Kok Hks) as (ks' & Ek & Hks'); [rewrite fmap_length; lia|].
      destruct (b_resize_spec pf vd 0 cap _ _ (N.to_nat newsize) Vok Hvs) as (vs' & Ev & Hvs'); [rewrite fmap_length; lia|].
      rewrite fmap_length in Ek, Ev. rewrite Ek. cbn [mbind res_bind]. rewrite Ev. cbn [mbind res_bind].
      eapply (insert_last ks' vs' len (N.to_nat newsize)); eauto; try lia; [|apply H|apply H].
      destruct (bc_strat c); [done|]. lia. }
    unfold st_needs_resize, st_after_increment, inc_needs_resize, inc_size_after_increment.
    destruct (bc_strat c) eqn:Es.
    + destruct (Hgrow (N.of_nat (S (length E))) (bt_len t)) as (t' & Et & Hf); [lia|done|].
      eexists _, _. split; [exact Et|]. done.
    + destruct Hst as [Hlen Hcap]. rewrite Hlen. unfold blim in Hl. rewrite Es in Hl.
      assert (Hu : forall n, n <= 255 -> u32 n = n) by (intros; unfold u32; apply N.mod_small; lia).
      rewrite (Hu (N.of_nat (S (length E)))) by lia.
      destruct (arb_resize_ge (N.of_nat (S (length E)))) as [Ha Hb]; [lia|].
      destruct (N.leb_spec (N.of_nat cap) (N.of_nat (S (length E)))).
      * rewrite (Hu (arb_resize _)) by lia.
        destruct (Hgrow (arb_resize (N.of_nat (S (length E)))) (arb_resize (N.of_nat (S (length E))))) as (t' & Et & Hf); [lia|done|].
        eexists _, _. split; [exact Et|]. done.
      * destruct (insert_last (bt_keys t) (bt_vals t) (bt_len t) cap E k v) as (t' & Et & Hf); try done; try (by apply H); try lia.
        -- unfold blim. rewrite Es. lia.
        -- by rewrite Es.
        -- rewrite Hlen in Et. eexists _, _. split; [exact Et|]. done.
Qed.

(** The 256-th element of a table that uses arbitrary_resize_bucket. *)
Lemma is_ub_bind {A B} (m : res A) (f : A -> res B) : is_ub m = true -> is_ub (m ≫= f) = true.
Proof. by destruct m. Qed.
Lemma cells_full pf' kd' es' w' cap b xs k : kd' = KPlain es' \/ kd' = KClass es' -> brepr pf' kd' w' cap b xs -> 
  exists b', b_resize pf' kd' b (length xs) (length xs) w' = Ok b' /\ b_write pf' kd' b' (length xs) k w' = Ub OobWrite.
Proof.
  intros Hk Hb. destruct Hk as [-> | ->]; destruct Hb as (t & [cs|bs] & -> & Ht & H); try done; destruct H as (H1 & H2 & _).
  - cbn -[Nat.ltb]. cbn [kind_tag] in Ht. rewrite Ht. eexists; split; [done|]. cbn -[Nat.ltb].
    unfold realloc_cells, fresh_cells. rewrite app_length, take_length, replicate_length.
    by rewrite (proj2 (Nat.ltb_ge _ _)) by lia.
  - cbn -[Nat.ltb Nat.leb]. unfold cells_prefix. rewrite (proj2 (Nat.leb_le _ _)) by lia. cbn [mbind res_bind].
    cbn [kind_tag] in Ht. rewrite Ht. rewrite (proj2 (Nat.ltb_ge _ _)) by lia. eexists; split; [done|]. cbn -[Nat.ltb].
    unfold fresh_cells. rewrite app_length, take_length, replicate_length.
    by rewrite (proj2 (Nat.ltb_ge _ _)) by lia.
Qed.

Lemma b_write_okub pf' kd' b i k w' : is_ub (b_write pf' kd' b i k w') = true \/ exists b', b_write pf' kd' b i k w' = Ok b'.
Proof.
  destruct kd'; cbn -[Nat.ltb]; [| | | |eauto]; destruct b as [[t [cs|bs]]|]; eauto; try (case_match; eauto).
  unfold write_int, write_raw. cbn [mbind res_bind]. repeat case_match; cbn; eauto.
Qed.
Lemma insert_256 t E k v : bc_strat c = BArb -> bfull t E -> length E = 255%nat -> k ∉ keys_of E -> k < 2^N.of_nat w ->
  is_ub (bt_insert pf c t k v) = true.
Proof.
  intros Es H HE Hk Hkw. unfold bt_insert. rewrite (bfull_init _ _ H), (locate_spec _ _ _ H Hkw). cbn [mbind res_bind].
  apply fi_None in Hk. rewrite Hk. change (ones64 =? ones64) with true. cbn iota.
  destruct (bf_cap _ _ H) as (cap & Hks & Hvs & Hc & Hst). rewrite Es in Hst. destruct Hst as [Hlen Hcap].
  assert (cap = 255%nat) as -> by lia.
  rewrite (bf_n _ _ H), HE, Hlen.
  unfold st_needs_resize, st_after_increment. rewrite Es.
  change (u32 (N.of_nat 255 + 1)) with 256. change (N.of_nat 255 <=? u32 256) with true. cbn iota.
  change (u32 (arb_resize (u32 256))) with 255. cbv zeta.
  change (N.to_nat (u32 (256 + 2^32 - 1))) with 255%nat. change (N.to_nat 255) with 255%nat.
  destruct (b_resize_spec pf kd w 255 _ _ 255 Kok Hks) as (ks' & Ek & Hks'); [rewrite fmap_length; lia|].
  rewrite fmap_length, HE in Ek. rewrite Ek. cbn [mbind res_bind].
  destruct (cells_full pf vd es 0 255 _ _ v (proj1 (bo_val _ _ _ OK)) Hvs) as (vs' & Ev & Ew).
  rewrite fmap_length, HE in Ev, Ew. rewrite Ev. cbn [mbind res_bind]. unfold bt_last. cbn [bt_n bt_keys bt_vals].
  change (N.to_nat (u32 (256 + 2^32 - 1))) with 255%nat.
  destruct (b_write_okub pf kd ks' 255 k w) as [Hu|[ks2 Hks2]].
  - by apply is_ub_bind.
  - rewrite Hks2. cbn [mbind res_bind]. by rewrite Ew.
Qed.

(** erase *)
Lemma shift_spec : forall (B A : entries) (x : N * N) cap ks vs,
  brepr pf kd w cap ks (A ++ x :: B).*1 -> brepr pf vd 0 cap vs (A ++ x :: B).*2 -> Forall entry_ok B ->
  exists ks' vs', bt_shift pf c ks vs (S (length A)) (length B) = Ok (ks', vs') /\
    brepr pf kd w cap ks' (A ++ B).*1 /\ brepr pf vd 0 cap vs' (A ++ B).*2.
Proof.
  induction B as [|[k v] B IH]; intros A x cap ks vs Hks Hvs Ho.
  - eexists _, _. split; [done|]. rewrite app_nil_r. rewrite fmap_app in Hks, Hvs.
    split; by eapply brepr_prefix.
  - apply Forall_cons in Ho as [[Hk Hv] Ho]. cbn in Hk, Hv. cbn [length bt_shift].
    assert (Hlk : forall (f : N * N -> N), (f <$> A ++ x :: (k, v) :: B) !! S (length A) = Some (f (k, v))).
    { intros f. rewrite list_lookup_fmap, lookup_app_r by lia.
      by replace (S (length A) - length A)%nat with 1%nat by lia. }
    rewrite (b_read_spec pf kd w cap _ _ _ k Kok Kpf Hks (Hlk fst)). cbn [mbind res_bind].
    replace (S (length A) - 1)%nat with (length A) by lia.
    assert (Hup : forall (f : N * N -> N), <[length A := f (k, v)]> (f <$> A ++ x :: (k, v) :: B) = f <$> ((A ++ [(k, v)]) ++ (k, v) :: B)).
    { intros f. rewrite <-list_fmap_insert. f_equal. rewrite insert_app_r_alt by lia.
      rewrite Nat.sub_diag. cbn. by rewrite <-app_assoc. }
    destruct (b_write_upd pf kd w cap ks _ (length A) k Kok Kpf Hks) as (ks' & Ek & Hks').
    { rewrite fmap_length, app_length. cbn. lia. }
    rewrite Ek. cbn [mbind res_bind]. rewrite (bok_norm _ _ _ _ OK Hk) in Hks'. pose proof (Hup fst) as Hu1. cbn [fst] in Hu1. rewrite Hu1 in Hks'.
    rewrite (b_read_spec pf vd 0 cap _ _ _ v Vok Vpf Hvs (Hlk snd)). cbn [mbind res_bind].
    destruct (b_write_upd pf vd 0 cap vs _ (length A) v Vok Vpf Hvs) as (vs' & Ev & Hvs').
    { rewrite fmap_length, app_length. cbn. lia. }
    rewrite Ev. cbn [mbind res_bind]. rewrite (val_norm _ _ _ (bo_val _ _ _ OK) Hv) in Hvs'. pose proof (Hup snd) as Hu2. cbn [snd] in Hu2. rewrite Hu2 in Hvs'.
    destruct (IH _ _ _ _ _ Hks' Hvs' Ho) as (ks2 & vs2 & E2 & H2). exists ks2, vs2.
    rewrite app_length in E2. cbn [length] in E2. replace (length A + 1)%nat with (S (length A)) in E2 by lia.
    split; [exact E2|]. by rewrite <-!app_assoc in H2.
Qed.

Lemma clear_spec t E : brep t E -> exists t', bt_clear pf c t = Ok t' /\ brep t' [].
Proof.
  intros [[(Hk & Hv & Hn) ->]|H]; unfold bt_clear.
  - rewrite Hk, Hv, !b_clear_None. cbn [mbind res_bind]. eexists; split; [done|]. left. done.
  - destruct (bf_cap _ _ H) as (cap & Hks & Hvs & _).
    rewrite (b_clear_spec _ _ _ _ _ _ Hks). cbn [mbind res_bind]. rewrite (b_clear_spec _ _ _ _ _ _ Hvs). cbn [mbind res_bind].
    eexists; split; [done|]. left. done.
Qed.

Lemma erase_spec t E k : brep t E -> k < 2^N.of_nat w ->
  exists t', bt_erase pf c t k = Ok (t', match first_index k (keys_of E) with Some _ => 1 | None => 0 end) /\
    brep t' (match first_index k (keys_of E) with Some i => delete i E | None => E end).
Proof.
  intros [[(Hk & Hv & Hn) ->]|H] Hkw; unfold bt_erase.
  { unfold bt_init. rewrite Hk. eexists; split; [done|]. left. done. }
  rewrite (bfull_init _ _ H), (locate_spec _ _ _ H Hkw). cbn [mbind res_bind].
  destruct (first_index k (keys_of E)) as [i|] eqn:Ei.
  2: { change (ones64 =? ones64) with true. eexists; split; [done|]. by right. }
  pose proof (index_lt _ _ _ Ei) as Hi. destruct (index_entry _ _ _ Ei) as [v Hiv].
  rewrite (pos_not_ones _ _ _ H Hi). rewrite Nat2N.id. rewrite (bf_n _ _ H), Nat2N.id.
  destruct (bf_cap _ _ H) as (cap & Hks & Hvs & Hc & Hst).
  pose proof (take_drop_middle _ _ _ Hiv) as HE.
  assert (Hla : length (take i E) = i) by (rewrite take_length; lia).
  destruct (shift_spec (drop (S i) E) (take i E) (k, v) cap (bt_keys t) (bt_vals t)) as (ks & vs & Es & Hks' & Hvs').
  { by rewrite HE. } { by rewrite HE. } { apply Forall_drop, H. }
  rewrite Hla, drop_length in Es. rewrite Es. cbn [mbind res_bind bt_n].
  pose proof (bfull_n _ _ H) as Hn. rewrite (bf_n _ _ H) in Hn.
  rewrite u32_pred by lia. rewrite <-delete_take_drop in Hks', Hvs'.
  assert (Hld : length (delete i E) = (length E - 1)%nat) by (apply length_delete; eauto).
  assert (Hfull : forall t0, bt_keys t0 = ks -> bt_vals t0 = vs -> bt_n t0 = N.of_nat (length E) - 1 -> bt_len t0 = bt_len t ->
    (2 <= length E)%nat -> bfull t0 (delete i E)).
  { intros t0 H1 H2 H3 H4 H5. pose proof (bf_lim _ _ H). split.
    - exists cap. rewrite H1, H2, H4, Hld. split; [done|]. split; [done|]. split; [lia|done].
    - rewrite H3, Hld. lia.
    - rewrite Hld. lia.
    - pose proof (bf_nodup _ _ H) as Hnd. rewrite (keys_perm _ _ (delete_Permutation _ _ _ Hiv)) in Hnd. cbn in Hnd. by apply NoDup_cons in Hnd as [_ ?].
    - apply Forall_delete, H.
    - intros Hd. rewrite Hd in Hld. cbn in Hld. lia. }
  destruct (N.eqb_spec (N.of_nat (length E) - 1) 0) as [Hz|Hz].
  - assert (Hd : delete i E = []) by (apply nil_length_inv; lia).
    unfold bt_clear. cbn [bt_keys bt_vals].
    rewrite (b_clear_spec _ _ _ _ _ _ Hks'). cbn [mbind res_bind]. rewrite (b_clear_spec _ _ _ _ _ _ Hvs'). cbn [mbind res_bind].
    eexists; split; [done|]. left. done.
  - eexists; split; [done|]. right. apply Hfull; try done. lia.
Qed.

(** m[k] = v at a valid position *)
Lemma write_spec t E i k v0 v : bfull t E -> E !! i = Some (k, v0) -> v < 2^vb ->
  exists t', bt_write pf c t (N.of_nat i) v = Ok t' /\ bfull t' (<[i := (k, v)]> E).
Proof.
  intros H Hi Hv. destruct (bf_cap _ _ H) as (cap & Hks & Hvs & Hc & Hst). unfold bt_write. rewrite Nat2N.id.
  pose proof (lookup_lt_Some _ _ _ Hi) as Hlt.
  destruct (b_write_upd pf vd 0 cap _ _ i v Vok Vpf Hvs) as (vs' & Ev & Hvs'); [by rewrite fmap_length|].
  rewrite Ev. cbn [mbind res_bind]. rewrite (val_norm _ _ _ (bo_val _ _ _ OK) Hv) in Hvs'.
  assert (Hk1 : keys_of (<[i := (k, v)]> E) = keys_of E).
  { rewrite list_fmap_insert. cbn. apply list_insert_id. by rewrite list_lookup_fmap, Hi. }
  eexists; split; [done|]. split; cbn [bt_keys bt_vals bt_n bt_len]; rewrite ?Hk1, ?insert_length; try apply H.
  - exists cap. split; [done|]. split; [by rewrite list_fmap_insert|]. done.
  - apply Forall_insert; [apply H|]. split; [|done]. cbn. pose proof (bf_ok _ _ H) as Ho.
    by apply (Forall_lookup_1 _ _ _ _ Ho) in Hi as [? _].
  - intros He. apply (f_equal length) in He. rewrite insert_length in He. cbn in He. lia.
Qed.

Lemma shrink_spec t E : brep t E -> exists t', bt_shrink pf c t = Ok t' /\ brep t' E.
Proof.
  intros [[(Hk & Hv & Hn) ->]|H]; unfold bt_shrink.
  { unfold bt_init. rewrite Hk. eexists; split; [done|]. left. done. }
  rewrite (bfull_init _ _ H). destruct (bf_cap _ _ H) as (cap & Hks & Hvs & Hc & Hst).
  destruct (bt_n t <? st_size c (bt_len t) (bt_n t)); [|eexists; split; [done|by right]].
  rewrite (bf_n _ _ H), Nat2N.id.
  destruct (b_resize_spec pf kd w cap _ _ (length E) Kok Hks) as (ks' & Ek & Hks'); [by rewrite fmap_length|].
  rewrite fmap_length in Ek. rewrite Ek. cbn [mbind res_bind].
  destruct (b_resize_spec pf vd w cap _ _ (length E) (val_kind_ok _ _ w (bo_val _ _ _ OK)) (val_width _ _ _ _ _ _ _ _ (bo_val _ _ _ OK) Hvs)) as (vs' & Ev & Hvs'); [by rewrite fmap_length|].
  rewrite fmap_length in Ev. rewrite Ev. cbn [mbind res_bind].
  eexists; split; [done|]. right. split; cbn [bt_keys bt_vals bt_n bt_len]; try apply H.
  - exists (length E). split; [done|]. split; [by eapply val_width; [apply OK|]|]. split; [lia|].
    unfold st_assign. pose proof (bfull_n _ _ H) as Hn. rewrite (bf_n _ _ H) in Hn. pose proof (bf_lim _ _ H) as Hl. unfold blim in Hl. destruct (bc_strat c); [done|].
    unfold u32. rewrite N.mod_small by lia. split; [done|lia].
  - done.
Qed.

(** *** histories *)
Definition mrep (t : btable) (m : gmap N N) : Prop := exists E, brep t E /\ emap E = m.

Lemma mrep_new : mrep bt_new ∅.
Proof. exists []. split; [|done]. left. done. Qed.

Lemma mrep_size t m : mrep t m -> N.of_nat (size m) = bt_n t /\ bt_n t < 2^32.
Proof.
  intros (E & H & <-). rewrite emap_size by (by eapply brep_nodup). split; [by apply brep_length|].
  destruct H as [[(_ & _ & ->) _]|H]; [done|]. apply bfull_n in H. lia.
Qed.
Lemma emap_snoc E k v : NoDup (keys_of E) -> emap E !! k = None -> emap (E ++ [(k, v)]) = <[k := v]> (emap E).
Proof.
  intros Hn Hk. rewrite <-emap_cons. symmetry. apply emap_perm.
  - cbn. apply NoDup_cons. split; [by apply emap_None|done].
  - solve_Permutation.
Qed.
Lemma size_room t E k v : brep t E -> N.of_nat (size (match emap E !! k with Some _ => emap E | None => <[k := v]> (emap E) end)) <= blim c ->
  N.of_nat (length E) < blim c \/ k ∈ keys_of E.
Proof.
  intros H Hs. destruct (emap E !! k) eqn:Ek.
  - right. apply emap_Some in Ek; [|by eapply brep_nodup]. apply keys_elem. by eexists.
  - left. rewrite map_size_insert_None in Hs by done. rewrite emap_size in Hs by (by eapply brep_nodup). lia.
Qed.

(** what find_or_insert does to the map *)
Lemma insert_map t E k v : brep t E -> entry_ok (k, v) ->
  N.of_nat (length E) < blim c \/ k ∈ keys_of E ->
  exists t' E' i v', bt_insert pf c t k v = Ok (t', N.of_nat i) /\ bfull t' E' /\ E' !! i = Some (k, v') /\
    match emap E !! k with Some v0 => v' = v0 /\ E' = E | None => v' = v /\ emap E' = <[k := v]> (emap E) end.
Proof.
  intros H Hkv Hl. destruct (insert_spec t E k v H Hkv Hl) as (t' & p & Ei & Hres).
  pose proof (emap_index E k (brep_nodup _ _ H)) as Hx.
  destruct (first_index k (keys_of E)) as [i|] eqn:Ef.
  - destruct Hres as [-> ->]. destruct Hx as (v0 & Hiv & Hm). rewrite Hm.
    exists t, E, i, v0. split; [done|]. split; [|done].
    destruct H as [[_ ->]|H]; [done|exact H].
  - destruct Hres as [Hf ->]. rewrite Hx. exists t', (E ++ [(k, v)]), (length E), v.
    split; [done|]. split; [done|]. split; [by apply list_lookup_middle|].
    split; [done|]. apply emap_snoc; [by eapply brep_nodup|done].
Qed.

Lemma step_spec t m o : mrep t m -> bt_has_op o -> valid_op (N.of_nat w) vb 0 0 o ->
  N.of_nat (size (spec_step m o).1) <= blim c ->
  exists t', bt_run_op pf c t o = Ok (t', (spec_step m o).2) /\ mrep t' (spec_step m o).1.
Proof.
  intros (E & H & <-) Hop Hv Hs. destruct o as [k|k|k v|k|k v|k|k| | |n| |]; cbn in Hop, Hv; try done.
  - (* find *)
    cbn [bt_run_op spec_step fst snd]. rewrite (find_spec _ _ _ H Hv). cbn [mbind res_bind].
    pose proof (emap_index E k (brep_nodup _ _ H)) as Hx. destruct (first_index k (keys_of E)) as [i|] eqn:Ef.
    + destruct Hx as (v0 & Hi & ->). destruct H as [[_ ->]|H]; [done|]. rewrite (bi_at_spec _ _ _ _ H Hi). cbn.
      eexists; split; [done|]. exists E. split; [by right|done].
    + rewrite Hx, (bi_at_end _ _ H). cbn. eexists; split; [done|]. by exists E.
  - (* count *)
    cbn [bt_run_op spec_step fst snd]. unfold bt_count. rewrite (find_spec _ _ _ H Hv). cbn [mbind res_bind].
    pose proof (emap_index E k (brep_nodup _ _ H)) as Hx. unfold bn_eq, bt_end. rewrite (ones_big _ _ H). cbn [negb andb].
    destruct (first_index k (keys_of E)) as [i|] eqn:Ef.
    + destruct Hx as (v0 & Hi & ->). destruct H as [[_ ->]|H]; [done|]. rewrite (bn_valid _ _ _ _ H Hi). cbn.
      eexists; split; [done|]. exists E. split; [by right|done].
    + rewrite Hx, (ones_big _ _ H). cbn. eexists; split; [done|]. by exists E.
  - (* find_or_insert *)
    cbn [bt_run_op]. assert (Hkv : entry_ok (k, v)) by (split; apply Hv).
    destruct (insert_map t E k v H Hkv) as (t' & E' & i & v' & Ei & Hf & Hi & Hm).
    { eapply (size_room t E k v); [done|]. cbn [spec_step] in Hs. by destruct (emap E !! k). }
    rewrite Ei. cbn [mbind res_bind]. rewrite (bi_at_spec _ _ _ _ Hf Hi). cbn [mbind res_bind].
    cbn [spec_step]. destruct (emap E !! k) as [v0|].
    + destruct Hm as [-> ->]. eexists; split; [done|]. exists E. split; [by right|done].
    + destruct Hm as [-> Hm]. eexists; split; [done|]. exists E'. split; [by right|done].
  - (* m[k] as a value *)
    cbn [bt_run_op]. unfold bt_index. assert (Hkv : entry_ok (k, 0)).
    { split; [apply Hv|]. cbn. pose proof (N.pow_nonzero 2 vb ltac:(lia)). lia. }
    destruct (insert_map t E k 0 H Hkv) as (t' & E' & i & v' & Ei & Hf & Hi & Hm).
    { eapply (size_room t E k 0); [done|]. cbn [spec_step] in Hs. by destruct (emap E !! k). }
    rewrite Ei. cbn [mbind res_bind]. rewrite (bn_value_spec _ _ _ _ _ Hf Hi). cbn [mbind res_bind].
    cbn [spec_step]. destruct (emap E !! k) as [v0|].
    + destruct Hm as [-> ->]. eexists; split; [done|]. exists E. split; [by right|done].
    + destruct Hm as [-> Hm]. eexists; split; [done|]. exists E'. split; [by right|done].
  - (* m[k] = v *)
    cbn [bt_run_op]. unfold bt_index. assert (Hkv : entry_ok (k, 0)).
    { split; [apply Hv|]. cbn. pose proof (N.pow_nonzero 2 vb ltac:(lia)). lia. }
    destruct (insert_map t E k 0 H Hkv) as (t' & E' & i & v' & Ei & Hf & Hi & Hm).
    { eapply (size_room t E k 0); [done|]. cbn [spec_step fst] in Hs. destruct (emap E !! k) eqn:Ek.
      - by rewrite map_size_insert_Some in Hs.
      - rewrite map_size_insert_None in Hs by done. by rewrite map_size_insert_None. }
    rewrite Ei. cbn [mbind res_bind].
    destruct (write_spec _ _ _ _ _ v Hf Hi (proj2 Hv)) as (t2 & Ew & Hw). rewrite Ew. cbn [mbind res_bind].
    cbn [spec_step fst snd]. eexists; split; [done|]. eexists; split; [right; exact Hw|].
    assert (He : emap (<[i := (k, v)]> E') = <[k := v]> (emap E')).
    { apply map_eq. intros j. pose proof (bf_nodup _ _ Hw) as Hnw. pose proof (bf_nodup _ _ Hf) as Hnf.
      destruct (decide (j = k)) as [->|Hne].
      - rewrite lookup_insert. apply emap_Some; [done|]. eapply elem_of_list_lookup_2, list_lookup_insert. by apply lookup_lt_Some in Hi.
      - rewrite lookup_insert_ne by done. apply option_eq. intros x. rewrite !emap_Some by done.
        split; intros Hx; apply elem_of_list_lookup in Hx as [q Hq]; apply elem_of_list_lookup; exists q.
        + apply list_lookup_insert_Some in Hq as [(_ & Hq & _)|[_ Hq]]; [congruence|done].
        + rewrite list_lookup_insert_ne; [done|]. intros ->. congruence. }
    rewrite He. destruct (emap E !! k) as [v0|].
    + by destruct Hm as [_ ->].
    + destruct Hm as [_ ->]. by rewrite insert_insert.
  - (* erase *)
    cbn [bt_run_op spec_step]. destruct (erase_spec t E k H Hv) as (t' & Ee & Hr). rewrite Ee. cbn [mbind res_bind].
    pose proof (emap_index E k (brep_nodup _ _ H)) as Hx. destruct (first_index k (keys_of E)) as [i|] eqn:Ef.
    + destruct Hx as (v0 & Hi & ->). eexists; split; [done|]. eexists; split; [exact Hr|]. cbn.
      eapply emap_delete; [by eapply brep_nodup|]. by apply delete_Permutation.
    + rewrite Hx. eexists; split; [done|]. by exists E.
  - (* size *)
    cbn [bt_run_op spec_step fst snd]. destruct (mrep_size t (emap E)) as [Hn Hlt]; [by exists E|].
    rewrite Hn, N.mod_small by lia. eexists; split; [done|]. by exists E.
  - (* empty *)
    cbn [bt_run_op spec_step fst snd]. destruct (mrep_size t (emap E)) as [Hn Hlt]; [by exists E|].
    rewrite Hn, N.mod_small by lia. eexists; split; [done|]. by exists E.
  - (* shrink_to_fit *)
    cbn [bt_run_op spec_step fst snd]. destruct (shrink_spec t E H) as (t' & Es & Hr). rewrite Es. cbn [mbind res_bind].
    eexists; split; [done|]. by exists E.
  - (* clear *)
    cbn [bt_run_op spec_step fst snd]. destruct (clear_spec t E H) as (t' & Es & Hr). rewrite Es. cbn [mbind res_bind].
    eexists; split; [done|]. by exists [].
Qed.

(** The number of elements stays within n during a history. *)
Fixpoint never_above (n : N) (m : gmap N N) (ops : list op) : Prop :=
  match ops with
  | [] => True
  | o :: ops' => N.of_nat (size (spec_step m o).1) <= n /\ never_above n (spec_step m o).1 ops'
  end.

Lemma run_spec ops : forall t m, mrep t m -> Forall bt_has_op ops -> valid_ops (N.of_nat w) vb 0 0 ops ->
  never_above (blim c) m ops ->
  exists t', bt_run pf c t ops = Ok (t', (spec_run m ops).2) /\ mrep t' (spec_run m ops).1.
Proof.
  induction ops as [|o ops IH]; intros t m H Hh Hv Hs; [by eexists|].
  apply Forall_cons in Hh as [Ho Hh]. unfold valid_ops in Hv. apply Forall_cons in Hv as [Hvo Hv].
  destruct Hs as [Hso Hs]. destruct (step_spec t m o H Ho Hvo Hso) as (t1 & E1 & H1).
  destruct (IH t1 _ H1 Hh Hv Hs) as (t2 & E2 & H2).
  exists t2. cbn [bt_run spec_run]. rewrite E1. cbn [mbind res_bind]. rewrite E2. cbn [mbind res_bind].
  destruct (spec_step m o) as [m1 r]. cbn [fst snd] in *. destruct (spec_run m1 ops) as [m2 rs]. done.
Qed.

(** *** iteration *)
Lemma iter_spec t E : brep t E -> forall n i fuel, (length E = i + n)%nat -> (n < fuel)%nat ->
  bt_iter pf c fuel t (N.of_nat i) = Ok (drop i E).
Proof.
  intros H. induction n as [|n IH]; intros i fuel Hl Hf; (destruct fuel as [|fuel]; [lia|]); cbn [bt_iter];
    unfold bn_eq at 1, bt_end; rewrite (ones_big _ _ H); cbn [negb andb].
  - unfold bn_invalid. rewrite <-(brep_length _ _ H), (proj2 (N.leb_le _ _)) by lia. cbn.
    by rewrite drop_ge by lia.
  - destruct (lookup_lt_is_Some_2 E i ltac:(lia)) as [e He]. 
    destruct H as [[_ ->]|Hf']; [done|]. rewrite (bn_valid _ _ _ _ Hf' He). cbn [eqb].
    rewrite (bi_at_spec _ _ _ _ Hf' He). cbn [mbind res_bind].
    replace (bn_next (N.of_nat i)) with (N.of_nat (S i)).
    2: { unfold bn_next, u64. pose proof (bfull_n _ _ Hf'). rewrite (bf_n _ _ Hf') in *. rewrite N.mod_small; lia. }
    rewrite IH by lia. cbn [mbind res_bind]. by rewrite (drop_S _ _ _ He).
Qed.
Lemma riter_spec t E : bfull t E -> forall i fuel, (i < length E)%nat -> (S i < fuel)%nat ->
  bt_riter pf c fuel t (N.of_nat i) = Ok (reverse (take (S i) E)).
Proof.
  intros H. assert (Hr : brep t E) by (by right). induction i as [|i IH]; intros fuel Hl Hf; (destruct fuel as [|fuel]; [lia|]); cbn [bt_riter];
    unfold bn_eq at 1, bt_end; rewrite (ones_big _ _ Hr); cbn [negb andb];
    destruct (lookup_lt_is_Some_2 E _ Hl) as [[k v] He]; rewrite (bn_valid _ _ _ _ H He); cbn [eqb];
    rewrite (bn_key_spec _ _ _ _ _ H He), (bn_value_spec _ _ _ _ _ H He); cbn [mbind res_bind].
  - change (bn_prev (N.of_nat 0)) with ones64. destruct fuel as [|fuel]; [lia|]. cbn [bt_riter].
    unfold bn_eq, bt_end. rewrite (ones_big _ _ Hr). cbn. destruct E as [|e E]; [done|]. cbn in He |- *. by injection He as ->.
  - replace (bn_prev (N.of_nat (S i))) with (N.of_nat i).
    2: { unfold bn_prev, sub64, u64. pose proof (bfull_n _ _ H). rewrite (bf_n _ _ H) in *.
         change (1 mod 2^64) with 1. replace (N.of_nat (S i) + 2^64 - 1) with (N.of_nat i + 1 * 2^64) by lia.
         rewrite N.mod_add by lia. rewrite N.mod_small; lia. }
    rewrite IH by lia. cbn [mbind res_bind]. rewrite (take_S_r _ _ _ He), reverse_snoc. done.
Qed.

(** The 2^32-th element of a table that uses incremental_resize. *)
Lemma insert_2_32 t E k v : bc_strat c = BInc -> bfull t E -> N.of_nat (length E) = 2^32 - 1 -> k ∉ keys_of E -> k < 2^N.of_nat w ->
  is_ub (bt_insert pf c t k v) = true.
Proof.
  intros Es H HE Hk Hkw. unfold bt_insert. rewrite (bfull_init _ _ H), (locate_spec _ _ _ H Hkw). cbn [mbind res_bind].
  apply fi_None in Hk. rewrite Hk. change (ones64 =? ones64) with true. cbn iota.
  destruct (bf_cap _ _ H) as (cap & Hks & Hvs & Hc & _).
  rewrite (bf_n _ _ H). unfold st_needs_resize, st_after_increment. rewrite Es, HE. unfold inc_needs_resize, inc_size_after_increment.
  change (u32 (2^32 - 1 + 1)) with 0. change (u32 (0 + 2^32 - 1)) with (2^32 - 1).
  change (N.to_nat 0) with 0%nat. rewrite <-HE, Nat2N.id.
  assert (Hr : is_ub (b_resize pf kd (bt_keys t) (length E) 0 w) = true \/ exists ks', b_resize pf kd (bt_keys t) (length E) 0 w = Ok ks').
  { destruct (bt_keys t) as [[tg [cs|bs]]|]; destruct kd; cbn -[Nat.ltb Nat.leb Nat.eqb]; eauto; repeat (case_match; cbn; eauto).
    all: try unfold cells_prefix; repeat (case_match; cbn -[Nat.ltb]; eauto). }
  destruct Hr as [Hr|[ks' Hr]]; [by apply is_ub_bind|]. rewrite Hr. cbn [mbind res_bind].
  destruct (proj1 (bo_val _ _ _ OK)) as [Hv|Hv]; rewrite Hv in Hvs |- *; destruct Hvs as (tg & [cs|bs] & Hb & Ht & Hd); try done; rewrite Hb.
  - cbn [b_resize]. cbn [kind_tag] in Ht. rewrite Ht. cbn [mbind res_bind]. unfold bt_last. cbn [bt_n bt_keys bt_vals].
    destruct (b_write_okub pf kd ks' (N.to_nat (u32 (0 + 2^32 - 1))) k w) as [Hu|[ks2 Hks2]]; [by apply is_ub_bind|].
    rewrite Hks2. cbn [mbind res_bind]. rewrite Hv. cbn [b_write]. unfold realloc_cells. rewrite take_0. cbn [Nat.sub].
    unfold fresh_cells. cbn [replicate app length]. by rewrite (proj2 (Nat.ltb_ge _ 0) (Nat.le_0_l _)).
  - cbn [b_resize]. destruct Hd as (H1 & H2 & _). unfold cells_prefix. rewrite fmap_length in H2. rewrite (proj2 (Nat.leb_le _ _)) by lia. cbn [mbind res_bind].
    rewrite (proj2 (Nat.ltb_lt _ _)) by lia. done.
Qed.

Lemma insert_full t E k v : bfull t E -> N.of_nat (length E) = blim c -> k ∉ keys_of E -> k < 2^N.of_nat w ->
  is_ub (bt_insert pf c t k v) = true.
Proof.
  intros H HE Hk Hkw. unfold blim in HE. destruct (bc_strat c) eqn:Es.
  - by eapply insert_2_32.
  - eapply insert_256; eauto. lia.
Qed.
End bt.

(** Insertion of the keys i, ..., i+n-1. *)
Definition fill (i : N) (n : nat) : list op := map (fun j => OpInsert (i + N.of_nat j) 0) (seq 0 n).
Lemma fill_S i n : fill i (S n) = OpInsert i 0 :: fill (i + 1) n.
Proof.
  unfold fill. cbn [seq map]. f_equal; [f_equal; lia|]. rewrite <-seq_shift, map_map. apply map_ext. intros j. f_equal. lia.
Qed.
Lemma fill_run n : forall i m, (forall k, i <= k -> m !! k = None) ->
  size (spec_run m (fill i n)).1 = (size m + n)%nat /\ (forall k, i + N.of_nat n <= k -> (spec_run m (fill i n)).1 !! k = None) /\
  never_above (N.of_nat (size m + n)) m (fill i n).
Proof.
  induction n as [|n IH]; intros i m Hm.
  - change (fill i 0) with (@nil op). cbn [spec_run fst never_above]. split; [lia|]. split; [|done]. intros k Hk. apply Hm. lia.
  - rewrite fill_S. cbn [spec_run spec_step never_above]. rewrite (Hm i) by lia. cbn [fst].
    destruct (IH (i + 1) (<[i := 0]> m)) as (H1 & H2 & H3).
    { intros k Hk. rewrite lookup_insert_ne by lia. apply Hm. lia. }
    destruct (spec_run (<[i := 0]> m) (fill (i + 1) n)) as [m2 rs]. cbn [fst] in *.
    rewrite map_size_insert_None in H1, H3 by (apply Hm; lia). 
    split; [lia|]. split; [intros k Hk; apply H2; lia|].
    rewrite map_size_insert_None by (apply Hm; lia). split; [lia|]. by replace (size m + S n)%nat with (S (size m) + n)%nat by lia.
Qed.
Lemma fill_valid kw vw n : N.of_nat n <= 2^kw -> valid_ops kw vw 0 0 (fill 0 n) /\ Forall bt_has_op (fill 0 n).
Proof.
  intros Hn. split; apply Forall_forall; intros o Ho; apply elem_of_list_In, in_map_iff in Ho as (j & <- & Hj); [|done].
  apply in_seq in Hj. cbn. split; [lia|]. pose proof (N.pow_nonzero 2 vw ltac:(lia)). lia.
Qed.
