(** No check of the debug build of bucket_table fails while the table holds a finite map. *)
From Verif Require Export BtProofs DebugBtTrans DebugHash.

Lemma bgood_made32 kd w m l b' : kd = KNull \/ k_len b' = Some (N.of_nat l) -> (m <= l)%nat -> N.of_nat l < 2^32 -> (w <= 64)%nat ->
  (match kd with KVar iw => k_sz b' = Some (N.of_nat (cdiv (l * w) iw)) /\ width_ok iw | _ => True end) -> bgood kd w m b'.
Proof.
  intros [->|Hl] Hm H32 H64 Hz; [done|]. change (2^32) with 4294967296 in H32. destruct kd; cbn [bgood]; try (eexists; split; [exact Hl|lia]); [|done].
  destruct Hz as [Hz Hiw]. eexists _, _. split; [exact Hl|]. split; [exact Hz|]. split; [lia|].
  pose proof (BucketProofs.width_ok_pos _ Hiw) as Hp. pose proof (cdiv_ge (l * w) iw Hp) as Hc.
  assert (m * w <= l * w)%nat by (apply Nat.mul_le_mono_r; lia). split; [lia|].
  assert (Hu : (iw * cdiv (l * w) iw <= l * w + iw)%nat).
  { unfold cdiv. pose proof (Nat.mul_div_le (l * w + iw - 1) iw ltac:(lia)). lia. }
  assert (Hlw : N.of_nat (l * w) <= 4294967296 * 64) by (rewrite Nat2N.inj_mul; apply N.mul_le_mono; lia). assert (iw <= 64)%nat by (unfold width_ok in Hiw; lia).
  change (2^64) with 18446744073709551616. lia.
Qed.

Section rep.
Context (pf : platform) (c : bcfg) (junk : option N) (es : nat).
Hypothesis OK : bok pf c es.
Notation kd := (bc_key c).
Notation vd := (bc_val c).
Notation w := (bc_width c).
Notation vb := (N.of_nat es).
Implicit Types (t : dbt) (E : entries).

Local Lemma Kok : kind_ok kd w. Proof. apply (bo_key _ _ _ OK). Qed.
Local Lemma Kpf : pf_ok pf kd. Proof. apply (bo_pf _ _ _ OK). Qed.
Local Lemma Vok : kind_ok vd 0. Proof. apply (val_kind_ok _ _ 0 (bo_val _ _ _ OK)). Qed.
Local Lemma Vpf : pf_ok pf vd. Proof. apply (val_pf pf _ _ (bo_val _ _ _ OK)). Qed.

(** The debug members allow for the elements and, with arbitrary_resize_bucket, for m_length elements. *)
Definition hm_room t E : nat := Nat.max (length E) (match bc_strat c with BInc => 0 | BArb => N.to_nat (h_len t) end).
Definition hplain t E : Prop := exists l, h_plain t = Some l /\ (length E <= length l)%nat /\ forall j e, E !! j = Some e -> l !! j = Some (Some (fst e)).
Definition hgood t E : Prop := bgood kd w (hm_room t E) (h_keys t) /\ bgood vd 0 (hm_room t E) (h_vals t) /\ hplain t E.
Definition hrep t E : Prop := brep pf c es (bstrip t) E /\ (E <> [] -> hgood t E).

Lemma val_var iw : vd <> KVar iw.
Proof. destruct (proj1 (bo_val _ _ _ OK)) as [-> | ->]; done. Qed.
Lemma key_var iw : kd = KVar iw -> width_ok iw.
Proof. intros Hk. pose proof Kok as H. rewrite Hk in H. apply H. Qed.
Lemma vbgood m l b' : k_len b' = Some (N.of_nat l) -> (m <= l)%nat -> N.of_nat l < 2^32 -> bgood vd 0 m b'.
Proof.
  intros Hl Hm H32. eapply bgood_made32; [by right|exact Hm|done|lia|]. pose proof val_var as Hv. destruct vd as [| | |iw|]; try done. by destruct (Hv iw).
Qed.
Lemma key_max k : k < 2^N.of_nat w -> exists m, bt_max_key c = Ok m /\ k <= m.
Proof.
  intros Hk. pose proof (bo_w _ _ _ OK) as Hw. unfold bt_max_key, shr64. rewrite (proj2 (N.ltb_lt _ _)) by lia. cbn [mbind res_bind].
  eexists; split; [done|]. assert (Es : N.shiftr ones64 (64 - N.of_nat w) = 2^N.of_nat w - 1).
  { change (N.shiftr ones64 (64 - N.of_nat w)) with (bmask (N.of_nat w)). rewrite mask_ones by lia. rewrite N.ones_equiv. lia. }
  rewrite Es. rewrite N.mod_small; [lia|]. pose proof (bo_fit _ _ _ OK) as Hf.
  assert (2^N.of_nat w <= 2^N.of_nat (val_bits kd)); [|pose proof (N.pow_nonzero 2 (N.of_nat w) ltac:(lia)); lia].
  apply N.pow_le_mono_r; [lia|]. destruct kd; cbn [val_bits]; lia.
Qed.
Lemma max_key_eq : bt_max_key c = Ok (2^N.of_nat w - 1).
Proof.
  pose proof (bo_w _ _ _ OK) as Hw. unfold bt_max_key, shr64. rewrite (proj2 (N.ltb_lt _ _)) by lia. cbn [mbind res_bind].
  assert (Es : N.shiftr ones64 (64 - N.of_nat w) = 2^N.of_nat w - 1).
  { change (N.shiftr ones64 (64 - N.of_nat w)) with (bmask (N.of_nat w)). rewrite mask_ones by lia. rewrite N.ones_equiv. lia. }
  rewrite Es. f_equal. apply N.mod_small. pose proof (bo_fit _ _ _ OK) as Hf.
  assert (2^N.of_nat w <= 2^N.of_nat (val_bits kd)); [|pose proof (N.pow_nonzero 2 (N.of_nat w) ltac:(lia)); lia].
  apply N.pow_le_mono_r; [lia|]. destruct kd; cbn [val_bits]; lia.
Qed.

Lemma hfull t E : hrep t E -> E <> [] -> bfull pf c es (bstrip t) E /\ hgood t E.
Proof. intros [[[_ ->]|H] Hg] Hne; [done|]. split; [done|by apply Hg]. Qed.
Lemma hnil t : hrep t [] -> bnone (bstrip t).
Proof. intros [[[H _]|H] _]; [done|]. by destruct (bf_ne _ _ _ _ _ H). Qed.
Lemma hinit t E : hrep t E -> dbt_init t = match E with [] => false | _ => true end.
Proof.
  intros H. unfold dbt_init. destruct E as [|e E]; [by destruct (hnil t H) as (Hk & _); unfold bt_init; rewrite Hk|].
  destruct (hfull _ _ H ltac:(done)) as [Hf _]. by apply (bfull_init pf c es OK) in Hf.
Qed.

(** ** Search *)
Lemma scan_ok t E k : bfull pf c es (bstrip t) E -> hgood t E -> forall n i, (i + n = length E)%nat ->
  dbt_scan pf c t k i n = Ok (option_map (fun p => N.of_nat (i + p)) (first_index k (keys_of (drop i E)))).
Proof.
  intros Hf (Hgk & _ & l & Hl & _ & Hpl). destruct (bf_cap _ _ _ _ _ Hf) as (cap & Hks & _).
  induction n as [|n IH]; intros i Hi.
  - rewrite drop_ge by lia. done.
  - destruct (lookup_lt_is_Some_2 E i ltac:(lia)) as [[k' v'] Hp]. cbn [dbt_scan]. rewrite (drop_S _ _ _ Hp). cbn [fmap list_fmap first_index fst].
    rewrite (db_read_ok pf kd (h_keys t) _ i w Hgk) by (unfold hm_room; lia).
    change (k_b (h_keys t)) with (bt_keys (bstrip t)). rewrite (b_read_spec pf kd w cap _ _ i k' Kok Kpf Hks) by (by rewrite list_lookup_fmap, Hp). cbn [mbind res_bind].
    unfold bplain. rewrite Hl. unfold cell_read. rewrite (Hpl _ _ Hp). cbn [mbind res_bind fst]. rewrite N.eqb_refl. cbn [chk mbind res_bind].
    destruct (N.eqb_spec k' k) as [->|Hne]; cbn.
    + do 2 f_equal. lia.
    + rewrite IH by lia. destruct (first_index k (keys_of (drop (S i) E))) as [p|] eqn:Ef; cbn.
      all: change (list_fmap _ _ ?f ?l) with (f <$> l); rewrite ?Ef; try done; cbn; do 2 f_equal; lia.
Qed.
Lemma locate_ok t E k : bfull pf c es (bstrip t) E -> hgood t E -> k < 2^N.of_nat w ->
  dbt_locate pf c t k = Ok (match first_index k (keys_of E) with Some i => N.of_nat i | None => ones64 end).
Proof.
  intros Hf Hg Hk. pose proof (BtProofs.locate_spec pf c es OK _ _ _ Hf Hk) as Hl. unfold bt_locate in Hl. unfold dbt_locate.
  pose proof (bf_n _ _ _ _ _ Hf) as Hn. change (bt_n (bstrip t)) with (h_n t) in *. rewrite Hn, Nat2N.id in *.
  rewrite (scan_ok t E k Hf Hg (length E) 0 ltac:(lia)). cbn [mbind res_bind]. rewrite drop_0. cbn [Nat.add].
  rewrite (db_find_ok pf kd _ _ k _ w (proj1 Hg)) by (unfold hm_room; lia). change (k_b (h_keys t)) with (bt_keys (bstrip t)).
  destruct (bf_cap _ _ _ _ _ Hf) as (cap & Hks & _). replace (length E) with (length (keys_of E)) at 1 by (by rewrite fmap_length).
  rewrite (b_find_spec pf kd w cap (bt_keys (bstrip t)) _ k Kok Kpf Hks (bo_null _ _ _ OK) (bok_norm _ _ _ _ OK Hk)).
  cbn [mbind res_bind]. change (option_map (fun p => N.of_nat p) ?x) with (option_map N.of_nat x).
  rewrite bool_decide_true by done. cbn [chk mbind res_bind]. destruct (first_index k (keys_of E)) as [i|] eqn:Ei; cbn [option_map]; [|done].
  apply index_lt in Ei. rewrite (proj2 (N.ltb_lt _ _)) by lia. done.
Qed.
Lemma dfind_ok t E k : hrep t E -> k < 2^N.of_nat w ->
  dbt_find pf c t k = Ok (match first_index k (keys_of E) with Some i => N.of_nat i | None => ones64 end).
Proof.
  intros H Hk. unfold dbt_find. rewrite (hinit _ _ H). destruct E as [|e E]; [done|]. destruct (hfull _ _ H ltac:(done)) as [Hf Hg]. by apply locate_ok.
Qed.

(** ** Positions *)
Lemma dkey_ok t E i k v : bfull pf c es (bstrip t) E -> hgood t E -> E !! i = Some (k, v) -> dbn_key pf c t (N.of_nat i) = Ok k.
Proof.
  intros Hf (Hgk & _) Hi. pose proof (bn_key_spec pf c es OK _ _ _ _ _ Hf Hi) as Hr. unfold dbn_key, dbn_valid. pose proof (lookup_lt_Some _ _ _ Hi).
  change (h_n t) with (bt_n (bstrip t)). rewrite (bf_n _ _ _ _ _ Hf), (proj2 (N.ltb_lt _ _)) by lia. cbn [chk mbind res_bind]. unfold bn_key in Hr. rewrite Nat2N.id in *.
  rewrite (db_read_ok pf kd _ _ _ _ Hgk) by (unfold hm_room; lia). done.
Qed.
Lemma dvalue_ok t E i k v : bfull pf c es (bstrip t) E -> hgood t E -> E !! i = Some (k, v) -> dbn_value pf c t (N.of_nat i) = Ok v.
Proof.
  intros Hf (_ & Hgv & _) Hi. pose proof (bn_value_spec pf c es OK _ _ _ _ _ Hf Hi) as Hr. unfold dbn_value, dbn_valid. pose proof (lookup_lt_Some _ _ _ Hi).
  change (h_n t) with (bt_n (bstrip t)). rewrite (bf_n _ _ _ _ _ Hf), (proj2 (N.ltb_lt _ _)) by lia. cbn [chk mbind res_bind]. unfold bn_value in Hr. rewrite Nat2N.id in *.
  rewrite (db_read_ok pf vd _ _ _ _ Hgv) by (unfold hm_room; lia). done.
Qed.
Lemma diter_ok t E i e : bfull pf c es (bstrip t) E -> hgood t E -> E !! i = Some e -> dbi_at pf c t (N.of_nat i) = Ok (Some e).
Proof.
  intros Hf Hg Hi. unfold dbi_at. rewrite (bn_valid _ _ _ _ _ _ _ Hf Hi). destruct e as [k v]. rewrite (dkey_ok _ _ _ _ _ Hf Hg Hi), (dvalue_ok _ _ _ _ _ Hf Hg Hi).
  unfold dbn_valid. pose proof (lookup_lt_Some _ _ _ Hi). change (h_n t) with (bt_n (bstrip t)). rewrite (bf_n _ _ _ _ _ Hf), (proj2 (N.ltb_lt _ _)) by lia. done.
Qed.
Lemma diter_end t E : hrep t E -> dbi_at pf c t ones64 = Ok None.
Proof. intros [H _]. unfold dbi_at. by rewrite (ones_big _ _ _ _ _ H). Qed.

Lemma dnext_ok t i E : bfull pf c es (bstrip t) E -> (i < length E)%nat -> dbn_valid t (N.of_nat i) = Ok ().
Proof. intros Hf Hi. unfold dbn_valid. change (h_n t) with (bt_n (bstrip t)). by rewrite (bf_n _ _ _ _ _ Hf), (proj2 (N.ltb_lt _ _)) by lia. Qed.

(** ** find_or_insert *)
Lemma dlast_ok t k v (t1 : btable) p E1 m : bt_last pf c (bstrip t) k v = Ok (t1, N.of_nat p) -> bfull pf c es t1 E1 -> E1 !! p = Some (k, v) ->
  h_n t <= st_size c (h_len t) (h_n t) -> bgood kd w m (h_keys t) -> bgood vd 0 m (h_vals t) -> (p < m)%nat -> k < 2^N.of_nat w ->
  forall l, h_plain t = Some l -> (p < length l)%nat ->
  exists t', dbt_last pf c t k v = Ok (t', N.of_nat p) /\ bstrip t' = t1 /\ h_len t' = h_len t /\ h_plain t' = Some (<[p := Some k]> l)
    /\ bgood kd w m (h_keys t') /\ bgood vd 0 m (h_vals t').
Proof.
  intros El Hf Hp Hst Hgk Hgv Hpm Hk l Hl Hpl. unfold bt_last in El. unfold dbt_last. rewrite (proj2 (N.leb_le _ _)) by done. cbn [chk mbind res_bind].
  cbv zeta in *. cbn [bt_keys bt_vals bt_n bt_len bstrip] in El. set (q := u32 (h_n t + 2^32 - 1)) in *. clearbody q. rinv El. rinv El. injection El as <- ->.
  rewrite Nat2N.id in E, E0 |- *.
  unfold bplain_put. rewrite Hl, (proj2 (Nat.ltb_lt _ _)) by done. cbn [mbind res_bind].
  rewrite (db_write_ok pf kd _ m p k w a Hgk Hpm E).
  2: { destruct kd eqn:Ek; try done. pose proof (bo_w _ _ _ OK). split; [eapply N.lt_le_trans; [exact Hk|]; apply N.pow_le_mono_r; lia|]. split; [done|].
       pose proof (bn_key_spec pf c es OK _ _ _ _ _ Hf Hp) as Hr. unfold bn_key in Hr. rewrite Ek, Nat2N.id in Hr. exact Hr. }
  cbn [mbind res_bind]. rewrite (db_write_ok pf vd _ m p v 0 a0 Hgv Hpm E0).
  2: { pose proof val_var as Hv. destruct vd as [| | |iw|]; try done. by destruct (Hv iw). }
  cbn [mbind res_bind]. eexists; split; [done|]. split; [done|]. split; [done|]. split; [done|]. split; [done|]. done.
Qed.
Lemma realloc_spec t E n : hplain t E -> (length E <= n)%nat -> n <> 0%nat ->
  exists l, bplain_realloc (h_plain t) n = Some l /\ length l = n /\ forall j e, E !! j = Some e -> l !! j = Some (Some (fst e)).
Proof.
  intros (l & -> & Hl & Hp) Hn Hz. unfold bplain_realloc. rewrite (proj2 (Nat.eqb_neq _ _)) by done. cbn [from_option id]. exists (take n l ++ replicate (n - length l) None). split; [done|]. split; [rewrite app_length, take_length, replicate_length; lia|].
  intros j e Hj. pose proof (lookup_lt_Some _ _ _ Hj). rewrite lookup_app_l by (rewrite take_length; lia). rewrite lookup_take by lia. by apply Hp.
Qed.
Lemma plain_snoc l E k v : (forall j e, E !! j = Some e -> l !! j = Some (Some (fst e))) -> (length E < length l)%nat ->
  forall j e, (E ++ [(k, v)]) !! j = Some e -> <[length E := Some k]> l !! j = Some (Some (fst e)).
Proof.
  intros Hp Hl j e Hj. apply lookup_app_Some in Hj as [Hj|[Hj1 Hj2]].
  - pose proof (lookup_lt_Some _ _ _ Hj). rewrite list_lookup_insert_ne by lia. by apply Hp.
  - apply list_lookup_singleton_Some in Hj2 as [Hj2 <-]. replace j with (length E) by lia. by rewrite list_lookup_insert.
Qed.
Lemma dinsert_ok t E k v : hrep t E -> entry_ok c es (k, v) -> N.of_nat (length E) < blim c \/ k ∈ keys_of E ->
  exists t' p, dbt_insert pf c t k v = Ok (t', p) /\
    match first_index k (keys_of E) with
    | Some i => t' = t /\ p = N.of_nat i
    | None => hrep t' (E ++ [(k, v)]) /\ p = N.of_nat (length E)
    end.
Proof.
  intros H Hkv Hl. destruct (BtProofs.insert_spec pf c es OK (bstrip t) E k v (proj1 H) Hkv Hl) as (t1 & p & Ei & Hres).
  pose proof Hkv as [Hk Hv]. cbn in Hk, Hv. destruct (key_max k Hk) as (mk & Emk & Hmk). pose proof (blim_32 c) as Hb32.
  unfold dbt_insert. rewrite Emk. cbn [mbind res_bind]. rewrite (proj2 (N.leb_le _ _)) by done. cbn [chk mbind res_bind]. rewrite (hinit _ _ H).
  unfold bt_insert in Ei. assert (Ebi : bt_init (bstrip t) = match E with [] => false | _ => true end) by (by rewrite <-(hinit _ _ H)). rewrite Ebi in Ei.
  destruct E as [|e0 E0].
  { cbn [first_index fmap list_fmap] in Hres. destruct Hres as [Hf ->]. destruct (hnil _ H) as (Hnk & Hnv & Hnn). cbn [bstrip bt_keys bt_vals bt_n bt_len] in *.
    destruct (db_initialize_ok pf kd (h_keys t) 1 w Hnk) as (ks & Ek & Hks & Hkl & Hkz). rewrite Ek. cbn [mbind res_bind].
    destruct (db_initialize_ok pf vd (h_vals t) 1 (val_bits vd) Hnv) as (vs & Ev & Hvs & Hvl & _). rewrite Ev. cbn [mbind res_bind].
    assert (Hvn : vd <> KNull) by (destruct (proj1 (bo_val _ _ _ OK)) as [-> | ->]; done).
    destruct Hvl as [?|Hvl]; [done|].
    destruct (dlast_ok (DBt ks vs 1 (st_assign c (h_len t) 1) (Some [None])) k v t1 0 [(k, v)] 1) with (l := [@None N]) as (t' & El & Hst & Hlen & Hpl & Hgk & Hgv); try done.
    - unfold bstrip. cbn [h_keys h_vals h_n h_len]. by rewrite Hks, Hvs.
    - cbn [h_n h_len]. unfold st_size, st_assign. destruct (bc_strat c); [lia|]. change (u32 1) with 1. lia.
    - cbn [h_keys]. eapply bgood_made32; [exact Hkl|lia|done|apply (bo_w _ _ _ OK)|]. destruct kd eqn:Ekd; try done. split; [exact Hkz|]. by apply key_var.
    - cbn [h_vals]. by eapply vbgood.
    - lia.
    - cbn. lia.
    - exists t', 0. split; [exact El|]. split; [|done]. split; [right; by rewrite Hst|]. intros _. unfold hgood.
      assert (Hr1 : hm_room t' ([] ++ [(k, v)]) = 1%nat).
      { unfold hm_room. rewrite Hlen. cbn [h_len length app]. unfold st_assign. destruct (bc_strat c); [done|]. change (u32 1) with 1. done. }
      rewrite Hr1. split; [done|]. split; [done|]. eexists; split; [exact Hpl|]. split; [done|]. intros j e Hj. apply list_lookup_singleton_Some in Hj as [-> <-]. done. }
  assert (HneE : e0 :: E0 <> []) by done. remember (e0 :: E0) as E eqn:HE. clear HE Ebi e0 E0.
  destruct (hfull _ _ H HneE) as [Hf Hg]. pose proof (locate_ok t E k Hf Hg Hk) as Elo. pose proof (BtProofs.locate_spec pf c es OK _ _ _ Hf Hk) as Elo'.
  rewrite Elo. rewrite Elo' in Ei. cbn [mbind res_bind] in Ei |- *.
  destruct (first_index k (keys_of E)) as [i|] eqn:Efi.
  { pose proof (index_lt _ _ _ Efi) as Hi. rewrite (pos_not_ones _ _ _ _ _ _ Hf Hi). change (h_n t) with (bt_n (bstrip t)).
    rewrite (bf_n _ _ _ _ _ Hf), (proj2 (N.ltb_lt _ _)) by lia. eexists _, _. split; [done|]. done. }
  change (ones64 =? ones64) with true in *. cbn iota in Ei |- *. destruct Hres as [Hf1 ->]. apply fi_None in Efi. destruct Hl as [Hl|Hl]; [|done].
  destruct (bf_cap _ _ _ _ _ Hf) as (cap & Hks & Hvs & Hc & Hst). pose proof (bf_n _ _ _ _ _ Hf) as Hn. cbn [bstrip bt_keys bt_vals bt_n bt_len] in *.
  rewrite Hn in *. assert (Hu1 : u32 (N.of_nat (length E) + 1) = N.of_nat (S (length E))) by (unfold u32; rewrite N.mod_small; lia).
  rewrite Hu1 in *. assert (Hu2 : u32 (N.of_nat (S (length E)) + 2^32 - 1) = N.of_nat (length E)) by (rewrite u32_pred by lia; lia). rewrite Hu2 in *. rewrite !Nat2N.id in *.
  destruct (realloc_spec t E (S (length E)) (proj2 (proj2 Hg)) ltac:(lia) ltac:(lia)) as (l & El & Hll & Hlp). rewrite El.
  assert (Hlk : (E ++ [(k, v)]) !! length E = Some (k, v)) by (by apply list_lookup_middle).
  assert (Hvn : vd <> KNull) by (destruct (proj1 (bo_val _ _ _ OK)) as [-> | ->]; done).
  assert (Hfin : forall ks vs len m, bt_last pf c (bstrip (DBt ks vs (N.of_nat (S (length E))) len (Some l))) k v = Ok (t1, N.of_nat (length E)) ->
    N.of_nat (S (length E)) <= st_size c len (N.of_nat (S (length E))) -> bgood kd w m ks -> bgood vd 0 m vs -> (S (length E) <= m)%nat ->
    (match bc_strat c with BInc => 0 | BArb => N.to_nat len end <= m)%nat ->
    exists t' p, dbt_last pf c (DBt ks vs (N.of_nat (S (length E))) len (Some l)) k v = Ok (t', p) /\ hrep t' (E ++ [(k, v)]) /\ p = N.of_nat (length E)).
  { intros ks vs len m Hla Hsz Hgk Hgv Hm1 Hm2.
    destruct (dlast_ok (DBt ks vs (N.of_nat (S (length E))) len (Some l)) k v t1 (length E) (E ++ [(k, v)]) m Hla Hf1 Hlk Hsz Hgk Hgv) with (l := l) as (t' & Ela & Hst' & Hlen & Hpl & Hgk' & Hgv'); [lia|done|done|lia|].
    exists t', (N.of_nat (length E)). split; [exact Ela|]. split; [|done]. split; [right; by rewrite Hst'|]. intros _.
    assert (Hrm : (hm_room t' (E ++ [(k, v)]) <= m)%nat) by (unfold hm_room; rewrite Hlen, app_length; cbn [h_len length]; destruct (bc_strat c); lia).
    split; [by eapply bgood_mono; [| |reflexivity|exact Hrm|exact Hgk']|]. split; [by eapply bgood_mono; [| |reflexivity|exact Hrm|exact Hgv']|].
    eexists; split; [exact Hpl|]. split; [rewrite insert_length, app_length; cbn [length]; lia|]. apply plain_snoc; [done|lia]. }
  assert (Hgrow : forall newsize len, (length E < N.to_nat newsize)%nat -> newsize < 2^32 -> (match bc_strat c with BInc => True | BArb => len = newsize end) ->
    (ks ← b_resize pf kd (k_b (h_keys t)) (length E) (N.to_nat newsize) w;
     vs ← b_resize pf vd (k_b (h_vals t)) (length E) (N.to_nat newsize) 0;
     bt_last pf c (BT ks vs (N.of_nat (S (length E))) len) k v) = Ok (t1, N.of_nat (length E)) ->
    exists t' p, (ks ← db_resize pf kd (h_keys t) (length E) (N.to_nat newsize) w;
     vs ← db_resize pf vd (h_vals t) (length E) (N.to_nat newsize) 0;
     dbt_last pf c (DBt ks vs (N.of_nat (S (length E))) len (Some l)) k v) = Ok (t', p) /\ hrep t' (E ++ [(k, v)]) /\ p = N.of_nat (length E)).
  { intros ns len Hns H32 Hlen Hrel. rinv Hrel. rinv Hrel.
    assert (HbK : k_b (h_keys t) <> None) by (destruct (brepr_init _ _ _ OK _ _ _ Hks) as [? ->]; done).
    assert (HbV : k_b (h_vals t) <> None) by (intros Hz; rewrite Hz in Hvs; destruct (proj1 (bo_val _ _ _ OK)) as [He|He]; rewrite He in Hvs; by destruct Hvs as (? & ? & ? & _)).
    destruct (db_resize_ok pf kd (h_keys t) (length E) (N.to_nat ns) w a ltac:(lia) (or_intror HbK) E0) as (ks & Erk & Hkb & Hkl & Hkz). rewrite Erk. cbn [mbind res_bind].
    destruct (db_resize_ok pf vd (h_vals t) (length E) (N.to_nat ns) 0 a0 ltac:(lia) (or_intror HbV) E1) as (vs & Erv & Hvb & Hvl & _). rewrite Erv. cbn [mbind res_bind].
    destruct Hvl as [?|Hvl]; [done|]. eapply (Hfin ks vs len (N.to_nat ns)).
    - unfold bstrip. cbn [h_keys h_vals h_n h_len]. by rewrite Hkb, Hvb.
    - unfold st_size. destruct (bc_strat c); lia.
    - eapply bgood_made32; [exact Hkl|lia|lia|apply (bo_w _ _ _ OK)|]. destruct kd eqn:Ekd; try done. split; [exact Hkz|]. by apply key_var.
    - eapply vbgood; [exact Hvl|lia|lia].
    - lia.
    - destruct (bc_strat c); lia. }
  unfold st_needs_resize, st_after_increment, st_after_chk, inc_needs_resize, inc_size_after_increment in *.
  destruct (bc_strat c) eqn:Es.
  - cbn [mbind res_bind]. rewrite ?Nat2N.id in *. destruct (Hgrow (N.of_nat (S (length E))) (h_len t)) as (t' & p & Et & Hr); [lia|lia|done|by rewrite Nat2N.id|].
    rewrite Nat2N.id in Et. exists t', p. done.
  - destruct Hst as [Hlen Hcap]. unfold blim in Hl. rewrite Es in Hl.
    assert (Hu : forall n, n <= 255 -> u32 n = n) by (intros; unfold u32; apply N.mod_small; lia).
    rewrite (Hu (N.of_nat (S (length E)))) in * by lia. destruct (arb_resize_ge (N.of_nat (S (length E)))) as [Ha Hb]; [lia|].
    destruct (h_len t <=? N.of_nat (S (length E))) eqn:Elb.
    + rewrite (proj2 (N.leb_le _ _)) by lia. cbn [chk mbind res_bind]. rewrite (Hu (arb_resize _)) in * by lia.
      destruct (Hgrow (arb_resize (N.of_nat (S (length E)))) (arb_resize (N.of_nat (S (length E))))) as (t' & p & Et & Hr); [lia|lia|done|done|].
      exists t', p. done.
    + apply N.leb_gt in Elb. destruct Hg as (Hgk & Hgv & _). unfold hm_room in Hgk, Hgv. rewrite Es in Hgk, Hgv.
      apply (Hfin (h_keys t) (h_vals t) (h_len t) (Nat.max (length E) (N.to_nat (h_len t)))); [exact Ei|unfold st_size; rewrite Es; lia|done|done|lia|lia].
Qed.

(** ** erase *)
Lemma dshift_ok : forall (B A : entries) (x : N * N) cap ks vs l m,
  brepr pf kd w cap (k_b ks) (A ++ x :: B).*1 -> brepr pf vd 0 cap (k_b vs) (A ++ x :: B).*2 -> Forall (entry_ok c es) B ->
  bgood kd w m ks -> bgood vd 0 m vs -> (length (A ++ x :: B) <= m)%nat -> (length (A ++ x :: B) <= length l)%nat ->
  (forall j e, (A ++ x :: B) !! j = Some e -> l !! j = Some (Some (fst e))) ->
  exists ks' vs' l', dbt_shift pf c ks vs (Some l) (S (length A)) (length B) = Ok (ks', vs', Some l') /\
    bgood kd w m ks' /\ bgood vd 0 m vs' /\ length l' = length l /\ forall j e, (A ++ B) !! j = Some e -> l' !! j = Some (Some (fst e)).
Proof.
  induction B as [|[k v] B IH]; intros A x cap ks vs l m Hks Hvs Ho Hgk Hgv Hm Hl Hp.
  - eexists _, _, _. split; [done|]. split; [done|]. split; [done|]. split; [done|]. intros j e Hj. apply Hp. rewrite app_nil_r in Hj. by apply lookup_app_l_Some.
  - apply Forall_cons in Ho as [[Hk Hv] Ho]. cbn in Hk, Hv. cbn [length dbt_shift].
    assert (Hlen : length (A ++ x :: (k, v) :: B) = S (S (length A + length B))) by (rewrite app_length; cbn [length]; lia). rewrite Hlen in *.
    assert (Hat : (A ++ x :: (k, v) :: B) !! S (length A) = Some (k, v)).
    { rewrite lookup_app_r by lia. by replace (S (length A) - length A)%nat with 1%nat by lia. }
    assert (Hlk : forall (f : N * N -> N), (f <$> A ++ x :: (k, v) :: B) !! S (length A) = Some (f (k, v))) by (intros f; by rewrite list_lookup_fmap, Hat).
    rewrite (db_read_ok pf kd ks m (S (length A)) w Hgk) by lia. rewrite (b_read_spec pf kd w cap _ _ _ k Kok Kpf Hks (Hlk fst)). cbn [mbind res_bind].
    replace (S (length A) - 1)%nat with (length A) by lia.
    assert (Hue : <[length A := (k, v)]> (A ++ x :: (k, v) :: B) = (A ++ [(k, v)]) ++ (k, v) :: B).
    { rewrite insert_app_r_alt by lia. rewrite Nat.sub_diag. cbn. by rewrite <-app_assoc. }
    assert (Hup : forall (f : N * N -> N), <[length A := f (k, v)]> (f <$> A ++ x :: (k, v) :: B) = f <$> ((A ++ [(k, v)]) ++ (k, v) :: B)).
    { intros f. rewrite <-list_fmap_insert. by rewrite Hue. }
    assert (Hla : forall (f : N * N -> N), (f <$> (A ++ [(k, v)]) ++ (k, v) :: B) !! length A = Some (f (k, v))).
    { intros f. rewrite <-Hup. apply list_lookup_insert. rewrite fmap_length, app_length. cbn. lia. }
    destruct (b_write_upd pf kd w cap (k_b ks) _ (length A) k Kok Kpf Hks) as (ks' & Ek & Hks').
    { rewrite fmap_length, app_length. cbn. lia. }
    rewrite (bok_norm _ _ _ _ OK Hk) in Hks'. pose proof (Hup fst) as Hu1. cbn [fst] in Hu1. rewrite Hu1 in Hks'.
    rewrite (db_write_ok pf kd ks m (length A) k w ks' Hgk ltac:(lia) Ek).
    2: { pose proof (b_read_spec pf kd w cap _ _ _ k Kok Kpf Hks' (Hla fst)) as Hrd. destruct kd; try done. pose proof (bo_w _ _ _ OK).
         split; [eapply N.lt_le_trans; [exact Hk|]; apply N.pow_le_mono_r; lia|]. done. }
    cbn [mbind res_bind]. rewrite (Hp _ _ Hat). cbn [of_option mbind res_bind]. unfold bplain_put at 1. rewrite (proj2 (Nat.ltb_lt _ _)) by lia. cbn [mbind res_bind fst].
    rewrite (db_read_ok pf vd vs m (S (length A)) 0 Hgv) by lia. rewrite (b_read_spec pf vd 0 cap _ _ _ v Vok Vpf Hvs (Hlk snd)). cbn [mbind res_bind].
    destruct (b_write_upd pf vd 0 cap (k_b vs) _ (length A) v Vok Vpf Hvs) as (vs' & Ev & Hvs').
    { rewrite fmap_length, app_length. cbn. lia. }
    rewrite (val_norm _ _ _ (bo_val _ _ _ OK) Hv) in Hvs'. pose proof (Hup snd) as Hu2. cbn [snd] in Hu2. rewrite Hu2 in Hvs'.
    rewrite (db_write_ok pf vd vs m (length A) v 0 vs' Hgv ltac:(lia) Ev).
    2: { pose proof val_var as Hvv. destruct vd as [| | |iw|]; try done. by destruct (Hvv iw). }
    cbn [mbind res_bind].
    destruct (IH (A ++ [(k, v)]) (k, v) cap (Dbk ks' (k_len ks) (k_sz ks)) (Dbk vs' (k_len vs) (k_sz vs)) (<[length A := Some k]> l) m Hks' Hvs' Ho)
      as (ks2 & vs2 & l2 & E2 & H2 & H3 & H4 & H5).
    + by eapply bgood_mono; [| |reflexivity|reflexivity|exact Hgk].
    + by eapply bgood_mono; [| |reflexivity|reflexivity|exact Hgv].
    + rewrite !app_length. cbn [length]. lia.
    + rewrite insert_length, !app_length. cbn [length]. lia.
    + intros j e. rewrite <-Hue. intros Hj. apply list_lookup_insert_Some in Hj as [(<- & <- & _)|[Hne Hj]].
      * rewrite list_lookup_insert by lia. done.
      * rewrite list_lookup_insert_ne by done. by apply Hp.
    + exists ks2, vs2, l2. rewrite app_length in E2. cbn [length] in E2. replace (length A + 1)%nat with (S (length A)) in E2 by lia.
      split; [exact E2|]. split; [done|]. split; [done|]. split; [by rewrite H4, insert_length|]. intros j e Hj. apply H5. by rewrite <-app_assoc.
Qed.

Lemma bclear_none t (t1 : btable) : bt_clear pf c (bstrip t) = Ok t1 -> brep pf c es t1 [] -> exists t', dbt_clear pf c t = Ok t' /\ bstrip t' = t1.
Proof.
  intros Ec Hr. assert (Hb : bnone t1) by (destruct Hr as [[? _]|Hr]; [done|]; by destruct (bf_ne _ _ _ _ _ Hr)). destruct Hb as (Hk & Hv & _).
  unfold bt_clear in Ec. rinv Ec. rinv Ec. injection Ec as <-. cbn [bt_keys bt_vals bstrip] in *. subst a a0.
  destruct (db_clear_ok pf kd _ E) as (ks & Ek & Hks & _). destruct (db_clear_ok pf vd _ E0) as (vs & Ev & Hvs & _).
  unfold dbt_clear. rewrite Ek. cbn [mbind res_bind]. rewrite Ev. cbn [mbind res_bind]. eexists; split; [done|]. unfold bstrip. cbn [h_keys h_vals h_n h_len]. by rewrite Hks, Hvs.
Qed.
Lemma hrep_nil t : brep pf c es (bstrip t) [] -> hrep t [].
Proof. intros H. by split. Qed.
Lemma dclear_ok t E : hrep t E -> exists t', dbt_clear pf c t = Ok t' /\ hrep t' [].
Proof.
  intros H. destruct (BtProofs.clear_spec pf c es (bstrip t) E (proj1 H)) as (t1 & Ec & Hr). destruct (bclear_none _ _ Ec Hr) as (t' & Et & Hs).
  exists t'. split; [done|]. apply hrep_nil. by rewrite Hs.
Qed.

Lemma derase_ok t E k : hrep t E -> k < 2^N.of_nat w ->
  exists t', dbt_erase pf c t k = Ok (t', match first_index k (keys_of E) with Some _ => 1 | None => 0 end) /\
    hrep t' (match first_index k (keys_of E) with Some i => delete i E | None => E end).
Proof.
  intros H Hk. destruct (BtProofs.erase_spec pf c es OK (bstrip t) E k (proj1 H) Hk) as (t1 & Ee & Hr).
  assert (Hgoal : exists t' n, dbt_erase pf c t k = Ok (t', n) /\ (match first_index k (keys_of E) with Some i => delete i E | None => E end <> [] ->
    hgood t' (match first_index k (keys_of E) with Some i => delete i E | None => E end))).
  { unfold dbt_erase. rewrite (hinit _ _ H). destruct E as [|e0 E0]; [by eexists _, _|]. assert (HneE : e0 :: E0 <> []) by done. remember (e0 :: E0) as E eqn:HE.
    destruct (hfull _ _ H HneE) as [Hf Hg]. rewrite (locate_ok t E k Hf Hg Hk). cbn [mbind res_bind].
    unfold bt_erase in Ee. rewrite (bfull_init _ _ _ OK _ _ Hf), (BtProofs.locate_spec pf c es OK _ _ _ Hf Hk) in Ee. cbn [mbind res_bind] in Ee.
    destruct (first_index k (keys_of E)) as [i|] eqn:Ei.
    2: { change (ones64 =? ones64) with true. eexists _, _. split; [done|]. done. }
    pose proof (index_lt _ _ _ Ei) as Hi. destruct (index_entry _ _ _ Ei) as [v Hiv].
    rewrite (pos_not_ones _ _ _ _ _ _ Hf Hi) in Ee |- *. pose proof (bf_n _ _ _ _ _ Hf) as Hn. pose proof (bfull_n _ _ _ _ _ Hf) as Hnn. cbn [bstrip bt_keys bt_vals bt_n bt_len] in *.
    rewrite Hn in *. rewrite !Nat2N.id in *.
    destruct (bf_cap _ _ _ _ _ Hf) as (cap & Hks & Hvs & Hc & Hst). pose proof (take_drop_middle _ _ _ Hiv) as HEd.
    assert (Hla : length (take i E) = i) by (rewrite take_length; lia). destruct Hg as (Hgk & Hgv & l & Hl & Hll & Hlp).
    destruct (dshift_ok (drop (S i) E) (take i E) (k, v) cap (h_keys t) (h_vals t) l (hm_room t E)) as (ks & vs & l' & Es & Hgk' & Hgv' & Hl' & Hlp').
    { by rewrite HEd. } { by rewrite HEd. } { apply Forall_drop, Hf. } { done. } { done. } { rewrite HEd. unfold hm_room. lia. } { by rewrite HEd. } { by rewrite HEd. }
    rewrite Hla, drop_length in Es. rewrite Hl, Es. cbn [mbind res_bind]. pose proof (dbt_shift_eq pf c _ _ _ _ _ _ Es) as Es'. cbn [fst snd] in Es'.
    rewrite Es' in Ee. cbn [mbind res_bind bt_n] in Ee. rewrite (proj2 (N.ltb_lt _ _)) by lia. cbn [chk mbind res_bind h_n]. rewrite <-delete_take_drop in Hlp'.
    destruct (u32 (N.of_nat (length E) + 2^32 - 1) =? 0) eqn:Eu.
    - rinv Ee. injection Ee as <-.
      assert (Hd : delete i E = []).
      { apply N.eqb_eq in Eu. rewrite u32_pred in Eu by lia. apply nil_length_inv. rewrite length_delete by eauto. lia. }
      rewrite Hd in *. destruct (bclear_none (DBt ks vs (u32 (N.of_nat (length E) + 2^32 - 1)) (h_len t) (Some l')) _ E1 Hr) as (t' & Et & _).
      rewrite Et. eexists _, _. split; [done|]. done.
    - eexists _, _. split; [done|]. intros _.
      assert (Hrm : (hm_room (DBt ks vs (u32 (N.of_nat (length E) + 2^32 - 1)) (h_len t) (Some l')) (delete i E) <= hm_room t E)%nat).
      { unfold hm_room. cbn [h_len]. rewrite length_delete by eauto. lia. }
      split; [by eapply bgood_mono; [| |reflexivity|exact Hrm|exact Hgk']|]. split; [by eapply bgood_mono; [| |reflexivity|exact Hrm|exact Hgv']|].
      eexists; split; [done|]. split; [rewrite length_delete by eauto; lia|]. exact Hlp'. }
  destruct Hgoal as (t' & n & Et & Hgd). pose proof (dbt_erase_eq pf c _ _ _ Et) as Et'. cbn [fst snd] in Et'. rewrite Et' in Ee. injection Ee as <- ->.
  exists t'. split; [exact Et|]. by split.
Qed.

(** ** Writing through a position, shrink_to_fit *)
Lemma dwrite_ok t E i k v0 v : hrep t E -> E !! i = Some (k, v0) -> v < 2^vb ->
  exists t', dbn_write pf c t (N.of_nat i) v = Ok t' /\ hrep t' (<[i := (k, v)]> E).
Proof.
  intros H Hi Hv. assert (Hne : E <> []) by (by intros ->). destruct (hfull _ _ H Hne) as [Hf Hg]. pose proof (lookup_lt_Some _ _ _ Hi) as Hlt.
  destruct (BtProofs.write_spec pf c es OK _ _ _ _ _ v Hf Hi Hv) as (t1 & Ew & Hw). unfold bt_write in Ew. rinv Ew. injection Ew as <-. rewrite Nat2N.id in E0. cbn [bstrip bt_vals] in *.
  unfold dbn_write. rewrite (dnext_ok _ _ _ Hf) by done. cbn [mbind res_bind]. rewrite Nat2N.id.
  destruct Hg as (Hgk & Hgv & l & Hl & Hll & Hlp).
  rewrite (db_write_ok pf vd (h_vals t) (hm_room t E) i v 0 a Hgv ltac:(unfold hm_room; lia) E0).
  2: { pose proof val_var as Hvv. destruct vd as [| | |iw|]; try done. by destruct (Hvv iw). }
  cbn [mbind res_bind]. eexists; split; [done|]. split.
  { right. exact Hw. }
  intros _. assert (Hrm : hm_room (DBt (h_keys t) (Dbk a (k_len (h_vals t)) (k_sz (h_vals t))) (h_n t) (h_len t) (h_plain t)) (<[i := (k, v)]> E) = hm_room t E).
  { unfold hm_room. by rewrite insert_length. }
  unfold hgood. rewrite Hrm. split; [exact Hgk|]. split; [by eapply bgood_mono; [| |reflexivity|reflexivity|exact Hgv]|].
  exists l. split; [exact Hl|]. split; [by rewrite insert_length|]. intros j e Hj. apply list_lookup_insert_Some in Hj as [(<- & <- & _)|[_ Hj]]; [|by apply Hlp].
  by apply (Hlp _ _ Hi).
Qed.
Lemma dshrink_ok t E : hrep t E -> exists t', dbt_shrink pf c t = Ok t' /\ hrep t' E.
Proof.
  intros H. destruct (BtProofs.shrink_spec pf c es OK (bstrip t) E (proj1 H)) as (t1 & Es & Hr). unfold dbt_shrink. rewrite (hinit _ _ H).
  destruct E as [|e0 E0]; [by eexists|]. assert (HneE : e0 :: E0 <> []) by done. remember (e0 :: E0) as E eqn:HE. clear HE. destruct (hfull _ _ H HneE) as [Hf Hg].
  unfold bt_shrink in Es. rewrite (bfull_init _ _ _ OK _ _ Hf) in Es. pose proof (bf_n _ _ _ _ _ Hf) as Hn. pose proof (bfull_n _ _ _ _ _ Hf) as Hnn. cbn [bstrip bt_keys bt_vals bt_n bt_len] in *.
  destruct (h_n t <? st_size c (h_len t) (h_n t)); [|by eexists]. rewrite Hn in *. rewrite !Nat2N.id in *. rinv Es. rinv Es. injection Es as <-.
  destruct (bf_cap _ _ _ _ _ Hf) as (cap & Hks & Hvs & Hc & Hst). cbn [bstrip bt_keys bt_vals bt_n bt_len] in *.
  assert (HbK : k_b (h_keys t) <> None) by (destruct (brepr_init _ _ _ OK _ _ _ Hks) as [? ->]; done).
  assert (HbV : k_b (h_vals t) <> None) by (intros Hz; rewrite Hz in Hvs; destruct (proj1 (bo_val _ _ _ OK)) as [He|He]; rewrite He in Hvs; by destruct Hvs as (? & ? & ? & _)).
  destruct (db_resize_ok pf kd (h_keys t) (length E) (length E) w a ltac:(lia) (or_intror HbK) E1) as (ks & Erk & Hkb & Hkl & Hkz). rewrite Erk. cbn [mbind res_bind].
  destruct (db_resize_ok pf vd (h_vals t) (length E) (length E) w a0 ltac:(lia) (or_intror HbV) E2) as (vs & Erv & Hvb & Hvl & _). rewrite Erv. cbn [mbind res_bind].
  assert (Hvn : vd <> KNull) by (destruct (proj1 (bo_val _ _ _ OK)) as [-> | ->]; done). destruct Hvl as [?|Hvl]; [done|].
  eexists; split; [done|]. split. { unfold bstrip. cbn [h_keys h_vals h_n h_len]. by rewrite Hkb, Hvb. }
  intros _. set (t' := DBt ks vs _ _ _). assert (Hrm : hm_room t' E = length E).
  { unfold hm_room, t'. cbn [h_len]. unfold st_assign. destruct (bc_strat c); [lia|]. unfold u32. rewrite N.mod_small by lia. lia. }
  unfold hgood. rewrite Hrm. split.
  { eapply bgood_made32; [exact Hkl|lia|lia|apply (bo_w _ _ _ OK)|]. destruct kd eqn:Ekd; try done. split; [exact Hkz|]. by apply key_var. }
  split; [eapply vbgood; [exact Hvl|lia|lia]|]. apply Hg.
Qed.

(** ** Histories *)
Lemma brep_fun (t : btable) E E' : brep pf c es t E -> brep pf c es t E' -> E = E'.
Proof.
  intros H H'. pose proof (brep_length _ _ _ _ _ H) as L. pose proof (brep_length _ _ _ _ _ H') as L'.
  pose proof (BtProofs.iter_spec pf c es OK _ _ H (length E) 0 (S (length E)) eq_refl ltac:(lia)) as I.
  pose proof (BtProofs.iter_spec pf c es OK _ _ H' (length E) 0 (S (length E)) ltac:(lia) ltac:(lia)) as I'.
  rewrite I in I'. by injection I'.
Qed.
Definition hmrep t (m : gmap N N) : Prop := exists E, hrep t E /\ emap E = m.
Lemma hrep_new t : dbt_new c junk = Ok t -> hrep t [].
Proof. unfold dbt_new. intros H. rinv H. injection H as <-. apply hrep_nil. left. done. Qed.
Lemma new_ok : (w <= val_bits kd)%nat -> exists t, dbt_new c junk = Ok t /\ hmrep t ∅.
Proof.
  intros Hw. assert (Hx : exists t, dbt_new c junk = Ok t) by (unfold dbt_new; rewrite (proj2 (Nat.leb_le _ _)) by done; by eexists).
  destruct Hx as [t Ht]. exists t. split; [done|]. exists []. split; [by apply hrep_new|done].
Qed.
Lemma dinsert_map t E k v : hrep t E -> entry_ok c es (k, v) -> N.of_nat (length E) < blim c \/ k ∈ keys_of E ->
  exists t' E' i v', dbt_insert pf c t k v = Ok (t', N.of_nat i) /\ hrep t' E' /\ E' !! i = Some (k, v').
Proof.
  intros H Hkv Hl. destruct (dinsert_ok t E k v H Hkv Hl) as (t' & p & Ei & Hres). destruct (first_index k (keys_of E)) as [i|] eqn:Ef.
  - destruct Hres as [-> ->]. destruct (index_entry _ _ _ Ef) as [v0 Hv0]. by exists t, E, i, v0.
  - destruct Hres as [Hr ->]. exists t', (E ++ [(k, v)]), (length E), v. split; [done|]. split; [done|]. by apply list_lookup_middle.
Qed.
Lemma dstep_ok t m o : hmrep t m -> bt_has_op o -> valid_op (N.of_nat w) vb 0 0 o -> N.of_nat (size (spec_step m o).1) <= blim c ->
  exists t', dbt_run_op pf c t o = Ok (t', (spec_step m o).2) /\ hmrep t' (spec_step m o).1.
Proof.
  intros (E & H & <-) Hop Hv Hs.
  assert (Hg : exists t' E' x, dbt_run_op pf c t o = Ok (t', x) /\ hrep t' E').
  { assert (Hne : forall t' E' i e, hrep t' E' -> E' !! i = Some e -> bfull pf c es (bstrip t') E' /\ hgood t' E') by (intros t' E' i e H' He; apply hfull; [done|by intros ->]).
    destruct o as [k|k|k v|k|k v|k|k| | |n| |]; cbn in Hop, Hv; try done.
    - cbn [dbt_run_op]. rewrite (dfind_ok _ _ _ H Hv). cbn [mbind res_bind]. destruct (first_index k (keys_of E)) as [i|] eqn:Ef.
      + destruct (index_entry _ _ _ Ef) as [v0 Hv0]. destruct (Hne _ _ _ _ H Hv0). rewrite (diter_ok _ _ _ _ ltac:(done) ltac:(done) Hv0). by eexists _, E, _.
      + rewrite (diter_end _ _ H). by eexists _, E, _.
    - cbn [dbt_run_op]. unfold dbt_count. rewrite (dfind_ok _ _ _ H Hv). by eexists _, E, _.
    - cbn [dbt_run_op]. destruct (dinsert_map t E k v H Hv) as (t' & E' & i & v' & Ei & Hr & Hi).
      { eapply (size_room _ _ _ (bstrip t) E k v); [apply H|]. cbn [spec_step] in Hs. by destruct (emap E !! k). }
      rewrite Ei. cbn [mbind res_bind]. destruct (Hne _ _ _ _ Hr Hi). rewrite (diter_ok _ _ _ _ ltac:(done) ltac:(done) Hi). by eexists _, E', _.
    - cbn [dbt_run_op]. destruct (dinsert_map t E k 0 H) as (t' & E' & i & v' & Ei & Hr & Hi).
      { split; [apply Hv|]. cbn. pose proof (N.pow_nonzero 2 vb ltac:(lia)). lia. }
      { eapply (size_room _ _ _ (bstrip t) E k 0); [apply H|]. cbn [spec_step] in Hs. by destruct (emap E !! k). }
      rewrite Ei. cbn [mbind res_bind]. destruct (Hne _ _ _ _ Hr Hi). rewrite (dvalue_ok _ _ _ _ _ ltac:(done) ltac:(done) Hi). by eexists _, E', _.
    - cbn [dbt_run_op]. destruct (dinsert_map t E k 0 H) as (t' & E' & i & v' & Ei & Hr & Hi).
      { split; [apply Hv|]. cbn. pose proof (N.pow_nonzero 2 vb ltac:(lia)). lia. }
      { eapply (size_room _ _ _ (bstrip t) E k 0); [apply H|]. cbn [spec_step fst] in Hs. destruct (emap E !! k) eqn:Ek.
        - by rewrite map_size_insert_Some in Hs.
        - rewrite map_size_insert_None in Hs by done. by rewrite map_size_insert_None. }
      rewrite Ei. cbn [mbind res_bind]. destruct (dwrite_ok _ _ _ _ _ v Hr Hi (proj2 Hv)) as (t2 & Ew & Hw). rewrite Ew. by eexists _, _, _.
    - cbn [dbt_run_op]. destruct (derase_ok t E k H Hv) as (t' & Ee & Hr). rewrite Ee. by eexists _, _, _.
    - by eexists _, E, _.
    - by eexists _, E, _.
    - cbn [dbt_run_op]. destruct (dshrink_ok t E H) as (t' & Ee & Hr). rewrite Ee. by eexists _, _, _.
    - cbn [dbt_run_op]. destruct (dclear_ok t E H) as (t' & Ee & Hr). rewrite Ee. by eexists _, _, _. }
  destruct Hg as (t' & E' & x & Et & Hr). pose proof (dbt_run_op_eq pf c _ _ _ Et) as Et'. cbn [fst snd] in Et'.
  assert (Hm : mrep pf c es (bstrip t) (emap E)) by (exists E; split; [apply H|done]).
  destruct (BtProofs.step_spec pf c es OK (bstrip t) (emap E) o Hm Hop Hv Hs) as (t1 & E1 & E2 & Hb & He). rewrite Et' in E1. injection E1 as <- ->.
  exists t'. split; [exact Et|]. exists E'. split; [done|]. rewrite <-He. f_equal. by eapply brep_fun; [apply Hr|].
Qed.
Lemma drun_ok ops : forall t m, hmrep t m -> Forall bt_has_op ops -> valid_ops (N.of_nat w) vb 0 0 ops -> never_above (blim c) m ops ->
  exists t', dbt_run pf c t ops = Ok (t', (spec_run m ops).2) /\ hmrep t' (spec_run m ops).1.
Proof.
  induction ops as [|o ops IH]; intros t m H Hh Hv Hs; [by eexists|].
  apply Forall_cons in Hh as [Ho Hh]. unfold valid_ops in Hv. apply Forall_cons in Hv as [Hvo Hv].
  destruct Hs as [Hso Hs]. destruct (dstep_ok t m o H Ho Hvo Hso) as (t1 & E1 & H1).
  destruct (IH t1 _ H1 Hh Hv Hs) as (t2 & E2 & H2).
  exists t2. cbn [dbt_run spec_run]. rewrite E1. cbn [mbind res_bind]. rewrite E2. cbn [mbind res_bind].
  destruct (spec_step m o) as [m1 r]. cbn [fst snd] in *. destruct (spec_run m1 ops) as [m2 rs]. done.
Qed.

(** ** Iteration *)
Lemma diter_spec t E : hrep t E -> forall n i fuel, (length E = i + n)%nat -> (n < fuel)%nat -> dbt_iter pf c fuel t (N.of_nat i) = Ok (drop i E).
Proof.
  intros H. induction n as [|n IH]; intros i fuel Hl Hf; (destruct fuel as [|fuel]; [lia|]); cbn [dbt_iter];
    unfold bn_eq at 1, bt_end; rewrite (ones_big _ _ _ _ _ (proj1 H)); cbn [negb andb].
  - unfold bn_invalid. rewrite <-(brep_length _ _ _ _ _ (proj1 H)), (proj2 (N.leb_le _ _)) by lia. cbn. by rewrite drop_ge by lia.
  - destruct (lookup_lt_is_Some_2 E i ltac:(lia)) as [e He]. destruct (hfull _ _ H ltac:(by intros ->)) as [Hf' Hg].
    rewrite (bn_valid _ _ _ _ _ _ _ Hf' He). cbn [eqb]. rewrite (diter_ok _ _ _ _ Hf' Hg He). cbn [mbind res_bind].
    unfold dbn_next. rewrite (dnext_ok _ _ _ Hf') by lia. cbn [mbind res_bind].
    replace (bn_next (N.of_nat i)) with (N.of_nat (S i)).
    2: { unfold bn_next, u64. pose proof (bfull_n _ _ _ _ _ Hf'). rewrite (bf_n _ _ _ _ _ Hf') in *. rewrite N.mod_small; lia. }
    rewrite IH by lia. cbn [mbind res_bind]. by rewrite (drop_S _ _ _ He).
Qed.
Lemma driter_spec t E : hrep t E -> E <> [] -> forall i fuel, (i < length E)%nat -> (S i < fuel)%nat -> dbt_riter pf c fuel t (N.of_nat i) = Ok (reverse (take (S i) E)).
Proof.
  intros Hh Hne. destruct (hfull _ _ Hh Hne) as [H Hg]. pose proof (proj1 Hh) as Hr. induction i as [|i IH]; intros fuel Hl Hf; (destruct fuel as [|fuel]; [lia|]); cbn [dbt_riter];
    unfold bn_eq at 1, bt_end; rewrite (ones_big _ _ _ _ _ Hr); cbn [negb andb];
    destruct (lookup_lt_is_Some_2 E _ Hl) as [[k v] He]; rewrite (bn_valid _ _ _ _ _ _ _ H He); cbn [eqb];
    rewrite (dkey_ok _ _ _ _ _ H Hg He), (dvalue_ok _ _ _ _ _ H Hg He); cbn [mbind res_bind]; unfold dbn_prev; rewrite (dnext_ok _ _ _ H Hl); cbn [mbind res_bind].
  - change (bn_prev (N.of_nat 0)) with ones64. destruct fuel as [|fuel]; [lia|]. cbn [dbt_riter].
    unfold bn_eq, bt_end. rewrite (ones_big _ _ _ _ _ Hr). cbn. destruct E as [|e E]; [done|]. cbn in He |- *. by injection He as ->.
  - replace (bn_prev (N.of_nat (S i))) with (N.of_nat i).
    2: { unfold bn_prev, sub64, u64. pose proof (bfull_n _ _ _ _ _ H). rewrite (bf_n _ _ _ _ _ H) in *.
         change (1 mod 2^64) with 1. replace (N.of_nat (S i) + 2^64 - 1) with (N.of_nat i + 1 * 2^64) by lia.
         rewrite N.mod_add by lia. rewrite N.mod_small; lia. }
    rewrite IH by lia. cbn [mbind res_bind]. rewrite (take_S_r _ _ _ He), reverse_snoc. done.
Qed.

(** ** Moving *)
Lemma dmove_ok t o E F : hrep t E -> hrep o F -> exists o', dbt_move_assign pf c w t o = Ok (o, o') /\ hrep o' []
  /\ k_b (h_keys o') = None /\ k_b (h_vals o') = None /\ h_plain o' = None.
Proof.
  intros Ht Ho. unfold dbt_move_assign. rewrite Nat.eqb_refl. cbn [chk mbind res_bind]. destruct (dclear_ok t E Ht) as (t' & Et & _). rewrite Et. cbn [mbind res_bind].
  eexists; split; [done|]. split; [|done]. apply hrep_nil. left. split; [|done]. split; [done|]. done.
Qed.

(** ** What is caught *)
Lemma width_fits : (w <= val_bits kd)%nat.
Proof. pose proof (bo_w _ _ _ OK). pose proof (bo_fit _ _ _ OK). destruct kd; cbn [val_bits]; lia. Qed.
Lemma dinsert_wide t k v : 2^N.of_nat w <= k -> dbt_insert pf c t k v = Throw.
Proof.
  intros Hk. unfold dbt_insert. rewrite max_key_eq. cbn [mbind res_bind]. pose proof (N.pow_nonzero 2 (N.of_nat w) ltac:(lia)). by rewrite (proj2 (N.leb_gt _ _)) by lia.
Qed.
Lemma dat_wide t k : 2^N.of_nat w <= k -> dbt_at pf c t k = Throw.
Proof.
  intros Hk. unfold dbt_at. rewrite max_key_eq. cbn [mbind res_bind]. pose proof (N.pow_nonzero 2 (N.of_nat w) ltac:(lia)). by rewrite (proj2 (N.leb_gt _ _)) by lia.
Qed.
Lemma dat_ok t m k : hmrep t m -> k < 2^N.of_nat w -> dbt_at pf c t k = match m !! k with Some v => Ok v | None => Throw end.
Proof.
  intros (E & H & <-) Hk. unfold dbt_at. destruct (key_max k Hk) as (mk & Emk & Hmk). rewrite Emk. cbn [mbind res_bind]. rewrite (proj2 (N.leb_le _ _)) by done. cbn [chk mbind res_bind].
  rewrite (hinit _ _ H). destruct E as [|e0 E0]; [done|]. assert (HneE : e0 :: E0 <> []) by done. remember (e0 :: E0) as E eqn:HE. clear HE. destruct (hfull _ _ H HneE) as [Hf Hg].
  cbn [chk mbind res_bind]. rewrite (locate_ok t E k Hf Hg Hk). cbn [mbind res_bind]. pose proof (emap_index E k (bf_nodup _ _ _ _ _ Hf)) as Hx.
  destruct (first_index k (keys_of E)) as [i|] eqn:Ei.
  - destruct Hx as (v & Hi & ->). pose proof (index_lt _ _ _ Ei) as Hlt. rewrite (pos_not_ones _ _ _ _ _ _ Hf Hlt). cbn [negb chk mbind res_bind].
    pose proof (dvalue_ok _ _ _ _ _ Hf Hg Hi) as Hv. unfold dbn_value in Hv. rewrite (dnext_ok _ _ _ Hf Hlt) in Hv. pose proof (dnext_ok _ _ _ Hf Hlt) as Hd. unfold dbn_valid in Hd. rewrite Hd.
    exact Hv.
  - rewrite Hx. done.
Qed.
Lemma dinsert_256 t E k v : bc_strat c = BArb -> hrep t E -> length E = 255%nat -> k ∉ keys_of E -> k < 2^N.of_nat w -> dbt_insert pf c t k v = Throw.
Proof.
  intros Es H HE Hk Hkw. destruct (hfull _ _ H ltac:(by intros ->)) as [Hf Hg]. unfold dbt_insert. destruct (key_max k Hkw) as (mk & Emk & Hmk). rewrite Emk. cbn [mbind res_bind].
  rewrite (proj2 (N.leb_le _ _)) by done. cbn [chk mbind res_bind]. rewrite (hinit _ _ H). destruct E as [|e0 E0]; [done|]. remember (e0 :: E0) as E eqn:HE0. clear HE0.
  rewrite (locate_ok t E k Hf Hg Hkw). apply fi_None in Hk. rewrite Hk. cbn [mbind res_bind]. change (ones64 =? ones64) with true. cbn iota.
  destruct (bf_cap _ _ _ _ _ Hf) as (cap & Hks & Hvs & Hc & Hst). rewrite Es in Hst. destruct Hst as [Hlen Hcap]. pose proof (bf_n _ _ _ _ _ Hf) as Hn. cbn [bstrip bt_keys bt_vals bt_n bt_len] in *.
  rewrite Hn, HE in *. change (u32 (N.of_nat 255 + 1)) with 256. unfold st_needs_resize, st_after_chk, st_after_increment. rewrite Es. change (u32 256) with 256.
  rewrite Hlen, (proj2 (N.leb_le _ _)) by lia. rewrite (arb_resize_cap 256) by lia. change (255 <=? 2^32 - 1) with true. cbn [chk mbind res_bind]. change (u32 255) with 255.
  change (N.to_nat (u32 (256 + 2^32 - 1))) with 255%nat. change (N.to_nat 255) with 255%nat.
  assert (HbK : k_b (h_keys t) <> None) by (destruct (brepr_init _ _ _ OK _ _ _ Hks) as [? ->]; done).
  assert (HbV : k_b (h_vals t) <> None) by (intros Hz; rewrite Hz in Hvs; destruct (proj1 (bo_val _ _ _ OK)) as [He|He]; rewrite He in Hvs; by destruct Hvs as (? & ? & ? & _)).
  destruct (b_resize_spec pf kd w cap _ _ 255 Kok Hks) as (ks' & Ek & _); [rewrite fmap_length; lia|]. rewrite fmap_length, HE in Ek.
  destruct (b_resize_spec pf vd 0 cap _ _ 255 Vok Hvs) as (vs' & Ev & _); [rewrite fmap_length; lia|]. rewrite fmap_length, HE in Ev.
  destruct (db_resize_ok pf kd (h_keys t) 255 255 w _ ltac:(lia) (or_intror HbK) Ek) as (ks & Erk & _). rewrite Erk. cbn [mbind res_bind].
  destruct (db_resize_ok pf vd (h_vals t) 255 255 0 _ ltac:(lia) (or_intror HbV) Ev) as (vs & Erv & _). rewrite Erv. cbn [mbind res_bind].
  unfold dbt_last. cbn [h_n h_len]. unfold st_size. rewrite Es. done.
Qed.
Lemma dinsert_2_32 t E k v : bc_strat c = BInc -> hrep t E -> N.of_nat (length E) = 2^32 - 1 -> k ∉ keys_of E -> k < 2^N.of_nat w ->
  match kd with KAvx _ => dbt_insert pf c t k v = Throw | _ => is_ub (dbt_insert pf c t k v) = true end.
Proof.
  intros Es H HE Hk Hkw. assert (HneE : E <> []) by (intros ->; done). destruct (hfull _ _ H HneE) as [Hf Hg].
  assert (Hu : match kd with KAvx _ => dbt_insert pf c t k v = Throw | _ => is_ub (dbt_insert pf c t k v) = true end <-> 
    match kd with KAvx _ => (ks ← db_resize pf kd (h_keys t) (length E) 0 w; vs ← db_resize pf vd (h_vals t) (length E) 0 0; dbt_last pf c (DBt ks vs 0 (h_len t) None) k v) = Throw
    | _ => is_ub (ks ← db_resize pf kd (h_keys t) (length E) 0 w; vs ← db_resize pf vd (h_vals t) (length E) 0 0; dbt_last pf c (DBt ks vs 0 (h_len t) None) k v) = true end).
  { assert (Heq : dbt_insert pf c t k v = (ks ← db_resize pf kd (h_keys t) (length E) 0 w; vs ← db_resize pf vd (h_vals t) (length E) 0 0; dbt_last pf c (DBt ks vs 0 (h_len t) None) k v)); [|by rewrite Heq].
    unfold dbt_insert. destruct (key_max k Hkw) as (mk & Emk & Hmk). rewrite Emk. cbn [mbind res_bind].
    rewrite (proj2 (N.leb_le _ _)) by done. cbn [chk mbind res_bind]. rewrite (hinit _ _ H). destruct E as [|e0 E0]; [done|]. remember (e0 :: E0) as E eqn:HE0. clear HE0.
    rewrite (locate_ok t E k Hf Hg Hkw). apply fi_None in Hk. rewrite Hk. cbn [mbind res_bind]. change (ones64 =? ones64) with true. cbn iota.
    pose proof (bf_n _ _ _ _ _ Hf) as Hn. cbn [bstrip bt_n] in Hn. rewrite Hn. unfold st_needs_resize, st_after_chk, st_after_increment, inc_needs_resize, inc_size_after_increment. rewrite Es, HE.
    change (u32 (2^32 - 1 + 1)) with 0. change (u32 (0 + 2^32 - 1)) with (2^32 - 1). change (N.to_nat 0) with 0%nat. rewrite <-HE, Nat2N.id. cbn [mbind res_bind]. unfold bplain_realloc. done. }
  apply Hu. clear Hu. destruct (bf_cap _ _ _ _ _ Hf) as (cap & Hks & Hvs & Hc & _). cbn [bstrip bt_keys bt_vals] in *.
  assert (Hlast : forall ks vs, is_ub (dbt_last pf c (DBt ks vs 0 (h_len t) None) k v) = true).
  { intros ks vs. unfold dbt_last. cbn [h_n h_len h_plain]. unfold st_size. rewrite Es. done. }
  assert (Hvu : forall ks, is_ub (vs ← db_resize pf vd (h_vals t) (length E) 0 0; dbt_last pf c (DBt ks vs 0 (h_len t) None) k v) = true).
  { intros ks. assert (Hr : is_ub (db_resize pf vd (h_vals t) (length E) 0 0) = true \/ exists vs, db_resize pf vd (h_vals t) (length E) 0 0 = Ok vs).
    { destruct (proj1 (bo_val _ _ _ OK)) as [Hv|Hv]; rewrite Hv in Hvs |- *; destruct Hvs as (tg & [cs|bs] & Hb & Ht & Hd); try done; unfold db_resize; rewrite Hb; cbn [mbind res_bind].
      - cbn [b_resize]. cbn [kind_tag] in Ht. rewrite Ht. cbn [mbind res_bind]. right. by eexists.
      - cbn [b_resize]. destruct Hd as (H1 & H2 & _). unfold cells_prefix. rewrite fmap_length in H2. rewrite (proj2 (Nat.leb_le _ _)) by lia. cbn [mbind res_bind].
        rewrite (proj2 (Nat.ltb_lt _ _)) by lia. by left. }
    destruct Hr as [Hr|[vs Hr]]; [by apply is_ub_bind|]. rewrite Hr. apply Hlast. }
  destruct kd eqn:Ekd.
  all: try (assert (Hr : is_ub (db_resize pf (bc_key c) (h_keys t) (length E) 0 w) = true \/ exists ks, db_resize pf (bc_key c) (h_keys t) (length E) 0 w = Ok ks);
    [|rewrite Ekd in Hr; destruct Hr as [Hr|[ks Hr]]; [by apply is_ub_bind|]; rewrite Hr; apply Hvu]).
  - rewrite Ekd. destruct Hks as (tg & [cs|bs] & Hb & Ht & Hd); try done. unfold db_resize. rewrite Hb. cbn [mbind res_bind b_resize]. cbn [kind_tag] in Ht. rewrite Ht. cbn [mbind res_bind]. right. by eexists.
  - rewrite Ekd. destruct Hks as (tg & [cs|bs] & Hb & Ht & Hd); try done. unfold db_resize. rewrite Hb. cbn [mbind res_bind b_resize]. destruct Hd as (H1 & H2 & _). unfold cells_prefix. rewrite fmap_length in H2. rewrite (proj2 (Nat.leb_le _ _)) by lia. cbn [mbind res_bind].
    rewrite (proj2 (Nat.ltb_lt _ _)) by lia. by left.
  - unfold db_resize. rewrite (proj2 (Nat.leb_gt _ _)) by lia. done.
  - rewrite Ekd. destruct Hks as (tg & [cs|bs] & Hb & Ht & Hd); try done. unfold db_resize. rewrite Hb. cbn [mbind res_bind].
    match goal with |- context [b_resize ?a ?b ?x ?y ?z ?u] => assert (Hr : is_ub (b_resize a b x y z u) = true \/ exists ks', b_resize a b x y z u = Ok ks') end.
    { cbn -[Nat.ltb Nat.leb Nat.eqb]; repeat (case_match; cbn; eauto). }
    destruct Hr as [Hr|[ks' Hr]]; [left; by apply is_ub_bind|]. rewrite Hr. right. by eexists.
  - by destruct (bo_null _ _ _ OK).
Qed.
End rep.

(** ** m_length of arbitrary_resize_bucket never exceeds 255 *)
Section len.
Context (pf : platform) (c : bcfg).
Hypothesis Es : bc_strat c = BArb.
Lemma arb_resize_max n : u32 (arb_resize n) <= 255.
Proof.
  assert (arb_resize n <= 255). { unfold arb_resize, MAX_BUCKET_BYTESIZE. change (255 / 4) with 63. destruct (N.ltb_spec n 63); lia. }
  unfold u32. rewrite N.mod_small; lia.
Qed.
Lemma last_len t k v t' p : bt_last pf c t k v = Ok (t', p) -> bt_len t' = bt_len t.
Proof. unfold bt_last. intros H. rinv H. rinv H. by injection H as <-. Qed.
Lemma insert_len t k v t' p : bt_insert pf c t k v = Ok (t', p) -> bt_len t <= 255 -> bt_len t' <= 255.
Proof.
  unfold bt_insert. intros H Hl. destruct (bt_init t).
  - rinv H. destruct (_ =? ones64); [|by injection H as <-]. cbv zeta in H. destruct (st_needs_resize _ _ _); [|by apply last_len in H; rewrite H].
    unfold st_after_increment in H. rewrite Es in H. rinv H. rinv H. apply last_len in H. rewrite H. apply arb_resize_max.
  - apply last_len in H. rewrite H. cbn [bt_len]. unfold st_assign. rewrite Es. change (u32 1) with 1. lia.
Qed.
Lemma clear_len t t' : bt_clear pf c t = Ok t' -> bt_len t' = bt_len t.
Proof. unfold bt_clear. intros H. rinv H. rinv H. by injection H as <-. Qed.
Lemma op_len t o t' x : bt_run_op pf c t o = Ok (t', x) -> bt_len t <= 255 -> bt_len t' <= 255.
Proof.
  intros H Hl. destruct o as [k|k|k v|k|k v|k|k| | |n| |]; cbn [bt_run_op] in H; try done.
  - rinv H. rinv H. by injection H as <-.
  - rinv H. by injection H as <-.
  - rinv H. destruct a as [t1 p]. rinv H. injection H as <- _. by eapply insert_len.
  - unfold bt_index in H. rinv H. destruct a as [t1 p]. rinv H. injection H as <- _. by eapply insert_len.
  - unfold bt_index in H. rinv H. destruct a as [t1 p]. unfold bt_write in H. rinv H. injection H as <- _. rinv E0. injection E0 as <-. cbn [bt_len]. by eapply insert_len.
  - rinv H. destruct a as [t1 n]. injection H as <- _. unfold bt_erase in E. destruct (bt_init t); [|by injection E as <-]. rinv E. destruct (_ =? ones64); [by injection E as <-|].
    rinv E. destruct a0 as [ks vs]. cbn [bt_n] in E. destruct (_ =? 0); [|by injection E as <-]. rinv E. apply clear_len in E2. injection E as <-. by rewrite E2.
  - by injection H as <-.
  - by injection H as <-.
  - rinv H. injection H as <- _. unfold bt_shrink in E. destruct (bt_init t); [|by injection E as <-]. destruct (_ <? _) eqn:Eb; [|by injection E as <-]. apply N.ltb_lt in Eb. unfold st_size in Eb. rewrite Es in Eb.
    rinv E. rinv E. injection E as <-. cbn [bt_len]. unfold st_assign. rewrite Es. unfold u32. rewrite N.mod_small; lia.
  - rinv H. injection H as <- _. apply clear_len in E. by rewrite E.
Qed.
Lemma run_len ops : forall t t' xs, bt_run pf c t ops = Ok (t', xs) -> bt_len t <= 255 -> bt_len t' <= 255.
Proof.
  induction ops as [|o ops IH]; intros t t' xs H Hl; cbn [bt_run] in H; [by injection H as <-|].
  rinv H. destruct a as [t1 x]. rinv H. destruct a as [t2 ys]. injection H as <- _. eapply IH; [done|]. by eapply op_len.
Qed.
End len.
