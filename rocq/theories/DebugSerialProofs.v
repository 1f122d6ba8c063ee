(** Serialization of the debug build: no check fails on a table in a well-defined state without elements in the overflow, and the
    debug members are restored with the table. *)
From Verif Require Export DebugSerial DebugConf SerialFacts.

Lemma cell_bits_length es x : length (cell_bits es x) = es.
Proof. destruct x; cbn [cell_bits]; [apply nbits_length|apply replicate_length]. Qed.

Lemma db_serialize_spec pf kd w cap m b xs : kind_ok kd w -> brepr pf kd w cap (k_b b) xs -> bgood kd w m b -> (length xs <= m)%nat ->
  (match kd with KClass _ => loose_free pf = true | _ => True end) -> N.of_nat (length xs) < 2^64 ->
  exists s, db_serialize pf kd b (length xs) w = Ok s
    /\ forall b0 s', k_b b0 = None -> exists b', db_deserialize pf kd b0 (s ++ s') (length xs) w = Ok (b', s')
       /\ brepr pf kd w (length xs) (k_b b') xs /\ bgood kd w (length xs) b'.
Proof.
  intros Hk Hr Hg Hm Hcl Hx. destruct (b_serialize_spec pf kd w cap (k_b b) xs Hk Hr Hcl) as (s & Es & Ds).
  destruct kd as [es|es|es|iw|]; cbn [db_serialize db_deserialize bgood] in *.
  1-3: destruct Hg as (l & El & Hl); rewrite El; change (known (Some l)) with (Ok l); cbn [mbind res_bind];
    rewrite (proj2 (N.leb_le _ _)) by lia; cbn [chk mbind res_bind]; rewrite Es; cbn [mbind res_bind];
    eexists; (split; [done|]); intros b0 s' H0; rewrite <-app_assoc;
    rewrite read_var_app by (rewrite ?cell_bits_length; change (2^N.of_nat 64) with (2^64); lia);
    cbn [used of_option mbind res_bind]; rewrite (proj2 (N.leb_le _ _)) by lia; rewrite H0; cbn [chk mbind res_bind];
    destruct (Ds s') as (b' & -> & Hb'); eexists; (split; [done|]); cbn [k_b k_len]; (split; [done|]); eexists; (split; [done|lia]).
  - destruct Hg as (l & z & El & Ez & Hl & Hz & H64). rewrite El, Ez. change (known (Some l)) with (Ok l). change (known (Some z)) with (Ok z). cbn [mbind res_bind].
    destruct Hk as (Hiw & Hw). pose proof (BucketProofs.width_ok_pos _ Hiw) as Hp.
    assert (Hc : (cdiv (length xs * w) iw <= N.to_nat z)%nat).
    { apply cdiv_least; [done|]. assert (length xs * w <= m * w)%nat by (apply Nat.mul_le_mono_r; lia). lia. }
    assert (Hz64 : z < 2^64). { eapply N.le_lt_trans; [|exact H64]. transitivity (z * 1); [lia|]. apply N.mul_le_mono_l. lia. }
    rewrite (proj2 (N.leb_le (N.of_nat (length xs)) l)) by lia. rewrite (proj2 (N.leb_le (N.of_nat (cdiv _ _)) z)) by lia. cbn [chk mbind res_bind].
    rewrite Es. cbn [mbind res_bind]. eexists. split; [done|]. intros b0 s' H0. rewrite <-!app_assoc.
    rewrite read_var_app by (rewrite ?cell_bits_length; change (2^N.of_nat 64) with (2^64); lia).
    rewrite read_var_app by (rewrite ?cell_bits_length; change (2^N.of_nat 64) with (2^64); lia).
    cbn [used of_option mbind res_bind]. rewrite (proj2 (N.leb_le (N.of_nat (length xs)) l)) by lia. rewrite (proj2 (N.leb_le (N.of_nat (cdiv _ _)) z)) by lia.
    cbn [chk mbind res_bind]. destruct (Ds s') as (b' & -> & Hb'). eexists. split; [done|]. split; [done|]. exists l, z. cbn [k_len k_sz].
    split; [done|]. split; [done|]. split; [lia|]. split; [|done].
    assert (length xs * w <= m * w)%nat by (apply Nat.mul_le_mono_r; lia). lia.
  - exists []. split; [done|]. intros b0 s' H0. cbn [app]. destruct (Ds s') as (b' & E' & Hb'). cbn [b_serialize] in Es. injection Es as <-. cbn [app] in E'.
    rewrite E'. eexists. split; [done|]. done.
Qed.

Section serial.
Context (pf : platform) (c : cfg) (junk : option N) (kw vw bmin bmax : N) (strict : Prop).
Notation hq := (hq c kw). Notation hb := (hb c kw). Notation qw := (qw c kw). Notation nv := (nv c vw).
Notation hmk := (hmk c kw).
Notation srepr := (slot_repr pf c kw vw strict).
Notation srepr' := (slot_repr pf c kw vw False).
Notation kdom := (kdom c kw).
Notation sg := (sg pf c kw vw strict).
Notation sg' := (DebugSlot.sg pf c kw vw False).
Hypothesis OK : table_ok0 pf c kw vw bmin bmax.
Hypothesis DOK : dbg_ok c junk kw vw bmin bmax.
Hypothesis CL : class_ok pf c.

Implicit Types (d : dtable) (s : dslot) (st : stream).

(** One bucket. *)
Lemma dser_slot_spec d b bk s es : bmin <= b <= bmax -> dvwidth d = N.to_nat vw -> srepr b (sstrip s) es -> in_bk c kw b bk es -> sgood c kw vw b s es ->
  exists x, dser_slot pf c d (qw b) s = Ok x /\
    forall d', dhm c d' = hmk -> d_b d' = b -> dvwidth d' = N.to_nat vw -> forall st, exists s', srepr' b (sstrip s') es /\ sgood c kw vw b s' es
      /\ dde_slot pf c d' (qw b) bk (fresh_dslot junk) (ds_size s) (x ++ st) = Ok (s', st).
Proof.
  intros Hb Hv Hs Hin Hg. unfold dser_slot. pose proof Hs as (Hsz & Hm & Hes & Hcap & Harb & _). change (s_size (sstrip s)) with (ds_size s) in Hsz.
  destruct (N.eqb_spec (ds_size s) 0) as [E|E].
  - exists []. split; [done|]. intros d' _ _ _ st. assert (es = []) as -> by (destruct es; [done|cbn in Hsz; lia]).
    exists (fresh_dslot junk). rewrite E. split; [apply slot_repr_empty|]. split; [|done].
    cbn [sgood fresh_dslot fresh_dbk ds_keys k_len k_sz]. pose proof (do_junk _ _ _ _ _ _ DOK) as H. destruct (c_key c); try done. destruct H as [j ->]. eauto.
  - assert (Hne : es <> []) by (intros ->; cbn in Hsz; lia).
    destruct (slot_repr_nonnil pf c kw vw strict b (sstrip s) es Hne Hs) as [Hks Hvs]. cbn [sstrip s_keys s_vals s_cap] in Hks, Hvs.
    destruct (sgood_nonnil _ _ _ _ _ _ Hne Hg) as (Gk & Gv & l & El & Hll & Hpl).
    destruct (ok_kind pf c kw vw bmin bmax OK b Hb) as [Hkd _]. destruct CL as [Ck Cv].
    pose proof (maxb_256 pf c kw vw bmin bmax OK) as H256.
    assert (H64 : N.of_nat (length es) < 2^64) by (change (2^64) with 18446744073709551616; lia).
    destruct (db_serialize_spec _ _ _ _ _ _ _ Hkd Hks Gk) as (d1 & E1 & D1); [rewrite map_length; lia|done|by rewrite map_length|].
    destruct (db_serialize_spec _ _ _ _ _ _ _ (ok_val pf c kw vw bmin bmax OK) Hvs Gv) as (d2 & E2 & D2); [rewrite map_length; lia|done|by rewrite map_length|].
    rewrite map_length in E1, D1, E2, D2.
    rewrite Hv, Hsz, Nat2N.id, E1. cbn [mbind res_bind]. rewrite E2. cbn [mbind res_bind]. rewrite El. unfold cells_prefix.
    rewrite (proj2 (Nat.leb_le _ _)) by done. cbn [mbind res_bind].
    assert (Hpre : take (length es) l = map Some (map fst es)).
    { rewrite <-(map_length fst es). apply take_repr. intros i k Hk. apply list_lookup_fmap_inv in Hk as (e & -> & He). by apply Hpl. }
    rewrite Hpre. eexists. split; [done|]. intros d' Hh' Hb' Hv' st. unfold dde_slot. rewrite (proj2 (N.eqb_neq _ _)) by (rewrite <-Hsz; done).
    rewrite Nat2N.id, Hv', <-!app_assoc.
    destruct (D1 (ds_keys (fresh_dslot junk)) (d2 ++ concat (map (cell_bits (kbn c)) (map Some (map fst es))) ++ st)) as (b1 & -> & R1 & G1); [done|]. cbn [mbind res_bind].
    destruct (D2 (ds_vals (fresh_dslot junk)) (concat (map (cell_bits (kbn c)) (map Some (map fst es))) ++ st)) as (b2 & -> & R2 & G2); [done|]. cbn [mbind res_bind].
    rewrite st_read_app.
    2:{ rewrite !concat_cell_bits_length, !map_length. cbn [fresh_dslot ds_plain]. unfold realloc_cells. rewrite take_nil. cbn [app length].
        rewrite Nat.sub_0_r. unfold fresh_cells. by rewrite replicate_length. }
    assert (Hkf : Forall (fun x => x < 2^N.of_nat (kbn c)) (map fst es)).
    { apply Forall_forall. intros k (e & -> & He)%elem_of_list_fmap. destruct e as [k v]. destruct (Hin k v He) as [[Hk _] _]. cbn [fst].
      pose proof (do_kw _ _ _ _ _ _ DOK) as Hkw. eapply N.lt_le_trans; [exact Hk|]. apply N.pow_le_mono_r; [done|]. unfold kbn. lia. }
    pose proof (bits_cells_encode (kbn c) (map fst es) [] Hkf) as Ec. rewrite app_nil_r, map_length in Ec. rewrite Ec.
    set (s' := DSlot b1 b2 (N.of_nat (length es)) 0 (Some (map Some (map fst es)))).
    assert (Hs' : srepr' b (sstrip s') es).
    { unfold slot_repr. cbn [sstrip s' ds_keys ds_vals ds_size ds_cap s_size s_cap s_keys s_vals]. split; [done|]. split; [done|]. split.
      - destruct es as [|e es']; [done|]. change (N.to_nat 0) with 0%nat. rewrite Nat.max_0_r. done.
      - split; [lia|]. split; [done|]. done. }
    assert (Hl : forall i : nat, (i < length es)%nat -> plain_check pf c d' b1 (map Some (map fst es)) bk (qw b) i = Ok ()).
    { intros i Hi. destruct (lookup_lt_is_Some_2 es i Hi) as [[k v] Ei]. unfold plain_check.
      rewrite (db_read_ok _ _ _ (length es)) by done.
      pose proof (slot_read_key pf c kw vw bmin bmax False OK _ _ _ _ _ _ Hb Hs' Ei) as Er. cbn [sstrip s' ds_keys s_keys fst] in Er. rewrite Er. cbn [mbind res_bind].
      destruct (Hin k v) as [Hk Hkb]; [by eapply elem_of_list_lookup_2|].
      destruct (hq_lt pf c junk kw vw bmin bmax OK DOK b k Hb Hk) as (_ & _ & Hq). rewrite N.mod_small by done.
      rewrite Hh', Hb'. destruct (do_map _ _ _ _ _ _ DOK b k Hb Hk) as (_ & I1 & _). rewrite Hkb in I1. rewrite I1. cbn [mbind res_bind].
      unfold cell_read. rewrite !list_lookup_fmap, Ei. cbn [fmap option_fmap option_map fst mbind res_bind]. by rewrite N.eqb_refl. }
    assert (Hf : forall n i : nat, (i + n <= length es)%nat -> rfold (fun (_ : unit) i => plain_check pf c d' b1 (map Some (map fst es)) bk (qw b) i) (seq i n) () = Ok ()).
    { induction n as [|n IH]; intros i Hi; [done|]. cbn [seq rfold]. rewrite Hl by lia. cbn [mbind res_bind]. apply IH. lia. }
    exists s'. split; [done|]. split.
    + apply sgood_intro; [done|]. cbn [s' ds_cap ds_keys ds_vals ds_plain]. change (N.to_nat 0) with 0%nat. rewrite Nat.max_0_r. split; [done|]. split; [done|].
      eexists. split; [done|]. rewrite !map_length. split; [done|]. intros j e He. by rewrite !list_lookup_fmap, He.
    + rewrite (Hf (length es) 0%nat) by lia. cbn [mbind res_bind]. done.
Qed.
Definition slots_ok (P : Prop) (b off : N) (dsl : list dslot) (ess : list entries) : Prop :=
  length dsl = length ess /\ forall i s es, dsl !! i = Some s -> ess !! i = Some es ->
    slot_repr pf c kw vw P b (sstrip s) es /\ in_bk c kw b (off + N.of_nat i) es /\ sgood c kw vw b s es.
Lemma slots_ok_cons P b off s dsl es ess : slots_ok P b off (s :: dsl) (es :: ess) <->
  (slot_repr pf c kw vw P b (sstrip s) es /\ in_bk c kw b off es /\ sgood c kw vw b s es) /\ slots_ok P b (off + 1) dsl ess.
Proof.
  unfold slots_ok. cbn [length]. split.
  - intros [Hl H]. split; [|split; [lia|]].
    + specialize (H 0%nat s es eq_refl eq_refl). change (N.of_nat 0) with 0 in H. by rewrite N.add_0_r in H.
    + intros i s' es' Hs He. specialize (H (S i) s' es' Hs He). by replace (off + 1 + N.of_nat i) with (off + N.of_nat (S i)) by lia.
  - intros [H0 [Hl H]]. split; [lia|]. intros [|i] s' es' Hs He.
    + injection Hs as <-. injection He as <-. change (N.of_nat 0) with 0. by rewrite N.add_0_r.
    + specialize (H i s' es' Hs He). by replace (off + N.of_nat (S i)) with (off + 1 + N.of_nat i) by lia.
Qed.

Lemma dser_slots_spec d b : bmin <= b <= bmax -> dvwidth d = N.to_nat vw -> forall dsl ess off, slots_ok strict b off dsl ess ->
  exists xs, rmap (dser_slot pf c d (qw b)) dsl = Ok xs /\
    forall d', dhm c d' = hmk -> d_b d' = b -> dvwidth d' = N.to_nat vw -> forall st, exists dsl', slots_ok False b off dsl' ess
      /\ dde_slots pf c d' (qw b) off (replicate (length dsl) (fresh_dslot junk)) (map ds_size dsl) (concat xs ++ st) = Ok (dsl', st).
Proof.
  intros Hb Hv dsl. induction dsl as [|s dsl IH]; intros ess off Hok.
  - destruct ess; [|by destruct Hok]. exists []. split; [done|]. intros d' _ _ _ st. by exists [].
  - destruct ess as [|es ess]; [by destruct Hok|]. apply slots_ok_cons in Hok as [(Hs & Hin & Hg) Hok].
    destruct (dser_slot_spec d b off s es Hb Hv Hs Hin Hg) as (x & Ex & Dx). destruct (IH _ _ Hok) as (xs & Exs & Dxs).
    cbn [rmap]. rewrite Ex. cbn [mbind res_bind]. rewrite Exs. cbn [mbind res_bind]. exists (x :: xs). split; [done|].
    intros d' Hh' Hb' Hv' st. cbn [concat length replicate map dde_slots]. rewrite <-app_assoc.
    destruct (Dx d' Hh' Hb' Hv' (concat xs ++ st)) as (s' & Hs' & Hg' & ->). cbn [mbind res_bind snd fst].
    destruct (Dxs d' Hh' Hb' Hv' st) as (dsl' & Hok' & ->). cbn [mbind res_bind snd fst]. exists (s' :: dsl'). split; [|done]. by apply slots_ok_cons.
Qed.

(** The overflow without elements is treated alike by both builds. *)
Lemma dov_serialize_nil bo nbk o ovl : c_ov c <> OvArray -> ovrel pf (ov_side pf c kw) bo nbk o ovl -> dov_serialize pf c o = ov_serialize pf c o.
Proof. intros Harr. destruct o; [done| |done]. by intros (_ & [? _] & _). Qed.
Lemma dov_serialize_zero o : c_ov c <> OvArray -> ovzero pf (ov_side pf c kw) o -> dov_serialize pf c o = ov_serialize pf c o.
Proof. intros Harr. destruct o; [done| |done]. by intros [_ [? _]]. Qed.
Lemma dov_deserialize_zero kw0 o st : c_ov c <> OvArray -> ovzero pf (ov_side pf c kw0) o -> dov_deserialize pf c o st = ov_deserialize pf c o st.
Proof. intros Harr. destruct o; [done| |done]. by intros [_ [? _]]. Qed.

(** reserve on a table without buckets *)
Lemma dreserve_zero fuel d n : TableInv.tzero pf c kw vw (strip d) -> (c_arb c = true -> d_rs d = None) -> 1 <= n <= 2^63 -> bmin <= N.log2_up n <= bmax ->
  exists o, dreserve pf c junk fuel d n = Ok (DTable (Some (replicate (N.to_nat (2^N.log2_up n)) (fresh_dslot junk))) (N.log2_up n) (d_n d) (d_kw d) (d_vw d) o
    (if c_arb c then Some (2^N.log2_up n) else d_rs d)).
Proof.
  intros (Hb0 & _ & _ & _ & Ho & _) Hrs Hn Hb. unfold dreserve, dreserve_with. change (t_b (strip d)) with (d_b d) in Hb0. rewrite Hb0. cbn [N.eqb].
  unfold dalloc_table. rewrite reserve_bits_spec by done. cbn [mbind res_bind]. set (b := N.log2_up n) in *.
  assert (E : (if c_arb c then chk (match d_rs d with None => true | Some _ => false end) else Ok ()) = Ok ()) by (destruct (c_arb c); [by rewrite Hrs|done]).
  rewrite E. cbn [mbind res_bind]. change (t_ov (strip d)) with (d_ov d) in Ho.
  rewrite (dov_resize_ok pf (ov_side pf c kw) (d_ov d) (2^b) Ho); [|by intros (_ & _ & ?)|apply pow2_le_63; pose proof (ok_bounds _ _ _ _ _ _ OK _ Hb); lia].
  cbn [mbind res_bind]. by eexists.
Qed.
Lemma sum_sizes P b : forall dsl ess off, slots_ok P b off dsl ess -> fold_right N.add 0 (map ds_size dsl) = N.of_nat (length (concat ess)).
Proof.
  induction dsl as [|s dsl IH]; intros [|es ess] off Hok; [done|by destruct Hok|by destruct Hok|].
  apply slots_ok_cons in Hok as [(Hs & _) Hok]. cbn [map fold_right concat]. rewrite (IH _ _ Hok), app_length. destruct Hs as [Hs _]. change (ds_size s = N.of_nat (length es)) in Hs. lia.
Qed.

(** A table with buckets. *)
Lemma dserialize_full d sl ess : c_ov c <> OvArray -> kw < 2^8 -> vw < 2^8 -> TableInv.tinv pf c kw vw bmin bmax strict (strip d) sl ess [] -> dgood pf c kw vw strict d ->
  exists x, dserialize pf c d = Ok x /\
    forall fuel d0 dz kw0 vw0 st, dclear pf c d0 = Ok dz -> TableInv.tzero pf c kw0 vw0 (strip dz) -> (c_arb c = true -> d_rs dz = None) -> kw0 < 2^8 -> vw0 < 2^8 ->
    exists d' sl', ddeserialize pf c junk fuel d0 (x ++ st) = Ok (d', st) /\ TableInv.tinv pf c kw vw bmin bmax False (strip d') sl' ess []
      /\ dgood pf c kw vw False d' /\ d_b d' = d_b d.
Proof.
  intros Harr Hkw Hvw H G. unfold dserialize. pose proof (dt_ov _ _ _ _ _ _ _ _ _ _ _ H) as Hov. rewrite (dov_serialize_nil _ _ _ _ Harr Hov).
  destruct (ov_serialize_nil pf c kw _ _ _ Harr Hov) as (x0 & -> & D0). cbn [mbind res_bind].
  pose proof (dt_b _ _ _ _ _ _ _ _ _ _ _ H) as Hb. rewrite (dt_hm _ _ _ _ _ _ _ _ _ _ _ H).
  destruct (do_w _ _ _ _ _ _ DOK (d_b d) Hb) as [-> _]. cbn [mbind res_bind].
  destruct (dt_bc _ _ _ _ _ _ _ OK _ _ _ _ H) as [Hb0 ->]. pose proof (ok_bounds _ _ _ _ _ _ OK _ Hb) as Hb63.
  rewrite (proj2 (N.eqb_neq (2^(d_b d)) 0)) by (apply N.pow_nonzero; lia). pose proof G as (dsl & Hsl & Hrs & Hsg). rewrite Hsl.
  destruct (dt_len _ _ _ _ _ _ _ _ _ _ _ H dsl Hsl) as [Hlen _]. rewrite take_ge by lia.
  change (N.to_nat (remainder_width hmk (d_b d))) with (qw (d_b d)).
  assert (Hvd : dvwidth d = N.to_nat vw) by (unfold dvwidth; by rewrite (dt_vw _ _ _ _ _ _ _ _ _ _ _ H)).
  assert (Hok : slots_ok strict (d_b d) 0 dsl ess).
  { split.
    - pose proof (tinv_len _ _ _ _ _ _ _ _ _ _ _ H) as Hl. change (t_b (strip d)) with (d_b d) in Hl. lia.
    - intros i s es Hs He. destruct (dt_entries pf c junk kw vw bmin bmax strict OK DOK d sl ess [] H G (N.of_nat i) es) as (Hlt & s' & Hg' & Hr & Hin & Hsd); [by rewrite Nat2N.id|].
      unfold dget_slot in Hg'. rewrite Hsl in Hg'. rewrite Hlen, (proj2 (N.ltb_lt _ _)) in Hg' by done. rewrite Nat2N.id, Hs in Hg'. injection Hg' as <-. rewrite N.add_0_l. done. }
  destruct (dser_slots_spec d (d_b d) Hb Hvd dsl ess 0 Hok) as (xs & -> & Dxs). cbn [mbind res_bind].
  rewrite (dt_kw _ _ _ _ _ _ _ _ _ _ _ H), (dt_vw _ _ _ _ _ _ _ _ _ _ _ H).
  eexists; split; [done|]. intros fuel d0 dz kw0 vw0 st Hc Hz Hrz Hkw0 Hvw0. unfold ddeserialize. rewrite Hc. cbn [mbind res_bind].
  pose proof Hz as (Hzb & Hzn & Hzk & Hzv & Hzo0 & Hzs). pose proof (ovzero_width pf c kw _ _ Harr Hzo0) as Hzo.
  change (t_ov (strip dz)) with (d_ov dz) in Hzo. change (t_b (strip dz)) with (d_b dz) in Hzb.
  rewrite (dov_deserialize_zero kw _ _ Harr Hzo).
  rewrite <-!app_assoc. destruct (D0 (d_ov dz) (nbits 8 kw ++ nbits 8 vw ++ nbits 8 (d_b d) ++ nbits 64 (d_n d) ++
    concat (map (fun s => nbits 8 (ds_size s)) dsl) ++ concat xs ++ st) Hzo) as (o' & -> & Hzo'). cbn [mbind res_bind].
  rewrite read_var_app by (rewrite ?nbits_length; done). rewrite read_var_app by (rewrite ?nbits_length; done).
  cbn [used of_option mbind res_bind]. rewrite (do_new _ _ _ _ _ _ DOK). cbn [mbind res_bind].
  rewrite read_var_app; [|by rewrite replicate_length|change (2^N.of_nat 8) with 256; lia].
  cbn [used of_option mbind res_bind]. unfold shl64. rewrite (proj2 (N.ltb_lt _ _)) by lia. cbn [mbind res_bind].
  rewrite N.shiftl_1_l. rewrite (u64_small (2^(d_b d))) by (apply N.pow_lt_mono_r; lia).
  set (tt := DTable _ _ _ _ _ _ _).
  assert (Htt : TableInv.tzero pf c kw vw (strip tt)) by (repeat split; done).
  assert (Hn1 : 1 <= 2^(d_b d) <= 2^63). { split; [|apply pow2_le_63; lia]. pose proof (N.pow_nonzero 2 (d_b d) ltac:(done)). lia. }
  assert (Hlg : N.log2_up (2^(d_b d)) = d_b d) by (apply N.log2_up_pow2; lia).
  destruct (dreserve_zero fuel tt (2^(d_b d)) Htt Hrz Hn1) as (o1 & Ed); [by rewrite Hlg|].
  pose proof (dreserve_eq _ _ _ _ _ _ _ Ed) as Er. destruct (reserve_zero pf c kw vw bmin bmax False OK fuel (strip tt) (2^(d_b d)) Htt Hn1) as (t1 & sl1 & ess1 & Er' & H1 & Hb1 & Hc1); [by rewrite Hlg|].
  rewrite Er in Er'. injection Er' as <-. rewrite Ed. clear Er Ed. rewrite Hlg in *. cbn [mbind res_bind d_b d_n]. rewrite N.eqb_refl. cbn [chk mbind res_bind].
  rewrite read_var_app; [|by rewrite nbits_length|].
  2:{ change (d_n d) with (t_n (strip d)). rewrite (ti_n _ _ _ _ _ _ _ _ _ _ _ H). unfold u64. apply N.mod_lt. done. }
  cbn [used of_option mbind res_bind]. set (d1 := DTable (Some _) _ _ _ _ _ _) in *.
  rewrite (dt_hm pf c kw vw bmin bmax False d1 _ _ _ H1). change (d_b d1) with (d_b d). destruct (do_w _ _ _ _ _ _ DOK (d_b d) Hb) as [-> _]. cbn [mbind res_bind].
  destruct (dt_bc pf c kw vw bmin bmax False OK d1 _ _ _ H1) as [_ ->]. change (d_b d1) with (d_b d).
  rewrite (proj2 (N.eqb_neq (2^(d_b d)) 0)) by (apply N.pow_nonzero; lia). cbn [d1 d_slots].
  rewrite take_ge, drop_ge by (rewrite replicate_length; lia).
  rewrite st_read_app by (rewrite !sizes_length, replicate_length; lia).
  replace (N.to_nat (2^(d_b d))) with (length dsl) by lia.
  rewrite (de_sizes_spec ds_size).
  2:{ apply Forall_lookup. intros i s Hi. destruct (lookup_lt_is_Some_2 ess i) as [es He]; [destruct Hok as [<- _]; by eapply lookup_lt_Some|].
      destruct Hok as [_ Hok]. destruct (Hok i s es Hi He) as ((Hs & Hm & _) & _). change (ds_size s = N.of_nat (length es)) in Hs. rewrite Hs.
      pose proof (maxb_256 pf c kw vw bmin bmax OK). change (2^8) with 256. lia. }
  cbn [mbind res_bind]. fold d1. change (N.to_nat (remainder_width hmk (d_b d))) with (qw (d_b d)).
  destruct (Dxs d1) with (st := st) as (dsl' & Hok' & ->).
  { apply (dt_hm pf c kw vw bmin bmax False d1 _ _ _ H1). }
  { done. }
  { done. }
  cbn [mbind res_bind]. rewrite (sum_sizes _ _ _ _ _ Hok).
  assert (En : d_n d = u64 (N.of_nat (length (concat ess)))).
  { change (d_n d) with (t_n (strip d)). rewrite (ti_n _ _ _ _ _ _ _ _ _ _ _ H). by rewrite app_nil_r. }
  rewrite <-En, N.eqb_refl. cbn [chk mbind res_bind]. eexists _, (map sstrip dsl'). split; [done|].
  assert (Hl' : length dsl' = length dsl) by (destruct Hok as [-> _]; by destruct Hok' as [-> _]).
  rewrite app_nil_r. split; [|split; [|done]].
  - constructor; unfold strip; cbn [t_slots t_b t_n t_kw t_vw t_ov d_slots d_b d_n d_kw d_vw d_ov d1 tt]; try done.
    + rewrite map_length. by rewrite Hl'.
    + apply Forall2_same_length_lookup_2; [rewrite map_length; by destruct Hok'|]. intros i s es Hi He. change ((sstrip <$> dsl') !! i = Some s) in Hi.
      apply list_lookup_fmap_inv in Hi as (s' & -> & Hi). by apply (proj2 Hok' i).
    + exact (ti_placed _ _ _ _ _ _ _ _ _ _ _ H).
    + exact (ti_range _ _ _ _ _ _ _ _ _ _ _ H).
    + exact (ti_nodup _ _ _ _ _ _ _ _ _ _ _ H).
    + by rewrite app_nil_r.
    + exact (ti_ov _ _ _ _ _ _ _ _ _ _ _ H1).
  - exists dsl'. cbn [d_slots d_b d_rs d1]. split; [done|]. split; [by intros ->|]. intros i s Hi.
    destruct (lookup_lt_is_Some_2 ess i) as [es He]; [destruct Hok' as [<- _]; by eapply lookup_lt_Some|].
    destruct (proj2 Hok' i s es Hi He) as (Hr & Hin & Hg). exists es. rewrite N.add_0_l in Hin. done.
Qed.

(** A table without buckets: the copy claims to have one bucket in its resize strategy. *)
Lemma dserialize_zero d : c_ov c <> OvArray -> kw < 2^8 -> vw < 2^8 -> TableInv.tzero pf c kw vw (strip d) ->
  exists x, dserialize pf c d = Ok x /\
    forall fuel d0 dz kw0 vw0 st, dclear pf c d0 = Ok dz -> TableInv.tzero pf c kw0 vw0 (strip dz) -> (c_arb c = true -> d_rs dz = None) -> kw0 < 2^8 -> vw0 < 2^8 ->
    exists d', ddeserialize pf c junk fuel d0 (x ++ st) = Ok (d', st) /\ TableInv.tzero pf c kw vw (strip d') /\ d_rs d' = (if c_arb c then Some 1 else d_rs dz).
Proof.
  intros Harr Hkw Hvw (Hb & Hn & Hk & Hv & Ho & Hs). unfold dserialize. change (t_ov (strip d)) with (d_ov d) in Ho. change (t_b (strip d)) with (d_b d) in Hb.
  change (t_n (strip d)) with (d_n d) in Hn. change (t_kw (strip d)) with (d_kw d) in Hk. change (t_vw (strip d)) with (d_vw d) in Hv.
  rewrite (dov_serialize_zero _ Harr Ho). destruct (ov_serialize_zero pf c kw _ Harr Ho) as (x0 & -> & D0). cbn [mbind res_bind].
  assert (Hw : forall dd, d_kw dd = kw -> exists w, dremainder_width (dhm c dd) 0 = Ok w).
  { intros dd E. unfold dremainder_width, dhm, hm. cbn [h_kind h_width]. change (t_kw (strip dd)) with (d_kw dd). rewrite E. destruct (c_hash c); [|by eexists].
    pose proof (do_kw _ _ _ _ _ _ DOK). rewrite (proj2 (N.ltb_lt _ _)) by lia. by eexists. }
  rewrite Hb. destruct (Hw d Hk) as (w & ->). cbn [mbind res_bind]. unfold dbucket_count, bucket_count. change (t_b (strip d)) with (d_b d). rewrite Hb, Hn, Hk, Hv. cbn [N.eqb].
  eexists; split; [done|]. intros fuel d0 dz kw0 vw0 st Hc Hz Hrz Hkw0 Hvw0. unfold ddeserialize. rewrite Hc. cbn [mbind res_bind].
  pose proof Hz as (Hzb & Hzn & Hzk & Hzv & Hzo0 & Hzs). pose proof (ovzero_width pf c kw _ _ Harr Hzo0) as Hzo.
  change (t_ov (strip dz)) with (d_ov dz) in Hzo. change (t_b (strip dz)) with (d_b dz) in Hzb. rewrite (dov_deserialize_zero kw _ _ Harr Hzo).
  rewrite <-!app_assoc. destruct (D0 (d_ov dz) (nbits 8 kw ++ nbits 8 vw ++ nbits 8 0 ++ nbits 64 0 ++ st) Hzo) as (o' & -> & Hzo').
  cbn [mbind res_bind].
  rewrite read_var_app by (rewrite ?nbits_length; done). rewrite read_var_app by (rewrite ?nbits_length; done).
  cbn [used of_option mbind res_bind]. rewrite (do_new _ _ _ _ _ _ DOK). cbn [mbind res_bind]. rewrite read_var_app by (rewrite ?replicate_length; done).
  cbn [used of_option mbind res_bind]. change (shl64 1 0) with (Ok 1). cbn [mbind res_bind].
  unfold dreserve, dreserve_with. cbn [d_b]. rewrite Hzb. cbn [N.eqb]. unfold dalloc_table.
  change (reserve_bits 1) with (Ok 0). cbn [mbind res_bind d_n d_kw d_vw d_ov d_rs].
  assert (E : (if c_arb c then chk (match d_rs dz with None => true | Some _ => false end) else Ok ()) = Ok ()) by (destruct (c_arb c); [by rewrite Hrz|done]).
  rewrite E. cbn [mbind res_bind].
  rewrite (dov_resize_ok pf (ov_side pf c kw) o' (2^0) Hzo'); [|by intros (_ & _ & ?)|by vm_compute]. cbn [mbind res_bind d_b d_n]. cbn [N.eqb chk mbind res_bind].
  rewrite read_var_app by (rewrite ?nbits_length; done). cbn [used of_option mbind res_bind].
  match goal with |- context[dremainder_width (dhm c ?dd) 0] => destruct (Hw dd eq_refl) as (w' & ->) end. cbn [mbind res_bind].
  unfold dbucket_count, bucket_count. cbn [strip t_b d_b N.eqb chk mbind res_bind]. eexists; split; [done|].
  split; [|done]. unfold TableInv.tzero, strip, dset_n. cbn. repeat split; try done.
  - by apply ovzero_resize.
  - by constructor.
Qed.
End serial.
