(** Debug builds that serialize and deserialize, any number of times; what a debug build accepts; the two stream formats. *)
From Verif Require Export DebugSerialProofs.

(** d arises in a debug build from new tables by valid histories and by deserializing what serialize wrote, any number of times and in any
    nesting; a finite map that went through the same operations holds m.  A table without buckets is not copied if the resize strategy is
    arbitrary_resize. *)
Inductive dalive (pf : platform) (c : cfg) (junk : option N) : N -> N -> dtable -> gmap N N -> Prop :=
| dl_new kw vw d : params pf c kw vw -> debug_ok c junk kw vw -> dnew_table pf c kw vw = Ok d -> dalive pf c junk kw vw d ∅
| dl_map kw vw d m fuel ops d' outs : dalive pf c junk kw vw d m -> (64 <= fuel)%nat -> c_val c <> KNull ->
    valid_ops kw vw 1 (bits_max c kw) ops -> drun_ops pf c junk fuel d ops = Ok (d', outs) ->
    dalive pf c junk kw vw d' (fst (spec_run m ops))
| dl_set kw vw d m fuel ops d' outs : dalive pf c junk kw vw d m -> (64 <= fuel)%nat -> c_val c = KNull ->
    Forall (valid_sop kw 1 (bits_max c kw)) ops -> drun_sops pf c junk fuel d ops = Ok (d', outs) ->
    dalive pf c junk kw vw d' (gset_to_gmap 1 (fst (set_run (dom m) ops)))
| dl_copy kw vw d m x kw0 vw0 d0 m0 fuel rest d' : dalive pf c junk kw vw d m -> ov_size (d_ov d) = 0 -> (c_arb c = true -> d_b d <> 0) ->
    dserialize pf c d = Ok x -> dalive pf c junk kw0 vw0 d0 m0 -> ddeserialize pf c junk fuel d0 (x ++ rest) = Ok (d', rest) ->
    dalive pf c junk kw vw d' m.

Section alive.
Context (pf : platform) (c : cfg) (junk : option N).
Hypothesis CL : class_ok pf c.
Notation rep kw vw := (TableRefine.trep pf c kw vw 1 (bits_max c kw) False).

Lemma debug_byte kw vw : params pf c kw vw -> debug_ok c junk kw vw -> vw < 2^8.
Proof.
  intros P D. destruct (any_facts _ _ _ _ _ (or_introl P) D) as (OK & _ & DOK & _).
  pose proof (vw_le pf c junk kw vw 1 (bits_max c kw) OK DOK) as H. change (2^8) with 256. lia.
Qed.

(** What a copy and the original have in common. *)
Definition dcopied kw vw d d' (m : gmap N N) : Prop :=
  rep kw vw (strip d') m /\ d_b d' = d_b d /\ ((c_arb c = true -> d_b d <> 0) -> dpart pf c kw vw False d')
  /\ (d_b d = 0 -> TableInv.tzero pf c kw vw (strip d') /\ (c_arb c = true -> d_rs d' = Some 1)).
Lemma dcopy kw vw d m kw0 vw0 d0 m0 : params pf c kw vw -> debug_ok c junk kw vw -> rep kw vw (strip d) m -> dpart pf c kw vw False d -> ov_size (d_ov d) = 0 ->
  params pf c kw0 vw0 -> debug_ok c junk kw0 vw0 -> rep kw0 vw0 (strip d0) m0 -> dpart pf c kw0 vw0 False d0 ->
  exists x, dserialize pf c d = Ok x /\ forall fuel rest, exists d', ddeserialize pf c junk fuel d0 (x ++ rest) = Ok (d', rest) /\ dcopied kw vw d d' m.
Proof.
  intros P D Hr Hd Ho P0 D0 Hr0 Hd0. pose proof (params_byte _ _ _ _ P) as Hk. pose proof (params_byte _ _ _ _ P0) as Hk0.
  pose proof (debug_byte _ _ P D) as Hv. pose proof (debug_byte _ _ P0 D0) as Hv0.
  destruct (any_facts _ _ _ _ _ (or_introl P) D) as (OK & _ & DOK & _). destruct (any_facts _ _ _ _ _ (or_introl P0) D0) as (OK0 & SP0 & DOK0 & _).
  destruct (dclear_rep pf c kw0 vw0 1 (bits_max c kw0) False OK0 d0 m0 Hr0 Hd0 (noarr _ _ _ _ P0)) as (dz & Hc & Hdz).
  assert (Hz : tzero pf c kw0 vw0 (strip dz)).
  { destruct (rep_clear pf c kw0 vw0 (strip d0) m0 P0 Hr0) as (tz & Ec & Hz). apply dclear_eq in Hc. rewrite Hc in Ec. by injection Ec as ->. }
  assert (Hrz : c_arb c = true -> d_rs dz = None) by (by eapply dpart_zero).
  destruct Hr as [[Hzt ->]|(sl & ess & ovl & H & Hm)].
  - destruct (dserialize_zero pf c junk kw vw 1 (bits_max c kw) DOK d (noarr _ _ _ _ P) Hk Hv Hzt) as (x & E & Dx). exists x. split; [done|].
    intros fuel rest. destruct (Dx fuel d0 dz kw0 vw0 rest Hc Hz Hrz Hk0 Hv0) as (d' & E' & Hz' & Hrs). exists d'. split; [done|].
    pose proof Hzt as [Hb _]. pose proof Hz' as [Hb' _]. change (t_b (strip d)) with (d_b d) in Hb. change (t_b (strip d')) with (d_b d') in Hb'. split; [by left|].
    split; [by rewrite Hb, Hb'|]. split; [|intros _; split; [done|]; intros A; by rewrite Hrs, A].
    intros A. left. split; [done|]. intros A'. by specialize (A A').
  - assert (ovl = []) as ->.
    { change (d_ov d) with (t_ov (strip d)) in Ho. rewrite (ov_size_spec _ _ _ _ _ _ (ti_ov _ _ _ _ _ _ _ _ _ _ _ H)) in Ho. destruct ovl; [done|cbn in Ho; lia]. }
    assert (G : dgood pf c kw vw False d) by (by eapply (dpart_full pf c kw vw 1 (bits_max c kw) False OK)).
    destruct (dserialize_full pf c junk kw vw 1 (bits_max c kw) False OK DOK CL d sl ess (noarr _ _ _ _ P) Hk Hv H G) as (x & E & Dx). exists x. split; [done|].
    intros fuel rest. destruct (Dx fuel d0 dz kw0 vw0 rest Hc Hz Hrz Hk0 Hv0) as (d' & sl' & E' & H' & G' & Hb'). exists d'. split; [done|].
    split; [right; by exists sl', ess, []|]. split; [done|]. destruct (tinv_bc _ _ _ _ _ _ _ OK _ _ _ _ H) as [Hb0 _]. change (t_b (strip d)) with (d_b d) in Hb0. apply N.eqb_neq in Hb0.
    split; [|done]. intros _. right. by rewrite Hb'.
Qed.

Lemma dalive_rep kw vw d m : dalive pf c junk kw vw d m -> (params pf c kw vw /\ debug_ok c junk kw vw) /\ rep kw vw (strip d) m /\ dpart pf c kw vw False d.
Proof.
  induction 1 as [kw vw d P D E|kw vw d m fuel ops d' outs _ [[P D] [IH Hd]] Hf Hv Hops Hrun|kw vw d m fuel ops d' outs _ [[P D] [IH Hd]] Hf Hv Hops Hrun
    |kw vw d m x kw0 vw0 d0 m0 fuel rest d' _ [[P D] [IH Hd]] Ho Hb Hs _ [[P0 D0] [IH0 Hd0]] Hdd].
  - split; [done|]. destruct (any_facts _ _ _ _ _ (or_introl P) D) as (OK & _ & DOK & _).
    destruct (dnew_rep pf c junk kw vw 1 (bits_max c kw) False OK DOK) as (d1 & E1 & Hd1 & Hr1). rewrite E in E1. injection E1 as <-. done.
  - split; [done|]. destruct (any_facts _ _ _ _ _ (or_introl P) D) as (OK & SP & DOK & Hi & Hc & _).
    destruct (drun_ok pf c junk kw vw 1 (bits_max c kw) False OK DOK fuel SP Hf ops d m IH Hd Hi Hv) as (d1 & E & Hd1 & Hr1); [|done|by intros A; destruct (noarr _ _ _ _ P)|].
    + intros v Hlt. eapply cfg_values; [exact Hc|done|done].
    + rewrite Hrun in E. by injection E as <- _.
  - split; [done|]. destruct (any_facts _ _ _ _ _ (or_introl P) D) as (OK & SP & DOK & Hi & Hc & _).
    destruct (dset_run_ok pf c junk kw vw 1 (bits_max c kw) False OK DOK fuel SP Hf ops d (dom m)) as (d1 & E & Hd1 & Hr1); [by exists m|done|done|done|done|].
    rewrite Hrun in E. injection E as <- _. split; [|done]. destruct Hr1 as (m2 & Hm & <-). by rewrite <-(null_values' pf c _ _ _ _ Hv Hm).
  - split; [done|]. destruct (dcopy kw vw d m kw0 vw0 d0 m0 P D IH Hd Ho P0 D0 IH0 Hd0) as (x' & Es & Dx). rewrite Hs in Es. injection Es as <-.
    destruct (Dx fuel rest) as (d2 & E2 & Hr2 & _ & Hd2 & _). rewrite Hdd in E2. injection E2 as <-. split; [done|]. by apply Hd2.
Qed.

(** No check fails in what follows. *)
Definition quiet kw vw d (m : gmap N N) : Prop :=
  (forall fuel ops, (64 <= fuel)%nat -> c_val c <> KNull -> valid_ops kw vw 1 (bits_max c kw) ops ->
     exists d', drun_ops pf c junk fuel d ops = Ok (d', snd (spec_run m ops)))
  /\ (forall fuel ops, (64 <= fuel)%nat -> c_val c = KNull -> Forall (valid_sop kw 1 (bits_max c kw)) ops ->
     exists d', drun_sops pf c junk fuel d ops = Ok (d', snd (set_run (dom m) ops))).
Lemma part_quiet kw vw d m : params pf c kw vw -> debug_ok c junk kw vw -> rep kw vw (strip d) m -> dpart pf c kw vw False d -> quiet kw vw d m.
Proof.
  intros P D Hr Hd. destruct (any_facts _ _ _ _ _ (or_introl P) D) as (OK & SP & DOK & Hi & Hc & _). split.
  - intros fuel ops Hf Hv Hops. destruct (drun_ok pf c junk kw vw 1 (bits_max c kw) False OK DOK fuel SP Hf ops d m Hr Hd Hi Hv) as (d1 & E & _); [|done|by intros A; destruct (noarr _ _ _ _ P)|by exists d1].
    intros v Hlt. eapply cfg_values; [exact Hc|done|done].
  - intros fuel ops Hf Hv Hops.
    destruct (dset_run_ok pf c junk kw vw 1 (bits_max c kw) False OK DOK fuel SP Hf ops d (dom m)) as (d1 & E & _); [by exists m|done|done|done|done|by exists d1].
Qed.

Lemma debug_round_trip kw vw d m kw0 vw0 d0 m0 : dalive pf c junk kw vw d m -> ov_size (d_ov d) = 0 -> dalive pf c junk kw0 vw0 d0 m0 ->
  exists x, dserialize pf c d = Ok x /\ forall fuel rest, exists d', ddeserialize pf c junk fuel d0 (x ++ rest) = Ok (d', rest)
    /\ d_kw d' = kw /\ d_vw d' = vw /\ dbucket_count d' = dbucket_count d /\ shows pf c kw (strip d') m
    /\ ((c_arb c = true -> dbucket_count d <> 0) -> quiet kw vw d' m).
Proof.
  intros Ha Ho Ha0. destruct (dalive_rep _ _ _ _ Ha) as ([P D] & Hr & Hd). destruct (dalive_rep _ _ _ _ Ha0) as ([P0 D0] & Hr0 & Hd0).
  destruct (dcopy kw vw d m kw0 vw0 d0 m0 P D Hr Hd Ho P0 D0 Hr0 Hd0) as (x & E & Dx). exists x. split; [done|].
  intros fuel rest. destruct (Dx fuel rest) as (d' & E' & Hr' & Hb' & Hd' & _). exists d'. split; [done|].
  assert (Hw : d_kw d' = kw /\ d_vw d' = vw).
  { destruct Hr' as [[(_ & _ & Hk & Hv & _) _]|(sl & ess & ovl & H & _)]; [done|]. split; [apply (ti_kw _ _ _ _ _ _ _ _ _ _ _ H)|apply (ti_vw _ _ _ _ _ _ _ _ _ _ _ H)]. }
  split; [apply Hw|]. split; [apply Hw|]. split; [unfold dbucket_count, bucket_count; change (t_b (strip d')) with (d_b d'); by rewrite Hb'|].
  split; [by apply (trep_shows _ _ _ _ _ _ _ (params_ok0 _ _ _ _ P) _ _ (noarr _ _ _ _ P) Hr')|].
  intros A. apply part_quiet; try done. apply Hd'. intros A' Hz. apply (A A'). unfold dbucket_count, bucket_count. change (t_b (strip d)) with (d_b d). by rewrite Hz.
Qed.

(** The copy of a table without buckets refuses every insertion if the resize strategy is arbitrary_resize. *)
Lemma empty_copy kw vw d m kw0 vw0 d0 m0 : dalive pf c junk kw vw d m -> dbucket_count d = 0 -> c_arb c = true -> dalive pf c junk kw0 vw0 d0 m0 ->
  exists x, dserialize pf c d = Ok x /\ forall fuel rest, exists d', ddeserialize pf c junk fuel d0 (x ++ rest) = Ok (d', rest) /\ TableModel.size (strip d') = 0
    /\ forall f k v, dfind_or_insert pf c junk (S f) d' k v = Throw.
Proof.
  intros Ha Hb A Ha0. destruct (dalive_rep _ _ _ _ Ha) as ([P D] & Hr & Hd). destruct (dalive_rep _ _ _ _ Ha0) as ([P0 D0] & Hr0 & Hd0).
  destruct (any_facts _ _ _ _ _ (or_introl P) D) as (OK & SP & DOK & Hi & _).
  assert (Hb0 : d_b d = 0).
  { unfold dbucket_count, bucket_count in Hb. change (t_b (strip d)) with (d_b d) in Hb. destruct (N.eqb_spec (d_b d) 0) as [?|Hn]; [done|].
    pose proof (N.pow_nonzero 2 (d_b d) ltac:(done)). destruct (d_b d); [done|]. done. }
  assert (Ho : ov_size (d_ov d) = 0).
  { destruct Hr as [[(_ & _ & _ & _ & Ho & _) _]|(sl & ess & ovl & H & _)].
    - by apply (ov_zero_size _ _ _ Ho).
    - destruct (tinv_bc _ _ _ _ _ _ _ OK _ _ _ _ H) as [Hn _]. change (t_b (strip d)) with (d_b d) in Hn. by rewrite Hb0 in Hn. }
  destruct (dcopy kw vw d m kw0 vw0 d0 m0 P D Hr Hd Ho P0 D0 Hr0 Hd0) as (x & E & Dx). exists x. split; [done|].
  intros fuel rest. destruct (Dx fuel rest) as (d' & E' & _ & Hb' & _ & Hz). exists d'. split; [done|]. destruct (Hz Hb0) as [Hz' Hrs]. split; [by destruct Hz' as (_ & ? & _)|].
  intros f k v. cbn [dfind_or_insert]. pose proof Hz' as (_ & _ & Hk & _). change (t_kw (strip d')) with (d_kw d') in Hk. rewrite Hk.
  pose proof (do_kw _ _ _ _ _ _ DOK) as Hkw. rewrite (proj2 (N.ltb_lt _ _)) by lia. cbn [chk mbind res_bind]. rewrite Hb', Hb0. cbn [N.eqb].
  unfold dalloc_table. pose proof (ok_kw _ _ _ _ _ _ OK) as Hk64. rewrite sub64_small by lia.
  rewrite reserve_bits_spec; [|split; [lia|etrans; [apply N.le_min_r|by vm_compute]]]. cbn [mbind res_bind]. rewrite A, (Hrs A). done.
Qed.
End alive.

(** ** The two stream formats *)
(** What serialize of a debug build adds: m_length (and m_size) per bucket, the plain keys. *)
Definition hdr_bits (kd : bkind) : nat := match kd with KNull => 0 | KVar _ => 128 | _ => 64 end.
Definition slot_extra (c : cfg) (s : dslot) : nat :=
  if ds_size s =? 0 then 0 else (hdr_bits (c_key c) + hdr_bits (c_val c) + kbn c * N.to_nat (ds_size s))%nat.
Definition ov_extra (o : overflow) : nat := match o with OArray _ _ _ _ => 128%nat | _ => 0%nat end.
Definition stream_extra (c : cfg) (d : dtable) : nat :=
  (ov_extra (d_ov d) + match d_slots d with
   | None => 0
   | Some sl => fold_right Nat.add 0 (map (slot_extra c) (take (N.to_nat (dbucket_count d)) sl))
   end)%nat.

Section formats.
Context (pf : platform) (c : cfg).

Lemma ok_eq {A} (x y : A) : Ok x = Ok y -> y = x.
Proof. by intros [= ->]. Qed.
Lemma db_serialize_sub kd b size w x : db_serialize pf kd b size w = Ok x ->
  exists y, b_serialize pf kd (k_b b) size w = Ok y /\ y `sublist_of` x /\ length x = (length y + hdr_bits kd)%nat.
Proof.
  unfold db_serialize. destruct kd.
  5: by intros [= <-]; exists [].
  all: intros H; dinv_all H; apply ok_eq in H as ->; eexists; (split; [done|]); (split; [|rewrite !app_length, !nbits_length; cbn [hdr_bits]; lia]).
  4: rewrite app_assoc.
  all: by apply sublist_inserts_l.
Qed.
Lemma dov_serialize_sub o x : dov_serialize pf c o = Ok x ->
  exists y, ov_serialize pf c o = Ok y /\ y `sublist_of` x /\ length x = (length y + ov_extra o)%nat.
Proof.
  destruct o as [|ks vs e fl|nb els fl]; [intros H; exists x; cbn [ov_extra]; split; [done|]; split; [done|lia]| |intros H; exists x; cbn [ov_extra]; split; [done|]; split; [done|lia]].
  cbn [dov_serialize]. intros H. dinv_all H. apply ok_eq in H as ->.
  destruct (db_serialize_sub _ _ _ _ _ E) as (y1 & E1 & S1 & L1). destruct (db_serialize_sub _ _ _ _ _ E0) as (y2 & E2 & S2 & L2).
  cbn [ov_serialize]. cbn [arr_dbk k_b] in *. rewrite E1. cbn [mbind res_bind]. rewrite E2. cbn [mbind res_bind]. eexists. split; [done|]. split.
  - apply sublist_app; [done|]. by apply sublist_app.
  - rewrite !app_length, L1, L2. cbn [hdr_bits ov_extra]. lia.
Qed.
Lemma dser_slot_sub d w s x : w = qwidth c (strip d) -> dser_slot pf c d w s = Ok x ->
  exists y, ser_slot pf c (strip d) (sstrip s) = Ok y /\ y `sublist_of` x /\ length x = (length y + slot_extra c s)%nat.
Proof.
  intros -> H. unfold dser_slot in H. unfold ser_slot, slot_extra. cbn [sstrip s_size s_keys s_vals].
  destruct (ds_size s =? 0); [apply ok_eq in H as ->; by exists []|]. dinv_all H.
  destruct (ds_plain s) as [cs|]; [|done]. dinv_all H. apply ok_eq in H as ->.
  destruct (db_serialize_sub _ _ _ _ _ E) as (y1 & F1 & S1 & L1). destruct (db_serialize_sub _ _ _ _ _ E0) as (y2 & F2 & S2 & L2).
  rewrite F1. cbn [mbind res_bind]. change (vwidth (strip d)) with (dvwidth d). rewrite F2. cbn [mbind res_bind]. eexists. split; [done|]. split.
  - apply sublist_app; [done|]. by apply sublist_inserts_r.
  - rewrite !app_length, L1, L2. unfold cells_prefix in E1. destruct (Nat.leb_spec (N.to_nat (ds_size s)) (length cs)) as [Hl|]; [|done]. injection E1 as <-.
    rewrite concat_cell_bits_length, take_length, Nat.min_l by lia. lia.
Qed.
Lemma dser_slots_sub d w sl xs : w = qwidth c (strip d) -> rmap (dser_slot pf c d w) sl = Ok xs ->
  exists ys, rmap (ser_slot pf c (strip d)) (map sstrip sl) = Ok ys /\ concat ys `sublist_of` concat xs
    /\ length (concat xs) = (length (concat ys) + fold_right Nat.add 0 (map (slot_extra c) sl))%nat.
Proof.
  intros Hw. revert xs. induction sl as [|s sl IH]; cbn [rmap map]; intros xs H; [apply ok_eq in H as ->; by exists []|].
  dinv1 H. dinv1 H. apply ok_eq in H as ->. destruct (dser_slot_sub _ _ _ _ Hw E) as (y & Ey & Sy & Ly). destruct (IH _ eq_refl) as (ys & Eys & Sys & Lys).
  rewrite Ey. cbn [mbind res_bind]. rewrite Eys. cbn [mbind res_bind]. eexists. split; [done|]. cbn [concat fold_right]. split; [by apply sublist_app|].
  rewrite !app_length. lia.
Qed.
Lemma dserialize_sub d x : dserialize pf c d = Ok x ->
  exists y, serialize pf c (strip d) = Ok y /\ y `sublist_of` x
    /\ length x = (length y + stream_extra c d)%nat.
Proof.
  unfold dserialize, serialize. intros H. dinv1 H. destruct (dov_serialize_sub _ _ E) as (yo & Eo & So & Lo).
  change (t_ov (strip d)) with (d_ov d). rewrite Eo. cbn [mbind res_bind]. dinv1 H. apply dremainder_width_eq in E0.
  change (bucket_count (strip d)) with (dbucket_count d). change (t_kw (strip d)) with (d_kw d). change (t_vw (strip d)) with (d_vw d).
  change (t_b (strip d)) with (d_b d). change (t_n (strip d)) with (d_n d).
  destruct (N.eqb_spec (dbucket_count d) 0) as [E1|_].
  - apply ok_eq in H as ->. eexists. split; [done|]. split; [by apply sublist_app|]. rewrite !app_length. unfold stream_extra. rewrite E1.
    destruct (d_slots d); change (N.to_nat 0) with 0%nat; rewrite ?take_0; cbn [map fold_right]; lia.
  - unfold stream_extra. cbn [strip t_slots]. destruct (d_slots d) as [sl|]; [|done]. dinv1 H. apply ok_eq in H as ->. cbn [fmap option_fmap option_map].
    rewrite E0 in E1. destruct (dser_slots_sub d _ _ _ eq_refl E1) as (ys & Ey & Sy & Ly). rewrite firstn_map, Ey. cbn [mbind res_bind]. eexists. split; [done|].
    assert (Hm : map (fun s => nbits 8 (s_size s)) (map sstrip (take (N.to_nat (dbucket_count d)) sl)) = map (fun s => nbits 8 (ds_size s)) (take (N.to_nat (dbucket_count d)) sl)) by (by rewrite map_map).
    rewrite Hm. split; [apply sublist_app; [done|]; apply sublist_app; [done|]; by apply sublist_app|].
    rewrite !app_length. lia.
Qed.
End formats.

(** ** What deserialize of a debug build accepts *)
Section accept.
Context (pf : platform) (c : cfg) (junk : option N).

(** The plain keys of a bucket are the keys that a release build reads from it. *)
Definition readable (t : table) (bk : N) (s : dslot) : Prop :=
  ds_size s <> 0 -> exists cs, ds_plain s = Some cs /\ forall j, (j < N.to_nat (ds_size s))%nat ->
    exists r k, b_read pf (c_key c) (k_b (ds_keys s)) j (qwidth c t) = Ok r /\ hash_inv_map (hm c t) (r mod 2^(c_keybits c)) bk (t_b t) = Ok k /\ cs !! j = Some (Some k).

Lemma plain_checks d k cs bk w l : rfold (fun (_ : unit) i => plain_check pf c d k cs bk w i) l () = Ok () ->
  forall j, j ∈ l -> plain_check pf c d k cs bk w j = Ok ().
Proof.
  induction l as [|i l IH]; cbn [rfold]; intros H j Hj; [by apply elem_of_nil in Hj|].
  dinv1 H. destruct a. apply elem_of_cons in Hj as [->|Hj]; [done|]. by apply IH.
Qed.
Lemma dde_slot_accept d w bk a size s a' s' : w = qwidth c (strip d) -> dde_slot pf c d w bk a size s = Ok (a', s') ->
  ds_size a' = size /\ readable (strip d) bk a'.
Proof.
  intros -> H. unfold dde_slot in H. destruct (N.eqb_spec size 0) as [->|Hn].
  { injection H as <- _. split; [done|]. intros A. by destruct A. }
  dinv1 H. destruct a0 as [k s1]. dinv1 H. destruct a0 as [v s2]. cbv zeta in H. destruct (st_read _ _) as [got s3]. dinv1 H. destruct a0. injection H as <- _.
  split; [done|]. intros _. cbn [ds_plain ds_size ds_keys]. eexists. split; [done|]. intros j Hj.
  pose proof (plain_checks _ _ _ _ _ _ E1 j ltac:(apply elem_of_list_In, in_seq; lia)) as P. unfold plain_check in P. dinv1 P. cbv zeta in P. dinv1 P. dinv1 P.
  apply chk_true, N.eqb_eq in P. subst a1. exists a0, a2. apply db_read_eq in E2. apply dhash_inv_map_eq in E3. split; [done|]. split; [done|].
  unfold cell_read in E4. destruct (_ !! j) as [[?|]|]; [|done..]. by injection E4 as ->.
Qed.
Lemma dde_slots_accept d w sl sizes : w = qwidth c (strip d) -> length sl = length sizes -> forall bk s sl' s', dde_slots pf c d w bk sl sizes s = Ok (sl', s') ->
  map ds_size sl' = sizes /\ forall i x, sl' !! i = Some x -> readable (strip d) (bk + N.of_nat i) x.
Proof.
  intros Hw. revert sizes. induction sl as [|a sl IH]; intros [|n sizes] Hl bk s sl' s' H; try done.
  { injection H as <- _. split; [done|]. intros i x Hx. done. }
  cbn [dde_slots] in H. dinv1 H. destruct a0 as [a' s1]. dinv1 H. destruct a0 as [l s2]. injection H as <- _. cbn [fst snd] in *.
  destruct (dde_slot_accept _ _ _ _ _ _ _ _ Hw E) as [Hs Hr]. destruct (IH sizes ltac:(by injection Hl) _ _ _ _ E0) as [Hm Hrs].
  split; [cbn [map]; by rewrite Hs, Hm|]. intros [|i] x Hx; [injection Hx as <-; by rewrite N.add_0_r|].
  replace (bk + N.of_nat (S i)) with (bk + 1 + N.of_nat i) by lia. by apply Hrs.
Qed.
Lemma de_sizes_length n s l : de_sizes n s = Ok l -> length l = n.
Proof. revert s l. induction n as [|n IH]; cbn [de_sizes]; intros s l H; [by injection H as <-|]. dinv1 H. dinv1 H. injection H as <-. cbn. f_equal. by eapply IH. Qed.

Lemma deserialize_accepts fuel d0 s d rest : (d_slots d0 = None -> d_b d0 = 0) -> ddeserialize pf c junk fuel d0 s = Ok (d, rest) ->
  exists sl, d_slots d = Some sl /\ length sl = N.to_nat (2^(d_b d))
    /\ (dbucket_count d = 0 -> d_n d = 0)
    /\ (dbucket_count d <> 0 -> d_n d = u64 (fold_right N.add 0 (map ds_size sl)) /\ forall i x, sl !! i = Some x -> readable (strip d) (N.of_nat i) x).
Proof.
  intros H0 H. unfold ddeserialize in H. dinv1 H. rename a into dz, E into Ez.
  assert (Hz : d_b dz = 0).
  { unfold dclear in Ez. destruct (d_slots d0); [|dinv1 Ez; injection Ez as <-; by apply H0].
    dinv1 Ez. unfold dclear_structure in Ez. dinv1 Ez. injection Ez as <-. unfold clear_structure in E0. dinv1 E0. dinv1 E0. by injection E0 as <-. }
  dinv1 H. destruct a as [o s1]. destruct (read_var s1 _) as [kwo s2]. destruct (read_var s2 _) as [vwo s3].
  dinv1 H. rename a into kw. dinv1 H. rename a into vw. dinv1 H. destruct (read_var s3 _) as [bo s4]. dinv1 H. rename a0 into b. dinv1 H. rename a0 into n.
  dinv1 H. rename a0 into d1, E5 into Er. destruct (d_b d1 =? b) eqn:Eb; [|done]. cbn [chk mbind res_bind] in H.
  destruct (read_var s4 _) as [no s5]. dinv1 H. rename a0 into ne. dinv1 H. rename a0 into w. match goal with E : dremainder_width _ _ = Ok _ |- _ => apply dremainder_width_eq in E as Ew; clear E end.
  unfold dreserve, dreserve_with in Er. cbn [d_b] in Er. rewrite Hz in Er. cbn [N.eqb] in Er. unfold dalloc_table in Er. dinv1 Er. rename a0 into bits.
  dinv1 Er. dinv1 Er. injection Er as <-. cbn [d_slots d_b d_n d_kw d_vw d_ov d_rs] in *.
  set (d1 := DTable _ bits _ _ _ _ _) in *.
  destruct (dbucket_count d1 =? 0) eqn:Ebc.
  - destruct (N.eqb_spec ne 0) as [->|]; [|done]. cbn [chk mbind res_bind] in H. injection H as <- _. cbn [dset_n d_slots d_b d_n]. eexists. split; [done|]. split; [by rewrite replicate_length|].
    split; [done|]. apply N.eqb_eq in Ebc. intros A. by destruct A.
  - destruct (st_read s5 _) as [sb s6]. dinv1 H. rename a2 into sizes. dinv1 H. destruct a2 as [sl' s7].
    match goal with E : de_sizes _ _ = Ok _ |- _ => rename E into Esz end. match goal with E : dde_slots _ _ _ _ _ _ _ _ = Ok _ |- _ => rename E into Esl end.
    destruct (N.eqb_spec ne (u64 (fold_right N.add 0 sizes))) as [->|]; [|done]. cbn [chk mbind res_bind] in H. injection H as <- _. cbn [d_slots d_b d_n].
    assert (Hnb : N.to_nat (dbucket_count d1) = N.to_nat (2^bits)).
    { unfold dbucket_count, bucket_count in *. change (t_b (strip d1)) with bits in *. by destruct (bits =? 0). }
    rewrite Hnb in *. pose proof (de_sizes_length _ _ _ Esz) as Hls.
    rewrite take_ge in Esl by (by rewrite replicate_length). rewrite drop_ge, app_nil_r by (by rewrite replicate_length).
    rewrite Ew in Esl. change (N.to_nat (remainder_width (dhm c d1) bits)) with (qwidth c (strip d1)) in Esl.
    apply dde_slots_accept in Esl as [Hm Hr]; [|done|by rewrite replicate_length, Hls].
    assert (Hl' : length sl' = N.to_nat (2^bits)) by (by rewrite <-(map_length ds_size sl'), Hm).
    exists sl'. split; [done|]. split; [done|]. split.
    { intros A. unfold dbucket_count in A. change (bucket_count _) with (dbucket_count d1) in A. by rewrite A in Ebc. }
    intros _. split; [by rewrite Hm|]. intros i x Hx. exact (Hr i x Hx).
Qed.
End accept.
