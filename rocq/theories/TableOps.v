(** Insertion, rehashing, erasure, value writes, shrinking and clearing of separate_chaining_table. *)
From Verif Require Export TableInv.

Section ops.
Context (pf : platform) (c : cfg) (kw vw bmin bmax : N) (strict : Prop).
Notation hq := (hq c kw). Notation hb := (hb c kw). Notation qw := (qw c kw). Notation nv := (nv c vw).
Notation fair := (ov_side pf c kw).
Notation srepr := (slot_repr pf c kw vw strict).
Notation tinv := (tinv pf c kw vw bmin bmax strict).
Notation tcon := (tcon pf c kw vw bmin bmax strict).
Notation tzero := (tzero pf c kw vw).
Notation nav_entry := (nav_entry pf).
Hypothesis OK : table_ok0 pf c kw vw bmin bmax.

Implicit Types (t tmp : table) (ess : list entries) (ovl E : entries) (sl : list slot).

Lemma tcon_perm B t E E' : E ≡ₚ E' -> tcon B t E -> tcon B t E'.
Proof. intros HE (sl & ess & ovl & H & HB & Hp). exists sl, ess, ovl. split; [done|]. split; [done|]. by rewrite Hp. Qed.
Lemma tcon_nodup B t E : tcon B t E -> NoDup (keys_of E).
Proof. intros (sl & ess & ovl & H & _ & Hp). rewrite <-Hp. apply H. Qed.

(** ** Rehashing *)
Section rehash.
(** The temporary map holds entries as R says. *)
Context (ins : table -> N -> N -> res (table * nav)) (R : table -> entries -> Prop) (L : nat).
Hypothesis R_perm : forall t E E', E ≡ₚ E' -> R t E -> R t E'.
Hypothesis Hins : forall tmp E k v, R tmp E -> (length E < L)%nat -> kdom c kw k -> nv v = v -> k ∉ keys_of E ->
  exists r, ins tmp k v = Ok r /\ R (fst r) ((k, v) :: E).

Lemma rehash_bucket t s es i : bmin <= t_b t <= bmax -> t_kw t = kw -> t_vw t = vw -> srepr (t_b t) s es ->
  (forall k v, (k, v) ∈ es -> hb (t_b t) k = N.of_nat i /\ kdom c kw k /\ nv v = v) ->
  forall n j tmp E, (j + n = length es)%nat -> R tmp E -> NoDup (keys_of (drop j es ++ E)) -> (length (drop j es ++ E) <= L)%nat ->
  exists tmp', rfold (fun tmp j =>
        q ← b_read pf (c_key c) (s_keys s) j (qwidth c t);
        k ← hash_inv_map (hm c t) q (N.of_nat i) (t_b t);
        v ← b_read pf (c_val c) (s_vals s) j (vwidth t);
        r ← ins tmp k v;
        Ok (fst r)) (seq j n) tmp = Ok tmp' /\ R tmp' (drop j es ++ E).
Proof.
  intros Hb Hk Hv Hr Hes.
  assert (Hhm : hm c t = hmk c kw) by (unfold hm, hmk; by rewrite Hk).
  assert (Hq : qwidth c t = qw (t_b t)) by (unfold qwidth, TableProofs.qw; by rewrite Hhm).
  assert (Hvw : vwidth t = N.to_nat vw) by (unfold vwidth; by rewrite Hv).
  induction n as [|n IH]; intros j tmp E Hj Htmp Hnd HL.
  - cbn. exists tmp. split; [done|]. by rewrite drop_ge by lia.
  - destruct (lookup_lt_is_Some_2 es j ltac:(lia)) as [[k v] Hp].
    destruct (Hes k v ltac:(by eapply elem_of_list_lookup_2)) as (Hhb & Hkr & Hvr).
    rewrite (drop_S _ _ _ Hp) in Hnd, HL |- *. cbn [seq rfold]. cbn [app length] in HL. rewrite app_length in HL.
    rewrite Hq, Hvw, Hhm.
    rewrite (slot_read_key pf c kw vw bmin bmax strict OK _ _ _ _ _ _ Hb Hr Hp). cbn [mbind res_bind].
    destruct (ok_map _ _ _ _ _ _ OK (t_b t) k Hb Hkr) as (_ & _ & _ & Hinv). rewrite Hhb in Hinv. rewrite Hinv.
    cbn [mbind res_bind].
    rewrite (slot_read_val pf c kw vw bmin bmax strict OK _ _ _ _ _ _ Hr Hp). cbn [mbind res_bind].
    cbn [app] in Hnd. cbn [fmap list_fmap fst] in Hnd. apply NoDup_cons in Hnd as [Hk1 Hnd].
    assert (Hni : k ∉ keys_of E) by (intros Hin; apply Hk1; rewrite fmap_app; apply elem_of_app; by right).
    destruct (Hins _ _ _ _ Htmp ltac:(lia) Hkr Hvr Hni) as (r & -> & Hr'). cbn [mbind res_bind].
    destruct (IH (S j) (fst r) ((k, v) :: E)) as (tmp' & Hf & Ht').
    + lia.
    + done.
    + assert (HP : drop (S j) es ++ (k, v) :: E ≡ₚ (k, v) :: drop (S j) es ++ E) by solve_Permutation.
      rewrite HP. cbn. by apply NoDup_cons.
    + rewrite app_length. cbn [length]. lia.
    + exists tmp'. rewrite Hq, Hvw, Hhm in Hf. split; [exact Hf|]. eapply R_perm; [|exact Ht']. solve_Permutation.
Qed.

Lemma rehash_slot_spec t s es i tmp E : bmin <= t_b t <= bmax -> t_kw t = kw -> t_vw t = vw -> srepr (t_b t) s es ->
  (forall k v, (k, v) ∈ es -> hb (t_b t) k = N.of_nat i /\ kdom c kw k /\ nv v = v) ->
  R tmp E -> NoDup (keys_of (es ++ E)) -> (length (es ++ E) <= L)%nat ->
  exists tmp', rehash_slot pf c ins t tmp (i, s) = Ok tmp' /\ R tmp' (es ++ E).
Proof.
  intros Hb Hk Hv Hr Hes Htmp Hnd HL. unfold rehash_slot. pose proof Hr as (Hsz & _).
  destruct (N.eqb_spec (s_size s) 0) as [E0|E0].
  - destruct (slot_free _ _ _ _ _ _ _ _ Hr) as [-> H2]. cbn [mbind res_bind]. rewrite H2. cbn [mbind res_bind].
    exists tmp. split; [done|]. destruct es; [done|cbn in Hsz; lia].
  - rewrite Hsz, Nat2N.id.
    destruct (rehash_bucket t s es i Hb Hk Hv Hr Hes (length es) 0 tmp E ltac:(done) Htmp Hnd HL) as (tmp' & -> & Ht').
    cbn [mbind res_bind]. rewrite (slot_clear _ _ _ _ _ _ _ _ Hr). cbn. by exists tmp'.
Qed.

Lemma rehash_slots t : bmin <= t_b t <= bmax -> t_kw t = kw -> t_vw t = vw ->
  forall sl ess i tmp E, Forall2 (srepr (t_b t)) sl ess ->
  (forall j es k v, ess !! j = Some es -> (k, v) ∈ es -> hb (t_b t) k = N.of_nat (i + j) /\ kdom c kw k /\ nv v = v) ->
  R tmp E -> NoDup (keys_of (concat ess ++ E)) -> (length (concat ess ++ E) <= L)%nat ->
  exists tmp', rfold (rehash_slot pf c ins t) (imap (fun j s => ((i + j)%nat, s)) sl) tmp = Ok tmp'
    /\ R tmp' (concat ess ++ E).
Proof.
  intros Hb Hk Hv. induction sl as [|s sl IH]; intros ess i tmp E HF Hpl Htmp Hnd HL.
  - apply Forall2_nil_inv_l in HF as ->. cbn. by exists tmp.
  - apply Forall2_cons_inv_l in HF as (es & ess' & Hs & HF & ->). rewrite imap_cons. cbn [rfold concat].
    cbn [concat] in Hnd, HL. rewrite !app_length in HL.
    assert (HP : (es ++ concat ess') ++ E ≡ₚ concat ess' ++ es ++ E) by solve_Permutation.
    assert (Hnd2 : NoDup (keys_of (es ++ E))) by (rewrite HP, fmap_app in Hnd; by apply NoDup_app in Hnd as (_ & _ & ?)).
    rewrite HP in Hnd.
    destruct (rehash_slot_spec t s es (i + 0)%nat tmp E Hb Hk Hv Hs) as (tmp1 & -> & Ht1); [|done|done|rewrite app_length; lia|].
    { intros k v Hin. by apply (Hpl O es). }
    cbn [mbind res_bind].
    destruct (IH ess' (S i) tmp1 (es ++ E) HF) as (tmp2 & Hf & Ht2); [|done|done|rewrite !app_length; lia|].
    { intros j es' k v Hj Hin. replace (S i + j)%nat with (i + S j)%nat by lia. by apply (Hpl (S j) es'). }
    exists tmp2. split.
    + rewrite <-Hf. f_equal. apply imap_ext. intros j x _. cbn. f_equal. lia.
    + eapply R_perm; [|exact Ht2]. solve_Permutation.
Qed.

Lemma rehash_overflow_spec bo nbk nb els full : ovrel pf fair bo nbk (OUmap nb els full) els -> NoDup (keys_of els) ->
  (forall k v, (k, v) ∈ els -> kdom c kw k /\ nv v = v) ->
  forall fuel i tmp E, (N.to_nat (nb - i) < fuel)%nat -> (i < nb -> um_empty pf nb els i = false) ->
  R tmp E -> NoDup (keys_of (um_rest pf nb els i ++ E)) -> (length (um_rest pf nb els i ++ E) <= L)%nat ->
  exists tmp', rehash_overflow pf c fuel ins (OUmap nb els full) i tmp = Ok tmp' /\ R tmp' (um_rest pf nb els i ++ E).
Proof.
  intros Ho Hkn Hrange. pose proof Ho as (_ & [Hnb _] & Hnd & _ & _).
  induction fuel as [|f IH]; intros i tmp E Hf Hi Htmp Hndk HL; [lia|].
  cbn [rehash_overflow ov_valid]. destruct (N.ltb_spec i nb) as [Hlt|Hge]; cbn [andb].
  - specialize (Hi Hlt). rewrite Hi. cbn [negb ov_key ov_get].
    unfold um_empty in Hi. destruct (um_chain pf nb els i) as [|[k v] rest] eqn:Ec; [done|].
    cbn [mbind res_bind].
    assert (Hc : (k, v) ∈ um_chain pf nb els i) by (rewrite Ec; by constructor).
    apply um_chain_elem in Hc as [Hin Hpos]. cbn [fst] in Hpos.
    destruct (Hrange _ _ Hin) as [Hk Hv]. pose proof (um_rest_step pf nb els i k v Hkn Hnd Hin Hpos) as HP.
    rewrite HP in Hndk, HL. cbn [app length] in HL. rewrite app_length in HL. cbn in Hndk. apply NoDup_cons in Hndk as [Hk1 Hndk]. rewrite fmap_app in Hk1.
    destruct (Hins tmp E k v Htmp ltac:(lia) Hk Hv) as (r & -> & Hr); [intros Hx; apply Hk1, elem_of_app; by right|].
    cbn [mbind res_bind ov_next].
    destruct (um_scan_spec pf nb els (N.to_nat nb) (i + 1)) as (Hq1 & Hq2 & Hq3); [lia|]. cbv zeta in Hq1, Hq2, Hq3.
    set (q := um_scan pf (N.to_nat nb) nb els (i + 1)) in *.
    rewrite (um_rest_skip pf nb els (i + 1) q Hq1 Hq2) in HP, Hndk, Hk1, HL.
    destruct (IH q (fst r) ((k, v) :: E)) as (tmp' & Ht1 & Ht2); [lia|done|done| |rewrite app_length; cbn [length]; lia|].
    { assert (HP2 : um_rest pf nb els q ++ (k, v) :: E ≡ₚ (k, v) :: um_rest pf nb els q ++ E) by solve_Permutation.
      rewrite HP2. cbn. apply NoDup_cons. rewrite fmap_app. split; [done|]. by rewrite <-fmap_app. }
    exists tmp'. split; [exact Ht1|]. eapply R_perm; [|exact Ht2]. rewrite HP. solve_Permutation.
  - exists tmp. split; [done|]. by rewrite um_rest_end by lia.
Qed.

(** Array positions i, i+1, ... *)
Lemma rehash_array_spec ovl full : (length ovl <= 256)%nat -> (forall k v, (k, v) ∈ ovl -> kdom c kw k /\ nv v = v) ->
  forall fuel i tmp E, (length ovl - i < fuel)%nat -> (i <= length ovl)%nat ->
  R tmp E -> NoDup (keys_of (drop i ovl ++ E)) -> (length (drop i ovl ++ E) <= L)%nat ->
  exists tmp', rehash_overflow pf c fuel ins (arr_state pf ovl full) (N.of_nat i) tmp = Ok tmp' /\ R tmp' (drop i ovl ++ E).
Proof.
  intros Hl Hrange. induction fuel as [|f IH]; intros i tmp E Hf Hi Htmp Hndk HL; [lia|].
  cbn [rehash_overflow]. destruct (ovl !! i) as [[k v]|] eqn:Ei.
  - destruct (arr_at pf (kbn c) (vbn c) ovl full _ _ _ Ei) as (-> & -> & ->). cbn [mbind res_bind].
    destruct (Hrange k v) as [Hk Hv]; [by eapply elem_of_list_lookup_2|].
    pose proof (drop_S ovl (k, v) i Ei) as Hd. rewrite Hd in Hndk, HL. cbn [app length] in HL. cbn in Hndk.
    apply NoDup_cons in Hndk as [Hk1 Hndk]. rewrite fmap_app in Hk1.
    destruct (Hins tmp E k v Htmp ltac:(rewrite app_length in HL; lia) Hk Hv) as (r & -> & Hr); [intros Hx; apply Hk1, elem_of_app; by right|].
    cbn [mbind res_bind]. pose proof (lookup_lt_Some _ _ _ Ei) as Hlt.
    assert (En : ov_next pf (arr_state pf ovl full) (N.of_nat i) = N.of_nat (S i)).
    { cbn [ov_next arr_state]. rewrite u64_small; [lia|]. change (2^64) with 18446744073709551616. lia. }
    rewrite En.
    assert (HP : drop (S i) ovl ++ (k, v) :: E ≡ₚ (k, v) :: drop (S i) ovl ++ E) by solve_Permutation.
    destruct (IH (S i) (fst r) ((k, v) :: E)) as (tmp' & Ht1 & Ht2); [lia|lia|done| | |].
    { rewrite HP. cbn. apply NoDup_cons. rewrite fmap_app. split; [done|]. by rewrite <-fmap_app. }
    { rewrite HP. cbn [length]. lia. }
    exists tmp'. split; [exact Ht1|]. eapply R_perm; [|exact Ht2]. rewrite Hd. solve_Permutation.
  - apply lookup_ge_None in Ei. cbn [ov_valid arr_state]. rewrite (proj2 (N.ltb_ge _ _)) by lia.
    exists tmp. split; [done|]. by rewrite drop_ge by lia.
Qed.

Lemma rehash_overflow_all bo nbk o ovl tmp E : ovrel pf fair bo nbk o ovl -> NoDup (keys_of (ovl ++ E)) ->
  (forall k v, (k, v) ∈ ovl -> kdom c kw k /\ nv v = v) -> R tmp E -> (length (ovl ++ E) <= L)%nat ->
  exists tmp', rehash_overflow pf c (S (N.to_nat (ov_capacity o))) ins o (ov_first pf o) tmp = Ok tmp' /\ R tmp' (ovl ++ E).
Proof.
  intros Ho Hnd Hrange Htmp HL. pose proof Ho as Ho'. destruct o as [|ks vs e full|nb els full].
  2: { destruct Ho as (Eo & _ & Hl & _). rewrite Eo.
    destruct (rehash_array_spec ovl full Hl Hrange (S (N.to_nat 256)) 0 tmp E) as (tmp' & Ht1 & Ht2); [lia|lia|done|done|done|].
    exists tmp'. done. }
  all: cbn in Ho'.
  - destruct Ho as [-> _]. cbn. by exists tmp.
  - destruct Ho' as (-> & [Hnb _] & _). cbn [ov_capacity ov_first].
    destruct (um_scan_spec pf nb els (N.to_nat nb) 0) as (Hq1 & Hq2 & Hq3); [lia|]. cbv zeta in Hq1, Hq2, Hq3.
    set (q := um_scan pf (N.to_nat nb) nb els 0) in *.
    assert (Hall : um_rest pf nb els q = els).
    { rewrite <-(um_rest_skip pf nb els 0 q Hq1 Hq2). unfold um_rest. clear. induction els as [|[k v] els IH]; [done|].
      cbn [List.filter fst]. rewrite (proj2 (N.leb_le _ _)) by lia. by f_equal. }
    assert (Hne : NoDup (keys_of els)) by (rewrite fmap_app in Hnd; by apply NoDup_app in Hnd as (? & _ & _)).
    destruct (rehash_overflow_spec _ _ _ _ _ Ho Hne Hrange (S (N.to_nat nb)) q tmp E) as (tmp' & Ht1 & Ht2);
      [lia|done|done|by rewrite Hall|by rewrite Hall|]. rewrite Hall in Ht2. by exists tmp'.
Qed.

Lemma reserve_with_gen t E B0 n tmp : tcon B0 t E -> (length E <= L)%nat -> 1 <= n <= 2^63 ->
  alloc_table pf (new_table pf c kw vw) (2^N.log2_up n) = Ok tmp -> R tmp [] ->
  exists t', reserve_with pf c ins t n = Ok t' /\ R t' E.
Proof.
  intros (sl & ess & ovl & H & _ & HE) HL Hn Ea Htmp. rewrite <-HE, app_length in HL. unfold reserve_with.
  destruct (tinv_bc _ _ _ _ _ _ _ OK _ _ _ _ H) as [-> Hbc]. rewrite reserve_bits_spec by done. cbn [mbind res_bind].
  pose proof (ti_kw _ _ _ _ _ _ _ _ _ _ _ H) as Hk. pose proof (ti_vw _ _ _ _ _ _ _ _ _ _ _ H) as Hv. rewrite Hk, Hv, Ea.
  cbn [mbind res_bind]. rewrite (ti_slots _ _ _ _ _ _ _ _ _ _ _ H). rewrite Hbc.
  rewrite take_ge by (pose proof (ti_len _ _ _ _ _ _ _ _ _ _ _ H); lia).
  pose proof (ti_nodup _ _ _ _ _ _ _ _ _ _ _ H) as Hnd.
  destruct (rehash_slots t (ti_b _ _ _ _ _ _ _ _ _ _ _ H) Hk Hv sl ess 0 tmp [] (ti_repr _ _ _ _ _ _ _ _ _ _ _ H)) as (tmp1 & Ht1 & Hc1).
  { intros j es k v Hj Hin. split; [by apply (ti_placed _ _ _ _ _ _ _ _ _ _ _ H j es k v)|].
    apply (ti_range _ _ _ _ _ _ _ _ _ _ _ H). apply elem_of_app. left. apply elem_of_concat. eauto. }
  { done. }
  { rewrite app_nil_r. rewrite fmap_app in Hnd. by apply NoDup_app in Hnd as (? & _). }
  { rewrite app_nil_r. lia. }
  change (imap (fun j s => ((0 + j)%nat, s)) sl) with (imap pair sl) in Ht1. rewrite Ht1. cbn [mbind res_bind].
  rewrite app_nil_r in Hc1.
  destruct (rehash_overflow_all _ _ _ _ tmp1 (concat ess) (ti_ov _ _ _ _ _ _ _ _ _ _ _ H)) as (tmp2 & -> & Hc2).
  { rewrite (Permutation_app_comm ovl). done. }
  { intros k v Hin. apply (ti_range _ _ _ _ _ _ _ _ _ _ _ H). apply elem_of_app. by right. }
  { done. }
  { rewrite app_length. lia. }
  cbn [mbind res_bind].
  destruct (ov_clear_ok pf (kbn c) (vbn c) _ _ _ _ _ (ti_ov _ _ _ _ _ _ _ _ _ _ _ H)) as (o' & -> & _). cbn [mbind res_bind].
  exists tmp2. split; [done|]. eapply R_perm; [|exact Hc2]. rewrite <-HE. apply Permutation_app_comm.
Qed.
End rehash.
Lemma reserve_with_spec ins B L t E B0 n :
  (forall tmp E k v, tcon B tmp E -> (length E < L)%nat -> kdom c kw k -> nv v = v -> k ∉ keys_of E ->
     exists r, ins tmp k v = Ok r /\ tcon B (fst r) ((k, v) :: E)) ->
  tcon B0 t E -> (length E <= L)%nat -> 1 <= n <= 2^63 -> bmin <= N.log2_up n <= bmax -> B = N.log2_up n ->
  exists t', reserve_with pf c ins t n = Ok t' /\ tcon B t' E.
Proof.
  intros Hins H HL Hn Hbits HB.
  assert (H63 : N.log2_up n <= 63) by (pose proof (ok_bounds _ _ _ _ _ _ OK _ Hbits); lia).
  assert (Hl2 : N.log2_up (2^N.log2_up n) = N.log2_up n) by (apply N.log2_up_pow2; lia).
  destruct (alloc_spec pf c kw vw bmin bmax strict OK (new_table pf c kw vw) (2^N.log2_up n)) as (tmp & Ea & Hb & sl0 & ess0 & Hi0 & Hc0).
  { by apply (new_table_zero pf c kw vw bmin bmax). }
  { split; [|by apply pow2_le_63]. pose proof (N.pow_nonzero 2 (N.log2_up n) ltac:(done)). lia. }
  { by rewrite Hl2. }
  apply (reserve_with_gen ins (tcon B) L (tcon_perm B) Hins t E B0 n tmp H HL Hn Ea).
  exists sl0, ess0, []. split; [done|]. split; [rewrite Hb, Hl2; lia|]. by rewrite Hc0.
Qed.

(** ** Insertion *)
(** Insertion of k either keeps the buckets, which are at most extended, or finds the bucket of k full and adds buckets. *)
Definition grown t ess k t' ess' : Prop :=
  t_b t' = t_b t /\ (forall i es, ess !! i = Some es -> exists tl, ess' !! i = Some (es ++ tl))
    /\ (c_ov c = OvDummy -> k ∉ keys_of (concat ess) -> exists es, ess !! N.to_nat (hb (t_b t) k) = Some es /\ N.of_nat (length es) < c_maxb c)
  \/ t_b t < t_b t' /\ k ∉ keys_of (concat ess) /\ exists es, ess !! N.to_nat (hb (t_b t) k) = Some es /\ N.of_nat (length es) = c_maxb c.
Lemma grown_le t ess k t' ess' : grown t ess k t' ess' -> t_b t <= t_b t'.
Proof. intros [[-> _]|[? _]]; lia. Qed.
Lemma grown_same t ess k : (k ∉ keys_of (concat ess) -> c_ov c <> OvDummy) -> grown t ess k t ess.
Proof. intros Hk. left. split; [done|]. split; [intros i es ->; exists []; by rewrite app_nil_r|]. intros E Hn. by apply Hk in Hn. Qed.
Lemma find_or_insert_spec : table_spread c kw bmin bmax -> forall fuel t sl ess ovl k v, tinv t sl ess ovl -> (N.to_nat (bmax - t_b t) < fuel)%nat ->
  kdom c kw k -> nv v = v \/ c_val c = KNull ->
  exists t' x sl' ess' ovl', find_or_insert pf c fuel t k v = Ok (t', x) /\ tinv t' sl' ess' ovl' /\ grown t ess k t' ess' /\
    match emap (concat ess ++ ovl) !! k with
    | Some v0 => t' = t /\ ess' = ess /\ ovl' = ovl /\ nav_entry t' ess' x = Some (k, v0)
    | None => concat ess' ++ ovl' ≡ₚ (k, nv v) :: concat ess ++ ovl /\ nav_entry t' ess' x = Some (k, nv v)
    end.
Proof.
  intros SP. induction fuel as [|f IH]; intros t sl ess ovl k v H Hf Hk Hv; [lia|]. cbn [find_or_insert].
  destruct (tinv_bc _ _ _ _ _ _ _ OK _ _ _ _ H) as [Hb0 Hbc]. rewrite Hb0. cbn [mbind res_bind].
  destruct (tinv_hash _ _ _ _ _ _ _ OK _ _ _ _ _ H Hk) as (-> & Hlt & _). cbn [mbind res_bind].
  destruct (locate_q_spec _ _ _ _ _ _ _ OK _ _ _ _ _ H Hk) as (s & es & Hg & Hs & He & Hr & Hloc).
  rewrite Hg. cbn [mbind res_bind]. pose proof (ti_nodup _ _ _ _ _ _ _ _ _ _ _ H) as Hnd.
  pose proof (ti_b _ _ _ _ _ _ _ _ _ _ _ H) as Hb. pose proof (ti_ov _ _ _ _ _ _ _ _ _ _ _ H) as Hov.
  destruct Hloc as [(p & v0 & -> & Hp)|[-> Hn]]; cbn [mbind res_bind].
  { exists t, (hb (t_b t) k, p), sl, ess, ovl. split; [done|]. split; [done|].
    assert (Hin : (k, v0) ∈ concat ess) by (apply elem_of_concat; eexists _, _; split; [exact He|]; by eapply elem_of_list_lookup_2).
    split; [apply grown_same; intros []; apply elem_of_list_fmap; by exists (k, v0)|].
    rewrite (proj2 (emap_Some _ k v0 Hnd)).
    - do 3 (split; [done|]). by eapply nav_entry_bucket.
    - apply elem_of_app. left. apply elem_of_concat. eexists _, _. split; [exact He|]. by eapply elem_of_list_lookup_2. }
  destruct (ov_need_consult_spec _ _ _ _ _ _ (hb (t_b t) k) Hov Hlt) as (cons & -> & Hcons). cbn [mbind res_bind].
  destruct (ov_find_spec pf (kbn c) _ _ _ _ _ k (tinv_nodup_ov _ _ _ _ _ _ _ _ _ _ _ H) Hov (kdom_key_ok _ _ _ _ Hk)) as [(p & v0 & Hof & Hin & Hent)|[Hof Hni]].
  { rewrite (Hcons _ _ Hin eq_refl). rewrite Hof. cbn [mbind res_bind]. rewrite Hbc.
    exists t, (2^(t_b t), p), sl, ess, ovl. split; [done|]. split; [done|].
    split; [apply grown_same; intros _ Hd; destruct (t_ov t); [by destruct Hov as [-> _]; apply elem_of_nil in Hin|by destruct Hov as (_ & [? _] & _); congruence
      |by destruct Hov as (_ & (_ & _ & [? _]) & _); congruence]|].
    rewrite (proj2 (emap_Some _ k v0 Hnd)).
    - do 3 (split; [done|]). by rewrite nav_entry_ov.
    - apply elem_of_app. by right. }
  assert (E : (if cons then ov_find pf (kbn c) (t_ov t) k else Ok None) = Ok None) by (by destruct cons).
  rewrite E. clear E. cbn [mbind res_bind].
  assert (Hnk : k ∉ keys_of (concat ess ++ ovl)) by (rewrite fmap_app; apply not_elem_of_app; done).
  rewrite (proj2 (emap_None _ k) Hnk).
  assert (Hnd' : NoDup (keys_of ((k, nv v) :: concat ess ++ ovl))) by (cbn; by apply NoDup_cons).
  assert (Hrange' : forall k' v', (k', v') ∈ (k, nv v) :: concat ess ++ ovl -> kdom c kw k' /\ nv v' = v').
  { intros k' v' Hin. apply elem_of_cons in Hin as [E|Hin]; [injection E as -> ->; split; [done|apply nv_idem]|].
    by apply (ti_range _ _ _ _ _ _ _ _ _ _ _ H). }
  pose proof (ti_n _ _ _ _ _ _ _ _ _ _ _ H) as Hn0.
  assert (Hn1 : u64 (t_n t + 1) = u64 (N.of_nat (length ((k, nv v) :: concat ess ++ ovl)))).
  { rewrite Hn0, u64_add. f_equal. cbn [length]. lia. }
  pose proof Hr as (Hsz & Hmx & _). rewrite Hsz.
  destruct (N.eqb_spec (N.of_nat (length es)) (c_maxb c)) as [Emax|Emax].
  - (* the bucket is full *)
    assert (Hgrow : forall o, ovrel pf fair (hb (t_b t)) (2^(t_b t)) o ovl ->
      exists t' x sl' ess' ovl',
        (n ← shl64 1 (t_b (set_ov t o) + 1); t1 ← reserve_with pf c (find_or_insert pf c f) (set_ov t o) n; find_or_insert pf c f t1 k v) = Ok (t', x)
        /\ tinv t' sl' ess' ovl' /\ grown t ess k t' ess'
        /\ concat ess' ++ ovl' ≡ₚ (k, nv v) :: concat ess ++ ovl /\ nav_entry t' ess' x = Some (k, nv v)).
    { intros o Ho. cbn [set_ov t_b].
      assert (Hlt2 : t_b t < bmax).
      { apply (SP (t_b t) (k :: keys_of es)); [done|..].
        - apply NoDup_cons. split; [|by eapply tinv_nodup_bucket].
          intros Hin. apply Hn. by apply (own_bucket_key (hb (t_b t)) ess (ti_placed _ _ _ _ _ _ _ _ _ _ _ H) k es He).
        - cbn [length]. rewrite fmap_length. lia.
        - intros k' Hin. apply elem_of_cons in Hin as [->|Hin]; [done|]. apply keys_elem in Hin as (v' & Hin).
          by destruct (tinv_in_bucket _ _ _ _ _ _ _ _ _ _ _ _ _ _ _ H He Hin).
        - assert (Hall : forall k', k' ∈ k :: keys_of es -> hb (t_b t) k' = hb (t_b t) k).
          { intros k' Hin. apply elem_of_cons in Hin as [->|Hin]; [done|]. apply keys_elem in Hin as (v' & Hin).
            destruct (tinv_in_bucket _ _ _ _ _ _ _ _ _ _ _ _ _ _ _ H He Hin) as [_ ->]. lia. }
          intros k1 k2 H1 H2. by rewrite (Hall _ H1), (Hall _ H2). }
      pose proof (ok_b _ _ _ _ _ _ OK) as Hob.
      rewrite shl64_1 by lia. cbn [mbind res_bind].
      assert (Htcon : tcon 0 (set_ov t o) (concat ess ++ ovl)).
      { exists sl, ess, ovl. split; [|split; [lia|done]].
        rewrite <-(set_n_id (set_ov t o)). eapply tinv_set_ov; [exact H|done|done|done| |exact Hn0].
        apply (ti_range _ _ _ _ _ _ _ _ _ _ _ H). }
      assert (Hl2 : N.log2_up (2^(t_b t + 1)) = t_b t + 1) by (apply N.log2_up_pow2; lia).
      destruct (reserve_with_spec (find_or_insert pf c f) (t_b t + 1) (length (concat ess ++ ovl))) with (2 := Htcon) (n := 2^(t_b t + 1)) as (t1 & -> & Ht1).
      - (* tmp_map.find_or_insert *)
        intros tmp E k' v' (sl1 & ess1 & ovl1 & H1 & HB1 & HE1) _ Hk' Hv' Hni'.
        destruct (IH tmp sl1 ess1 ovl1 k' v' H1) as (t' & x & sl' & ess' & ovl' & Ef & Ht' & Hle%grown_le & Hres); [lia|done|by left|].
        rewrite (proj2 (emap_None _ k')) in Hres by (rewrite HE1; done). destruct Hres as [Hres _].
        exists (t', x). split; [done|]. cbn [fst]. exists sl', ess', ovl'. split; [done|]. split; [lia|].
        rewrite Hres, HE1, Hv'. done.
      - done.
      - split; [|apply pow2_le_63; lia]. pose proof (N.pow_nonzero 2 (t_b t + 1) ltac:(done)). lia.
      - rewrite Hl2. lia.
      - done.
      - cbn [mbind res_bind]. destruct Ht1 as (sl1 & ess1 & ovl1 & H1 & HB1 & HE1).
        destruct (IH t1 sl1 ess1 ovl1 k v H1) as (t' & x & sl' & ess' & ovl' & Ef & Ht' & Hle%grown_le & Hres); [lia|done|done|].
        rewrite (proj2 (emap_None _ k)) in Hres by (rewrite HE1; done). destruct Hres as [Hres Hnav].
        exists t', x, sl', ess', ovl'. split; [done|]. split; [done|]. split; [|split; [|done]].
        + right. split; [lia|]. split; [done|]. by exists es.
        + by rewrite Hres, HE1. }
    destruct (N.ltb_spec (ov_size (t_ov t)) (ov_capacity (t_ov t))) as [Hcap|Hcap].
    + assert (Hmod : v mod 2^N.of_nat (vbn c) = v /\ nv v = v).
      { assert (Hnn : c_val c <> KNull).
        { clear -Hov Hcap. destruct (t_ov t); cbn in Hov, Hcap; [lia|by destruct Hov as (_ & (_ & ? & _) & _)|]. by destruct Hov as (_ & (_ & _ & _ & ? & _) & _). }
        destruct Hv as [Hv|Hv]; [|done]. split; [|done]. by apply (nv_mod pf c kw vw bmin bmax OK). }
      destruct Hmod as [Hmv Hvv]. rewrite Hmv.
      destruct (ov_insert_spec pf (kbn c) (vbn c) _ _ _ _ _ k v Hov Hlt Hni Hcap (kdom_key_ok _ _ _ _ Hk)) as (o' & r & -> & Hres); [intros _; rewrite <-Hmv; by apply N.mod_lt, N.pow_nonzero|]. cbn [mbind res_bind].
      destruct r as [p|].
      * destruct Hres as [Ho' Hent]. rewrite Hvv in *.
        exists (set_n (set_ov t o') (u64 (t_n t + 1))), (2^(t_b t), p), sl, ess, (ovl ++ [(k, v)]).
        assert (HP : concat ess ++ ovl ++ [(k, v)] ≡ₚ (k, v) :: concat ess ++ ovl) by solve_Permutation.
        split; [|split; [|split; [|split; [done|]]]].
        3:{ left. split; [done|]. split; [intros i es' ->; exists []; by rewrite app_nil_r|]. intros Hd _. exfalso.
            clear -Hov Hcap Hd. destruct (t_ov t); cbn in Hov, Hcap; [lia|by destruct Hov as (_ & [? _] & _); congruence|].
            by destruct Hov as (_ & (_ & _ & [? _]) & _); congruence. }
        -- cbn [set_ov t_n]. unfold bucket_count. cbn [set_ov t_b]. rewrite Hb0. done.
        -- eapply tinv_set_ov; [exact H|done|exact HP|done|done|]. exact Hn1.
        -- unfold TableInv.nav_entry. cbn [fst snd set_n set_ov t_b t_ov]. by rewrite N.eqb_refl.
      * apply Hgrow in Hres. exact Hres.
    + cbn [mbind res_bind]. apply Hgrow. exact Hov.
  - (* push into the bucket *)
    assert (Hlt2 : N.of_nat (length es) < c_maxb c) by lia.
    destruct (push_slot_spec pf c kw vw bmin bmax strict OK t (t_b t) s es k v Hb eq_refl (ti_kw _ _ _ _ _ _ _ _ _ _ _ H) (ti_vw _ _ _ _ _ _ _ _ _ _ _ H) Hr Hlt2 Hk)
      as (s' & -> & Hr' & Hsz'). cbn [mbind res_bind].
    assert (Hpl : placed (hb (t_b t)) (<[N.to_nat (hb (t_b t) k) := es ++ [(k, nv v)]]> ess)).
    { apply placed_push; [apply H|done|lia]. }
    assert (HP : concat (<[N.to_nat (hb (t_b t) k) := es ++ [(k, nv v)]]> ess) ++ ovl ≡ₚ (k, nv v) :: concat ess ++ ovl)
      by (rewrite (concat_upd_push _ _ _ _ He); done).
    eexists _, (hb (t_b t) k, N.of_nat (length es)), _, (<[N.to_nat (hb (t_b t) k) := es ++ [(k, nv v)]]> ess), ovl.
    split; [|split; [|split; [|split; [done|]]]].
    + do 3 f_equal. rewrite Hsz'. pose proof (ok_maxb _ _ _ _ _ _ OK). rewrite sub64_small by lia. lia.
    + eapply tinv_upd; [exact H|done|exact He|exact Hr'|done|exact HP|done|done|exact Hn1|exact Hs].
    + left. split; [done|]. split.
      * intros i es' Hi. destruct (decide (i = N.to_nat (hb (t_b t) k))) as [->|Hne].
        -- rewrite He in Hi. injection Hi as <-. exists [(k, nv v)]. apply list_lookup_insert. by apply lookup_lt_Some in He.
        -- exists []. rewrite list_lookup_insert_ne, app_nil_r by done. done.
      * intros _ _. by exists es.
    + eapply nav_entry_bucket.
      * exact Hlt.
      * apply list_lookup_insert. apply lookup_lt_Some in He. done.
      * rewrite Nat2N.id. by rewrite list_lookup_middle.
Qed.

(** Insertion into a table without buckets: the first allocation. *)
Definition init_ok : Prop := 3 <= kw /\ bmin <= N.log2_up (N.min (kw - 1) 16) <= bmax.

Lemma find_or_insert_zero f t k v : tzero t -> init_ok ->
  exists t1, t_b t1 = N.log2_up (N.min (kw - 1) 16) /\ find_or_insert pf c (S f) t k v = find_or_insert pf c (S f) t1 k v /\
  exists sl ess, tinv t1 sl ess [] /\ concat ess = [].
Proof.
  intros Hz [Hkw Hi]. pose proof (ok_kw _ _ _ _ _ _ OK) as Hk64.
  destruct (alloc_spec pf c kw vw bmin bmax strict OK t (N.min (kw - 1) 16) Hz) as (t1 & Ha & Hb & sl & ess & H & Hc); [lia|done|].
  exists t1. split; [done|]. split; [|by exists sl, ess]. cbn [find_or_insert].
  destruct (tinv_bc _ _ _ _ _ _ _ OK _ _ _ _ H) as [-> _]. pose proof Hz as (-> & _ & -> & _). cbn [N.eqb].
  rewrite sub64_small by lia. rewrite Ha. done.
Qed.

(** ** Writing values *)
Lemma write_value_spec t sl ess ovl x k v v' : tinv t sl ess ovl -> nav_entry t ess x = Some (k, v) -> nv v' = v' ->
  exists t' sl' ess' ovl' R, write_value pf c t x v' = Ok t' /\ tinv t' sl' ess' ovl' /\ t_b t' = t_b t
    /\ concat ess ++ ovl ≡ₚ (k, v) :: R /\ concat ess' ++ ovl' ≡ₚ (k, v') :: R /\ nav_entry t' ess' x = Some (k, v').
Proof.
  intros H He Hv'. destruct x as [bk p]. unfold TableInv.nav_entry in He. cbn [fst snd] in He. unfold write_value.
  pose proof (ti_nodup _ _ _ _ _ _ _ _ _ _ _ H) as Hnd. pose proof (ti_n _ _ _ _ _ _ _ _ _ _ _ H) as Hn0.
  assert (Hgen : forall R, concat ess ++ ovl ≡ₚ (k, v) :: R ->
    NoDup (keys_of ((k, v') :: R)) /\ (forall k0 v0, (k0, v0) ∈ (k, v') :: R -> kdom c kw k0 /\ nv v0 = v0)
    /\ t_n t = u64 (N.of_nat (length ((k, v') :: R)))).
  { intros R HR. split; [by rewrite HR in Hnd|]. split; [|by rewrite Hn0, HR].
    intros k0 v0 Hin. pose proof (ti_range _ _ _ _ _ _ _ _ _ _ _ H) as Hr. setoid_rewrite HR in Hr.
    apply elem_of_cons in Hin as [E|Hin]; [injection E as -> ->; split; [|done]; by apply (Hr k v); constructor|].
    apply Hr. by constructor. }
  destruct (tinv_bc _ _ _ _ _ _ _ OK _ _ _ _ H) as [_ ->].
  destruct (N.eqb_spec bk (2^(t_b t))) as [->|Hne].
  - pose proof (ti_ov _ _ _ _ _ _ _ _ _ _ _ H) as Hov.
    assert (Hnn : c_val c <> KNull).
    { clear -Hov He. destruct (t_ov t); cbn [ovrel] in Hov; cbn in He; [done|by destruct Hov as (_ & (_ & ? & _) & _)|]. by destruct Hov as (_ & (_ & _ & _ & ? & _) & _). }
    destruct (ov_set_spec pf 0 (vbn c) _ _ _ _ _ p k v v' (tinv_nodup_ov _ _ _ _ _ _ _ _ _ _ _ H) Hov He)
      as (o' & ovl' & R & -> & Ho' & HR & HR' & He').
    rewrite (nv_mod pf c kw vw bmin bmax OK v' Hnn Hv') in HR', He'. cbn [mbind res_bind].
    assert (HP : concat ess ++ ovl ≡ₚ (k, v) :: concat ess ++ R) by (rewrite HR; solve_Permutation).
    assert (HP' : concat ess ++ ovl' ≡ₚ (k, v') :: concat ess ++ R) by (rewrite HR'; solve_Permutation).
    destruct (Hgen _ HP) as (G1 & G2 & G3).
    exists (set_ov t o'), sl, ess, ovl', (concat ess ++ R). split; [done|]. split; [|split; [done|split; [done|split; [done|]]]].
    + rewrite <-(set_n_id (set_ov t o')). by eapply tinv_set_ov.
    + unfold TableInv.nav_entry. cbn [fst snd set_ov t_b t_ov]. by rewrite N.eqb_refl.
  - destruct (ess !! N.to_nat bk) as [es|] eqn:Hes; [|done]. cbn in He.
    assert (Hlt : bk < 2^(t_b t)).
    { pose proof (lookup_lt_Some _ _ _ Hes). pose proof (tinv_len _ _ _ _ _ _ _ _ _ _ _ H). lia. }
    destruct (tinv_slot _ _ _ _ _ _ _ _ _ _ _ _ H Hlt) as (s & es' & -> & Hs & Hes' & Hr).
    rewrite Hes in Hes'. injection Hes' as <-. cbn [mbind res_bind]. rewrite (tinv_vw _ _ _ _ _ _ _ _ _ _ _ H).
    destruct (write_slot_spec pf c kw vw bmin bmax strict OK (t_b t) s es (N.to_nat p) k v v' Hr He) as (vs & -> & Hr').
    cbn [mbind res_bind]. rewrite Hv' in Hr'.
    destruct (concat_upd_set ess (N.to_nat bk) es (N.to_nat p) k v v' Hes He) as (R & HR & HR').
    assert (HP : concat ess ++ ovl ≡ₚ (k, v) :: R ++ ovl) by (rewrite HR; done).
    assert (HP' : concat (<[N.to_nat bk := <[N.to_nat p := (k, v')]> es]> ess) ++ ovl ≡ₚ (k, v') :: R ++ ovl) by (rewrite HR'; done).
    destruct (Hgen _ HP) as (G1 & G2 & G3).
    eexists _, _, _, _, _. split; [done|]. split; [|split; [|split; [exact HP|split; [exact HP'|]]]].
    + rewrite <-(set_n_id t) at 1. eapply tinv_upd; [exact H|done|exact Hes|exact Hr'| |exact HP'|done|done|done|done].
      eapply placed_set; [apply H|done..].
    + done.
    + eapply nav_entry_bucket; [exact Hlt|apply list_lookup_insert; by apply lookup_lt_Some in Hes|].
      apply list_lookup_insert. by apply lookup_lt_Some in He.
Qed.

(** ** Erasing *)
Lemma nav_entry_pos t sl ess ovl x e : tinv t sl ess ovl -> nav_entry t ess x = Some e -> snd x < ones64.
Proof.
  intros H. unfold TableInv.nav_entry. destruct (N.eqb_spec (fst x) (2^(t_b t))).
  - pose proof (ti_ov _ _ _ _ _ _ _ _ _ _ _ H) as Hov. destruct (t_ov t) as [|ks vs ne full|nb els full]; cbn [ovrel] in Hov; [done| |].
    { destruct Hov as (-> & _ & Hl & _). change (arr_entry (arr_state pf ovl full) (snd x) = Some e -> snd x < ones64).
      rewrite arr_entry_lookup. intros Hx. apply lookup_lt_Some in Hx. assert (256 < ones64) by done. lia. }
    cbn [ov_entry].
    destruct Hov as (_ & (_ & Hnb & _) & _). destruct (N.ltb_spec (snd x) nb); [|done]. intros _.
    change ones64 with (2^64 - 1). lia.
  - destruct (ess !! N.to_nat (fst x)) as [es|] eqn:Hes; [|done]. intros Hp. change (es !! N.to_nat (snd x) = Some e) in Hp.
    destruct (Forall2_lookup_r _ _ _ _ _ (ti_repr _ _ _ _ _ _ _ _ _ _ _ H) Hes) as (s & _ & _ & Hle & _).
    pose proof (ok_maxb _ _ _ _ _ _ OK). apply lookup_lt_Some in Hp. assert (255 < ones64) by done. lia.
Qed.

Lemma erase_at_spec t sl ess ovl x k v : (fst x = 2^(t_b t) -> c_ov c <> OvArray) -> tinv t sl ess ovl -> nav_entry t ess x = Some (k, v) ->
  exists t' sl' ess' ovl', erase_at pf c t x = Ok (t', 1) /\ tinv t' sl' ess' ovl' /\ t_b t' = t_b t
    /\ concat ess ++ ovl ≡ₚ (k, v) :: concat ess' ++ ovl'
    /\ (fst x < 2^(t_b t) -> exists es, ess !! N.to_nat (fst x) = Some es
          /\ ess' = <[N.to_nat (fst x) := delete (N.to_nat (snd x)) es]> ess /\ ovl' = ovl).
Proof.
  intros Harr H He. pose proof (nav_entry_pos _ _ _ _ _ _ H He) as Hpos. destruct x as [bk p].
  unfold TableInv.nav_entry in He. cbn [fst snd] in He, Hpos |- *. unfold erase_at.
  rewrite (proj2 (N.eqb_neq _ _)) by lia.
  pose proof (ti_nodup _ _ _ _ _ _ _ _ _ _ _ H) as Hnd. pose proof (ti_n _ _ _ _ _ _ _ _ _ _ _ H) as Hn0.
  assert (Hgen : forall R, concat ess ++ ovl ≡ₚ (k, v) :: R ->
    NoDup (keys_of R) /\ (forall k0 v0, (k0, v0) ∈ R -> kdom c kw k0 /\ nv v0 = v0)
    /\ sub64 (t_n t) 1 = u64 (N.of_nat (length R))).
  { intros R HR. split; [rewrite HR in Hnd; by apply NoDup_cons in Hnd as [_ ?]|]. split.
    - intros k0 v0 Hin. apply (ti_range _ _ _ _ _ _ _ _ _ _ _ H). rewrite HR. by constructor.
    - rewrite Hn0, HR. cbn [length]. rewrite u64_sub by lia. f_equal. lia. }
  destruct (tinv_bc _ _ _ _ _ _ _ OK _ _ _ _ H) as [_ ->].
  destruct (N.eqb_spec bk (2^(t_b t))) as [->|Hne].
  - pose proof (ti_ov _ _ _ _ _ _ _ _ _ _ _ H) as Hov.
    pose proof (ov_entry_spec _ (kbn c) (vbn c) _ _ _ _ _ _ _ _ Hov He) as (Hin & _).
    assert (Hp : (0 <? ov_size (t_ov t)) = true).
    { rewrite (ov_size_spec _ _ _ _ _ _ Hov). apply N.ltb_lt. destruct ovl; [by apply elem_of_nil in Hin|cbn; lia]. }
    rewrite Hp. cbn [andb].
    destruct (ov_erase_spec pf 0 0 _ _ _ _ _ p k v (ov_side_arr _ _ _ (Harr eq_refl)) (tinv_nodup_ov _ _ _ _ _ _ _ _ _ _ _ H) Hov He) as (o' & ovl' & -> & Ho' & HP0).
    cbn [mbind res_bind].
    assert (HP : concat ess ++ ovl ≡ₚ (k, v) :: concat ess ++ ovl') by (rewrite HP0; solve_Permutation).
    destruct (Hgen _ HP) as (G1 & G2 & G3).
    eexists _, sl, ess, ovl'. split; [done|]. split; [by eapply tinv_set_ov|]. split; [done|]. split; [done|]. lia.
  - rewrite andb_false_r.
    destruct (ess !! N.to_nat bk) as [es|] eqn:Hes; [|done]. cbn in He.
    assert (Hlt : bk < 2^(t_b t)).
    { pose proof (lookup_lt_Some _ _ _ Hes). pose proof (tinv_len _ _ _ _ _ _ _ _ _ _ _ H). lia. }
    destruct (tinv_slot _ _ _ _ _ _ _ _ _ _ _ _ H Hlt) as (s & es' & -> & Hs & Hes' & Hr).
    rewrite Hes in Hes'. injection Hes' as <-. cbn [mbind res_bind].
    rewrite (tinv_qw _ _ _ _ _ _ _ _ _ _ _ H), (tinv_vw _ _ _ _ _ _ _ _ _ _ _ H).
    destruct (erase_slot_spec pf c kw vw bmin bmax strict OK (t_b t) s es (N.to_nat p) _ (ti_b _ _ _ _ _ _ _ _ _ _ _ H) Hr He) as (ks & vs & -> & E & Hr').
    cbn [mbind res_bind]. rewrite E. cbn [mbind res_bind s_size].
    assert (HP : concat ess ++ ovl ≡ₚ (k, v) :: concat (<[N.to_nat bk := delete (N.to_nat p) es]> ess) ++ ovl)
      by (rewrite (concat_upd_delete _ _ _ _ _ Hes He); done).
    destruct (Hgen _ HP) as (G1 & G2 & G3).
    assert (Hpl : placed (hb (t_b t)) (<[N.to_nat bk := delete (N.to_nat p) es]> ess)) by (apply placed_delete; [apply H|done]).
    destruct (sub8 (s_size s) 1 =? 0).
    + destruct Hr' as [Hd ->]. cbn [mbind res_bind].
      eexists _, _, _, _. split; [done|]. split; [|split; [done|split; [exact HP|eauto]]].
      eapply tinv_upd; [exact H|done|exact Hes| |done|done|done|done|done|done]. rewrite Hd. apply slot_repr_empty.
    + eexists _, _, _, _. split; [done|]. split; [|split; [done|split; [exact HP|eauto]]].
      eapply tinv_upd; [exact H|done|exact Hes|exact Hr'|done|done|done|done|done|done].
Qed.

Lemma erase_spec t sl ess ovl k : (k ∈ keys_of ovl -> c_ov c <> OvArray) -> tinv t sl ess ovl -> kdom c kw k ->
  match emap (concat ess ++ ovl) !! k with
  | Some v => exists t' sl' ess' ovl', erase pf c t k = Ok (t', 1) /\ tinv t' sl' ess' ovl' /\ t_b t' = t_b t
      /\ concat ess ++ ovl ≡ₚ (k, v) :: concat ess' ++ ovl'
  | None => erase pf c t k = Ok (t, 0)
  end.
Proof.
  intros Harr H Hk. unfold erase, locate. destruct (tinv_bc _ _ _ _ _ _ _ OK _ _ _ _ H) as [-> ->].
  destruct (tinv_hash _ _ _ _ _ _ _ OK _ _ _ _ _ H Hk) as (-> & Hlt & _). cbn [mbind res_bind].
  pose proof (ti_nodup _ _ _ _ _ _ _ _ _ _ _ H) as Hnd. pose proof (ti_ov _ _ _ _ _ _ _ _ _ _ _ H) as Hov.
  destruct (ov_need_consult_spec _ _ _ _ _ _ (hb (t_b t) k) Hov Hlt) as (cons & -> & Hcons). cbn [mbind res_bind].
  destruct (ov_find_spec pf (kbn c) _ _ _ _ _ k (tinv_nodup_ov _ _ _ _ _ _ _ _ _ _ _ H) Hov (kdom_key_ok _ _ _ _ Hk)) as [(p & v & Hof & Hin & Hent)|[Hof Hni]].
  - assert (Hp : (0 <? ov_size (t_ov t)) = true).
    { rewrite (ov_size_spec _ _ _ _ _ _ Hov). apply N.ltb_lt. destruct ovl; [by apply elem_of_nil in Hin|cbn; lia]. }
    rewrite (Hcons _ _ Hin eq_refl), Hp. cbn [andb]. rewrite Hof. cbn [mbind res_bind].
    rewrite (proj2 (emap_Some _ k v Hnd)) by (apply elem_of_app; by right).
    destruct (erase_at_spec t sl ess ovl (2^(t_b t), p) k v (fun _ => Harr (proj2 (keys_elem _ _) (ex_intro _ v Hin))) H) as (t' & sl' & ess' & ovl' & E & H' & Hb' & HP & _); [by rewrite nav_entry_ov|].
    by exists t', sl', ess', ovl'.
  - assert (E : (if cons && (0 <? ov_size (t_ov t)) then ov_find pf (kbn c) (t_ov t) k else Ok None) = Ok None)
      by (by destruct (cons && _)).
    rewrite E. clear E. cbn [mbind res_bind].
    destruct (locate_q_spec _ _ _ _ _ _ _ OK _ _ _ _ _ H Hk) as (s & es & Hg & Hs & He & Hr & [(p & v & -> & Hp)|[-> Hn]]); cbn [mbind res_bind].
    + rewrite (proj2 (emap_Some _ k v Hnd)).
      * destruct (erase_at_spec t sl ess ovl (hb (t_b t) k, p) k v) as (t' & sl' & ess' & ovl' & E & H' & Hb' & HP & _); [cbn [fst]; lia|done|by eapply nav_entry_bucket|].
        by exists t', sl', ess', ovl'.
      * apply elem_of_app. left. apply elem_of_concat. eexists _, _. split; [exact He|]. by eapply elem_of_list_lookup_2.
    + rewrite (proj2 (emap_None _ k)) by (rewrite fmap_app; by apply not_elem_of_app).
      unfold erase_at. by rewrite N.eqb_refl.
Qed.
Lemma erase_zero t k : tzero t -> erase pf c t k = Ok (t, 0).
Proof. intros (Hb & _). unfold erase. by rewrite Hb. Qed.

(** ** Shrinking and clearing *)
Lemma shrink_spec t sl ess ovl : tinv t sl ess ovl ->
  exists t' sl', shrink_to_fit pf c t = Ok t' /\ tinv t' sl' ess ovl /\ t_b t' = t_b t
    /\ Forall2 (fun s s' => s_size s' = s_size s /\ (c_arb c = true -> s_size s <= s_cap s -> s_cap s' = s_size s)) sl sl'.
Proof.
  intros H. unfold shrink_to_fit. destruct (tinv_bc _ _ _ _ _ _ _ OK _ _ _ _ H) as [-> ->].
  pose proof (ti_slots _ _ _ _ _ _ _ _ _ _ _ H) as Hsl. rewrite Hsl.
  pose proof (ti_len _ _ _ _ _ _ _ _ _ _ _ H) as Hlen. rewrite take_ge, drop_ge by lia.
  pose proof (ti_repr _ _ _ _ _ _ _ _ _ _ _ H) as HF.
  assert (Hr : exists sl', rmap (shrink_slot pf c t) sl = Ok sl' /\ Forall2 (srepr (t_b t)) sl' ess /\
    Forall2 (fun s s' => s_size s' = s_size s /\ (c_arb c = true -> s_size s <= s_cap s -> s_cap s' = s_size s)) sl sl').
  { pose proof (ti_b _ _ _ _ _ _ _ _ _ _ _ H) as Hb. pose proof (ti_kw _ _ _ _ _ _ _ _ _ _ _ H) as Hk.
    pose proof (ti_vw _ _ _ _ _ _ _ _ _ _ _ H) as Hv. clear Hlen Hsl H. revert HF. generalize ess. induction sl as [|s sl1 IH]; intros ess1 HF.
    - apply Forall2_nil_inv_l in HF as ->. exists []. split; [done|]. split; constructor.
    - apply Forall2_cons_inv_l in HF as (es & ess' & Hs & HF & ->). cbn [rmap].
      destruct (shrink_slot_spec pf c kw vw bmin bmax strict OK t (t_b t) s es Hb eq_refl Hk Hv Hs) as (s' & -> & Hs' & Hs2).
      cbn [mbind res_bind]. destruct (IH _ HF) as (sl2 & -> & H1 & H2). cbn [mbind res_bind].
      exists (s' :: sl2). split; [done|]. split; by constructor. }
  destruct Hr as (sl' & -> & H1 & H2). cbn [mbind res_bind]. rewrite app_nil_r.
  eexists _, sl'. split; [done|]. split; [|done].
  constructor; cbn [t_slots t_b t_n t_kw t_vw t_ov]; try apply H; try done.
  rewrite <-Hlen. by rewrite (Forall2_length _ _ _ H2).
Qed.
Lemma shrink_zero t : tzero t -> shrink_to_fit pf c t = Ok t.
Proof. intros (Hb & _). unfold shrink_to_fit. by rewrite Hb. Qed.

Lemma free_empty sl : Forall (fun s => s = empty_slot) sl ->
  rfold (fun _ s => _ ← b_free pf (c_key c) (s_keys s); b_free pf (c_val c) (s_vals s)) sl () = Ok ().
Proof.
  induction sl as [|s sl IH]; [done|]. rewrite Forall_cons. intros [-> HF]. cbn [rfold]. cbn.
  by apply IH.
Qed.

Lemma clear_spec t sl ess ovl : c_ov c <> OvArray -> tinv t sl ess ovl -> exists t', clear pf c t = Ok t' /\ tzero t'.
Proof.
  intros Harr H. unfold clear. rewrite (ti_slots _ _ _ _ _ _ _ _ _ _ _ H). destruct (tinv_bc _ _ _ _ _ _ _ OK _ _ _ _ H) as [_ ->].
  pose proof (ti_len _ _ _ _ _ _ _ _ _ _ _ H) as Hlen. rewrite take_ge, drop_ge by lia.
  assert (Hr : exists sl', rmap (fun s => if s_size s =? 0 then Ok s else clear_slot pf c s) sl = Ok sl' /\ Forall (fun s => s = empty_slot) sl').
  { pose proof (ti_repr _ _ _ _ _ _ _ _ _ _ _ H) as HF. clear Hlen H. revert HF. generalize ess. induction sl as [|s sl1 IH]; intros ess1 HF.
    - exists []. split; [done|constructor].
    - apply Forall2_cons_inv_l in HF as (es & ess' & Hs & HF & ->). cbn [rmap].
      assert (E : (if s_size s =? 0 then Ok s else clear_slot pf c s) = Ok empty_slot).
      { destruct (N.eqb_spec (s_size s) 0) as [E|E]; [|by eapply slot_clear].
        destruct Hs as (Hsz & _ & Hs & _). destruct es; [by rewrite Hs|cbn in Hsz; lia]. }
      rewrite E. cbn [mbind res_bind]. destruct (IH _ HF) as (sl2 & -> & H1). cbn [mbind res_bind].
      exists (empty_slot :: sl2). split; [done|]. by constructor. }
  destruct Hr as (sl' & -> & Hall). cbn [mbind res_bind]. rewrite app_nil_r. unfold clear_structure. cbn [t_slots t_kw t_vw t_ov].
  rewrite free_empty by done. cbn [mbind res_bind].
  destruct (ov_clear_spec pf (kbn c) (vbn c) _ _ _ _ _ (ov_side_arr _ _ _ Harr) (ti_ov _ _ _ _ _ _ _ _ _ _ _ H)) as (o' & -> & Hz). cbn [mbind res_bind].
  eexists; split; [done|]. unfold TableInv.tzero. cbn [t_slots t_b t_n t_kw t_vw t_ov].
  rewrite (ti_kw _ _ _ _ _ _ _ _ _ _ _ H), (ti_vw _ _ _ _ _ _ _ _ _ _ _ H). done.
Qed.
Lemma clear_zero t : c_ov c <> OvArray -> tzero t -> exists t', clear pf c t = Ok t' /\ tzero t'.
Proof.
  intros Harr (Hb & Hn & Hk & Hv & Ho & Hs). unfold clear.
  destruct (ov_clear_zero pf (kbn c) (vbn c) _ _ (ov_side_arr _ _ _ Harr) Ho) as (o' & Ec & Hz).
  destruct (t_slots t) as [sl|] eqn:Esl.
  - unfold bucket_count. rewrite Hb. change (N.to_nat (if 0 =? 0 then 0 else 2^0)) with 0%nat. rewrite take_0, drop_0. cbn [rmap mbind res_bind app].
    unfold clear_structure. cbn [t_slots t_ov t_kw t_vw]. rewrite free_empty by done. cbn [mbind res_bind]. rewrite Ec. cbn [mbind res_bind].
    eexists; split; [done|]. done.
  - rewrite Ec. cbn [mbind res_bind]. eexists; split; [done|]. unfold TableInv.tzero. cbn [set_ov t_slots t_b t_n t_kw t_vw t_ov].
    by rewrite Esl.
Qed.

(** reserve as called by the user *)
Lemma reserve_spec fuel t sl ess ovl n : table_spread c kw bmin bmax -> tinv t sl ess ovl -> 1 <= n <= 2^63 -> bmin <= N.log2_up n <= bmax ->
  (N.to_nat (bmax - bmin) < fuel)%nat ->
  exists t' sl' ess' ovl', reserve pf c fuel t n = Ok t' /\ tinv t' sl' ess' ovl' /\ N.log2_up n <= t_b t'
    /\ concat ess' ++ ovl' ≡ₚ concat ess ++ ovl.
Proof.
  intros SP H Hn Hb Hf.
  destruct (reserve_with_spec (find_or_insert pf c fuel) (N.log2_up n) (length (concat ess ++ ovl))) with (t := t) (E := concat ess ++ ovl) (B0 := 0) (n := n)
    as (t' & E & sl' & ess' & ovl' & H' & Hle & HP); [|by exists sl, ess, ovl; split; [done|]; split; [lia|]|done..|].
  - intros tmp E k' v' (sl1 & ess1 & ovl1 & H1 & HB1 & HE1) _ Hk' Hv' Hni'.
    destruct (find_or_insert_spec SP fuel tmp sl1 ess1 ovl1 k' v' H1) as (t' & x & sl' & ess' & ovl' & Ef & Ht' & Hle%grown_le & Hres); [lia|done|by left|].
    rewrite (proj2 (emap_None _ k')) in Hres by (rewrite HE1; done). destruct Hres as [Hres _].
    exists (t', x). split; [done|]. cbn [fst]. exists sl', ess', ovl'. split; [done|]. split; [lia|].
    rewrite Hres, HE1, Hv'. done.
  - by exists t', sl', ess', ovl'.
Qed.
Lemma reserve_zero fuel t n : tzero t -> 1 <= n <= 2^63 -> bmin <= N.log2_up n <= bmax ->
  exists t' sl' ess', reserve pf c fuel t n = Ok t' /\ tinv t' sl' ess' [] /\ t_b t' = N.log2_up n /\ concat ess' = [].
Proof.
  intros Hz Hn Hb. unfold reserve, reserve_with. pose proof Hz as (-> & _). cbn [N.eqb].
  destruct (alloc_spec pf c kw vw bmin bmax strict OK t n Hz Hn Hb) as (t1 & Ha & Hb1 & sl & ess & H & Hc).
  by exists t1, sl, ess.
Qed.
(** reserve(1): no bucket bits; the temporary map gets buckets with the first element. *)
Lemma reserve_one fuel t sl ess ovl : table_spread c kw bmin bmax -> init_ok -> tinv t sl ess ovl -> (N.to_nat (bmax - bmin) < fuel)%nat ->
  exists t', reserve pf c fuel t 1 = Ok t'
    /\ ((tzero t' /\ concat ess ++ ovl = []) \/ exists sl' ess' ovl', tinv t' sl' ess' ovl' /\ concat ess' ++ ovl' ≡ₚ concat ess ++ ovl).
Proof.
  intros SP HI H Hf. unfold reserve.
  set (R := fun tmp E => (tzero tmp /\ E = []) \/ tcon 0 tmp E).
  destruct (reserve_with_gen (find_or_insert pf c fuel) R (length (concat ess ++ ovl))) with (t := t) (E := concat ess ++ ovl) (B0 := 0) (n := 1)
    (tmp := Table (Some [empty_slot]) 0 0 kw vw (ov_resize_buckets pf (t_ov (new_table pf c kw vw)) 1)) as (t' & E & HR).
  - intros t1 E E' HP [[Hz ->]|Hc]; [left; split; [done|by apply Permutation_nil]|right; by eapply tcon_perm].
  - intros tmp E k v HR _ Hk Hv Hni.
    assert (Hgo : forall tmp sl ess ovl, tinv tmp sl ess ovl -> concat ess ++ ovl ≡ₚ E ->
      exists r, find_or_insert pf c fuel tmp k v = Ok r /\ R (fst r) ((k, v) :: E)).
    { intros tmp0 sl1 ess1 ovl1 H1 HE1. pose proof (ti_b _ _ _ _ _ _ _ _ _ _ _ H1) as Hb1.
      destruct (find_or_insert_spec SP fuel tmp0 sl1 ess1 ovl1 k v H1) as (t' & x & sl' & ess' & ovl' & Ef & Ht' & Hle%grown_le & Hres); [lia|done|by left|].
      rewrite (proj2 (emap_None _ k)) in Hres by (rewrite HE1; done). destruct Hres as [Hres _].
      exists (t', x). split; [done|]. right. exists sl', ess', ovl'. split; [done|]. split; [lia|]. by rewrite Hres, HE1, Hv. }
    destruct HR as [[Hz ->]|(sl1 & ess1 & ovl1 & H1 & _ & HE1)]; [|by eapply Hgo].
    destruct fuel as [|f]; [lia|].
    destruct (find_or_insert_zero f tmp k v Hz HI) as (t1 & _ & -> & sl1 & ess1 & H1 & Hc1). eapply Hgo; [exact H1|]. by rewrite Hc1.
  - exists sl, ess, ovl. split; [done|]. split; [lia|done].
  - done.
  - lia.
  - reflexivity.
  - left. split; [|done]. pose proof (new_table_zero pf c kw vw bmin bmax OK) as (_ & _ & _ & _ & Ho & _).
    unfold TableInv.tzero. cbn [t_b t_n t_kw t_vw t_ov t_slots]. do 4 (split; [done|]). split.
    + by apply ovzero_resize.
    + by repeat constructor.
  - exists t'. split; [done|]. destruct HR as [HR|(sl' & ess' & ovl' & H' & _ & HE')]; [by left|right]. by exists sl', ess', ovl'.
Qed.
Lemma reserve_one_zero fuel t : tzero t -> exists t', reserve pf c fuel t 1 = Ok t' /\ tzero t'.
Proof.
  intros Hz. unfold reserve, reserve_with. pose proof Hz as (-> & Hn & Hk & Hv & Ho & _). cbn [N.eqb]. unfold alloc_table.
  change (reserve_bits 1) with (Ok 0). cbn [mbind res_bind]. eexists. split; [done|].
  unfold TableInv.tzero. cbn [t_b t_n t_kw t_vw t_ov t_slots]. do 4 (split; [done|]). split.
  - by apply ovzero_resize.
  - change (N.to_nat (2^0)) with 1%nat. by repeat constructor.
Qed.
End ops.
