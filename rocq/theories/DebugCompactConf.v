(** Histories of the debug build of compact_chaining_map: no check fails on valid calls; values and keys that do not fit. *)
From Verif Require Export DebugCompactMap.
From Verif Require Import DebugGroupRep.

(** begin and rbegin_nav of a view that returns less *)
Lemma vl_begin_scan V W (L : view_le V W) : forall n bk x, v_begin_scan V n bk = Ok x -> v_begin_scan W n bk = Ok x.
Proof.
  induction n as [|n IH]; intros bk x; cbn [v_begin_scan]; [done|]. intros H. dinv1 H. apply (vl_size _ _ L) in E as ->. cbn [mbind res_bind].
  destruct (0 <? a); [done|by apply IH].
Qed.
Lemma vl_begin V W (L : view_le V W) x : v_begin V = Ok x -> v_begin W = Ok x.
Proof. unfold v_begin. rewrite (vl_count _ _ L). by apply vl_begin_scan. Qed.
Lemma vl_rbegin_scan V W (L : view_le V W) : forall n bk x, v_rbegin_scan V n bk = Ok x -> v_rbegin_scan W n bk = Ok x.
Proof.
  induction n as [|n IH]; intros bk x; cbn [v_rbegin_scan]; [done|]. intros H. dinv1 H. apply (vl_size _ _ L) in E as ->. cbn [mbind res_bind].
  destruct (0 <? a); [done|by apply IH].
Qed.
Lemma vl_rbegin V W (L : view_le V W) x : v_rbegin V = Ok x -> v_rbegin W = Ok x.
Proof. unfold v_rbegin. rewrite (vl_count _ _ L). destruct (_ =? _); [done|]. by apply vl_rbegin_scan. Qed.

Section compact.
Context (pf : platform) (c : ccfg) (kw vw bmin : N).
Hypothesis OK : compact_ok pf c kw vw bmin.
Hypothesis Hkb : kw <= cc_keybits c.
Notation bmax := (zbmax (cc_hash c) kw).
Notation bq := (zq (cc_hash c) (cc_keybits c) (cc_hbits c) kw).
Notation bb := (zb (cc_hash c) (cc_keybits c) (cc_hbits c) kw).
Notation bw b := (N.to_nat (zw (cc_hash c) (cc_keybits c) (cc_hbits c) kw b)).
Notation vwn := (N.to_nat vw).
Notation wrep := (wrep c kw vw bmin).
Notation xrep := (xrep c kw vw bmin).
Notation xzero := (xzero kw vw).
Notation xrepr := (xrepr c kw vw).
Notation okey := (cokey c kw bmin).
Let Hsb := co_sb _ _ _ _ _ OK.
Let Hacc := co_acc _ _ _ _ _ OK.

Definition xmrep (t : xmap) (m : gmap N N) : Prop := mrep xrep xzero t m.
Lemma debug_compact_run fuel ops t m : (64 <= fuel)%nat -> xmrep t m -> valid_ops kw vw bmin bmax ops ->
  exists t' rs, m_run_ops (x_impl pf c fuel) t ops = Ok (t', rs) /\ Forall2 (oout okey) rs (snd (spec_run m ops)) /\ xmrep t' (fst (spec_run m ops)).
Proof.
  intros Hf HR Hv. exact (m_run_rep _ _ _ _ _ _ _ _ _ _ _ _ _ _ (debug_compact_chain pf c kw vw bmin OK Hkb fuel Hf) ops t m HR Hv).
Qed.

(** ** Iteration *)
Lemma xforward t ess f : xrep t ess -> (length (concat ess) <= f)%nat -> exists l, x_forward pf c f t = Ok l /\ Forall2 (oent okey) l (concat ess).
Proof.
  intros H Hf. destruct (v_forward_spec _ _ _ _ (xshows pf c kw vw bmin OK Hkb _ _ H) f Hf) as (l & E & HF). exists l. split; [|done].
  unfold x_forward. dinv1 E. by rewrite (vl_begin _ _ (x_view_le pf c t) _ E0).
Qed.
Lemma xbackward t ess f : xrep t ess -> concat ess <> [] -> (length (concat ess) <= f)%nat ->
  exists l, x_backward pf c f t = Ok l /\ Forall2 (oent okey) l (rev (concat ess)).
Proof.
  intros H Hne Hf. destruct (v_backward_spec _ _ _ _ (xshows pf c kw vw bmin OK Hkb _ _ H) f Hne Hf) as (l & E & HF). exists l. split; [|done].
  unfold x_backward. dinv1 E. by rewrite (vl_rbegin _ _ (x_view_le pf c t) _ E0).
Qed.
Lemma xforward0 t f : xzero t -> x_forward pf c f t = Ok [].
Proof.
  intros [(_ & _ & Hb & _) _]. unfold x_forward, v_begin. cbn [c_view v_count]. unfold c_bucket_count. rewrite Hb. cbn [N.eqb N.to_nat v_begin_scan mbind res_bind].
  assert (Ee : vn_eq (x_view pf c t) end_nav end_nav = Ok true).
  { unfold vn_eq, vn_invalid, end_nav. cbn [x_view v_count]. unfold c_bucket_count. by rewrite Hb. }
  destruct f; cbn [v_iterate]; by rewrite Ee.
Qed.

(** ** A new key with a value that does not fit *)
Lemma xfoi_wide fuel : (64 <= fuel)%nat -> forall f t ess k v, xrep t ess -> (N.to_nat (bmax - xm_b t) < f)%nat -> k < 2^kw -> 2^vw <= v ->
  emap (concat ess) !! k = None -> x_find_or_insert pf c f t k v = Throw.
Proof.
  intros Hfuel. pose proof (debug_compact_chain pf c kw vw bmin OK Hkb fuel Hfuel) as C.
  induction f as [|f IH]; intros t ess k v HR Hf Hk Hv Hnk; [lia|].
  destruct (ch_bucket _ _ _ _ _ _ _ _ _ _ _ _ _ _ C _ _ _ HR Hk) as (es & He). pose proof (ch_lookup _ _ _ _ _ _ _ _ _ _ _ _ _ _ C _ _ _ _ HR He) as Hl.
  pose proof (ch_bits _ _ _ _ _ _ _ _ _ _ _ _ _ _ C _ _ HR) as Hb. pose proof (ch_b _ _ _ _ _ _ _ _ _ _ _ _ _ _ C) as Hbb.
  destruct (first_index k (keys_of es)) as [p|] eqn:Ep; [destruct Hl as (v0 & Hm & _); congruence|].
  destruct (length es =? 255)%nat eqn:Efull; [|by eapply (xpush_wide pf c kw vw bmin OK Hkb)].
  assert (Hnk' : k ∉ keys_of (concat ess)) by (by apply emap_None).
  assert (Hfb : cfullb (xstrip t) ess (bb (xm_b t) k) = true) by (unfold cfullb; by rewrite He).
  pose proof (ch_grow _ _ _ _ _ _ _ _ _ _ _ _ _ _ C t ess k HR Hk Hnk' Hfb) as Hlt.
  rewrite (xfull pf c kw vw bmin OK Hkb f t ess es k v (proj1 HR) Hk He Ep Efull).
  rewrite shl64_1 by lia. cbn [mbind res_bind].
  assert (Hlog : N.log2_up (2^(xm_b t + 1)) = xm_b t + 1) by (apply N.log2_up_pow2; lia).
  destruct (ch_resv _ _ _ _ _ _ _ _ _ _ _ _ _ _ C t ess (2^(xm_b t + 1)) HR) as (tmp & ess0 & fin & HR0 & Hc0 & Hb0 & Hfin & ->).
  { split; [pose proof (pow2_pos (xm_b t + 1)); lia|]. apply pow2_le_63. lia. }
  { rewrite Hlog. lia. }
  rewrite Hlog in Hb0.
  destruct (ins_fold_spec kw vw xm_b xrep (x_find_or_insert pf c f) (xm_b t + 1)) with (E := concat ess) (tmp := tmp) (ess0 := ess0)
    as (t1 & ess1 & -> & HR1 & Hb1 & HP1); [|done|lia| |intros; eapply (ch_range _ _ _ _ _ _ _ _ _ _ _ _ _ _ C); [exact HR|done]|].
  { intros t2 ess2 k2 v2 HR2 Hb2 Hk2 Hv2. apply (foi_spec _ _ _ _ _ _ _ _ _ _ _ _ _ _ C); [done| |done|done]. pose proof (ch_bits _ _ _ _ _ _ _ _ _ _ _ _ _ _ C _ _ HR2). lia. }
  { rewrite Hc0, app_nil_r. by eapply (ch_nodup _ _ _ _ _ _ _ _ _ _ _ _ _ _ C). }
  cbn [mbind res_bind]. rewrite Hc0, app_nil_r in HP1. rewrite (Hfin _ _ HR1 HP1). cbn [mbind res_bind].
  eapply IH; [exact HR1| |done|done|]; [pose proof (ch_bits _ _ _ _ _ _ _ _ _ _ _ _ _ _ C _ _ HR1); lia|].
  assert (Em : emap (concat ess1) = emap (concat ess)).
  { apply emap_perm; [by eapply (ch_nodup _ _ _ _ _ _ _ _ _ _ _ _ _ _ C)|done]. }
  by rewrite Em.
Qed.
Lemma xinsert_wide fuel t m k v : (64 <= fuel)%nat -> xmrep t m -> k < 2^kw -> 2^vw <= v -> m !! k = None -> x_find_or_insert pf c fuel t k v = Throw.
Proof.
  intros Hf HR Hk Hv Hm. pose proof (debug_compact_chain pf c kw vw bmin OK Hkb fuel Hf) as C.
  assert (Hgo : forall t ess, xrep t ess -> emap (concat ess) = m -> x_find_or_insert pf c fuel t k v = Throw).
  { intros t' ess H He. eapply (xfoi_wide fuel Hf); [exact H|by eapply (ch_fuel_enough _ _ _ _ _ _ _ _ _ _ _ _ _ _ C)|done|done|by rewrite He]. }
  destruct HR as [[Hz ->]|(ess & HR & He)]; [|by eapply Hgo]. destruct fuel as [|f]; [lia|].
  destruct (ch_first _ _ _ _ _ _ _ _ _ _ _ _ _ _ C f t Hz) as (t1 & ess1 & HR1 & Hc1 & ->).
  eapply Hgo; [exact HR1|]. by rewrite Hc1.
Qed.
Lemma xinsert_throws_iff fuel t m k v : (64 <= fuel)%nat -> xmrep t m -> k < 2^kw ->
  (x_find_or_insert pf c fuel t k v = Throw <-> m !! k = None /\ 2^vw <= v)
  /\ (~ (m !! k = None /\ 2^vw <= v) -> exists t' x, x_find_or_insert pf c fuel t k v = Ok (t', x) /\ xmrep t' (match m !! k with None => <[k := v]> m | Some _ => m end)).
Proof.
  intros Hf HR Hk. pose proof (debug_compact_chain pf c kw vw bmin OK Hkb fuel Hf) as C.
  assert (Hok : ~ (m !! k = None /\ 2^vw <= v) -> exists t' x, x_find_or_insert pf c fuel t k v = Ok (t', x) /\ xmrep t' (match m !! k with None => <[k := v]> m | Some _ => m end)).
  { intros Hn. destruct (N.lt_ge_cases v (2^vw)) as [Hv|Hv].
    - destruct (insert_rep_gen _ _ _ _ _ _ _ _ _ _ _ _ _ _ C t m k v HR Hk Hv) as (t' & x & ess & E & HR' & Hpost). cbn [x_impl i_insert] in E. exists t', x. split; [done|].
      right. exists ess. split; [done|]. destruct (m !! k) as [v0|] eqn:Em; apply Hpost.
    - destruct (m !! k) as [v0|] eqn:Em; [|by destruct Hn]. destruct HR as [[_ ->]|(ess & HR & He)]; [done|].
      destruct (ch_bucket _ _ _ _ _ _ _ _ _ _ _ _ _ _ C _ _ _ HR Hk) as (es & Hes). pose proof (ch_lookup _ _ _ _ _ _ _ _ _ _ _ _ _ _ C _ _ _ _ HR Hes) as Hl.
      destruct (first_index k (keys_of es)) as [p|] eqn:Ep; [|rewrite He in Hl; congruence]. destruct fuel as [|g]; [lia|].
      rewrite (ch_found _ _ _ _ _ _ _ _ _ _ _ _ _ _ C g t ess es k v p HR Hk Hes Ep). eexists t, _. split; [done|]. right. by exists ess. }
  split; [|done]. split.
  - intros E. destruct (decide (m !! k = None /\ 2^vw <= v)) as [D|D]; [done|]. destruct (Hok D) as (? & ? & E' & _). congruence.
  - intros [Hm Hv]. by eapply xinsert_wide.
Qed.

(** ** A key that does not fit *)
Lemma xmap_wide t k f : cc_hash c = HBij f -> 1 <= xm_kw t <= 64 -> 2^(xm_kw t) <= k -> x_map c t k = Throw.
Proof.
  intros Hh Hw Hk. unfold x_map, dhash_map, chm. cbn [h_kind h_width]. rewrite Hh.
  rewrite (proj2 (N.leb_le 1 _)), (proj2 (N.leb_le _ 64)) by lia. cbn [andb]. unfold dbij_hash. rewrite mask_ones, N.ones_equiv by done.
  rewrite (proj2 (N.leb_gt _ _)) by lia. done.
Qed.
Lemma xinsert_wide_key fuel t m k v f : (64 <= fuel)%nat -> xmrep t m -> cc_hash c = HBij f -> 2^kw <= k -> x_find_or_insert pf c fuel t k v = Throw.
Proof.
  intros Hf HR Hh Hk. pose proof (debug_compact_chain pf c kw vw bmin OK Hkb fuel Hf) as C. pose proof (xkw_range pf c kw vw bmin OK Hkb).
  destruct fuel as [|g]; [lia|].
  assert (Hgo : forall t ess, xrep t ess -> x_find_or_insert pf c (S g) t k v = Throw).
  { intros t' ess [H' _]. destruct (x_enter pf c kw vw bmin OK Hkb _ _ H') as [F1 F2]. cbn [x_find_or_insert]. rewrite F1, F2. cbn [chk mbind res_bind].
    rewrite (xmap_wide _ _ f) by (try done; rewrite (wr_kw _ _ _ _ _ _ H'); lia). done. }
  destruct HR as [[Hz ->]|(ess & HR & He)]; [|by eapply Hgo].
  destruct (ch_first _ _ _ _ _ _ _ _ _ _ _ _ _ _ C g t Hz) as (t1 & ess1 & HR1 & Hc1 & ->). by eapply Hgo.
Qed.
Lemma xfind_wide_key t m k f : xmrep t m -> cc_hash c = HBij f -> 2^kw <= k -> xm_b t <> 0 -> x_find pf c t k = Throw /\ x_erase pf c t k = Throw.
Proof.
  intros HR Hh Hk Hb. pose proof (xkw_range pf c kw vw bmin OK Hkb). destruct HR as [[[(_ & _ & Hz & _) _] _]|(ess & [HR _] & He)]; [done|].
  unfold x_find, x_erase, x_locate. rewrite (proj2 (N.eqb_neq _ _) Hb). rewrite (xmap_wide _ _ f) by (try done; rewrite (wr_kw _ _ _ _ _ _ HR); lia). done.
Qed.

(** ** write_value of a value that does not fit *)
Lemma wrep_write t ess bk p es k v y : xrep t ess -> ess !! N.to_nat bk = Some es -> es !! N.to_nat p = Some (k, v) ->
  exists t', x_write_value pf c t (bk, p) y = Ok t' /\ xm_b t' = xm_b t /\ wrep t' (<[N.to_nat bk := <[N.to_nat p := (k, y)]> es]> ess).
Proof.
  intros [HW HC] He Hp. destruct (xwrite_any pf c kw vw bmin OK Hkb t ess bk p es k v y HW He Hp) as (s' & E & Hr). eexists. split; [exact E|]. split; [done|].
  set (es' := <[N.to_nat p := (k, y)]> es) in *.
  assert (Hin : forall e, e ∈ es' -> e ∈ es \/ e = (k, y)).
  { intros e He'. apply elem_of_list_lookup in He' as (j & Hj). apply list_lookup_insert_Some in Hj as [(_ & <- & _)|[_ Hj]]; [by right|left; by eapply elem_of_list_lookup_2]. }
  pose proof (elem_of_list_lookup_2 _ _ _ Hp) as Hk.
  eapply (wrep_set c kw vw bmin t ess bk s' (xm_n t) es es'); [done|done|done|..].
  - intros i es1 k1 v1 H1 H2. apply list_lookup_insert_Some in H1 as [(<- & <- & _)|[_ H1]]; [|by eapply (wr_placed _ _ _ _ _ _ HW)].
    destruct (Hin _ H2) as [H3|[= -> ->]]; by eapply (wr_placed _ _ _ _ _ _ HW).
  - intros k1 v1 H1. apply elem_of_concat in H1 as (i & es1 & H1 & H2). apply list_lookup_insert_Some in H1 as [(<- & <- & _)|[_ H1]].
    + destruct (Hin _ H2) as [H3|[= -> ->]]; eapply (wr_range _ _ _ _ _ _ HW); apply elem_of_concat; eauto.
    + eapply (wr_range _ _ _ _ _ _ HW). apply elem_of_concat. eauto.
Qed.
Lemma xreserve_wide fuel t ess n bk p es k v y t2 : (64 <= fuel)%nat -> xrep t ess -> ess !! N.to_nat bk = Some es -> es !! N.to_nat p = Some (k, v) -> 2^vw <= y ->
  wrep t2 (<[N.to_nat bk := <[N.to_nat p := (k, y)]> es]> ess) -> 1 <= n <= 2^63 -> bmin <= N.log2_up n <= bmax -> x_reserve pf c fuel t2 n = Throw.
Proof.
  intros Hfuel H He Hp Hy HW2 Hn Hb. pose proof H as [HW HC]. set (es' := <[N.to_nat p := (k, y)]> es) in *. set (ess' := <[N.to_nat bk := es']> ess) in *.
  pose proof (debug_compact_chain pf c kw vw bmin OK Hkb fuel Hfuel) as C. pose proof (ch_b _ _ _ _ _ _ _ _ _ _ _ _ _ _ C) as Hbb.
  destruct (x_new_ok pf c kw vw bmin OK Hkb) as (t0 & Et0 & _ & _).
  assert (Hlog : N.log2_up (2^N.log2_up n) = N.log2_up n) by (apply N.log2_up_pow2; lia).
  destruct (xalloc pf c kw vw bmin OK Hkb (XMap None 0 0 kw vw) (2^N.log2_up n)) as (tmp & ess0 & Ea & HR & Hc & Hbt); try done.
  { split; [pose proof (pow2_pos (N.log2_up n)); lia|]. apply pow2_le_63. lia. }
  { by rewrite Hlog. }
  assert (Hpes : (N.to_nat p < length es)%nat) by (by eapply lookup_lt_Some). assert (Hbl : (N.to_nat bk < length ess)%nat) by (by eapply lookup_lt_Some).
  assert (He2 : ess' !! N.to_nat bk = Some es') by (by apply list_lookup_insert).
  assert (Hp2 : es' !! N.to_nat p = Some (k, y)) by (by apply list_lookup_insert).
  assert (Htk : take (N.to_nat p) es' = take (N.to_nat p) es) by (unfold es'; by rewrite take_insert by lia).
  assert (Htb : take (N.to_nat bk) ess' = take (N.to_nat bk) ess) by (unfold ess'; by rewrite take_insert by lia).
  (* the pairs met before the wide one *)
  assert (Hall : concat ess = (concat (take (N.to_nat bk) ess) ++ take (N.to_nat p) es) ++ drop (N.to_nat p) es ++ concat (drop (S (N.to_nat bk)) ess)).
  { rewrite <-app_assoc, (app_assoc (take _ es)), take_drop. rewrite <-(take_drop_middle _ _ _ He) at 1. rewrite concat_app. done. }
  set (E1 := concat (take (N.to_nat bk) ess)) in *. set (E2 := take (N.to_nat p) es) in *.
  destruct (ins_fold_spec kw vw xm_b xrep (x_find_or_insert pf c fuel) 0) with (E := E1 ++ E2) (tmp := tmp) (ess0 := ess0) as (t' & ess1 & EI & _).
  { intros t1 ess1 k1 v1 HR1 _ Hk1 Hv1. eapply (foi_spec _ _ _ _ _ _ _ _ _ _ _ _ _ _ C); try done. by eapply (ch_fuel_enough _ _ _ _ _ _ _ _ _ _ _ _ _ _ C). }
  { done. } { lia. }
  { rewrite Hc, app_nil_r. pose proof (cr_nodup _ _ _ _ _ _ HC) as Hnd. rewrite Hall, (fmap_app fst (E1 ++ E2)) in Hnd. by apply NoDup_app in Hnd as [? _]. }
  { intros k1 v1 H1. eapply (cr_range _ _ _ _ _ _ HC). rewrite Hall. apply elem_of_app. by left. }
  rewrite ins_fold_app in EI. dinv1 EI. rename a into tmp1.
  pose proof (xb_range pf c kw vw bmin OK Hkb _ _ HW2). unfold x_reserve, x_reserve_with. rewrite (proj2 (N.eqb_neq _ _)) by lia. rewrite reserve_bits_spec by done. cbn [mbind res_bind].
  rewrite (wr_kw _ _ _ _ _ _ HW2), (wr_vw _ _ _ _ _ _ HW2), Et0. cbn [mbind res_bind]. rewrite Ea. cbn [mbind res_bind].
  rewrite (xwidth pf c kw vw bmin OK Hkb t2 (wr_kw _ _ _ _ _ _ HW2) (wr_b _ _ _ _ _ _ HW2)). cbn [mbind res_bind].
  destruct (wr_slots _ _ _ _ _ _ HW2) as (sl & Hsl & HF). rewrite Hsl.
  rewrite (xcount pf c kw vw bmin OK Hkb _ _ HW2), take_ge by (rewrite (Forall2_length _ _ _ HF); pose proof (wr_len _ _ _ _ _ _ HW2); lia).
  destruct (Forall2_lookup_r _ _ _ _ _ HF He2) as (s & Hs & Hr).
  rewrite <-(take_drop_middle _ _ _ Hs), imap_app. cbn [imap]. rewrite rfold_app.
  assert (Hsmall : forall (l : entries), (forall e, e ∈ l -> e ∈ concat ess) -> small vwn (vals_of l)).
  { intros l Hl. apply Forall_fmap, Forall_forall. intros [k1 v1] H1. cbn. rewrite N2Nat.id. eapply (cr_range _ _ _ _ _ _ HC). by apply Hl. }
  assert (Hfirst : rfold (x_rehash_slot pf c (x_find_or_insert pf c fuel) t2) (imap pair (take (N.to_nat bk) sl)) tmp = ins_fold (x_find_or_insert pf c fuel) E1 tmp).
  { unfold E1. rewrite <-Htb. apply (xrehash pf c kw vw bmin OK Hkb (x_find_or_insert pf c fuel) t2 ess' HW2 (take (N.to_nat bk) sl) (take (N.to_nat bk) ess') 0 tmp).
    - by apply Forall2_take.
    - intros j e Hj. rewrite Nat.add_0_l. apply lookup_take_Some in Hj as [Hj Hlt]. split.
      + rewrite <-(Nat2N.id j) in Hj. exact (xhome_at c kw vw bmin _ _ _ _ HW2 Hj).
      + apply Hsmall. intros e1 H1. apply elem_of_concat. unfold ess' in Hj. rewrite list_lookup_insert_ne in Hj by lia. eauto. }
  rewrite Hfirst, E. cbn [mbind res_bind rfold].
  assert (Hlen : length (take (N.to_nat bk) sl) = N.to_nat bk) by (rewrite take_length; apply lookup_lt_Some in Hs; lia).
  assert (Ht : x_rehash_slot pf c (x_find_or_insert pf c fuel) t2 tmp1 (N.to_nat bk, s) = Throw); [|rewrite Hlen, Nat.add_0_r, Ht; done].
  unfold x_rehash_slot. destruct (xrepr_size c kw vw _ _ _ Hr) as [Hsz _]. rewrite Hsz.
  assert (Hle : length es' = length es) by apply insert_length. rewrite (proj2 (N.eqb_neq _ _)) by lia. rewrite Nat2N.id, Hle.
  replace (length es) with (N.to_nat p + S (length es - N.to_nat p - 1))%nat by lia. rewrite seq_app, rfold_app.
  assert (Hh : xhome c kw (xm_b t2) bk es') by (exact (xhome_at c kw vw bmin _ _ _ _ HW2 He2)). rewrite (N2Nat.id bk).
  rewrite (xrehash_entries pf c kw vw bmin OK Hkb (x_find_or_insert pf c fuel) t2 s es' bk (wr_kw _ _ _ _ _ _ HW2) (wr_vw _ _ _ _ _ _ HW2) (wr_b _ _ _ _ _ _ HW2) Hr Hh (N.to_nat p) 0);
    [|lia|rewrite drop_0, Htk; apply Hsmall; intros e1 H1; rewrite Hall; apply elem_of_app; left; apply elem_of_app; by right].
  rewrite drop_0, Htk. fold E2. rewrite EI. cbn [mbind res_bind Nat.add seq rfold].
  rewrite (xqw_eq c kw t2 (wr_kw _ _ _ _ _ _ HW2)), (xvw_eq vw t2 (wr_vw _ _ _ _ _ _ HW2)).
  rewrite (xs_quot_at pf c kw vw bmin OK _ _ _ _ _ _ (wr_b _ _ _ _ _ _ HW2) Hr Hp2). cbn [mbind res_bind].
  destruct (Hh k y) as [Hk Ebk]; [by eapply elem_of_list_lookup_2|]. destruct (xz_map pf c kw vw bmin OK Hkb (xm_b t2) k (wr_b _ _ _ _ _ _ HW2) Hk) as [_ Hinv]. rewrite Ebk in Hinv.
  rewrite (wr_kw _ _ _ _ _ _ HW2), Hinv. cbn [mbind res_bind]. rewrite (xkey_at c kw vw _ _ _ _ _ _ Hr Hp2). cbn [mbind res_bind]. rewrite N.eqb_refl. cbn [chk mbind res_bind].
  rewrite (xs_value_at pf c kw vw bmin OK _ _ _ _ _ _ (wr_b _ _ _ _ _ _ HW2) Hr Hp2). by rewrite (proj2 (N.ltb_ge _ _)).
Qed.
(** The value is taken; what was asked before is answered as before; the value cannot be read, elements of its bucket cannot be erased, the map
    cannot be rehashed. *)
Lemma xwrite_wide fuel t m k v y : (64 <= fuel)%nat -> xmrep t m -> k < 2^kw -> m !! k = Some v -> 2^vw <= y ->
  exists x t2, x_find pf c t k = Ok x /\ x_write_value pf c t x y = Ok t2
    /\ (forall k', k' < 2^kw -> x_find pf c t2 k' = x_find pf c t k')
    /\ vn_value (x_view pf c t2) x = Throw /\ x_erase pf c t2 k = Throw
    /\ (forall p, p <> ones64 -> x_erase_at pf c t2 (fst x, p) = Throw)
    /\ (forall n, 1 <= n <= 2^63 -> bmin <= N.log2_up n <= bmax -> x_reserve pf c fuel t2 n = Throw).
Proof.
  intros Hfuel HR Hk Hm Hy. pose proof (debug_compact_chain pf c kw vw bmin OK Hkb fuel Hfuel) as C.
  destruct HR as [[_ ->]|(ess & H & He)]; [done|]. pose proof H as [HW HC].
  destruct (ch_bucket _ _ _ _ _ _ _ _ _ _ _ _ _ _ C _ _ _ H Hk) as (es & Hes). pose proof (ch_lookup _ _ _ _ _ _ _ _ _ _ _ _ _ _ C _ _ _ _ H Hes) as Hl.
  destruct (first_index k (keys_of es)) as [p|] eqn:Ep; [|rewrite He in Hl; congruence]. destruct Hl as (v0 & Hm0 & Hp). rewrite He, Hm in Hm0. injection Hm0 as <-.
  set (bk := bb (xm_b t) k) in *. pose proof (xfind_ok pf c kw vw bmin OK Hkb t ess es k HW Hk Hes) as Ef. rewrite Ep in Ef. fold bk in Ef.
  assert (Hp' : es !! N.to_nat (N.of_nat p) = Some (k, v)).
  { destruct (nav_bucket c kw vw bmin _ _ _ _ _ HC Hp) as (es1 & Hes1 & Hp1 & _). cbn [fst snd] in *. rewrite Hes in Hes1. by injection Hes1 as <-. }
  destruct (wrep_write t ess bk (N.of_nat p) es k v y H Hes Hp') as (t2 & E2 & Hb2 & HW2).
  set (es' := <[N.to_nat (N.of_nat p) := (k, y)]> es) in *. set (ess' := <[N.to_nat bk := es']> ess) in *.
  assert (Hbl : (N.to_nat bk < length ess)%nat) by (by eapply lookup_lt_Some). pose proof (lookup_lt_Some _ _ _ Hp') as Hpl.
  assert (He2 : ess' !! N.to_nat bk = Some es') by (by apply list_lookup_insert).
  assert (Hp2 : es' !! N.to_nat (N.of_nat p) = Some (k, y)) by (by apply list_lookup_insert).
  assert (Hkeys : keys_of es' = keys_of es).
  { unfold es'. rewrite list_fmap_insert. cbn. apply list_insert_id. by rewrite list_lookup_fmap, Hp'. }
  assert (Hea : forall q, q <> ones64 -> x_erase_at pf c t2 (bk, q) = Throw).
  { intros q Hq. unfold x_erase_at. rewrite (proj2 (N.eqb_neq _ _) Hq). destruct (xslot_at pf c kw vw bmin OK Hkb _ _ _ _ HW2 He2) as (sl & s & _ & _ & -> & Hr). cbn [mbind res_bind].
    rewrite (xwidth pf c kw vw bmin OK Hkb t2 (wr_kw _ _ _ _ _ _ HW2) (wr_b _ _ _ _ _ _ HW2)). cbn [mbind res_bind].
    rewrite (xqw_eq c kw t2 (wr_kw _ _ _ _ _ _ HW2)), (xvw_eq vw t2 (wr_vw _ _ _ _ _ _ HW2)), (wr_kw _ _ _ _ _ _ HW2).
    erewrite xs_erase_wide; [done|exact Hsb|exact Hacc|apply (CompactProofs.bw_range pf c kw vw bmin OK); apply HW2|exact (CompactProofs.vw_range pf c kw vw bmin OK)|exact Hr| |].
    - apply (home_inv pf c kw vw bmin OK Hkb); [apply HW2|]. exact (xhome_at c kw vw bmin _ _ _ _ HW2 He2).
    - intros Hs. assert (Hl : vals_of es' !! N.to_nat (N.of_nat p) = Some y) by (by rewrite list_lookup_fmap, Hp2).
      pose proof (Forall_lookup_1 _ _ _ _ Hs Hl) as Hlt. cbn in Hlt. rewrite N2Nat.id in Hlt. lia. }
  exists (bk, N.of_nat p), t2. split; [exact Ef|]. split; [exact E2|]. split; [|split; [|split; [|split]]].
  - intros k' Hk'. destruct (ch_bucket _ _ _ _ _ _ _ _ _ _ _ _ _ _ C _ _ _ H Hk') as (es1 & Hes1). rewrite (xfind_ok pf c kw vw bmin OK Hkb t ess es1 k' HW Hk' Hes1).
    assert (Hx : exists es2, ess' !! N.to_nat (bb (xm_b t2) k') = Some es2 /\ keys_of es2 = keys_of es1).
    { rewrite Hb2. unfold ess'. destruct (decide (N.to_nat bk = N.to_nat (bb (xm_b t) k'))) as [D|D].
      - rewrite <-D in Hes1 |- *. rewrite Hes in Hes1. injection Hes1 as <-. exists es'. split; [by apply list_lookup_insert|done].
      - rewrite list_lookup_insert_ne by done. by exists es1. }
    destruct Hx as (es2 & Hes2 & Ek2). rewrite (xfind_ok pf c kw vw bmin OK Hkb t2 ess' es2 k' HW2 Hk' Hes2), Ek2, Hb2. done.
  - unfold vn_value. cbn [x_view v_value]. rewrite (xvalue_at pf c kw vw bmin OK Hkb _ _ _ _ _ _ _ HW2 He2 Hp2). by rewrite (proj2 (N.ltb_ge _ _)).
  - unfold x_erase, x_locate. destruct (x_enter pf c kw vw bmin OK Hkb _ _ HW2) as [_ F2]. rewrite F2.
    rewrite (xmap_ok pf c kw vw bmin OK Hkb t2 k) by (try apply HW2; done). cbn [mbind res_bind].
    rewrite (xlocate pf c kw vw bmin OK Hkb _ _ es' _ HW2 Hk) by (rewrite Hb2; exact He2). rewrite Hkeys, Ep. cbn [mbind res_bind fmap option_fmap option_map].
    rewrite Hb2. apply Hea.
    destruct (xslot_at pf c kw vw bmin OK Hkb _ _ _ _ HW Hes) as (_ & s & _ & _ & _ & Hr). destruct (xrepr_size c kw vw _ _ _ Hr) as [_ H255]. unfold ones64. lia.
  - exact Hea.
  - intros n Hn Hlog. by eapply (xreserve_wide fuel t ess n bk (N.of_nat p) es k v y t2).
Qed.
End compact.
