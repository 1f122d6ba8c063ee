(** No check of the debug build fails in a history that the release build handles, and the results are the same. *)
From Verif Require Export DebugSlot TableRefine.

Section debug.
Context (pf : platform) (c : cfg) (junk : option N) (kw vw bmin bmax : N) (strict : Prop).
Notation hq := (hq c kw). Notation hb := (hb c kw). Notation qw := (qw c kw). Notation nv := (nv c vw).
Notation hmk := (hmk c kw).
Notation fair := (ov_side pf c kw).
Notation srepr := (slot_repr pf c kw vw strict).
Notation tinv := (tinv pf c kw vw bmin bmax strict).
Notation tcon := (tcon pf c kw vw bmin bmax strict).
Notation tzero := (tzero pf c kw vw).
Notation nav_entry := (nav_entry pf).
Notation kdom := (kdom c kw).
Notation sg := (sg pf c kw vw strict).
Hypothesis OK : table_ok0 pf c kw vw bmin bmax.
Hypothesis DOK : dbg_ok c junk kw vw bmin bmax.

Implicit Types (d tmp : dtable) (ess : list entries) (ovl E : entries).

(** The debug members of the table; the rest is described by [tinv] of the stripped table. *)
Definition dgood d : Prop := exists dsl, d_slots d = Some dsl /\ (c_arb c = true -> d_rs d = Some (2^(d_b d)))
  /\ forall i s, dsl !! i = Some s -> sg (d_b d) (N.of_nat i) s.
Definition dempty d : Prop := tzero (strip d) /\ (c_arb c = true -> d_rs d = None).

Lemma dgood_set_n d n : dgood d -> dgood (dset_n d n).
Proof. done. Qed.
Lemma dgood_set_ov d o : dgood d -> dgood (dset_ov d o).
Proof. done. Qed.
Lemma dgood_set_slot d bk s : dgood d -> sg (d_b d) bk s -> dgood (dset_slot d bk s).
Proof.
  intros (dsl & Hs & Hrs & Hg) Hsg. exists (<[N.to_nat bk := s]> dsl). cbn [dset_slot d_slots d_b d_rs]. rewrite Hs. split; [done|]. split; [done|].
  intros i s' Hi. apply list_lookup_insert_Some in Hi as [(<- & <- & _)|[_ Hi]]; [by rewrite N2Nat.id|by apply Hg].
Qed.

Section facts.
Context d sl ess ovl (H : tinv (strip d) sl ess ovl) (G : dgood d).
Lemma dt_b : bmin <= d_b d <= bmax.
Proof. apply (ti_b _ _ _ _ _ _ _ _ _ _ _ H). Qed.
Lemma dt_kw : d_kw d = kw.
Proof. apply (ti_kw _ _ _ _ _ _ _ _ _ _ _ H). Qed.
Lemma dt_vw : d_vw d = vw.
Proof. apply (ti_vw _ _ _ _ _ _ _ _ _ _ _ H). Qed.
Lemma dt_hm : dhm c d = hmk.
Proof. apply (tinv_hm _ _ _ _ _ _ _ _ _ _ _ H). Qed.
Lemma dt_ov : ovrel pf fair (hb (d_b d)) (2^(d_b d)) (d_ov d) ovl.
Proof. apply (ti_ov _ _ _ _ _ _ _ _ _ _ _ H). Qed.
Lemma dt_bc : (d_b d =? 0) = false /\ dbucket_count d = 2^(d_b d).
Proof. apply (tinv_bc _ _ _ _ _ _ _ OK _ _ _ _ H). Qed.
Lemma dt_len dsl : d_slots d = Some dsl -> N.of_nat (length dsl) = 2^(d_b d) /\ sl = map sstrip dsl.
Proof.
  intros E. pose proof (ti_slots _ _ _ _ _ _ _ _ _ _ _ H) as Hs. cbn [strip t_slots] in Hs. rewrite E in Hs. cbn in Hs. injection Hs as <-.
  split; [|done]. pose proof (ti_len _ _ _ _ _ _ _ _ _ _ _ H) as Hl. rewrite map_length in Hl. exact Hl.
Qed.
Lemma dt_slot bk : bk < 2^(d_b d) -> exists s, dget_slot d bk = Ok s /\ get_slot (strip d) bk = Ok (sstrip s) /\ sg (d_b d) bk s.
Proof.
  destruct G as (dsl & Hs & _ & Hg). intros Hbk. destruct (dt_len dsl Hs) as [Hl _].
  destruct (lookup_bucket_lt dsl bk _ Hl Hbk) as (s & Es). exists s. unfold dget_slot, get_slot. cbn [strip t_slots]. rewrite Hs. cbn [fmap option_fmap option_map].
  rewrite map_length, Hl, (proj2 (N.ltb_lt _ _)) by done. rewrite Es. split; [done|]. split.
  - change (map sstrip dsl !! N.to_nat bk) with ((sstrip <$> dsl) !! N.to_nat bk). by rewrite list_lookup_fmap, Es.
  - specialize (Hg _ _ Es). by rewrite N2Nat.id in Hg.
Qed.
Lemma dt_rs bk : bk < 2^(d_b d) -> c_arb c = true -> exists n, d_rs d = Some n /\ bk < n.
Proof. intros Hbk A. destruct G as (dsl & _ & Hrs & _). rewrite Hrs by done. by eexists. Qed.
Lemma dt_hb k : kdom k -> hb (d_b d) k < 2^(d_b d).
Proof. intros Hk. by apply (hb_lt _ _ _ _ _ _ OK _ _ dt_b). Qed.
Lemma dmap_ok k : kdom k -> dmap c d k = Ok (hq (d_b d) k, hb (d_b d) k).
Proof.
  intros Hk. unfold dmap. rewrite dt_hm. destruct (do_map _ _ _ _ _ _ DOK (d_b d) k dt_b Hk) as (-> & Hi & _). cbn [mbind res_bind fst snd].
  rewrite Hi. cbn [mbind res_bind]. by rewrite N.eqb_refl.
Qed.
(** Reading through a navigator *)
Lemma dnav_read x k v : nav_entry (strip d) ess x = Some (k, v) -> dnav_key pf c d x = Ok k /\ dnav_value pf c d x = Ok v.
Proof.
  intros He. destruct (nav_entry_read pf c kw vw bmin bmax strict OK _ _ _ _ _ _ _ H He) as (Hi & Hk & Hv).
  assert (Hsk : exists k', dnav_key pf c d x = Ok k' ) ; [|assert (Hsv : exists v', dnav_value pf c d x = Ok v')].
  3:{ destruct Hsk as [k' Ek], Hsv as [v' Ev]. pose proof (dnav_key_eq _ _ _ _ _ Ek) as Ek'. pose proof (dnav_value_eq _ _ _ _ _ Ev) as Ev'. by split; congruence. }
  - unfold dnav_key. rewrite Hi. cbn [mbind res_bind negb chk]. rewrite (dwidth_ok _ _ _ _ _ _ DOK _ dt_hm dt_b dt_kw). cbn [mbind res_bind].
    destruct x as [bk p]. unfold TableInv.nav_entry in He. cbn [fst snd] in He. change (t_b (strip d)) with (d_b d) in He. change (t_ov (strip d)) with (d_ov d) in He.
    rewrite (proj2 dt_bc). destruct (N.eqb_spec bk (2^(d_b d))) as [->|Hne].
    + destruct (dov_entry_ok pf (kbn c) (vbn c) _ _ _ _ _ _ _ _ dt_ov He) as [Ek _].
      pose proof (ov_entry_spec _ (kbn c) (vbn c) _ _ _ _ _ _ _ _ dt_ov He) as (Hin & _).
      rewrite (ov_size_spec _ _ _ _ _ _ dt_ov), (proj2 (N.ltb_lt _ _)) by (destruct ovl; [by apply elem_of_nil in Hin|cbn; lia]). cbn [andb]. by exists k.
    + rewrite andb_false_r. destruct (ess !! N.to_nat bk) as [es0|] eqn:Hes; [|done]. cbn in He.
      assert (Hlt : bk < 2^(d_b d)) by (pose proof (lookup_lt_Some _ _ _ Hes); pose proof (tinv_len _ _ _ _ _ _ _ _ _ _ _ H) as Hl; change (t_b (strip d)) with (d_b d) in Hl; lia).
      rewrite (proj2 (N.ltb_lt _ _)) by done. cbn [chk mbind res_bind].
      destruct (dt_slot bk Hlt) as (s & -> & Hgs & es & Hr & Hinb & Hgd). cbn [mbind res_bind].
      destruct (tinv_slot _ _ _ _ _ _ _ _ _ _ _ _ H Hlt) as (s0 & es' & Hgs' & _ & Hes' & Hr'). rewrite Hgs in Hgs'. injection Hgs' as <-.
      rewrite Hes in Hes'. injection Hes' as <-. destruct Hr' as [Hsz' _]. pose proof Hr as [Hsz _]. apply lookup_lt_Some in He as Hpl.
      destruct (lookup_lt_is_Some_2 es (N.to_nat p) ltac:(lia)) as [[k' v'] Ee].
      assert (Hne' : es <> []) by (intros ->; done). destruct (sgood_nonnil _ _ _ _ _ _ Hne' Hgd) as (Hgk & _).
      rewrite (db_read_ok pf (c_key c) (ds_keys s) _ _ _ Hgk) by lia.
      pose proof (slot_read_key pf c kw vw bmin bmax strict OK _ _ _ _ _ _ dt_b Hr Ee) as Erk. cbn [sstrip s_keys] in Erk. rewrite Erk. cbn [mbind res_bind].
      rewrite dt_hm. destruct (Hinb k' v' ltac:(by eapply elem_of_list_lookup_2)) as [Hk' Hb'].
      destruct (do_map _ _ _ _ _ _ DOK (d_b d) k' dt_b Hk') as (_ & Hin & _). rewrite Hb' in Hin. by exists k'.
  - unfold dnav_value. rewrite Hi. cbn [mbind res_bind negb chk].
    destruct x as [bk p]. unfold TableInv.nav_entry in He. cbn [fst snd] in He. change (t_b (strip d)) with (d_b d) in He. change (t_ov (strip d)) with (d_ov d) in He.
    rewrite (proj2 dt_bc). destruct (N.eqb_spec bk (2^(d_b d))) as [->|Hne].
    + destruct (dov_entry_ok pf (kbn c) (vbn c) _ _ _ _ _ _ _ _ dt_ov He) as [_ Ev]. destruct (_ && _); by exists v.
    + rewrite andb_false_r. destruct (ess !! N.to_nat bk) as [es0|] eqn:Hes; [|done]. cbn in He.
      assert (Hlt : bk < 2^(d_b d)) by (pose proof (lookup_lt_Some _ _ _ Hes); pose proof (tinv_len _ _ _ _ _ _ _ _ _ _ _ H) as Hl; change (t_b (strip d)) with (d_b d) in Hl; lia).
      rewrite (proj2 (N.ltb_lt _ _)) by done. cbn [chk mbind res_bind].
      destruct (dt_slot bk Hlt) as (s & -> & Hgs & es & Hr & Hinb & Hgd). cbn [mbind res_bind].
      destruct (tinv_slot _ _ _ _ _ _ _ _ _ _ _ _ H Hlt) as (s0 & es' & Hgs' & _ & Hes' & Hr'). rewrite Hgs in Hgs'. injection Hgs' as <-.
      rewrite Hes in Hes'. injection Hes' as <-. destruct Hr' as [Hsz' _]. pose proof Hr as [Hsz _]. apply lookup_lt_Some in He as Hpl.
      destruct (lookup_lt_is_Some_2 es (N.to_nat p) ltac:(lia)) as [[k' v'] Ee].
      assert (Hne' : es <> []) by (intros ->; done). destruct (sgood_nonnil _ _ _ _ _ _ Hne' Hgd) as (_ & Hgv & _).
      unfold dvwidth. rewrite dt_vw. rewrite (db_read_ok pf (c_val c) (ds_vals s) _ _ _ Hgv) by lia.
      pose proof (slot_read_val pf c kw vw bmin bmax strict OK _ _ _ _ _ _ Hr Ee) as Erv. cbn [sstrip s_vals] in Erv. by exists v'.
Qed.
Lemma diter_at_ok x e : nav_entry (strip d) ess x = Some e -> diter_at pf c d x = Ok (Some e).
Proof.
  intros He. destruct e as [k v]. destruct (nav_entry_read pf c kw vw bmin bmax strict OK _ _ _ _ _ _ _ H He) as (Hi & _ & _).
  destruct (dnav_read x k v He) as [Hk Hv]. unfold diter_at. rewrite Hi. cbn [mbind res_bind]. rewrite Hk. cbn [mbind res_bind]. by rewrite Hv.
Qed.
Lemma diter_at_end : diter_at pf c d end_nav = Ok None.
Proof. unfold diter_at. by rewrite (end_nav_invalid pf c kw vw bmin bmax strict OK _ _ _ _ H). Qed.

(** The search in the bucket *)
Lemma dlocate_ok k : kdom k -> exists s pos, dget_slot d (hb (d_b d) k) = Ok s /\ sg (d_b d) (hb (d_b d) k) s
  /\ get_slot (strip d) (hb (d_b d) k) = Ok (sstrip s)
  /\ dlocate_q pf c d (hb (d_b d) k) (hq (d_b d) k) = Ok pos /\ locate_q pf c (strip d) (hb (d_b d) k) (hq (d_b d) k) = Ok pos
  /\ match pos with Some p => p < ds_size s | None => True end.
Proof.
  intros Hk. destruct (dt_slot _ (dt_hb k Hk)) as (s & Hs & Hs' & Hsg).
  destruct (dlocate_q_ok pf c junk kw vw bmin bmax strict OK DOK d s k dt_hm dt_b dt_kw Hk Hs Hsg) as (pos & Hp & Hlt).
  exists s, pos. do 4 (split; [done|]). split; [|done]. by apply (dlocate_q_eq _ _ _ _ _ _ Hp).
Qed.
End facts.

(** ** Positions of the overflow *)
Lemma ov_entry_inj fr bo nbk o ovl p p' k v v' : ovrel pf fr bo nbk o ovl -> NoDup (keys_of ovl) ->
  ov_entry pf o p = Some (k, v) -> ov_entry pf o p' = Some (k, v') -> p = p'.
Proof.
  intros Ho Hnd. destruct o as [|ks vs e full|nb els full]; [done| |].
  - destruct Ho as (-> & _). change (arr_entry (arr_state pf ovl full) p = Some (k, v) -> arr_entry (arr_state pf ovl full) p' = Some (k, v') -> p = p').
    rewrite !arr_entry_lookup. intros H1 H2.
    assert (Hk1 : keys_of ovl !! N.to_nat p = Some k) by (by rewrite list_lookup_fmap, H1).
    assert (Hk2 : keys_of ovl !! N.to_nat p' = Some k) by (by rewrite list_lookup_fmap, H2).
    pose proof (NoDup_lookup _ _ _ _ Hnd Hk1 Hk2). lia.
  - assert (Hp : forall q w, ov_entry pf (OUmap nb els full) q = Some (k, w) -> q = um_bucket pf nb k).
    { intros q w. cbn [ov_entry]. destruct (q <? nb); [|done]. destruct (um_chain pf nb els q) as [|e r] eqn:E; [done|]. intros [= ->].
      assert (Hin : (k, w) ∈ um_chain pf nb els q) by (rewrite E; by constructor). apply um_chain_elem in Hin as [_ Hin]. by cbn in Hin. }
    intros H1%Hp H2%Hp. by rewrite H1, H2.
Qed.

(** The entries of a bucket are determined by its contents and its index, up to the values. *)
Lemma sg_es b bk s es0 : bmin <= b <= bmax -> sg b bk s -> srepr b (sstrip s) es0 -> in_bk c kw b bk es0 -> sgood c kw vw b s es0.
Proof.
  intros Hb (es & Hr & Hin & Hg) Hr0 Hin0. pose proof Hr as [Hsz _]. pose proof Hr0 as [Hsz0 _].
  assert (Hlen : length es0 = length es) by lia.
  destruct (decide (es0 = [])) as [->|Hne]; [destruct es; done|].
  assert (Hne' : es <> []) by (intros ->; destruct es0; done).
  apply sgood_intro; [done|]. destruct (sgood_nonnil _ _ _ _ _ _ Hne' Hg) as (H1 & H2 & l & Hl & Hll & Hpl). rewrite <-Hlen in H1, H2.
  split; [done|]. split; [done|]. exists l. split; [done|]. split; [lia|].
  intros j [k0 v0] Hj. destruct (lookup_lt_is_Some_2 es j ltac:(apply lookup_lt_Some in Hj; lia)) as [[k v] Ej].
  pose proof (slot_read_key pf c kw vw bmin bmax strict OK _ _ _ _ _ _ Hb Hr Ej) as E1.
  pose proof (slot_read_key pf c kw vw bmin bmax strict OK _ _ _ _ _ _ Hb Hr0 Hj) as E2. rewrite E1 in E2. injection E2 as E2.
  destruct (Hin k v) as [Hk Hkb]; [by eapply elem_of_list_lookup_2|]. destruct (Hin0 k0 v0) as [Hk0 Hkb0]; [by eapply elem_of_list_lookup_2|].
  destruct (do_map _ _ _ _ _ _ DOK b k Hb Hk) as (_ & I1 & _). destruct (do_map _ _ _ _ _ _ DOK b k0 Hb Hk0) as (_ & I2 & _).
  rewrite Hkb, E2 in I1. rewrite Hkb0 in I2. assert (k = k0) as -> by congruence. by apply (Hpl _ _ Ej).
Qed.

(** ** Allocation *)
Lemma dalloc_ok d n : tzero (strip d) -> (c_arb c = true -> d_rs d = None) -> 1 <= n <= 2^63 -> bmin <= N.log2_up n <= bmax ->
  exists d', dalloc_table pf c junk d n = Ok d' /\ dgood d'.
Proof.
  intros (_ & _ & _ & _ & Ho & _) Hrs Hn Hb. unfold dalloc_table. rewrite reserve_bits_spec by done. cbn [mbind res_bind]. set (b := N.log2_up n) in *.
  assert (E : (if c_arb c then chk (match d_rs d with None => true | Some _ => false end) else Ok ()) = Ok ()) by (destruct (c_arb c); [by rewrite Hrs|done]).
  rewrite E. cbn [mbind res_bind]. change (t_ov (strip d)) with (d_ov d) in Ho.
  rewrite (dov_resize_ok pf fair (d_ov d) (2^b) Ho); [|by intros (_ & _ & ?)|apply pow2_le_63; pose proof (ok_bounds _ _ _ _ _ _ OK _ Hb); lia].
  cbn [mbind res_bind]. eexists. split; [done|]. exists (replicate (N.to_nat (2^b)) (fresh_dslot junk)). cbn [d_slots d_b d_rs]. split; [done|].
  split; [by intros ->|]. intros i s Hi. apply lookup_replicate in Hi as [-> _]. apply (sg_fresh _ _ _ _ _ _ _ _ DOK).
Qed.
Lemma dnew_ok : exists d, dnew_table pf c kw vw = Ok d /\ d_rs d = None /\ strip d = new_table pf c kw vw.
Proof.
  pose proof (do_kw _ _ _ _ _ _ DOK) as Hk. pose proof (do_vw _ _ _ _ _ _ DOK) as Hv.
  unfold dnew_table. rewrite (do_new _ _ _ _ _ _ DOK). cbn [mbind res_bind].
  rewrite (proj2 (N.leb_le 1 vw)), (proj2 (N.leb_le vw _)), (proj2 (N.leb_le 1 kw)), (proj2 (N.leb_le kw _)) by lia. cbn [chk mbind res_bind].
  eexists. split; [done|]. done.
Qed.

(** ** Reserving more buckets *)
Section rehash.
Context (ins : dtable -> N -> N -> res (dtable * nav)) (R : dtable -> entries -> Prop) (L : nat).
Hypothesis R_perm : forall d E E', E ≡ₚ E' -> R d E -> R d E'.
Hypothesis R_n : forall d E, R d E -> d_n d = u64 (N.of_nat (length E)).
Hypothesis Hins : forall tmp E k v, R tmp E -> (length E < L)%nat -> kdom k -> nv v = v -> k ∉ keys_of E ->
  exists r, ins tmp k v = Ok r /\ R (fst r) ((k, v) :: E).

Lemma drehash_bucket d s es i : bmin <= d_b d <= bmax -> dhm c d = hmk -> d_vw d = vw -> srepr (d_b d) (sstrip s) es -> sgood c kw vw (d_b d) s es ->
  (forall k v, (k, v) ∈ es -> hb (d_b d) k = N.of_nat i /\ kdom k /\ nv v = v) ->
  forall n j tmp E, (j + n = length es)%nat -> R tmp E -> NoDup (keys_of (drop j es ++ E)) -> (length (drop j es ++ E) <= L)%nat ->
  exists tmp', rfold (fun tmp j =>
        q ← db_read pf (c_key c) (ds_keys s) j (qw (d_b d));
        k ← dhash_inv_map (dhm c d) q (N.of_nat i) (d_b d);
        p ← plain_at s j; _ ← chk (k =? p);
        v ← db_read pf (c_val c) (ds_vals s) j (dvwidth d);
        r ← ins tmp k v;
        Ok (fst r)) (seq j n) tmp = Ok tmp' /\ R tmp' (drop j es ++ E).
Proof.
  intros Hb Hhm Hv Hr Hg Hes.
  assert (Hvw : dvwidth d = N.to_nat vw) by (unfold dvwidth; by rewrite Hv).
  induction n as [|n IH]; intros j tmp E Hj Htmp Hnd HL.
  - cbn. exists tmp. split; [done|]. by rewrite drop_ge by lia.
  - destruct (lookup_lt_is_Some_2 es j ltac:(lia)) as [[k v] Hp].
    destruct (Hes k v ltac:(by eapply elem_of_list_lookup_2)) as (Hhb & Hkr & Hvr).
    rewrite (drop_S _ _ _ Hp) in Hnd, HL |- *. cbn [seq rfold]. cbn [app length] in HL. rewrite app_length in HL.
    assert (Hne : es <> []) by (intros ->; done). destruct (sgood_nonnil _ _ _ _ _ _ Hne Hg) as (Hgk & Hgv & l & Hl & _ & Hpl).
    rewrite Hvw, Hhm. rewrite (db_read_ok pf (c_key c) (ds_keys s) _ _ _ Hgk) by lia.
    pose proof (slot_read_key pf c kw vw bmin bmax strict OK _ _ _ _ _ _ Hb Hr Hp) as Erk. cbn [sstrip s_keys] in Erk. rewrite Erk. cbn [mbind res_bind].
    destruct (do_map _ _ _ _ _ _ DOK (d_b d) k Hb Hkr) as (_ & Hinv & _). rewrite Hhb in Hinv. rewrite Hinv. cbn [mbind res_bind].
    assert (Epl : plain_at s j = Ok k) by (unfold plain_at, cell_read; by rewrite Hl, (Hpl _ _ Hp)). rewrite Epl. cbn [mbind res_bind]. rewrite N.eqb_refl. cbn [chk mbind res_bind].
    rewrite (db_read_ok pf (c_val c) (ds_vals s) _ _ _ Hgv) by lia.
    pose proof (slot_read_val pf c kw vw bmin bmax strict OK _ _ _ _ _ _ Hr Hp) as Erv. cbn [sstrip s_vals] in Erv. rewrite Erv. cbn [mbind res_bind].
    cbn [app] in Hnd. cbn [fmap list_fmap fst] in Hnd. apply NoDup_cons in Hnd as [Hk1 Hnd].
    assert (Hni : k ∉ keys_of E) by (intros Hin; apply Hk1; rewrite fmap_app; apply elem_of_app; by right).
    destruct (Hins _ _ _ _ Htmp ltac:(lia) Hkr Hvr Hni) as (r & -> & Hr'). cbn [mbind res_bind].
    destruct (IH (S j) (fst r) ((k, v) :: E)) as (tmp' & Hf & Ht').
    + lia.
    + done.
    + assert (HP : drop (S j) es ++ (k, v) :: E ≡ₚ (k, v) :: drop (S j) es ++ E) by solve_Permutation.
      rewrite HP. cbn. by apply NoDup_cons.
    + rewrite app_length. cbn [length]. lia.
    + exists tmp'. rewrite Hvw, Hhm in Hf. split; [exact Hf|]. eapply R_perm; [|exact Ht']. solve_Permutation.
Qed.

Lemma drehash_slot_ok d s es i tmp E : bmin <= d_b d <= bmax -> dhm c d = hmk -> d_vw d = vw ->
  srepr (d_b d) (sstrip s) es -> sgood c kw vw (d_b d) s es -> (c_arb c = true -> exists n, d_rs d = Some n /\ N.of_nat i < n) ->
  (forall k v, (k, v) ∈ es -> hb (d_b d) k = N.of_nat i /\ kdom k /\ nv v = v) ->
  R tmp E -> NoDup (keys_of (es ++ E)) -> (length (es ++ E) <= L)%nat ->
  exists tmp', drehash_slot pf c ins d (qw (d_b d)) tmp (i, s) = Ok tmp' /\ R tmp' (es ++ E).
Proof.
  intros Hb Hhm Hv Hr Hg Hrs Hes Htmp Hnd HL. unfold drehash_slot. pose proof Hr as (Hsz & _). change (ds_size s = N.of_nat (length es)) in Hsz.
  destruct (N.eqb_spec (ds_size s) 0) as [E0|E0].
  - destruct (slot_free _ _ _ _ _ _ _ _ Hr) as [H1 H2]. cbn [sstrip s_keys s_vals] in H1, H2. rewrite H1. cbn [mbind res_bind]. rewrite H2. cbn [mbind res_bind].
    exists tmp. split; [done|]. destruct es; [done|cbn in Hsz; lia].
  - rewrite Hsz, Nat2N.id.
    destruct (drehash_bucket d s es i Hb Hhm Hv Hr Hg Hes (length es) 0 tmp E ltac:(done) Htmp Hnd HL) as (tmp' & -> & Ht').
    cbn [mbind res_bind]. destruct (dclear_slot_ok pf c kw vw strict d (d_b d) 0 (N.of_nat i) s es Hr Hrs) as (s' & -> & _).
    { intros ->. cbn in Hsz. lia. }
    cbn. by exists tmp'.
Qed.

Lemma drehash_slots d : bmin <= d_b d <= bmax -> dhm c d = hmk -> d_vw d = vw -> (c_arb c = true -> d_rs d = Some (2^(d_b d))) ->
  forall dsl ess i tmp E, Forall2 (fun s es => srepr (d_b d) (sstrip s) es /\ sgood c kw vw (d_b d) s es) dsl ess ->
  N.of_nat (i + length dsl) <= 2^(d_b d) ->
  (forall j es k v, ess !! j = Some es -> (k, v) ∈ es -> hb (d_b d) k = N.of_nat (i + j) /\ kdom k /\ nv v = v) ->
  R tmp E -> NoDup (keys_of (concat ess ++ E)) -> (length (concat ess ++ E) <= L)%nat ->
  exists tmp', rfold (drehash_slot pf c ins d (qw (d_b d))) (imap (fun j s => ((i + j)%nat, s)) dsl) tmp = Ok tmp'
    /\ R tmp' (concat ess ++ E).
Proof.
  intros Hb Hk Hv Hrs. induction dsl as [|s sl IH]; intros ess i tmp E HF Hlen Hpl Htmp Hnd HL.
  - apply Forall2_nil_inv_l in HF as ->. cbn. by exists tmp.
  - apply Forall2_cons_inv_l in HF as (es & ess' & [Hs Hg] & HF & ->). rewrite imap_cons. cbn [rfold concat].
    cbn [concat] in Hnd, HL. cbn [length] in Hlen. rewrite !app_length in HL.
    assert (HP : (es ++ concat ess') ++ E ≡ₚ concat ess' ++ es ++ E) by solve_Permutation.
    assert (Hnd2 : NoDup (keys_of (es ++ E))) by (rewrite HP, fmap_app in Hnd; by apply NoDup_app in Hnd as (_ & _ & ?)).
    rewrite HP in Hnd.
    destruct (drehash_slot_ok d s es (i + 0)%nat tmp E Hb Hk Hv Hs Hg) as (tmp1 & -> & Ht1); [| |done|done|rewrite app_length; lia|].
    { intros A. exists (2^(d_b d)). rewrite Hrs by done. split; [done|lia]. }
    { intros k v Hin. by apply (Hpl O es). }
    cbn [mbind res_bind].
    destruct (IH ess' (S i) tmp1 (es ++ E) HF) as (tmp2 & Hf & Ht2); [lia| |done|done|rewrite !app_length; lia|].
    { intros j es' k v Hj Hin. replace (S i + j)%nat with (i + S j)%nat by lia. by apply (Hpl (S j) es'). }
    exists tmp2. split.
    + rewrite <-Hf. f_equal. apply imap_ext. intros j x _. cbn. f_equal. lia.
    + eapply R_perm; [|exact Ht2]. solve_Permutation.
Qed.

Lemma drehash_overflow_spec bo nbk nb els full : ovrel pf fair bo nbk (OUmap nb els full) els -> NoDup (keys_of els) ->
  (forall k v, (k, v) ∈ els -> kdom k /\ nv v = v) ->
  forall fuel i tmp E, (N.to_nat (nb - i) < fuel)%nat -> (i < nb -> um_empty pf nb els i = false) ->
  R tmp E -> NoDup (keys_of (um_rest pf nb els i ++ E)) -> (length (um_rest pf nb els i ++ E) <= L)%nat ->
  exists tmp', drehash_overflow pf c fuel ins (OUmap nb els full) i tmp = Ok tmp' /\ R tmp' (um_rest pf nb els i ++ E).
Proof.
  intros Ho Hkn Hrange. pose proof Ho as (_ & [Hnb _] & Hnd & _ & _).
  induction fuel as [|f IH]; intros i tmp E Hf Hi Htmp Hndk HL; [lia|].
  cbn [drehash_overflow ov_valid]. destruct (N.ltb_spec i nb) as [Hlt|Hge]; cbn [andb].
  - specialize (Hi Hlt). rewrite Hi. cbn [negb].
    unfold um_empty in Hi. destruct (um_chain pf nb els i) as [|[k v] rest] eqn:Ec; [done|].
    assert (He : ov_entry pf (OUmap nb els full) i = Some (k, v)) by (cbn [ov_entry]; by rewrite (proj2 (N.ltb_lt _ _) Hlt), Ec).
    destruct (dov_entry_ok pf (kbn c) (vbn c) _ _ _ _ _ _ _ _ Ho He) as [-> Hg]. cbn [mbind res_bind]. rewrite Hg. cbn [mbind res_bind].
    assert (Hc : (k, v) ∈ um_chain pf nb els i) by (rewrite Ec; by constructor).
    apply um_chain_elem in Hc as [Hin Hpos]. cbn [fst] in Hpos.
    destruct (Hrange _ _ Hin) as [Hk Hv]. pose proof (um_rest_step pf nb els i k v Hkn Hnd Hin Hpos) as HP.
    rewrite HP in Hndk, HL. cbn [app length] in HL. rewrite app_length in HL. cbn in Hndk. apply NoDup_cons in Hndk as [Hk1 Hndk]. rewrite fmap_app in Hk1.
    destruct (Hins tmp E k v Htmp ltac:(lia) Hk Hv) as (r & -> & Hr); [intros Hx; apply Hk1, elem_of_app; by right|].
    cbn [mbind res_bind]. rewrite (dov_next_ok pf _ _ _ _ _ _ _ Ho He). cbn [mbind res_bind ov_next].
    destruct (um_scan_spec pf nb els (N.to_nat nb) (i + 1)) as (Hq1 & Hq2 & Hq3); [lia|]. cbv zeta in Hq1, Hq2, Hq3.
    set (q := um_scan pf (N.to_nat nb) nb els (i + 1)) in *.
    rewrite (um_rest_skip pf nb els (i + 1) q Hq1 Hq2) in HP, Hndk, Hk1, HL.
    destruct (IH q (fst r) ((k, v) :: E)) as (tmp' & Ht1 & Ht2); [lia|done|done| |rewrite app_length; cbn [length]; lia|].
    { assert (HP2 : um_rest pf nb els q ++ (k, v) :: E ≡ₚ (k, v) :: um_rest pf nb els q ++ E) by solve_Permutation.
      rewrite HP2. cbn. apply NoDup_cons. rewrite fmap_app. split; [done|]. by rewrite <-fmap_app. }
    exists tmp'. split; [exact Ht1|]. eapply R_perm; [|exact Ht2]. rewrite HP. solve_Permutation.
  - exists tmp. split; [done|]. by rewrite um_rest_end by lia.
Qed.

Lemma drehash_array_spec bo nbk ovl full : ovrel pf fair bo nbk (arr_state pf ovl full) ovl -> (length ovl <= 256)%nat ->
  (forall k v, (k, v) ∈ ovl -> kdom k /\ nv v = v) ->
  forall fuel i tmp E, (length ovl - i < fuel)%nat -> (i <= length ovl)%nat ->
  R tmp E -> NoDup (keys_of (drop i ovl ++ E)) -> (length (drop i ovl ++ E) <= L)%nat ->
  exists tmp', drehash_overflow pf c fuel ins (arr_state pf ovl full) (N.of_nat i) tmp = Ok tmp' /\ R tmp' (drop i ovl ++ E).
Proof.
  intros Ho Hl Hrange. induction fuel as [|f IH]; intros i tmp E Hf Hi Htmp Hndk HL; [lia|].
  cbn [drehash_overflow]. destruct (ovl !! i) as [[k v]|] eqn:Ei.
  - destruct (arr_at pf (kbn c) (vbn c) ovl full _ _ _ Ei) as (_ & _ & ->).
    assert (He : ov_entry pf (arr_state pf ovl full) (N.of_nat i) = Some (k, v)).
    { change (arr_entry (arr_state pf ovl full) (N.of_nat i) = Some (k, v)). by rewrite arr_entry_lookup, Nat2N.id. }
    destruct (dov_entry_ok pf (kbn c) (vbn c) _ _ _ _ _ _ _ _ Ho He) as [-> Hg]. cbn [mbind res_bind]. rewrite Hg. cbn [mbind res_bind].
    destruct (Hrange k v) as [Hk Hv]; [by eapply elem_of_list_lookup_2|].
    pose proof (drop_S ovl (k, v) i Ei) as Hd. rewrite Hd in Hndk, HL. cbn [app length] in HL. cbn in Hndk.
    apply NoDup_cons in Hndk as [Hk1 Hndk]. rewrite fmap_app in Hk1.
    destruct (Hins tmp E k v Htmp ltac:(rewrite app_length in HL; lia) Hk Hv) as (r & -> & Hr); [intros Hx; apply Hk1, elem_of_app; by right|].
    cbn [mbind res_bind]. rewrite (dov_next_ok pf _ _ _ _ _ _ _ Ho He). cbn [mbind res_bind]. pose proof (lookup_lt_Some _ _ _ Ei) as Hlt.
    assert (En : ov_next pf (arr_state pf ovl full) (N.of_nat i) = N.of_nat (S i)).
    { cbn [ov_next arr_state]. rewrite u64_small; [lia|]. change (2^64) with 18446744073709551616. lia. }
    rewrite En.
    assert (HP : drop (S i) ovl ++ (k, v) :: E ≡ₚ (k, v) :: drop (S i) ovl ++ E) by solve_Permutation.
    destruct (IH (S i) (fst r) ((k, v) :: E)) as (tmp' & Ht1 & Ht2); [lia|lia|done| | |].
    { rewrite HP. cbn. apply NoDup_cons. rewrite fmap_app. split; [done|]. by rewrite <-fmap_app. }
    { rewrite HP. cbn [length]. lia. }
    exists tmp'. split; [exact Ht1|]. eapply R_perm; [|exact Ht2]. rewrite Hd. solve_Permutation.
  - apply lookup_ge_None in Ei. cbn [ov_valid arr_state]. rewrite (proj2 (N.ltb_ge _ _)) by lia.
    exists tmp. split; [done|]. by rewrite drop_ge by lia.
Qed.

Lemma drehash_overflow_all bo nbk o ovl tmp E : ovrel pf fair bo nbk o ovl -> NoDup (keys_of (ovl ++ E)) ->
  (forall k v, (k, v) ∈ ovl -> kdom k /\ nv v = v) -> R tmp E -> (length (ovl ++ E) <= L)%nat ->
  exists tmp', drehash_overflow pf c (S (N.to_nat (ov_capacity o))) ins o (ov_first pf o) tmp = Ok tmp' /\ R tmp' (ovl ++ E).
Proof.
  intros Ho Hnd Hrange Htmp HL. pose proof Ho as Ho'. destruct o as [|ks vs e full|nb els full].
  2: { destruct Ho as (Eo & _ & Hl & _). rewrite Eo in *.
    destruct (drehash_array_spec bo nbk ovl full Ho' Hl Hrange (S (N.to_nat 256)) 0 tmp E) as (tmp' & Ht1 & Ht2); [lia|lia|done|done|done|].
    exists tmp'. done. }
  all: cbn in Ho'.
  - destruct Ho as [-> _]. cbn. by exists tmp.
  - destruct Ho' as (-> & [Hnb _] & _). cbn [ov_capacity ov_first].
    destruct (um_scan_spec pf nb els (N.to_nat nb) 0) as (Hq1 & Hq2 & Hq3); [lia|]. cbv zeta in Hq1, Hq2, Hq3.
    set (q := um_scan pf (N.to_nat nb) nb els 0) in *.
    assert (Hall : um_rest pf nb els q = els).
    { rewrite <-(um_rest_skip pf nb els 0 q Hq1 Hq2). unfold um_rest. clear. induction els as [|[k v] els IH]; [done|].
      cbn [List.filter fst]. rewrite (proj2 (N.leb_le _ _)) by lia. by f_equal. }
    assert (Hne : NoDup (keys_of els)) by (rewrite fmap_app in Hnd; by apply NoDup_app in Hnd as (? & _ & _)).
    destruct (drehash_overflow_spec _ _ _ _ _ Ho Hne Hrange (S (N.to_nat nb)) q tmp E) as (tmp' & Ht1 & Ht2);
      [lia|done|done|by rewrite Hall|by rewrite Hall|]. rewrite Hall in Ht2. by exists tmp'.
Qed.

Lemma dreserve_gen d sl ess ovl n tmp : tinv (strip d) sl ess ovl -> dgood d -> (length (concat ess ++ ovl) <= L)%nat -> 1 <= n <= 2^63 ->
  (d0 ← dnew_table pf c kw vw; dalloc_table pf c junk d0 (2^N.log2_up n)) = Ok tmp -> R tmp [] ->
  exists d', dreserve_with pf c junk ins d n = Ok d' /\ R d' (concat ess ++ ovl).
Proof.
  intros H G HL Hn Ea Htmp. rewrite app_length in HL. unfold dreserve_with.
  destruct (dt_bc d sl ess ovl H) as [Hb0 Hbc]. rewrite Hb0. rewrite reserve_bits_spec by done. cbn [mbind res_bind].
  pose proof (dt_kw _ _ _ _ H) as Hk. pose proof (dt_vw _ _ _ _ H) as Hv. pose proof (dt_hm _ _ _ _ H) as Hhm. pose proof (dt_b _ _ _ _ H) as Hb. rewrite Hk, Hv.
  destruct (dnew_table pf c kw vw) as [d0| | |]; try done. cbn [mbind res_bind] in Ea |- *. rewrite Ea. cbn [mbind res_bind].
  rewrite (dwidth_ok _ _ _ _ _ _ DOK _ Hhm Hb Hk). cbn [mbind res_bind]. destruct G as (dsl & Hs & Hrs & Hg). rewrite Hs, Hbc.
  destruct (dt_len _ _ _ _ H dsl Hs) as [Hlen Hsl]. rewrite take_ge by lia.
  pose proof (ti_nodup _ _ _ _ _ _ _ _ _ _ _ H) as Hnd.
  destruct (drehash_slots d Hb Hhm Hv Hrs dsl ess 0 tmp []) as (tmp1 & Ht1 & Hc1).
  { pose proof (ti_repr _ _ _ _ _ _ _ _ _ _ _ H) as HF. rewrite Hsl in HF. apply Forall2_same_length_lookup. split.
    - apply Forall2_length in HF. by rewrite map_length in HF.
    - intros i s es Hi He. assert (Hr : srepr (d_b d) (sstrip s) es).
      { apply (Forall2_lookup_lr _ _ _ i _ _ HF); [|done]. change ((sstrip <$> dsl) !! i = Some (sstrip s)). by rewrite list_lookup_fmap, Hi. }
      split; [done|]. apply (sg_es _ (N.of_nat i)); [done|by apply Hg|done|].
      intros k v Hin. split.
      + apply (ti_range _ _ _ _ _ _ _ _ _ _ _ H k v). apply elem_of_app. left. apply elem_of_concat. eauto.
      + by apply (ti_placed _ _ _ _ _ _ _ _ _ _ _ H i es k v). }
  { lia. }
  { intros j es k v Hj Hin. split; [by apply (ti_placed _ _ _ _ _ _ _ _ _ _ _ H j es k v)|].
    apply (ti_range _ _ _ _ _ _ _ _ _ _ _ H). apply elem_of_app. left. apply elem_of_concat. eauto. }
  { done. }
  { rewrite app_nil_r. rewrite fmap_app in Hnd. by apply NoDup_app in Hnd as (? & _). }
  { rewrite app_nil_r. lia. }
  change (imap (fun j s => ((0 + j)%nat, s)) dsl) with (imap pair dsl) in Ht1. rewrite Ht1. cbn [mbind res_bind].
  rewrite app_nil_r in Hc1.
  destruct (drehash_overflow_all _ _ _ _ tmp1 (concat ess) (dt_ov _ _ _ _ H)) as (tmp2 & -> & Hc2).
  { rewrite (Permutation_app_comm ovl). done. }
  { intros k v Hin. apply (ti_range _ _ _ _ _ _ _ _ _ _ _ H). apply elem_of_app. by right. }
  { done. }
  { rewrite app_length. lia. }
  cbn [mbind res_bind].
  pose proof (ti_n _ _ _ _ _ _ _ _ _ _ _ H) as Hdn. change (t_n (strip d)) with (d_n d) in Hdn.
  rewrite (R_n _ _ Hc2), Hdn, !app_length, Nat.add_comm, N.eqb_refl. cbn [chk mbind res_bind].
  destruct (ov_clear_ok pf (kbn c) (vbn c) _ _ _ _ _ (dt_ov _ _ _ _ H)) as (o' & -> & _). cbn [mbind res_bind].
  exists tmp2. split; [done|]. eapply R_perm; [|exact Hc2]. apply Permutation_app_comm.
Qed.
End rehash.

Definition dcon B d E : Prop := tcon B (strip d) E /\ dgood d.
Lemma dcon_perm B d E E' : E ≡ₚ E' -> dcon B d E -> dcon B d E'.
Proof. intros HP [H G]. split; [|done]. by eapply tcon_perm. Qed.
Lemma dcon_n B d E : dcon B d E -> d_n d = u64 (N.of_nat (length E)).
Proof.
  intros [(sl & ess & ovl & H & _ & HE) _]. rewrite <-HE. apply (ti_n _ _ _ _ _ _ _ _ _ _ _ H).
Qed.
(** The insertion of the temporary map *)
Definition dins_ok fuel : Prop := forall d sl ess ovl k v, tinv (strip d) sl ess ovl -> dgood d -> (N.to_nat (bmax - d_b d) < fuel)%nat ->
  kdom k -> nv v = v \/ c_val c = KNull -> exists r, dfind_or_insert pf c junk fuel d k v = Ok r /\ dgood (fst r).
Lemma dins_dcon fuel B tmp E k v : table_spread c kw bmin bmax -> dins_ok fuel -> (N.to_nat (bmax - B) < fuel)%nat ->
  dcon B tmp E -> kdom k -> nv v = v -> k ∉ keys_of E -> exists r, dfind_or_insert pf c junk fuel tmp k v = Ok r /\ dcon B (fst r) ((k, v) :: E).
Proof.
  intros SP IH Hf [(sl & ess & ovl & H & HB & HE) G] Hk Hv Hni. change (t_b (strip tmp)) with (d_b tmp) in HB.
  destruct (IH tmp sl ess ovl k v H G) as (r & Er & Gr); [lia|done|by left|]. exists r. split; [done|]. split; [|done].
  apply dfind_or_insert_eq in Er.
  destruct (find_or_insert_spec pf c kw vw bmin bmax strict OK SP fuel (strip tmp) sl ess ovl k v H) as (t' & x & sl' & ess' & ovl' & Ef & Ht' & Hle%grown_le & Hres);
    [change (t_b (strip tmp)) with (d_b tmp); lia|done|by left|].
  rewrite Er in Ef. injection Ef as <- _. rewrite (proj2 (emap_None _ k)) in Hres by (rewrite HE; done). destruct Hres as [Hres _].
  exists sl', ess', ovl'. split; [done|]. change (t_b (strip tmp)) with (d_b tmp) in Hle. split; [lia|]. by rewrite Hres, HE, Hv.
Qed.
Lemma dreserve_with_ok fuel d sl ess ovl n : table_spread c kw bmin bmax -> dins_ok fuel -> tinv (strip d) sl ess ovl -> dgood d ->
  1 <= n <= 2^63 -> bmin <= N.log2_up n <= bmax -> (N.to_nat (bmax - N.log2_up n) < fuel)%nat ->
  exists d', dreserve_with pf c junk (dfind_or_insert pf c junk fuel) d n = Ok d' /\ dcon (N.log2_up n) d' (concat ess ++ ovl).
Proof.
  intros SP IH H G Hn Hb Hf. destruct dnew_ok as (d0 & E0 & Hrs0 & Es0).
  assert (H63 : N.log2_up n <= 63) by (pose proof (ok_bounds _ _ _ _ _ _ OK _ Hb); lia).
  assert (Hl2 : N.log2_up (2^N.log2_up n) = N.log2_up n) by (apply N.log2_up_pow2; lia).
  assert (Hn2 : 1 <= 2^N.log2_up n <= 2^63).
  { split; [|by apply pow2_le_63]. pose proof (N.pow_nonzero 2 (N.log2_up n) ltac:(done)). lia. }
  assert (Hz : tzero (strip d0)) by (rewrite Es0; by apply (new_table_zero pf c kw vw bmin bmax)).
  destruct (dalloc_ok d0 (2^N.log2_up n) Hz (fun _ => Hrs0) Hn2) as (tmp & Ea & Gt); [by rewrite Hl2|].
  apply (dreserve_gen (dfind_or_insert pf c junk fuel) (dcon (N.log2_up n)) (length (concat ess ++ ovl)) (dcon_perm _) (dcon_n _)) with (tmp := tmp) (sl := sl); try done.
  - intros tmp0 E k v HR _ Hk Hv Hni. by apply dins_dcon.
  - rewrite E0. done.
  - split; [|done]. destruct (alloc_spec pf c kw vw bmin bmax strict OK (strip d0) (2^N.log2_up n) Hz Hn2) as (t' & Et & Hbt & sl0 & ess0 & Hi0 & Hc0); [by rewrite Hl2|].
    apply dalloc_table_eq in Ea. rewrite Et in Ea. injection Ea as <-. exists sl0, ess0, []. split; [done|]. split; [rewrite Hbt, Hl2; lia|]. by rewrite Hc0.
Qed.

(** ** Insertion *)
Lemma dfind_or_insert_ok fuel : table_spread c kw bmin bmax -> dins_ok fuel.
Proof.
  intros SP. induction fuel as [|f IH]; intros d sl ess ovl k v H G Hf Hk Hv; [lia|]. cbn [dfind_or_insert].
  pose proof (dt_b _ _ _ _ H) as Hb. pose proof (dt_kw _ _ _ _ H) as Hkw. pose proof (dt_vw _ _ _ _ H) as Hvw. pose proof (dt_hm _ _ _ _ H) as Hhm.
  pose proof (dt_ov _ _ _ _ H) as Hov. destruct (dt_bc _ _ _ _ H) as [Hb0 Hbc]. pose proof (do_kw _ _ _ _ _ _ DOK) as Hkw2.
  rewrite Hkw, (proj2 (N.ltb_lt 1 kw)) by lia. cbn [chk mbind res_bind]. rewrite Hb0. cbn [mbind res_bind].
  rewrite (dmap_ok _ _ _ _ H k Hk). cbn [mbind res_bind].
  destruct (dlocate_ok _ _ _ _ H G k Hk) as (s & pos & Hs & Hsg & Hs' & Hdl & Hrl & Hpos). rewrite Hs. cbn [mbind res_bind]. rewrite Hdl. cbn [mbind res_bind].
  destruct pos as [p|].
  { rewrite (proj2 (N.ltb_lt _ _)) by done. cbn [chk mbind res_bind]. by eexists. }
  pose proof (dt_hb _ _ _ _ H k Hk) as Hlt.
  rewrite (dov_need_ok pf _ _ _ _ _ (hb (d_b d) k) Hov Hlt).
  destruct (ov_need_consult_spec _ _ _ _ _ _ (hb (d_b d) k) Hov Hlt) as (cons & -> & Hcons). cbn [mbind res_bind].
  rewrite (dov_find_ok pf (kbn c) _ _ _ _ _ k Hov).
  pose proof (tinv_nodup_ov _ _ _ _ _ _ _ _ _ _ _ H) as Hndo.
  destruct (ov_find_spec pf (kbn c) _ _ _ _ _ k Hndo Hov (kdom_key_ok _ _ _ _ Hk)) as [(p & v0 & Hof & Hin & Hent)|[Hof Hni]].
  { rewrite (Hcons _ _ Hin eq_refl). rewrite Hof. cbn [mbind res_bind]. by eexists. }
  assert (E : (if cons then ov_find pf (kbn c) (d_ov d) k else Ok None) = Ok None) by (by destruct cons).
  rewrite E. clear E. cbn [mbind res_bind].
  assert (Hnkb : k ∉ keys_of (concat ess)).
  { destruct (locate_q_spec _ _ _ _ _ _ _ OK _ _ _ _ _ H Hk) as (s0 & es0 & _ & _ & _ & _ & [(p & v0 & Hp & _)|[_ Hn]]); [|done].
    change (t_b (strip d)) with (d_b d) in Hp. rewrite Hrl in Hp. done. }
  assert (Hnk : k ∉ keys_of (concat ess ++ ovl)) by (rewrite fmap_app; apply not_elem_of_app; done).
  destruct (N.eqb_spec (ds_size s) (c_maxb c)) as [Emax|Emax].
  - (* the bucket is full *)
    assert (Hgrow : forall o, ovrel pf fair (hb (d_b d)) (2^(d_b d)) o ovl ->
      exists r, (n ← shl64 1 (d_b (dset_ov d o) + 1); d1 ← dreserve_with pf c junk (dfind_or_insert pf c junk f) (dset_ov d o) n; dfind_or_insert pf c junk f d1 k v) = Ok r
        /\ dgood (fst r)).
    { intros o Ho. cbn [dset_ov d_b].
      assert (Hlt2 : d_b d < bmax).
      { destruct (tinv_slot _ _ _ _ _ _ _ _ _ _ _ _ H Hlt) as (s0 & es & Hg' & _ & He & Hr). rewrite Hs' in Hg'. injection Hg' as <-.
        destruct Hr as [Hsz _]. change (ds_size s = N.of_nat (length es)) in Hsz.
        apply (SP (d_b d) (k :: keys_of es)); [done|..].
        - apply NoDup_cons. split; [|by eapply tinv_nodup_bucket].
          intros Hin. apply Hnkb. by apply (own_bucket_key (hb (d_b d)) ess (ti_placed _ _ _ _ _ _ _ _ _ _ _ H) k es He).
        - cbn [length]. rewrite fmap_length. lia.
        - intros k' Hin. apply elem_of_cons in Hin as [->|Hin]; [done|]. apply keys_elem in Hin as (v' & Hin).
          by destruct (tinv_in_bucket _ _ _ _ _ _ _ _ _ _ _ _ _ _ _ H He Hin).
        - assert (Hall : forall k', k' ∈ k :: keys_of es -> hb (d_b d) k' = hb (d_b d) k).
          { intros k' Hin. apply elem_of_cons in Hin as [->|Hin]; [done|]. apply keys_elem in Hin as (v' & Hin).
            destruct (tinv_in_bucket _ _ _ _ _ _ _ _ _ _ _ _ _ _ _ H He Hin) as [_ Hx]. change (t_b (strip d)) with (d_b d) in Hx. rewrite Hx. lia. }
          intros k1 k2 H1 H2. by rewrite (Hall _ H1), (Hall _ H2). }
      pose proof (ok_b _ _ _ _ _ _ OK) as Hob.
      rewrite shl64_1 by lia. cbn [mbind res_bind].
      assert (Hl2 : N.log2_up (2^(d_b d + 1)) = d_b d + 1) by (apply N.log2_up_pow2; lia).
      assert (H1 : tinv (strip (dset_ov d o)) sl ess ovl).
      { change (strip (dset_ov d o)) with (set_ov (strip d) o). rewrite <-(set_n_id (set_ov (strip d) o)).
        eapply tinv_set_ov; [exact H|done|done|apply H|apply H|apply H]. }
      destruct (dreserve_with_ok f (dset_ov d o) sl ess ovl (2^(d_b d + 1)) SP IH H1 (dgood_set_ov d o G)) as (d1 & -> & Hd1).
      - split; [|apply pow2_le_63; lia]. pose proof (N.pow_nonzero 2 (d_b d + 1) ltac:(done)). lia.
      - rewrite Hl2. lia.
      - rewrite Hl2. lia.
      - cbn [mbind res_bind]. destruct Hd1 as [(sl1 & ess1 & ovl1 & Ht1 & HB1 & HE1) G1]. rewrite Hl2 in HB1. change (t_b (strip d1)) with (d_b d1) in HB1.
        apply (IH d1 sl1 ess1 ovl1 k v Ht1 G1); [lia|done|done]. }
    destruct (N.ltb_spec (ov_size (d_ov d)) (ov_capacity (d_ov d))) as [Hcap|Hcap].
    + assert (Hmod : v mod 2^N.of_nat (vbn c) = v).
      { assert (Hnn : c_val c <> KNull).
        { clear -Hov Hcap. destruct (d_ov d); cbn in Hov, Hcap; [lia|by destruct Hov as (_ & (_ & ? & _) & _)|]. by destruct Hov as (_ & (_ & _ & _ & ? & _) & _). }
        destruct Hv as [Hv|Hv]; [|done]. by apply (nv_mod pf c kw vw bmin bmax OK). }
      rewrite Hmod.
      assert (Hvl : fair OvArray -> v < 2^N.of_nat (vbn c)) by (intros _; rewrite <-Hmod; by apply N.mod_lt, N.pow_nonzero).
      rewrite (dov_insert_ok pf (kbn c) (vbn c) _ _ _ _ _ k v Hov Hlt Hni Hcap (kdom_key_ok _ _ _ _ Hk) Hvl).
      destruct (ov_insert_spec pf (kbn c) (vbn c) _ _ _ _ _ k v Hov Hlt Hni Hcap (kdom_key_ok _ _ _ _ Hk) Hvl) as (o' & r & -> & Hres). cbn [mbind res_bind].
      destruct r as [p|].
      * destruct Hres as [Ho' Hent]. rewrite !(dov_find_ok pf (kbn c) _ _ _ _ _ k Ho').
        assert (Hnd' : NoDup (keys_of (ovl ++ [(k, v)]))).
        { rewrite fmap_app. apply NoDup_app. split; [done|]. split; [|apply NoDup_singleton]. intros x Hx Hx2. apply elem_of_list_singleton in Hx2 as ->. done. }
        destruct (ov_find_spec pf (kbn c) _ _ _ _ _ k Hnd' Ho' (kdom_key_ok _ _ _ _ Hk)) as [(p' & v' & Hf' & _ & Hent')|[_ Hno]].
        2:{ exfalso. apply Hno. rewrite fmap_app. apply elem_of_app. right. by constructor. }
        assert (p' = p) as -> by (eapply ov_entry_inj; [exact Ho'|exact Hnd'|exact Hent'|exact Hent]).
        rewrite Hf'. cbn [mbind res_bind]. rewrite bool_decide_true by done. cbn [chk mbind res_bind].
        destruct (dov_entry_ok pf (kbn c) (vbn c) _ _ _ _ _ _ _ _ Ho' Hent) as [_ ->]. cbn [mbind res_bind]. rewrite N.eqb_refl. cbn [chk mbind res_bind].
        eexists. split; [done|]. done.
      * by apply Hgrow.
    + cbn [mbind res_bind]. by apply Hgrow.
  - (* push into the bucket *)
    assert (Hlt2 : ds_size s < c_maxb c).
    { destruct Hsg as (es & Hr & _). destruct Hr as (Hsz & Hm & _). change (ds_size s = N.of_nat (length es)) in Hsz. lia. }
    destruct (dpush_ok pf c junk kw vw bmin bmax strict OK DOK d s k v Hb Hhm Hkw Hvw Hsg Hlt2 Hk Hv) as (s' & -> & Hsg').
    { intros A. by apply (dt_rs d G). }
    cbn [mbind res_bind]. eexists. split; [done|]. by apply dgood_set_slot.
Qed.
End debug.
