(** Calls and histories of the debug build on tables that satisfy the invariant: every check passes. *)
From Verif Require Export DebugProofs.

(** rmap over the indexed buckets *)
Lemma rmap_imap_ok {A B} (f : nat * A -> res B) (P : nat -> B -> Prop) : forall (l : list A) i,
  (forall j a, l !! j = Some a -> exists b, f ((i + j)%nat, a) = Ok b /\ P (i + j)%nat b) ->
  exists l', rmap f (imap (fun j a => ((i + j)%nat, a)) l) = Ok l' /\ length l' = length l /\ forall j b, l' !! j = Some b -> P (i + j)%nat b.
Proof.
  induction l as [|a l IH]; intros i Hf.
  - exists []. by split.
  - rewrite imap_cons. cbn [rmap]. destruct (Hf O a eq_refl) as (b & -> & Hb). cbn [mbind res_bind].
    destruct (IH (S i)) as (l' & Hl' & Hlen & HP).
    { intros j a' Hj. destruct (Hf (S j) a' Hj) as (b' & Hb' & HP). replace (S i + j)%nat with (i + S j)%nat by lia. eauto. }
    assert (E : imap ((λ (j : nat) (a0 : A), ((i + j)%nat, a0)) ∘ S) l = imap (fun j a => ((S i + j)%nat, a)) l).
    { apply imap_ext. intros j x _. cbn. f_equal. lia. }
    rewrite E, Hl'. cbn [mbind res_bind]. exists (b :: l'). split; [done|]. split; [cbn; lia|].
    intros [|j] b' Hj; [by injection Hj as <-|]. replace (i + S j)%nat with (S i + j)%nat by lia. by apply HP.
Qed.

Section debug.
Context (pf : platform) (c : cfg) (junk : option N) (kw vw bmin bmax : N) (strict : Prop).
Notation hq := (hq c kw). Notation hb := (hb c kw). Notation qw := (qw c kw). Notation nv := (nv c vw).
Notation hmk := (hmk c kw).
Notation fair := (ov_side pf c kw).
Notation srepr := (slot_repr pf c kw vw strict).
Notation tinv := (tinv pf c kw vw bmin bmax strict).
Notation tzero := (tzero pf c kw vw).
Notation nav_entry := (nav_entry pf).
Notation kdom := (kdom c kw).
Notation sg := (sg pf c kw vw strict).
Notation dgood := (dgood pf c kw vw strict).
Hypothesis OK : table_ok0 pf c kw vw bmin bmax.
Hypothesis DOK : dbg_ok c junk kw vw bmin bmax.

Implicit Types (d : dtable) (ess : list entries) (ovl E : entries).

Section facts.
Context d sl ess ovl (H : tinv (strip d) sl ess ovl) (G : dgood d).
Notation dt_b := (dt_b _ _ _ _ _ _ _ _ _ _ _ H).
Notation dt_ov := (dt_ov _ _ _ _ _ _ _ _ _ _ _ H).
Notation dt_kw := (dt_kw _ _ _ _ _ _ _ _ _ _ _ H).
Notation dt_vw := (dt_vw _ _ _ _ _ _ _ _ _ _ _ H).
Notation dt_hm := (dt_hm _ _ _ _ _ _ _ _ _ _ _ H).
Notation dt_bc := (dt_bc _ _ _ _ _ _ _ OK _ _ _ _ H).

Lemma dt_entries bk es : ess !! N.to_nat bk = Some es -> bk < 2^(d_b d) /\
  exists s, dget_slot d bk = Ok s /\ srepr (d_b d) (sstrip s) es /\ in_bk c kw (d_b d) bk es /\ sgood c kw vw (d_b d) s es.
Proof.
  intros Hes.
  assert (Hlt : bk < 2^(d_b d)) by (pose proof (lookup_lt_Some _ _ _ Hes); pose proof (tinv_len _ _ _ _ _ _ _ _ _ _ _ H) as Hl; change (t_b (strip d)) with (d_b d) in Hl; lia).
  split; [done|]. destruct (dt_slot _ _ _ _ _ _ _ _ _ _ _ H G bk Hlt) as (s & Hs & Hgs & Hsg). exists s. split; [done|].
  destruct (tinv_slot _ _ _ _ _ _ _ _ _ _ _ _ H Hlt) as (s0 & es' & Hgs' & _ & Hes' & Hr'). rewrite Hgs in Hgs'. injection Hgs' as <-.
  rewrite Hes in Hes'. injection Hes' as <-. split; [done|].
  assert (Hin : in_bk c kw (d_b d) bk es).
  { intros k v Hin. split.
    - apply (ti_range _ _ _ _ _ _ _ _ _ _ _ H k v). apply elem_of_app. left. apply elem_of_concat. eauto.
    - pose proof (ti_placed _ _ _ _ _ _ _ _ _ _ _ H _ _ _ _ Hes Hin) as Hp. by rewrite N2Nat.id in Hp. }
  split; [done|]. by apply (sg_es pf c junk kw vw bmin bmax strict OK DOK _ bk s es dt_b Hsg Hr').
Qed.

Lemma dfind_ok k : kdom k -> exists x, dfind pf c d k = Ok x /\ (nav_entry (strip d) ess x = None -> x = end_nav).
Proof.
  intros Hk. unfold dfind. destruct dt_bc as [-> Hbc]. rewrite Hbc. rewrite (dov_find_ok pf (kbn c) _ _ _ _ _ k dt_ov).
  pose proof (tinv_nodup_ov _ _ _ _ _ _ _ _ _ _ _ H) as Hndo.
  assert (Hfin : forall x e, nav_entry (strip d) ess x = Some e -> (_ ← diter_at pf c d x; Ok x) = Ok x).
  { intros x e He. by rewrite (diter_at_ok _ _ _ _ _ _ _ _ OK DOK _ _ _ _ H G _ _ He). }
  assert (Hrest : exists x, (x ← (qb ← dmap c d k; let '(q, bk) := (qb : N * N) in pos ← dlocate_q pf c d bk q;
             match (pos : option N) with Some p => Ok (bk, p) | None => Ok end_nav end); _ ← diter_at pf c d x; Ok x) = Ok x /\ (nav_entry (strip d) ess x = None -> x = end_nav)).
  { rewrite (dmap_ok _ _ _ _ _ _ _ _ DOK _ _ _ _ H k Hk). cbn [mbind res_bind].
    destruct (dlocate_ok _ _ _ _ _ _ _ _ OK DOK _ _ _ _ H G k Hk) as (s & pos & _ & _ & _ & Hdl & Hrl & _). rewrite Hdl. cbn [mbind res_bind].
    destruct (locate_q_spec _ _ _ _ _ _ _ OK _ _ _ _ _ H Hk) as (s0 & es0 & _ & _ & He & _ & Hl). change (t_b (strip d)) with (d_b d) in *.
    rewrite Hrl in Hl. destruct Hl as [(p & v & [= ->] & Hp)|[[= ->] _]]; cbn [mbind res_bind].
    - assert (Hx : nav_entry (strip d) ess (hb (d_b d) k, p) = Some (k, v)).
      { eapply nav_entry_bucket; [|exact He|exact Hp]. by apply (dt_hb _ _ _ _ _ _ _ OK _ _ _ _ H). }
      exists (hb (d_b d) k, p). split; [by eapply Hfin|]. by rewrite Hx.
    - exists end_nav. by rewrite (diter_at_end _ _ _ _ _ _ _ OK _ _ _ _ H). }
  assert (Hov : forall p v, ov_entry pf (d_ov d) p = Some (k, v) -> exists x, (x ← (Ok (2^(d_b d), p) : res nav); _ ← diter_at pf c d x; Ok x) = Ok x /\ (nav_entry (strip d) ess x = None -> x = end_nav)).
  { intros p v He. assert (Hx : nav_entry (strip d) ess (2^(d_b d), p) = Some (k, v)) by (by rewrite nav_entry_ov).
    exists (2^(d_b d), p). cbn [mbind res_bind]. split; [by eapply Hfin|]. by rewrite Hx. }
  destruct (0 <? ov_size (d_ov d)); cbn [mbind res_bind]; [|exact Hrest].
  destruct (ov_find_spec pf (kbn c) _ _ _ _ _ k Hndo dt_ov (kdom_key_ok _ _ _ _ Hk)) as [(p & v0 & -> & _ & Hent)|[-> _]]; cbn [mbind res_bind].
  - eapply Hov. exact Hent.
  - exact Hrest.
Qed.
Lemma dcount_ok k : kdom k -> exists n, dcount pf c d k = Ok n.
Proof.
  intros Hk. destruct (dfind_ok k Hk) as (x & Hx & _). unfold dcount. rewrite Hx. cbn [mbind res_bind].
  pose proof (count_spec pf c kw vw bmin bmax strict OK _ _ _ _ k H Hk) as Hc. unfold TableModel.count in Hc. apply dfind_eq in Hx. rewrite Hx in Hc. cbn [mbind res_bind] in Hc.
  destruct (nav_eq pf (strip d) x end_nav) as [e| | |]; try done. by eexists.
Qed.
Lemma dwrite_ok x k v v' : nav_entry (strip d) ess x = Some (k, v) -> nv v' = v' -> v' < 2^vw -> exists d', dwrite_value pf c d x v' = Ok d' /\ dgood d' /\ d_b d' = d_b d.
Proof.
  intros He Hv Hlt. destruct x as [bk p]. unfold TableInv.nav_entry in He. cbn [fst snd] in He. change (t_b (strip d)) with (d_b d) in He. change (t_ov (strip d)) with (d_ov d) in He.
  unfold dwrite_value. rewrite (proj2 dt_bc). destruct (N.eqb_spec bk (2^(d_b d))) as [->|Hne].
  - rewrite (dov_set_ok pf (vbn c) _ _ _ _ _ _ _ _ v' dt_ov He).
    destruct (ov_set_spec pf 0 (vbn c) _ _ _ _ _ p k v v' (tinv_nodup_ov _ _ _ _ _ _ _ _ _ _ _ H) dt_ov He) as (o' & ovl' & R & -> & _). cbn [mbind res_bind]. by eexists.
  - destruct (ess !! N.to_nat bk) as [es|] eqn:Hes; [|done]. cbn in He. destruct (dt_entries bk es Hes) as (Hbk & s & Hs & Hr & Hin & Hg).
    rewrite (proj2 (N.ltb_lt bk _)) by done. cbn [chk mbind res_bind].
    assert (Hmax : (v' <=? max_value (strip d)) = true).
    { apply N.leb_le. unfold max_value. change (t_vw (strip d)) with (d_vw d). rewrite dt_vw.
      pose proof (vw_le pf c junk kw vw bmin bmax OK DOK). rewrite DebugSlot.max_shift by done. lia. }
    rewrite Hmax. cbn [chk mbind res_bind]. rewrite Hs. cbn [mbind res_bind]. unfold dvwidth. rewrite dt_vw.
    destruct (dwrite_slot_ok pf c junk kw vw bmin bmax strict OK DOK s (N.to_nat p) k v v' es (d_b d) bk dt_b Hr Hin Hg He Hv) as (vs & -> & Hsg). cbn [mbind res_bind].
    eexists. split; [done|]. split; [by apply dgood_set_slot|done].
Qed.
Lemma derase_at_ok x e : c_ov c <> OvArray -> nav_entry (strip d) ess x = Some e -> exists r, derase_at pf c d x = Ok r /\ dgood (fst r) /\ d_b (fst r) = d_b d.
Proof.
  intros Hna He. pose proof (nav_entry_pos _ _ _ _ _ _ _ OK _ _ _ _ _ _ H He) as Hpos. destruct x as [bk p]. cbn [fst snd] in Hpos.
  unfold TableInv.nav_entry in He. cbn [fst snd] in He. change (t_b (strip d)) with (d_b d) in He. change (t_ov (strip d)) with (d_ov d) in He.
  unfold derase_at. rewrite (proj2 (N.eqb_neq _ _)) by lia. rewrite (proj2 dt_bc). destruct e as [k v]. destruct (N.eqb_spec bk (2^(d_b d))) as [->|Hne].
  - pose proof (ov_entry_spec _ (kbn c) (vbn c) _ _ _ _ _ _ _ _ dt_ov He) as (Hin & _).
    rewrite (ov_size_spec _ _ _ _ _ _ dt_ov), (proj2 (N.ltb_lt 0 _)) by (destruct ovl; [by apply elem_of_nil in Hin|cbn; lia]). cbn [andb].
    assert (Hc : (p <? ov_capacity (d_ov d)) = true).
    { pose proof dt_ov as Ho. destruct (d_ov d) as [|ks vs n full|nb els full]; [done|by destruct Ho as (_ & [Ho _] & _)|].
      cbn [ov_entry] in He. cbn [ov_capacity]. by destruct (p <? nb). }
    rewrite Hc. cbn [chk mbind res_bind]. rewrite (dov_erase_ok pf _ _ _ _ _ _ _ (ov_side_arr _ _ _ Hna) dt_ov He).
    destruct (ov_erase_spec pf 0 0 _ _ _ _ _ p k v (ov_side_arr _ _ _ Hna) (tinv_nodup_ov _ _ _ _ _ _ _ _ _ _ _ H) dt_ov He) as (o' & ovl' & -> & _). cbn [mbind res_bind]. by eexists.
  - rewrite andb_false_r. destruct (ess !! N.to_nat bk) as [es|] eqn:Hes; [|done]. cbn in He. destruct (dt_entries bk es Hes) as (Hbk & s & Hs & Hr & Hin & Hg).
    rewrite (proj2 (N.ltb_lt bk _)) by done. cbn [chk mbind res_bind]. rewrite Hs. cbn [mbind res_bind].
    pose proof Hr as [Hsz _]. change (ds_size s = N.of_nat (length es)) in Hsz. pose proof (lookup_lt_Some _ _ _ He) as Hpl.
    rewrite (proj2 (N.ltb_lt p (ds_size s))) by lia. cbn [chk mbind res_bind].
    destruct (derase_slot_ok pf c kw vw bmin bmax strict OK (dset_n d (sub64 (d_n d) 1)) s (N.to_nat p) _ es (d_b d) bk dt_b Hr Hin Hg He) as (l & ks & vs & plain & Hl & Hle & E1 & E2 & E3 & Hfin).
    { intros A. by apply (dt_rs pf c kw vw strict d G bk). }
    rewrite Hl. unfold known, of_option. cbn [mbind res_bind]. rewrite (proj2 (N.leb_le _ _)) by done. cbn [chk mbind res_bind].
    rewrite (dwidth_ok _ _ _ _ _ _ DOK _ dt_hm dt_b dt_kw). cbn [mbind res_bind]. rewrite E1. cbn [mbind res_bind]. unfold dvwidth. rewrite dt_vw, E2. cbn [mbind res_bind].
    rewrite E3. cbn [mbind res_bind]. rewrite (proj2 (N.ltb_lt 0 _)) by lia. cbn [chk mbind res_bind]. cbv zeta in Hfin.
    destruct (ds_size (DSlot ks vs (sub8 (ds_size s) 1) (ds_cap s) plain) =? 0).
    + destruct Hfin as (s2 & -> & Hsg). cbn [mbind res_bind]. eexists. split; [done|]. split; [by apply dgood_set_slot|done].
    + eexists. split; [done|]. split; [by apply dgood_set_slot|done].
Qed.
Lemma derase_none bk : derase_at pf c d (bk, ones64) = Ok (d, 0).
Proof. unfold derase_at. by rewrite N.eqb_refl. Qed.
Lemma derase_ok k : c_ov c <> OvArray -> kdom k -> exists r, derase pf c d k = Ok r /\ dgood (fst r) /\ d_b (fst r) = d_b d.
Proof.
  intros Hna Hk. unfold derase, dlocate. destruct dt_bc as [-> Hbc]. rewrite Hbc.
  rewrite (dmap_ok _ _ _ _ _ _ _ _ DOK _ _ _ _ H k Hk). cbn [mbind res_bind].
  pose proof (dt_hb _ _ _ _ _ _ _ OK _ _ _ _ H k Hk) as Hlt. rewrite (dov_need_ok pf _ _ _ _ _ (hb (d_b d) k) dt_ov Hlt).
  destruct (ov_need_consult_spec _ _ _ _ _ _ (hb (d_b d) k) dt_ov Hlt) as (cons & -> & Hcons). cbn [mbind res_bind].
  rewrite (dov_find_ok pf (kbn c) _ _ _ _ _ k dt_ov).
  pose proof (tinv_nodup_ov _ _ _ _ _ _ _ _ _ _ _ H) as Hndo.
  assert (Hrest : exists r, (l ← (pos ← dlocate_q pf c d (hb (d_b d) k) (hq (d_b d) k); Ok (hb (d_b d) k, pos));
     let '(bk, pos) := (l : N * option N) in derase_at pf c d (bk, match pos with Some p => p | None => ones64 end)) = Ok r /\ dgood (fst r) /\ d_b (fst r) = d_b d).
  { destruct (dlocate_ok _ _ _ _ _ _ _ _ OK DOK _ _ _ _ H G k Hk) as (s & pos & _ & _ & _ & Hdl & Hrl & _). rewrite Hdl. cbn [mbind res_bind].
    destruct (locate_q_spec _ _ _ _ _ _ _ OK _ _ _ _ _ H Hk) as (s0 & es0 & _ & _ & He & _ & Hl). change (t_b (strip d)) with (d_b d) in *.
    rewrite Hrl in Hl. destruct Hl as [(p & v & [= ->] & Hp)|[[= ->] _]].
    - eapply derase_at_ok; [done|]. eapply nav_entry_bucket; [exact Hlt|exact He|exact Hp].
    - rewrite derase_none. by eexists. }
  destruct (cons && (0 <? ov_size (d_ov d))); cbn [mbind res_bind]; [|exact Hrest].
  destruct (ov_find_spec pf (kbn c) _ _ _ _ _ k Hndo dt_ov (kdom_key_ok _ _ _ _ Hk)) as [(p & v0 & -> & _ & Hent)|[-> _]]; cbn [mbind res_bind].
  - eapply derase_at_ok; [done|]. rewrite nav_entry_ov by done. exact Hent.
  - exact Hrest.
Qed.
Lemma dshrink_ok : exists d', dshrink_to_fit pf c d = Ok d' /\ dgood d' /\ d_b d' = d_b d.
Proof.
  unfold dshrink_to_fit. destruct dt_bc as [-> ->]. destruct G as (dsl & Hs & Hrs & Hg). rewrite Hs.
  destruct (dt_len _ _ _ _ _ _ _ _ _ _ _ H dsl Hs) as [Hlen _]. rewrite take_ge, drop_ge by lia.
  destruct (rmap_imap_ok (fun ib : nat * dslot => let '(i, s) := ib in dshrink_slot pf c d (N.of_nat i) s) (fun i s => sg (d_b d) (N.of_nat i) s) dsl 0) as (l' & El & Hl & HP).
  { intros j s Hj. apply lookup_lt_Some in Hj as Hjl.
    apply (dshrink_slot_ok pf c junk kw vw bmin bmax strict OK DOK d (N.of_nat (0 + j)) s dt_b dt_hm dt_kw dt_vw); [by apply Hg|].
    intros A. exists (2^(d_b d)). rewrite Hrs by done. split; [done|lia]. }
  change (imap (fun j a => ((0 + j)%nat, a)) dsl) with (imap pair dsl) in El. rewrite El. cbn [mbind res_bind].
  eexists. split; [done|]. split; [|done]. exists l'. cbn [d_slots d_b d_rs]. rewrite app_nil_r. split; [done|]. by split.
Qed.
Lemma dclear_ok : c_ov c <> OvArray -> exists d', dclear pf c d = Ok d' /\ d_b d' = 0 /\ d_rs d' = None.
Proof.
  intros Hna. unfold dclear. destruct G as (dsl & Hs & Hrs & Hg). rewrite Hs, (proj2 dt_bc).
  destruct (dt_len _ _ _ _ _ _ _ _ _ _ _ H dsl Hs) as [Hlen _]. rewrite take_ge, drop_ge by lia.
  destruct (rmap_imap_ok (fun ib : nat * dslot => let '(i, s) := ib in if ds_size s =? 0 then Ok s else dclear_slot pf c d (N.of_nat i) s) (fun i s => sstrip s = empty_slot) dsl 0) as (l' & El & Hl & HP).
  { intros j s Hj. apply lookup_lt_Some in Hj as Hjl. destruct (Hg _ _ Hj) as (es & Hr & _). pose proof Hr as [Hsz Hr']. change (ds_size s = N.of_nat (length es)) in Hsz.
    destruct (N.eqb_spec (ds_size s) 0) as [E|E].
    - exists s. split; [done|]. destruct es; [|cbn in Hsz; lia]. by destruct Hr' as (_ & Hr' & _).
    - destruct (dclear_slot_ok pf c kw vw strict d (d_b d) 0 (N.of_nat (0 + j)) s es Hr) as (s' & E' & _ & Hs'); [| |by exists s'].
      + intros A. exists (2^(d_b d)). rewrite Hrs by done. split; [done|lia].
      + intros ->. cbn in Hsz. lia. }
  change (imap (fun j a => ((0 + j)%nat, a)) dsl) with (imap pair dsl) in El. rewrite El. cbn [mbind res_bind]. rewrite app_nil_r.
  unfold dclear_structure, clear_structure. cbn [strip d_slots d_b d_n d_kw d_vw d_ov t_slots t_ov t_kw t_vw fmap option_fmap option_map].
  rewrite free_empty; [|].
  2:{ apply Forall_lookup. intros i s Hi. change ((sstrip <$> l') !! i = Some s) in Hi. apply list_lookup_fmap_inv in Hi as (s' & -> & Hi). by apply (HP i). }
  cbn [mbind res_bind]. destruct (ov_clear_spec pf (kbn c) (vbn c) _ _ _ _ _ (ov_side_arr _ _ _ Hna) dt_ov) as (o' & -> & _). cbn [mbind res_bind]. by eexists.
Qed.
End facts.

(** ** Histories *)
Definition dpart d : Prop := d_b d = 0 /\ (c_arb c = true -> d_rs d = None) \/ d_b d <> 0 /\ dgood d.

Context (fuel : nat).
Hypothesis SP : table_spread c kw bmin bmax.
Hypothesis Hfuel : (64 <= fuel)%nat.
Let TOK : table_ok pf c kw vw bmin bmax := Build_table_ok _ _ _ _ _ _ OK SP.
Notation trep := (trep pf c kw vw bmin bmax strict).
Notation trep_full := (trep_full pf c kw vw bmin bmax strict).
Notation init_ok := (init_ok kw bmin bmax).

Lemma dpart_full d sl ess ovl : tinv (strip d) sl ess ovl -> dpart d <-> dgood d.
Proof.
  intros H. destruct (tinv_bc _ _ _ _ _ _ _ OK _ _ _ _ H) as [Hb _]. change (t_b (strip d)) with (d_b d) in Hb. apply N.eqb_neq in Hb.
  split; [|by right]. by intros [[? _]|[_ ?]].
Qed.
Lemma dpart_zero d : tzero (strip d) -> dpart d -> c_arb c = true -> d_rs d = None.
Proof. intros [Hb _]. change (t_b (strip d)) with (d_b d) in Hb. by intros [[_ ?]|[? _]]. Qed.
Lemma dpart_same d d' sl ess ovl : tinv (strip d) sl ess ovl -> dgood d' -> d_b d' = d_b d -> dpart d'.
Proof.
  intros H Hg E. destruct (tinv_bc _ _ _ _ _ _ _ OK _ _ _ _ H) as [Hb _]. change (t_b (strip d)) with (d_b d) in Hb. apply N.eqb_neq in Hb.
  right. by rewrite E.
Qed.

Lemma dfoi_zero f d k v : tzero (strip d) -> (c_arb c = true -> d_rs d = None) -> init_ok ->
  exists d1 sl ess, dfind_or_insert pf c junk (S f) d k v = dfind_or_insert pf c junk (S f) d1 k v /\ tinv (strip d1) sl ess [] /\ dgood d1.
Proof.
  intros Hz Hrs [Hkw Hi]. pose proof (ok_kw _ _ _ _ _ _ OK) as Hk64.
  destruct (dalloc_ok pf c junk kw vw bmin bmax strict OK DOK d (N.min (kw - 1) 16) Hz Hrs) as (d1 & Ea & G1); [lia|done|].
  destruct (alloc_spec pf c kw vw bmin bmax strict OK (strip d) (N.min (kw - 1) 16) Hz) as (t1 & Ha & _ & sl & ess & H & _); [lia|done|].
  pose proof (dalloc_table_eq _ _ _ _ _ _ Ea) as Ea'. rewrite Ha in Ea'. injection Ea' as ->.
  exists d1, sl, ess. split; [|done]. cbn [dfind_or_insert].
  assert (Hk1 : d_kw d1 = kw) by apply (ti_kw _ _ _ _ _ _ _ _ _ _ _ H).
  destruct (tinv_bc _ _ _ _ _ _ _ OK _ _ _ _ H) as [Hb1 _]. change (t_b (strip d1)) with (d_b d1) in Hb1. rewrite Hb1, Hk1.
  pose proof Hz as (Hb & _ & Hkd & _). change (t_b (strip d)) with (d_b d) in Hb. change (t_kw (strip d)) with (d_kw d) in Hkd. rewrite Hb, Hkd. cbn [N.eqb].
  rewrite sub64_small by lia. rewrite Ea. done.
Qed.
Lemma dinsert_ok d m k v : trep (strip d) m -> dpart d -> init_ok -> kdom k -> nv v = v \/ c_val c = KNull ->
  exists d' x sl ess ovl v', dfind_or_insert pf c junk fuel d k v = Ok (d', x) /\ dgood d' /\ tinv (strip d') sl ess ovl /\ nav_entry (strip d') ess x = Some (k, v').
Proof.
  intros Hrep Hd Hi Hk Hv.
  assert (Hgo : exists r, dfind_or_insert pf c junk fuel d k v = Ok r /\ dgood (fst r)).
  { destruct Hrep as [[Hz _]|(sl & ess & ovl & H & _)].
    - assert (Hf : fuel = S (Nat.pred fuel)) by lia. destruct (dfoi_zero (Nat.pred fuel) d k v Hz (dpart_zero _ Hz Hd) Hi) as (d1 & sl & ess & E & H1 & G1).
      rewrite <-Hf in E. rewrite E.
      apply (dfind_or_insert_ok pf c junk kw vw bmin bmax strict OK DOK fuel SP d1 sl ess [] k v H1 G1); [|done|done].
      pose proof (ok_b _ _ _ _ _ _ OK). pose proof (ti_b _ _ _ _ _ _ _ _ _ _ _ H1) as Hb1. change (t_b (strip d1)) with (d_b d1) in Hb1. lia.
    - apply (dfind_or_insert_ok pf c junk kw vw bmin bmax strict OK DOK fuel SP d sl ess ovl k v H); [by eapply dpart_full| |done|done].
      pose proof (ok_b _ _ _ _ _ _ OK). pose proof (ti_b _ _ _ _ _ _ _ _ _ _ _ H) as Hb1. change (t_b (strip d)) with (d_b d) in Hb1. lia. }
  destruct Hgo as ([d' x] & E & G). pose proof (dfind_or_insert_eq _ _ _ _ _ _ _ _ E) as E'. cbn [fst snd] in *.
  destruct (insert_rep pf c kw vw bmin bmax strict fuel TOK Hfuel (strip d) m k v Hrep (fun _ => Hi) Hk Hv) as (t' & x' & Ef & sl & ess & ovl & H & Hres).
  rewrite E' in Ef. injection Ef as <- <-. exists d', x, sl, ess, ovl. destruct (m !! k) as [v0|].
  - destruct Hres as (_ & Hn & _). by exists v0.
  - destruct Hres as (_ & Hn). by exists (nv v).
Qed.
Lemma dfind_rep d m k : trep (strip d) m -> dpart d -> kdom k -> exists x, dfind pf c d k = Ok x /\ diter_at pf c d x = Ok ((fun v => (k, v)) <$> m !! k)
  /\ (x = end_nav \/ exists sl ess ovl v, tinv (strip d) sl ess ovl /\ nav_entry (strip d) ess x = Some (k, v)).
Proof.
  intros [[Hz ->]|(sl & ess & ovl & H & Hm)] Hd Hk.
  - exists end_nav. rewrite lookup_empty. unfold dfind, diter_at. rewrite (end_nav_invalid_zero pf c kw vw) by done.
    pose proof Hz as [Hb _]. change (t_b (strip d)) with (d_b d) in Hb. rewrite Hb. split; [done|]. split; [done|]. by left.
  - assert (G : dgood d) by (by eapply dpart_full). destruct (dfind_ok d sl ess ovl H G k Hk) as (x & Hx & Hn). exists x. split; [done|].
    pose proof (find_spec pf c kw vw bmin bmax strict OK _ _ _ _ k H Hk) as Hf. rewrite Hm in Hf. rewrite (dfind_eq _ _ _ _ _ Hx) in Hf.
    destruct (m !! k) as [v|].
    + destruct Hf as (x' & [= <-] & He). rewrite (diter_at_ok _ _ _ _ _ _ _ _ OK DOK _ _ _ _ H G _ _ He). split; [done|]. right. by exists sl, ess, ovl, v.
    + injection Hf as ->. rewrite (diter_at_end _ _ _ _ _ _ _ OK _ _ _ _ H). split; [done|]. by left.
Qed.
Lemma dreserve_rep d m n : trep (strip d) m -> dpart d -> 1 <= n <= 2^63 -> bmin <= N.log2_up n <= bmax -> exists d', dreserve pf c junk fuel d n = Ok d' /\ dpart d'.
Proof.
  intros Hrep Hd Hn Hb. unfold dreserve. destruct Hrep as [[Hz _]|(sl & ess & ovl & H & _)].
  - unfold dreserve_with. pose proof Hz as [Hb0 _]. change (t_b (strip d)) with (d_b d) in Hb0. rewrite Hb0. cbn [N.eqb].
    destruct (dalloc_ok pf c junk kw vw bmin bmax strict OK DOK d n Hz (dpart_zero _ Hz Hd) Hn Hb) as (d1 & Ea & G1). exists d1. split; [done|].
    destruct (alloc_spec pf c kw vw bmin bmax strict OK (strip d) n Hz Hn Hb) as (t1 & Ha & _ & sl & ess & H & _). apply dalloc_table_eq in Ea. rewrite Ha in Ea. injection Ea as ->.
    by eapply dpart_full.
  - destruct (dreserve_with_ok pf c junk kw vw bmin bmax strict OK DOK fuel d sl ess ovl n SP) as (d' & E & (sl' & ess' & ovl' & H' & _) & G'); try done.
    + by apply dfind_or_insert_ok.
    + by eapply dpart_full.
    + pose proof (ok_b _ _ _ _ _ _ OK). lia.
    + exists d'. split; [done|]. by eapply dpart_full.
Qed.
Lemma dclear_rep d m : trep (strip d) m -> dpart d -> c_ov c <> OvArray -> exists d', dclear pf c d = Ok d' /\ dpart d'.
Proof.
  intros Hrep Hd Hna. destruct Hrep as [[Hz _]|(sl & ess & ovl & H & _)].
  - pose proof Hz as (Hb & Hn & Hk & Hv & Ho & Hs). change (t_b (strip d)) with (d_b d) in Hb. change (t_ov (strip d)) with (d_ov d) in Ho. unfold dclear.
    destruct (ov_clear_zero pf (kbn c) (vbn c) _ _ (ov_side_arr _ _ _ Hna) Ho) as (o' & Ec & _).
    destruct (d_slots d) as [dsl|] eqn:Esl.
    + unfold dbucket_count, bucket_count. change (t_b (strip d)) with (d_b d). rewrite Hb. change (N.to_nat (if 0 =? 0 then 0 else 2^0)) with 0%nat. rewrite take_0, drop_0. cbn [imap rmap mbind res_bind app].
      unfold dclear_structure, clear_structure. cbn [strip d_slots t_slots t_ov d_ov] in Hs |- *. rewrite Esl in Hs. cbn [fmap option_fmap option_map] in Hs |- *. rewrite free_empty by done. cbn [mbind res_bind]. rewrite Ec. cbn [mbind res_bind].
      eexists; split; [done|]. by left.
    + rewrite Ec. cbn [mbind res_bind]. eexists; split; [done|]. left. split; [done|]. cbn. by apply dpart_zero.
  - destruct (dclear_ok d sl ess ovl H) as (d' & E & Hb & Hr); [by eapply dpart_full|done|]. exists d'. split; [done|]. by left.
Qed.

Lemma dstep_ok d m o : trep (strip d) m -> dpart d -> init_ok -> c_val c <> KNull -> (forall v, v < 2^vw -> nv v = v) -> valid_op kw vw bmin bmax o ->
  (c_ov c = OvArray -> grow_op o) -> exists r, drun_op pf c junk fuel d o = Ok r /\ dpart (fst r).
Proof.
  intros Hrep Hd Hi Hnn Hnv Hvalid Hgr.
  destruct o as [k|k|k v|k|k v|k|k| | |n| |]; cbn [drun_op valid_op grow_op] in *.
  - destruct (dfind_rep d m k Hrep Hd (conj Hvalid Hgr)) as (x & -> & E & _). cbn [mbind res_bind]. rewrite E. cbn [mbind res_bind]. by eexists.
  - destruct Hrep as [[Hz _]|(sl & ess & ovl & H & _)].
    + unfold dcount, dfind. pose proof Hz as [Hb _]. change (t_b (strip d)) with (d_b d) in Hb. rewrite Hb. cbn [N.eqb mbind res_bind].
      pose proof (count_zero pf c kw vw (strip d) k Hz) as Hc. unfold TableModel.count in Hc. rewrite (find_zero pf c kw vw) in Hc by done. cbn [mbind res_bind] in Hc.
      destruct (nav_eq pf (strip d) end_nav end_nav); try done. cbn [mbind res_bind]. by eexists.
    + destruct (dcount_ok d sl ess ovl H) with (k := k) as (n & ->); [by eapply dpart_full|done|]. cbn [mbind res_bind]. by eexists.
  - destruct (dinsert_ok d m k v Hrep Hd Hi) as (d' & x & sl & ess & ovl & v' & -> & G & H & He); [by split; [apply Hvalid|]|left; apply Hnv, Hvalid|].
    cbn [mbind res_bind]. rewrite (diter_at_ok _ _ _ _ _ _ _ _ OK DOK _ _ _ _ H G _ _ He). cbn [mbind res_bind]. eexists. split; [done|]. by eapply dpart_full.
  - unfold dindex. destruct (dinsert_ok d m k 0 Hrep Hd Hi) as (d' & x & sl & ess & ovl & v' & -> & G & H & He); [by split|left; apply Hnv; by apply pow2_pos|].
    cbn [mbind res_bind]. destruct (dnav_read _ _ _ _ _ _ _ _ OK DOK _ _ _ _ H G _ _ _ He) as [_ ->]. cbn [mbind res_bind]. eexists. split; [done|]. by eapply dpart_full.
  - unfold dindex. destruct (dinsert_ok d m k 0 Hrep Hd Hi) as (d' & x & sl & ess & ovl & v' & -> & G & H & He); [by split; [apply Hvalid|]|left; apply Hnv; by apply pow2_pos|].
    cbn [mbind res_bind]. destruct (dwrite_ok d' sl ess ovl H G x k v' v He) as (d2 & -> & G2 & Hb2); [apply Hnv, Hvalid|apply Hvalid|]. cbn [mbind res_bind]. eexists. split; [done|]. by eapply dpart_same.
  - assert (Hna : c_ov c <> OvArray) by (intros E; by apply Hgr in E).
    destruct Hrep as [[Hz _]|(sl & ess & ovl & H & _)].
    + unfold derase. pose proof Hz as [Hb _]. change (t_b (strip d)) with (d_b d) in Hb. rewrite Hb. cbn [N.eqb mbind res_bind]. by eexists.
    + destruct (derase_ok d sl ess ovl H) with (k := k) as ([d' n] & -> & G & Hb); [by eapply dpart_full|done|by split|]. cbn [mbind res_bind]. eexists. split; [done|]. by eapply dpart_same.
  - assert (Hna : c_ov c <> OvArray) by (intros E; by apply Hgr in E).
    destruct (dfind_rep d m k Hrep Hd) as (x & -> & _ & Hx); [by split|]. cbn [mbind res_bind]. destruct Hx as [->|(sl & ess & ovl & v & H & He)].
    + assert (E : derase_at pf c d end_nav = Ok (d, 0)) by (apply derase_none). rewrite E. cbn [mbind res_bind]. by eexists.
    + destruct (derase_at_ok d sl ess ovl H) with (x := x) (e := (k, v)) as ([d' n] & -> & G & Hb); [by eapply dpart_full|done|done|]. cbn [mbind res_bind]. eexists. split; [done|]. by eapply dpart_same.
  - by eexists.
  - by eexists.
  - destruct (log2_up_range pf c kw vw bmin bmax fuel TOK Hfuel n) as [Hn Hb]; [apply Hvalid|apply Hvalid|].
    destruct (dreserve_rep d m n Hrep Hd Hn Hb) as (d' & -> & Hd'). cbn [mbind res_bind]. by eexists.
  - destruct Hrep as [[Hz _]|(sl & ess & ovl & H & _)].
    + unfold dshrink_to_fit. pose proof Hz as [Hb _]. change (t_b (strip d)) with (d_b d) in Hb. rewrite Hb. cbn [N.eqb mbind res_bind]. by eexists.
    + destruct (dshrink_ok d sl ess ovl H) as (d' & -> & G & Hb); [by eapply dpart_full|]. cbn [mbind res_bind]. eexists. split; [done|]. by eapply dpart_same.
  - assert (Hna : c_ov c <> OvArray) by (intros E; by apply Hgr in E).
    destruct (dclear_rep d m Hrep Hd Hna) as (d' & -> & Hd'). cbn [mbind res_bind]. by eexists.
Qed.
Lemma drun_ok : forall ops d m, trep (strip d) m -> dpart d -> init_ok -> c_val c <> KNull -> (forall v, v < 2^vw -> nv v = v) ->
  valid_ops kw vw bmin bmax ops -> (c_ov c = OvArray -> Forall grow_op ops) ->
  exists d', drun_ops pf c junk fuel d ops = Ok (d', snd (spec_run m ops)) /\ dpart d' /\ trep (strip d') (fst (spec_run m ops)).
Proof.
  induction ops as [|o ops IH]; intros d m Hrep Hd Hi Hval Hnv Hv Hgr; [by exists d|].
  apply Forall_cons in Hv as [Ho Hv].
  assert (Hg1 : c_ov c = OvArray -> grow_op o) by (intros E; specialize (Hgr E); by apply Forall_cons in Hgr as [? _]).
  assert (Hg2 : c_ov c = OvArray -> Forall grow_op ops) by (intros E; specialize (Hgr E); by apply Forall_cons in Hgr as [_ ?]).
  cbn [drun_ops spec_run]. destruct (dstep_ok d m o Hrep Hd Hi Hval Hnv Ho Hg1) as ([d1 x] & E & Hd1). rewrite E. cbn [mbind res_bind].
  apply drun_op_eq in E. cbn [fst snd] in E, Hd1.
  assert (Hstep : run_op pf c fuel (strip d) o = Ok (strip d1, snd (spec_step m o)) /\ trep (strip d1) (fst (spec_step m o))).
  { destruct (step_rep pf c kw vw bmin bmax strict fuel TOK Hfuel (strip d) m o Hrep (or_introl (fun _ => Hi)) Hval) as (t' & Ht & Hr).
    - apply Hnv. by apply pow2_pos.
    - done.
    - done.
    - destruct o; cbn [needs_value]; try done; apply Hnv, Ho.
    - rewrite E in Ht. injection Ht as E1 E2. rewrite E, E2. split; [done|]. rewrite E1. destruct o; (done || (by destruct Hr as [-> ?]) || (by destruct Hr)). }
  destruct Hstep as [E1 Hrep1]. rewrite E in E1. injection E1 as ->.
  destruct (IH d1 _ Hrep1 Hd1 Hi Hval Hnv Hv Hg2) as (d2 & -> & Hd2 & Hrep2). cbn [mbind res_bind].
  destruct (spec_step m o) as [m1 y] eqn:Es. cbn [fst snd] in *. destruct (spec_run m1 ops) as [m2 ys]. by exists d2.
Qed.

(** Sets *)
Lemma dkey_at_ok d sl ess ovl x k v : tinv (strip d) sl ess ovl -> dgood d -> nav_entry (strip d) ess x = Some (k, v) -> dkey_at pf c d x = Ok (Some k).
Proof.
  intros H G He. destruct (nav_entry_read pf c kw vw bmin bmax strict OK _ _ _ _ _ _ _ H He) as (Hi & _ & _). unfold dkey_at. rewrite Hi. cbn [mbind res_bind].
  destruct (dnav_read _ _ _ _ _ _ _ _ OK DOK _ _ _ _ H G _ _ _ He) as [-> _]. done.
Qed.
Lemma dset_step_ok d m o : trep (strip d) m -> dpart d -> init_ok -> c_val c = KNull -> valid_sop kw bmin bmax o ->
  exists r, drun_sop pf c junk fuel d o = Ok r /\ dpart (fst r).
Proof.
  intros Hrep Hd Hi Hval Hvalid. assert (Hna : c_ov c <> OvArray) by (by apply (set_noarr pf c kw vw bmin bmax TOK)).
  assert (Hkd : forall k, k < 2^kw -> kdom k) by (intros k Hk; by apply kdom_intro).
  destruct o as [k|k|k|k| | |n| |]; cbn [drun_sop valid_sop] in *.
  - destruct (dfind_rep d m k Hrep Hd (Hkd _ Hvalid)) as (x & -> & _ & Hx). cbn [mbind res_bind]. destruct Hx as [->|(sl & ess & ovl & v & H & He)].
    + assert (E : dkey_at pf c d end_nav = Ok None).
      { unfold dkey_at. destruct Hrep as [[Hz _]|(sl & ess & ovl & H & _)]; [by rewrite (end_nav_invalid_zero pf c kw vw)|by rewrite (end_nav_invalid pf c kw vw bmin bmax strict OK _ _ _ _ H)]. }
      rewrite E. cbn [mbind res_bind]. by eexists.
    + rewrite (dkey_at_ok d sl ess ovl x k v H (proj1 (dpart_full d sl ess ovl H) Hd) He). cbn [mbind res_bind]. by eexists.
  - destruct Hrep as [[Hz _]|(sl & ess & ovl & H & _)].
    + unfold dcount, dfind. pose proof Hz as [Hb _]. change (t_b (strip d)) with (d_b d) in Hb. rewrite Hb. cbn [N.eqb mbind res_bind].
      pose proof (count_zero pf c kw vw (strip d) k Hz) as Hc. unfold TableModel.count in Hc. rewrite (find_zero pf c kw vw) in Hc by done. cbn [mbind res_bind] in Hc.
      destruct (nav_eq pf (strip d) end_nav end_nav); try done. cbn [mbind res_bind]. by eexists.
    + destruct (dcount_ok d sl ess ovl H) with (k := k) as (n & ->); [by eapply dpart_full|by apply Hkd|]. cbn [mbind res_bind]. by eexists.
  - destruct (dinsert_ok d m k 0 Hrep Hd Hi (Hkd _ Hvalid)) as (d' & x & sl & ess & ovl & v' & -> & G & H & He); [by right|].
    cbn [mbind res_bind]. rewrite (dkey_at_ok _ _ _ _ _ _ _ H G He). cbn [mbind res_bind]. eexists. split; [done|]. by eapply dpart_full.
  - destruct Hrep as [[Hz _]|(sl & ess & ovl & H & _)].
    + unfold derase. pose proof Hz as [Hb _]. change (t_b (strip d)) with (d_b d) in Hb. rewrite Hb. cbn [N.eqb mbind res_bind]. by eexists.
    + destruct (derase_ok d sl ess ovl H) with (k := k) as ([d' n] & -> & G & Hb); [by eapply dpart_full|done|by apply Hkd|]. cbn [mbind res_bind]. eexists. split; [done|]. by eapply dpart_same.
  - by eexists.
  - by eexists.
  - destruct (log2_up_range pf c kw vw bmin bmax fuel TOK Hfuel n) as [Hn Hb]; [apply Hvalid|apply Hvalid|].
    destruct (dreserve_rep d m n Hrep Hd Hn Hb) as (d' & -> & Hd'). cbn [mbind res_bind]. by eexists.
  - destruct Hrep as [[Hz _]|(sl & ess & ovl & H & _)].
    + unfold dshrink_to_fit. pose proof Hz as [Hb _]. change (t_b (strip d)) with (d_b d) in Hb. rewrite Hb. cbn [N.eqb mbind res_bind]. by eexists.
    + destruct (dshrink_ok d sl ess ovl H) as (d' & -> & G & Hb); [by eapply dpart_full|]. cbn [mbind res_bind]. eexists. split; [done|]. by eapply dpart_same.
  - destruct (dclear_rep d m Hrep Hd Hna) as (d' & -> & Hd'). cbn [mbind res_bind]. by eexists.
Qed.
Lemma dset_run_ok : forall ops d s, srep pf c kw vw bmin bmax strict (strip d) s -> dpart d -> init_ok -> c_val c = KNull -> Forall (valid_sop kw bmin bmax) ops ->
  exists d', drun_sops pf c junk fuel d ops = Ok (d', snd (set_run s ops)) /\ dpart d' /\ srep pf c kw vw bmin bmax strict (strip d') (fst (set_run s ops)).
Proof.
  induction ops as [|o ops IH]; intros d s Hrep Hd Hi Hval Hv; [by exists d|].
  apply Forall_cons in Hv as [Ho Hv]. cbn [drun_sops set_run]. pose proof Hrep as (m & Hm & _).
  destruct (dset_step_ok d m o Hm Hd Hi Hval Ho) as ([d1 x] & E & Hd1). rewrite E. cbn [mbind res_bind].
  apply drun_sop_eq in E. cbn [fst snd] in E, Hd1.
  destruct (set_step_rep pf c kw vw bmin bmax strict fuel TOK Hfuel (strip d) s o Hrep Hi Hval Ho) as (t1 & Ht & Hrep1). rewrite E in Ht. injection Ht as <- ->.
  destruct (IH d1 _ Hrep1 Hd1 Hi Hval Hv) as (d2 & -> & Hd2 & Hrep2). cbn [mbind res_bind].
  destruct (set_step s o) as [s1 y]. cbn [fst snd] in *. destruct (set_run s1 ops) as [s2 ys]. by exists d2.
Qed.

(** A new table *)
Lemma dnew_rep : exists d, dnew_table pf c kw vw = Ok d /\ dpart d /\ trep (strip d) ∅.
Proof.
  destruct (dnew_ok pf c junk kw vw bmin bmax DOK) as (d & E & Hr & Es). exists d. split; [done|]. split.
  - left. split; [|done]. change (t_b (strip d) = 0). by rewrite Es.
  - left. rewrite Es. split; [|done]. by apply (new_table_zero pf c kw vw bmin bmax).
Qed.
End debug.
