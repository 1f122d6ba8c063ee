(** C122, bucket_table: malloc, realloc and _mm_malloc can fail. *)
From Verif Require Import MallocBt MallocProofs PropMalloc PropBt BtProofs.

Section asks.
Context (pf : platform) (c : bcfg).
Notation kd := (bc_key c).
Notation vd := (bc_val c).
Notation w := (bc_width c).

Definition insert_requests (t : btable) (p : N) : nat :=
  if bt_init t then
    if p =? ones64 then
      let n := u32 (bt_n t + 1) in
      if st_needs_resize c (bt_len t) n then
        let old := N.to_nat (u32 (n + 2^32 - 1)) in
        let new := N.to_nat (fst (st_after_increment c (bt_len t) n)) in
        (resize_requests kd old new w + resize_requests vd old new 0)%nat
      else 0%nat
    else 0%nat
  else (init_requests kd + init_requests vd)%nat.

Lemma asks_bt_insert t k v p : bt_init t = false \/ bt_locate pf c t k = Ok p -> asks (insert_requests t p) (mb_insert pf c t k v) (bt_insert pf c t k v).
Proof.
  intros Hp h. unfold mb_insert, bt_insert, insert_requests, init_requests, resize_requests, m_initialize, m_resize. destruct (bt_init t).
  - destruct Hp as [Hp| ->]; [done|]. cbn [mbind res_bind]. destruct (p =? ones64); [|split; [by rewrite drop_0|done]].
    set (n := u32 (bt_n t + 1)). destruct (st_needs_resize c (bt_len t) n); [|split; [intros _; rewrite drop_0; by destruct (bt_last _ _ _ _ _)|done]].
    destruct (st_after_increment c (bt_len t) n) as [newsize len]. cbn [fst].
    set (new := N.to_nat newsize). set (old := N.to_nat (u32 (n + 2^32 - 1))). rewrite all_given_app.
    destruct (b_resize pf kd (bt_keys t) old new w) as [ks|u| |]; cbn [mbind res_bind]; [|by split..].
    destruct (ask_cases (resize_asks kd old new w) h) as [[-> ->]|(-> & -> & HK)];
      set (h' := drop (if resize_asks kd old new w then 1 else 0)%nat h); cbn [mbind res_bind andb].
    + destruct (b_resize pf vd (bt_vals t) old new 0) as [vs|u| |]; cbn [mbind res_bind]; [|by split..].
      destruct (ask_cases (resize_asks vd old new 0) h') as [[-> ->]|(-> & -> & HV)]; cbn [mbind res_bind].
      * split; [|done]. intros _. unfold h'. rewrite drop_drop. by destruct (bt_last _ _ _ _ _).
      * split; [done|]. intros _ a. pose proof (resize_asks_kind _ _ _ _ HV) as HV'. unfold bt_last. cbn [bt_keys bt_vals bt_n].
        destruct (b_write pf kd ks _ k w) eqn:Eq; cbn [mbind res_bind]; [|done..]. intros _.
        assert (HN : forall i, b_write pf vd None i v 0 = Ub NullDeref) by (intros i; by apply write_null).
        destruct vd; try done; cbn [mbind res_bind bt_keys bt_vals bt_n]; try (by rewrite HN).
        destruct (old =? 0)%nat; cbn [mbind res_bind bt_keys bt_vals bt_n]; [|done]. by rewrite HN.
    + split; [done|]. intros _ a. pose proof (resize_asks_kind _ _ _ _ HK) as HK'.
      destruct (b_resize pf vd (bt_vals t) old new 0) as [vs|u| |] eqn:Ew; cbn [mbind res_bind]; [|done..]. intros _.
      assert (HN : forall vs n l, bt_last pf c (BT None vs n l) k v = Ub NullDeref).
      { intros. unfold bt_last. cbn [bt_keys bt_vals bt_n]. by rewrite write_null. }
      clearbody h'. destruct kd; try done; try (destruct (old =? 0)%nat eqn:E0; [|done]); cbn [mbind res_bind];
        (destruct (ask (resize_asks vd old new 0) h') as [[|] h0]; [cbn [mbind res_bind]; by rewrite HN|]);
        (destruct vd; cbn [mbind res_bind]; rewrite ?HN; try reflexivity); rewrite ?E0; cbn [mbind res_bind]; rewrite ?HN; try reflexivity;
        destruct (old =? 0)%nat; cbn [mbind res_bind]; rewrite ?HN; reflexivity.
  - rewrite all_given_app.
    destruct (ask_cases (kind_asks kd) h) as [[-> ->]|(-> & -> & HK)];
    destruct (ask_cases (kind_asks vd) (drop (if kind_asks kd then 1 else 0)%nat h)) as [[-> ->]|(-> & -> & HV)];
      cbn [andb mbind res_bind]; unfold bt_last; cbn [bt_keys bt_vals bt_n bt_len]; split; try done.
    + intros _. rewrite drop_drop. destruct (b_write _ _ _ _ k _); cbn [mbind res_bind]; [|done..]. by destruct (b_write _ _ _ _ v _).
    + intros _ a. destruct (b_write _ _ _ _ k _); cbn [mbind res_bind]; [|done..]. intros _. by rewrite write_null.
    + intros _ a _. rewrite (write_null pf kd) by done. reflexivity.
    + intros _ a _. rewrite (write_null pf kd) by done. reflexivity.
Qed.
End asks.

(** The blocks that an insertion asks for, in terms of the elements of the table and its capacity(): none for a present key; the first two blocks
    for an empty table; otherwise two larger blocks if the strategy wants more than capacity(), where a varwidth_bucket that fits in its block does not ask. *)
Definition blocks (kd : bkind) (old new w : nat) : nat :=
  match kd with
  | KPlain _ | KAvx _ => 1
  | KVar iw => if decide (cdiv (old * w) iw < cdiv (new * w) iw)%nat then 1 else 0
  | KClass _ | KNull => 0
  end%nat.
Definition bt_blocks (c : bcfg) (m : gmap N N) (cap k : N) : nat :=
  if decide (is_Some (m !! k)) then 0
  else
    let n := size m in
    let new := match bc_strat c with BInc => S n | BArb => if cap <=? N.of_nat (S n) then N.to_nat (arb_resize (N.of_nat (S n))) else O end in
    if decide (m = ∅) then blocks (bc_key c) 0 1 (bc_width c) + blocks (bc_val c) 0 1 1
    else if decide (new = O) then 0
    else blocks (bc_key c) n new (bc_width c) + blocks (bc_val c) n new 1.

(** Histories of calls on a fresh table while memory is sufficient; the map m has the contents. *)
Definition bt_reach (pf : platform) (c : bcfg) (es : nat) (t : btable) (m : gmap N N) : Prop :=
  exists ops outs, bok pf c es /\ Forall bt_has_op ops /\ valid_ops (N.of_nat (bc_width c)) (N.of_nat es) 0 0 ops
    /\ never_above (growth_limit (bc_strat c)) ∅ ops /\ bt_run pf c bt_new ops = Ok (t, outs) /\ m = fst (spec_run ∅ ops).
Lemma bt_reach_rep pf c es t m : bt_reach pf c es t m -> bok pf c es /\ mrep pf c es t m.
Proof.
  intros (ops & outs & OK & Hh & Hv & Hs & Er & ->). split; [done|].
  destruct (run_spec pf c es OK ops bt_new ∅ (mrep_new pf c es) Hh Hv Hs) as (t' & E & Hr). rewrite E in Er. by injection Er as <- _.
Qed.

Lemma init_blocks pf c es : bok pf c es -> init_requests (bc_key c) = blocks (bc_key c) 0 1 (bc_width c) /\ init_requests (bc_val c) = blocks (bc_val c) 0 1 1.
Proof.
  intros OK. split.
  - pose proof (bo_w _ _ _ OK) as Hw. pose proof (bo_key _ _ _ OK) as Hk. unfold init_requests, blocks. destruct (bc_key c); try done. cbn [kind_asks].
    rewrite decide_True; [done|]. destruct Hk as [Hk _]. unfold cdiv. rewrite Nat.mul_0_l, Nat.mul_1_l.
    assert (iw <> 0)%nat by (unfold width_ok in Hk; lia). rewrite Nat.div_small by lia. apply Nat.div_str_pos. lia.
  - pose proof (bo_val _ _ _ OK) as [[-> | ->] _]; done.
Qed.
Lemma resize_blocks pf c es n new : bok pf c es -> resize_requests (bc_key c) n new (bc_width c) = blocks (bc_key c) n new (bc_width c)
  /\ resize_requests (bc_val c) n new 0 = blocks (bc_val c) n new 1.
Proof.
  intros OK. split.
  - unfold resize_requests, blocks, resize_asks. destruct (bc_key c); try done. destruct (decide _) as [H|H]; [by rewrite (proj2 (Nat.ltb_lt _ _) H)|].
    assert (E : (cdiv (n * bc_width c) iw <? cdiv (new * bc_width c) iw)%nat = false) by (apply Nat.ltb_ge; lia). by rewrite E.
  - pose proof (bo_val _ _ _ OK) as [[-> | ->] _]; done.
Qed.

(** An insertion into a bucket_table makes this number of requests.  It is undefined as soon as one of them fails; otherwise it does what it does
    when memory is never exhausted. *)
Theorem C122_bt_insert_refuted : forall pf c es t m k v, bt_reach pf c es t m -> k < 2^N.of_nat (bc_width c) -> v < 2^N.of_nat es ->
  is_Some (m !! k) \/ N.of_nat (size m) < growth_limit (bc_strat c) ->
  exists t' p, bt_insert pf c t k v = Ok (t', p) /\ all_or_ub (bt_blocks c m (bt_capacity c t) k) (mb_insert pf c t k v) (t', p).
Proof.
  intros pf c es t m k v Hr Hk Hv Hl. apply bt_reach_rep in Hr as (OK & E & Hr & Hm).
  pose proof (brep_nodup _ _ _ _ _ Hr) as Hnd. pose proof (emap_size _ Hnd) as Hsz. rewrite Hm in Hsz.
  assert (Hl' : N.of_nat (length E) < blim c \/ k ∈ keys_of E).
  { rewrite <- Hsz. destruct Hl as [Hl|Hl]; [right|by left]. rewrite <- Hm in Hl. destruct (decide (k ∈ keys_of E)) as [|Hn]; [done|].
    apply emap_None in Hn. rewrite Hn in Hl. by destruct Hl. }
  destruct (insert_spec pf c es OK t E k v Hr (conj Hk Hv) Hl') as (t' & p & Ei & _). exists t', p. split; [exact Ei|].
  pose proof (emap_index E k Hnd) as Hix. rewrite Hm in Hix.
  assert (Hq : exists q, (bt_init t = false \/ bt_locate pf c t k = Ok q) /\ insert_requests c t q = bt_blocks c m (bt_capacity c t) k).
  2:{ destruct Hq as (q & Hq & Eq). rewrite <- Eq. exact (asks_all _ _ _ _ (asks_bt_insert pf c t k v q Hq) Ei). }
  unfold insert_requests, bt_blocks. destruct Hr as [[(Hks & _ & _) ->]|H].
  - exists 0. unfold bt_init. rewrite Hks. split; [by left|]. rewrite <- Hm. cbn [emap list_to_map foldr fmap list_fmap].
    rewrite decide_False by (rewrite lookup_empty; by intros [? ?]). rewrite decide_True by done. by destruct (init_blocks pf c es OK) as [-> ->].
  - exists (match first_index k (keys_of E) with Some i => N.of_nat i | None => ones64 end). split; [right; by apply (locate_spec pf c es OK)|].
    rewrite (bfull_init pf c es OK _ _ H). destruct (first_index k (keys_of E)) as [i|] eqn:Ef.
    + rewrite (pos_not_ones _ _ _ _ _ _ H) by (by eapply index_lt). destruct Hix as (v0 & _ & ->). by rewrite decide_True by (by eexists).
    + rewrite N.eqb_refl. rewrite Hix. rewrite decide_False by (by intros [? ?]).
      rewrite decide_False.
      2:{ intros ->. rewrite map_size_empty in Hsz. pose proof (bf_ne _ _ _ _ _ H). by destruct E. }
      apply fi_None in Ef. destruct Hl' as [Hl'|]; [|done]. pose proof (blim_32 c) as Hb. rewrite (bf_n _ _ _ _ _ H). rewrite Hsz.
      replace (u32 (N.of_nat (length E) + 1)) with (N.of_nat (S (length E))) by (unfold u32; rewrite N.mod_small; lia).
      rewrite (u32_pred (N.of_nat (S (length E)))) by lia. replace (N.of_nat (S (length E)) - 1) with (N.of_nat (length E)) by lia. rewrite Nat2N.id.
      unfold st_needs_resize, st_after_increment, inc_needs_resize, inc_size_after_increment, bt_capacity, st_size. unfold blim in Hl'.
      assert (HU : u32 (N.of_nat (S (length E))) = N.of_nat (S (length E))) by (unfold u32; rewrite N.mod_small; [done|]; destruct (bc_strat c); lia).
      destruct (bc_strat c); cbn [fst].
      * rewrite Nat2N.id, decide_False by lia. by destruct (resize_blocks pf c es (length E) (S (length E)) OK) as [-> ->].
      * rewrite HU. destruct (bt_len t <=? N.of_nat (S (length E))); [|by rewrite decide_True].
        destruct (arb_resize_ge (N.of_nat (S (length E)))) as [H1 H2]; [lia|].
        replace (u32 (arb_resize (N.of_nat (S (length E))))) with (arb_resize (N.of_nat (S (length E)))) by (unfold u32; rewrite N.mod_small; lia).
        rewrite decide_False by lia. by destruct (resize_blocks pf c es (length E) (N.to_nat (arb_resize (N.of_nat (S (length E))))) OK) as [-> ->].
Qed.
Print Assumptions C122_bt_insert_refuted.

(** ** shrink_to_fit stores the null pointer of a failed realloc *)
Section shrink.
Context (pf : platform) (c : bcfg) (es : nat) (t : btable) (m : gmap N N).
Hypothesis (Hr : bt_reach pf c es t m) (Hne : m <> ∅) (Hcap : N.of_nat (size m) < bt_capacity c t).
Notation n := (size m).

Lemma shrink_facts : bok pf c es /\ bt_init t = true /\ bt_n t = N.of_nat n /\ exists E ks vs cap, emap E = m /\ bfull pf c es t E /\ length E = n
  /\ b_resize pf (bc_key c) (bt_keys t) n n (bc_width c) = Ok ks /\ b_resize pf (bc_val c) (bt_vals t) n n (bc_width c) = Ok vs
  /\ brepr pf (bc_key c) (bc_width c) cap ks (E.*1).
Proof.
  destruct (bt_reach_rep _ _ _ _ _ Hr) as (OK & E & HR & Hm). split; [done|]. pose proof (emap_size _ (brep_nodup _ _ _ _ _ HR)) as Hsz. rewrite Hm in Hsz.
  destruct HR as [[_ ->]|H]; [by destruct Hne|]. split; [by apply (bfull_init pf c es OK _ E)|]. rewrite Hsz. split; [apply (bf_n _ _ _ _ _ H)|].
  destruct (bf_cap _ _ _ _ _ H) as (cap & Hks & Hvs & Hc & _).
  destruct (b_resize_spec pf (bc_key c) (bc_width c) cap _ _ (length E) (bo_key _ _ _ OK) Hks) as (ks' & Ek & Hks'); [rewrite fmap_length; lia|].
  destruct (b_resize_spec pf (bc_val c) (bc_width c) cap (bt_vals t) (E.*2) (length E) (val_kind_ok _ _ _ (bo_val _ _ _ OK)))
    as (vs' & Ev & _); [by apply (val_width pf _ es 0); [apply (bo_val _ _ _ OK)|]|rewrite fmap_length; lia|].
  rewrite fmap_length in Ek, Ev. exists E, ks', vs'. by eexists.
Qed.

(** Without failures this is shrink_to_fit as modelled before. *)
Lemma shrink_given h : granted 2 h -> exists h', mb_shrink pf c t h = (t' ← bt_shrink pf c t; Ok (t', h')).
Proof.
  destruct shrink_facts as (OK & Hi & Hn & E & ks & vs & cap & _ & _ & _ & Ek & Ev & _). intros G.
  unfold mb_shrink, bt_shrink, m_resize. rewrite Hi, Hn, Nat2N.id. unfold bt_capacity in Hcap. rewrite Hn in Hcap. rewrite (proj2 (N.ltb_lt _ _) Hcap).
  rewrite Ek. cbn [mbind res_bind]. rewrite Ev. cbn [mbind res_bind].
  assert (H1 : fst (ask (resize_asks (bc_key c) n n (bc_width c)) h) = true).
  { destruct (resize_asks _ _ _ _); [|done]. destruct h as [|[|] h]; [done..|]. exfalso; by apply (G 0%nat); [lia|]. }
  assert (H2 : fst (ask (resize_asks (bc_val c) n n (bc_width c)) (snd (ask (resize_asks (bc_key c) n n (bc_width c)) h))) = true).
  { destruct (resize_asks (bc_val c) _ _ _); [|done]. destruct (resize_asks _ _ _ _).
    - destruct h as [|b [|[|] h]]; [done..|]. exfalso; by apply (G 1%nat); [lia|].
    - destruct h as [|[|] h]; [done..|]. exfalso; by apply (G 0%nat); [lia|]. }
  destruct (ask _ h) as [ok h']. cbn [fst snd] in *. subst ok. cbn [mbind res_bind].
  destruct (ask _ h') as [ok h'']. cbn [fst snd] in *. subst ok. cbn [mbind res_bind]. by eexists.
Qed.

(** The block of the keys is a plain_bucket: all elements are gone, but size() still counts them.  The next insertion starts a new table. *)
Lemma shrink_keys_lost e h : bc_key c = KPlain e -> exists t' h', mb_shrink pf c t (false :: h) = Ok (t', h') /\ bt_size t' = N.of_nat n /\
  (forall k, bt_count pf c t' k = Ok 0) /\
  forall k v, k < 2^N.of_nat (bc_width c) -> v < 2^N.of_nat es -> exists t'' p, bt_insert pf c t' k v = Ok (t'', p) /\
    forall ops, Forall bt_has_op ops -> valid_ops (N.of_nat (bc_width c)) (N.of_nat es) 0 0 ops -> never_above (growth_limit (bc_strat c)) {[k := v]} ops ->
      exists t3, bt_run pf c t'' ops = Ok (t3, snd (spec_run {[k := v]} ops)).
Proof.
  intros Ekd. destruct shrink_facts as (OK & Hi & Hn & E & ks & vs & cap & Hm & HF & HE & Ek & Ev & _).
  assert (HT : exists v' l h', mb_shrink pf c t (false :: h) = Ok (BT None v' (N.of_nat n) l, h')).
  { unfold mb_shrink, m_resize. rewrite Hi, Hn, Nat2N.id. unfold bt_capacity in Hcap. rewrite Hn in Hcap. rewrite (proj2 (N.ltb_lt _ _) Hcap).
    rewrite Ek. cbn [mbind res_bind]. rewrite Ekd. cbn [resize_asks kind_asks ask mbind res_bind]. rewrite Ev. cbn [mbind res_bind].
    destruct (ask _ h) as [[|] h'].
    - by eexists _, _, _.
    - pose proof (bo_val _ _ _ OK) as [[-> | ->] _]; by eexists _, _, _. }
  destruct HT as (v' & l & h' & ET). exists (BT None v' (N.of_nat n) l), h'. split; [done|]. split; [done|]. split.
  { intros k. unfold bt_count, bt_find, bt_init. cbn [bt_keys]. cbn [mbind res_bind]. unfold bn_eq. 
    assert (Hinv : bn_invalid (BT None v' (N.of_nat n) l) bt_end = true).
    { unfold bn_invalid. cbn [bt_n]. apply N.leb_le. rewrite <- HE. pose proof (bf_lim _ _ _ _ _ HF). pose proof (blim_32 c). unfold bt_end, ones64. lia. }
    rewrite Hinv. done. }
  intros k v Hk Hv.
  assert (HB : bt_insert pf c (BT None v' (N.of_nat n) l) k v = bt_insert pf c (BT None None 0 l) k v) by done.
  destruct (insert_spec pf c es OK (BT None None 0 l) [] k v) as (t'' & p & Ei & Hf); [by left|done|left; unfold blim; cbn [length]; by destruct (bc_strat c)|].
  exists t'', p. split; [by rewrite HB|]. cbn [first_index fmap list_fmap] in Hf. destruct Hf as [Hf _]. intros ops Hh Ho Hs.
  assert (HM : mrep pf c es t'' {[k := v]}) by (exists [(k, v)]; split; [right; exact Hf|done]).
  destruct (run_spec pf c es OK ops t'' _ HM Hh Ho Hs) as (t3 & E3 & _). by exists t3.
Qed.
(** avx2_bucket: undefined at once. *)
Lemma shrink_keys_avx e h : bc_key c = KAvx e -> mb_shrink pf c t (false :: h) = Ub NullDeref.
Proof.
  intros Ekd. destruct shrink_facts as (OK & Hi & Hn & E & ks & vs & cap & Hm & HF & HE & Ek & Ev & _).
  unfold mb_shrink, m_resize. rewrite Hi, Hn, Nat2N.id. unfold bt_capacity in Hcap. rewrite Hn in Hcap. rewrite (proj2 (N.ltb_lt _ _) Hcap).
  rewrite Ek. cbn [mbind res_bind]. rewrite Ekd. cbn [resize_asks kind_asks ask mbind res_bind].
  destruct (Nat.eqb_spec n 0) as [H0|]; [|done]. apply map_size_empty_inv in H0. done.
Qed.
(** The block of the values: finding any present key is undefined. *)
Lemma shrink_vals_lost h : bc_val c = KPlain es -> exists t', mb_shrink pf c t (repeat true (blocks (bc_key c) n n (bc_width c)) ++ false :: h) = Ok (t', h) /\
  bt_size t' = N.of_nat n /\ forall k, is_Some (m !! k) -> bt_run_op pf c t' (OpFind k) = Ub NullDeref.
Proof.
  intros Evd. destruct shrink_facts as (OK & Hi & Hn & E & ks & vs & cap & Hm & HF & HE & Ek & Ev & Hks).
  exists (BT ks None (N.of_nat n) (st_assign c (bt_len t) (N.of_nat n))). split; [|split; [done|]].
  - unfold mb_shrink, m_resize. rewrite Hi, Hn, Nat2N.id. unfold bt_capacity in Hcap. rewrite Hn in Hcap. rewrite (proj2 (N.ltb_lt _ _) Hcap).
    rewrite Ek. cbn [mbind res_bind]. rewrite Ev. cbn [mbind res_bind]. destruct (resize_blocks pf c es n n OK) as [HB _]. rewrite <- HB. unfold resize_requests.
    destruct (resize_asks (bc_key c) n n (bc_width c)); cbn [repeat app ask mbind res_bind]; rewrite Evd; cbn [resize_asks kind_asks ask mbind res_bind]; done.
  - intros k [v Hv]. pose proof (bf_nodup _ _ _ _ _ HF) as Hnd. pose proof (emap_index E k Hnd) as Hix.
    assert (Hin : k ∈ keys_of E). { destruct (decide (k ∈ keys_of E)) as [|Hn']; [done|]. apply emap_None in Hn'. congruence. }
    assert (Hkw : k < 2^N.of_nat (bc_width c)).
    { apply elem_of_list_fmap in Hin as ([k' v0] & -> & Hin). pose proof (bf_ok _ _ _ _ _ HF) as Hok. rewrite Forall_forall in Hok. by apply Hok in Hin as [? _]. }
    cbn [bt_run_op]. unfold bt_find, bt_init, bt_locate. cbn [bt_keys].
    destruct (brepr_init pf c es OK _ _ _ Hks) as (b & ->). cbn [bt_n]. rewrite Nat2N.id, <- HE, <- (fmap_length fst E).
    rewrite (b_find_spec pf _ (bc_width c) cap _) by (done || apply OK || by eapply bok_norm). cbn [mbind res_bind].
    destruct (first_index k (keys_of E)) as [i|] eqn:Ef; [|apply fi_None in Ef; done].
    unfold bi_at, bn_invalid. cbn [bt_n]. pose proof (index_lt _ _ _ Ef) as Hlt. rewrite (proj2 (N.leb_gt _ _)) by (rewrite ?fmap_length; lia).
    unfold bn_key, bn_value. cbn [bt_keys bt_vals]. rewrite Nat2N.id. destruct (index_entry _ _ _ Ef) as (v0 & Hi0).
    rewrite (b_read_spec pf (bc_key c) (bc_width c) cap _ _ i k (bo_key _ _ _ OK) (bo_pf _ _ _ OK) Hks) by (by rewrite list_lookup_fmap, Hi0).
    cbn [mbind res_bind]. rewrite Evd. done.
Qed.
End shrink.

(** shrink_to_fit of a table with room for more elements: if nothing fails it is the shrink_to_fit of BtModel.v.  A failing realloc is not reported.
    If it is the one of a plain_bucket with the keys, every element is lost although size() is unchanged, and after the next insertion the table is one
    that holds only the inserted element; if it is the one of the values, finding any present key is undefined; an avx2_bucket is copied through the null pointer. *)
Theorem C122_bt_shrink_refuted : forall pf c es t m h, bt_reach pf c es t m -> m <> ∅ -> N.of_nat (size m) < bt_capacity c t ->
  (granted 2 h -> exists h' t', bt_shrink pf c t = Ok t' /\ mb_shrink pf c t h = Ok (t', h')) /\
  (forall e, bc_key c = KPlain e -> exists t' h', mb_shrink pf c t (false :: h) = Ok (t', h') /\ bt_size t' = N.of_nat (size m) /\
     (forall k, bt_count pf c t' k = Ok 0) /\
     forall k v, k < 2^N.of_nat (bc_width c) -> v < 2^N.of_nat es -> exists t'' p, bt_insert pf c t' k v = Ok (t'', p) /\
       forall ops, Forall bt_has_op ops -> valid_ops (N.of_nat (bc_width c)) (N.of_nat es) 0 0 ops -> never_above (growth_limit (bc_strat c)) {[k := v]} ops ->
         exists t3, bt_run pf c t'' ops = Ok (t3, snd (spec_run {[k := v]} ops))) /\
  (forall e, bc_key c = KAvx e -> mb_shrink pf c t (false :: h) = Ub NullDeref) /\
  (bc_val c = KPlain es -> exists t', mb_shrink pf c t (repeat true (blocks (bc_key c) (size m) (size m) (bc_width c)) ++ false :: h) = Ok (t', h) /\
     bt_size t' = N.of_nat (size m) /\ forall k, is_Some (m !! k) -> bt_run_op pf c t' (OpFind k) = Ub NullDeref).
Proof.
  intros pf c es t m h Hr Hne Hc. split; [|split; [|split]].
  - intros G. destruct (shrink_given pf c es t m Hr Hne Hc h G) as (h' & E). destruct (bt_reach_rep _ _ _ _ _ Hr) as (OK & En & HR & _).
    destruct (shrink_spec pf c es OK t En HR) as (t' & Et & _). rewrite Et in E. by exists h', t'.
  - intros e Ek. by apply (shrink_keys_lost pf c es t m Hr Hne Hc e).
  - intros e Ek. by apply (shrink_keys_avx pf c es t m Hr Hne Hc e).
  - intros Ev. by apply (shrink_vals_lost pf c es t m Hr Hne Hc).
Qed.
Print Assumptions C122_bt_shrink_refuted.

(** shrink_to_fit of a table that is empty or has no room for more elements asks for no memory. *)
Theorem C122_bt_shrink_idle : forall pf c es t m h, bt_reach pf c es t m -> m = ∅ \/ bt_capacity c t <= N.of_nat (size m) -> mb_shrink pf c t h = Ok (t, h).
Proof.
  intros pf c es t m h Hr Hc. destruct (bt_reach_rep _ _ _ _ _ Hr) as (OK & HM). destruct (mrep_size _ _ _ _ _ HM) as [Hsz _]. destruct HM as (E & HR & Hm).
  unfold mb_shrink. destruct Hc as [-> |Hc].
  - destruct HR as [[(Hk & _) _]|H]; [unfold bt_init; by rewrite Hk|]. pose proof (bf_ne _ _ _ _ _ H). rewrite map_size_empty in Hsz. pose proof (bf_n _ _ _ _ _ H).
    destruct E; [done|]. cbn [length] in *. lia.
  - destruct (bt_init t); [|done]. rewrite Hsz in Hc. unfold bt_capacity in Hc. by rewrite (proj2 (N.ltb_ge _ _) Hc).
Qed.
Print Assumptions C122_bt_shrink_idle.

(** Four elements in a table with room for 8; the block of the keys is lost; the fifth key is then the only one. *)
Definition ex_mb : bcfg := BCfg (KPlain 32) (KPlain 32) BArb 20.
Definition ex_mb_ops : list op := [OpInsert 5 7; OpInsert 1000 8; OpInsert 77 9; OpInsert 6 1].
Definition ex_mb_t : btable := match bt_run lax_pf ex_mb bt_new ex_mb_ops with Ok (t, _) => t | _ => bt_new end.
Lemma ex_mb_reach : bt_reach lax_pf ex_mb 32 ex_mb_t (fst (spec_run ∅ ex_mb_ops)).
Proof.
  exists ex_mb_ops, (snd (spec_run ∅ ex_mb_ops)). split.
  { split; cbn; try done; try lia; [by right; right; left|split; [by left|by right; right; left]]. }
  split; [repeat (apply List.Forall_cons; [exact I|]); apply List.Forall_nil|].
  split; [repeat (apply List.Forall_cons; [cbn [valid_op]; vm_compute; auto|]); apply List.Forall_nil|].
  split; [vm_compute; repeat split; discriminate|]. split; [vm_compute; reflexivity|done].
Qed.
Example C122_bt_case : bt_reach lax_pf ex_mb 32 ex_mb_t (fst (spec_run ∅ ex_mb_ops)) /\ size (fst (spec_run ∅ ex_mb_ops)) = 4%nat
  /\ bt_capacity ex_mb ex_mb_t = 8 /\ bt_blocks ex_mb (fst (spec_run ∅ ex_mb_ops)) 8 9 = 0%nat
  /\ bt_blocks ex_mb (fst (spec_run ∅ (take 3 ex_mb_ops))) 4 6 = 2%nat /\ bt_blocks ex_mb ∅ 0 5 = 2%nat
  /\ match mb_shrink lax_pf ex_mb ex_mb_t [false] with
     | Ok (t, _) => bt_size t = 4 /\ bt_count lax_pf ex_mb t 5 = Ok 0 /\
         match bt_insert lax_pf ex_mb t 9 3 with Ok (t, p) => bt_size t = 1 /\ bt_count lax_pf ex_mb t 9 = Ok 1 | _ => False end
     | _ => False
     end.
Proof. split; [exact ex_mb_reach|]. vm_compute. repeat split. Qed.
(** An insertion into the empty table with either of its two requests failing. *)
Example C122_bt_insert_case : outcome (mb_insert lax_pf ex_mb bt_new 5 7 [false]) = 1 /\ outcome (mb_insert lax_pf ex_mb bt_new 5 7 [true; false]) = 1
  /\ outcome (mb_insert lax_pf ex_mb bt_new 5 7 [true; true; false]) = 0.
Proof. vm_compute. repeat split. Qed.
