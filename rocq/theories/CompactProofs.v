(** compact_chaining_map refines a finite map (histories: MapProofs.v). *)
From Verif Require Export CompactBits MapProofs.

(** Parameters of a map.  [bmin] is the least number of bucket bits used; the reads and writes of the bit fields touch
    whole 64-bit words, hence the bytes after a block unless storage_t is uint64_t. *)
Record compact_ok (pf : platform) (c : ccfg) (kw vw bmin : N) : Prop := {
  co_hash : hash_ok (cc_hash c) (cc_keybits c) (cc_hbits c) kw bmin;
  co_init : init_ok kw bmin (zbmax (cc_hash c) kw);
  co_vw : 1 <= vw <= 64;
  co_sb : width_ok (cc_sb c);
  co_acc : (cc_sb c = 64 \/ 8 <= slack pf)%nat;
  co_free : loose_free pf = true;
  co_spread : match cc_hash c with HBij _ => True | HAdapter f => spreading f kw 255 end
}.

Notation vals_of E := ((E : entries).*2).

Section compact.
Context (pf : platform) (c : ccfg) (kw vw bmin : N).
Hypothesis OK : compact_ok pf c kw vw bmin.
Notation bmax := (zbmax (cc_hash c) kw).
Notation bq := (zq (cc_hash c) (cc_keybits c) (cc_hbits c) kw).
Notation bb := (zb (cc_hash c) (cc_keybits c) (cc_hbits c) kw).
Notation bw b := (N.to_nat (zw (cc_hash c) (cc_keybits c) (cc_hbits c) kw b)).
Notation vwn := (N.to_nat vw).

Definition crepr (b : N) (s : cslot) (es : entries) : Prop :=
  slot_fields (cc_sb c) (bw b) vwn s (bq b <$> keys_of es) (vals_of es).

Record crep (t : cmap) (ess : list entries) : Prop := {
  cr_kw : cm_kw t = kw;
  cr_vw : cm_vw t = vw;
  cr_b : bmin <= cm_b t <= bmax;
  cr_len : N.of_nat (length ess) = 2^cm_b t;
  cr_slots : exists sl, cm_slots t = Some sl /\ Forall2 (crepr (cm_b t)) sl ess;
  cr_placed : placed (bb (cm_b t)) ess;
  cr_nodup : NoDup (keys_of (concat ess));
  cr_range : forall k v, (k, v) ∈ concat ess -> k < 2^kw /\ v < 2^vw;
  cr_n : cm_n t = N.of_nat (length (concat ess)) mod 2^64
}.
Definition czero (t : cmap) : Prop :=
  cm_kw t = kw /\ cm_vw t = vw /\ cm_b t = 0 /\ cm_n t = 0 /\ cm_slots t = None.

Local Lemma Hho : hash_ok (cc_hash c) (cc_keybits c) (cc_hbits c) kw bmin. Proof. apply OK. Qed.
Local Hint Resolve Hho : core.
Lemma bw_range b : bmin <= b <= bmax -> (1 <= bw b <= 64)%nat.
Proof.
  intros Hb. pose proof (zw_range _ _ _ _ _ Hho b Hb). pose proof (ho_kw _ _ _ _ _ Hho). lia.
Qed.
Lemma vw_range : (1 <= vwn <= 64)%nat.
Proof. pose proof (co_vw _ _ _ _ _ OK). lia. Qed.
Lemma b_range t ess : crep t ess -> 1 <= cm_b t <= 63.
Proof. intros H. pose proof (cr_b _ _ H). pose proof (zbmax_le _ _ _ _ _ Hho). pose proof (ho_bmin _ _ _ _ _ Hho). lia. Qed.
Lemma cqw_eq t : cm_kw t = kw -> cqw c t = bw (cm_b t).
Proof. intros E. unfold cqw, chm, zw, zm. by rewrite E. Qed.
Lemma cvw_eq t : cm_vw t = vw -> cvw t = vwn.
Proof. intros E. unfold cvw. by rewrite E. Qed.
Lemma small_n w x : (x < 2^w)%N -> (x < 2^N.of_nat (N.to_nat w))%N.
Proof. by rewrite N2Nat.id. Qed.

Lemma count_eq t ess : crep t ess -> c_bucket_count t = 2^cm_b t.
Proof. intros H. unfold c_bucket_count. pose proof (b_range _ _ H). by rewrite (proj2 (N.eqb_neq _ _)) by lia. Qed.
Lemma cslot_at t ess bk es : crep t ess -> ess !! N.to_nat bk = Some es ->
  exists sl s, cm_slots t = Some sl /\ sl !! N.to_nat bk = Some s /\ c_slot t bk = Ok s /\ crepr (cm_b t) s es.
Proof.
  intros H He. destruct (cr_slots _ _ H) as (sl & Hsl & HF). destruct (Forall2_lookup_r _ _ _ _ _ HF He) as (s & Hs & Hr).
  exists sl, s. split; [done|]. split; [done|]. split; [|done]. unfold c_slot. rewrite Hsl.
  pose proof (lookup_lt_Some _ _ _ Hs). rewrite (proj2 (N.ltb_lt _ _)) by lia. by rewrite Hs.
Qed.
Lemma crepr_size b s es : crepr b s es -> cs_size s = N.of_nat (length es) /\ (length es <= 255)%nat.
Proof. intros (H1 & H2 & _). rewrite !fmap_length in *. done. Qed.

Lemma crepr_quot b s es i k v : bmin <= b <= bmax -> crepr b s es -> es !! i = Some (k, v) ->
  cs_quot pf c s i (bw b) = Ok (bq b k).
Proof.
  intros Hb Hr Hi. destruct Hr as (H1 & H2 & Hsq & Hsv & Hd). unfold cs_quot.
  assert (Hik : (bq b <$> keys_of es) !! i = Some (bq b k)) by (by rewrite !list_lookup_fmap, Hi).
  destruct (cs_data s) as [l|] eqn:Ed.
  - destruct Hd as [_ Hf]. rewrite <-Ed. eapply (fields_read_q pf (cc_sb c)); [apply OK|apply OK|by apply bw_range|apply vw_range|exact Hf|done|done|done].
  - destruct Hd as [Hd _]. by rewrite Hd, lookup_nil in Hik.
Qed.
Lemma crepr_value b s es i k v : bmin <= b <= bmax -> crepr b s es -> es !! i = Some (k, v) ->
  cs_value pf c s i (bw b) vwn = Ok v.
Proof.
  intros Hb Hr Hi. destruct Hr as (H1 & H2 & Hsq & Hsv & Hd). unfold cs_value.
  assert (Hik : (vals_of es) !! i = Some v) by (by rewrite !list_lookup_fmap, Hi).
  destruct (cs_data s) as [l|] eqn:Ed.
  - destruct Hd as [_ Hf]. rewrite <-Ed. eapply (fields_read_v pf (cc_sb c)); [apply OK|apply OK|by apply bw_range|apply vw_range|exact Hf|done|done|done|done].
  - destruct Hd as [_ Hd]. by rewrite Hd, lookup_nil in Hik.
Qed.

Lemma cfind_spec b s es q : bmin <= b <= bmax -> crepr b s es -> forall n i, (i + n = length es)%nat ->
  c_find_from pf c s i n (bw b) q = Ok ((fun j => N.of_nat (i + j)) <$> first_index q (drop i (bq b <$> keys_of es))).
Proof.
  intros Hb Hr. induction n as [|n IH]; intros i Hi; cbn [c_find_from].
  { rewrite drop_ge by (rewrite !fmap_length; lia). done. }
  destruct (lookup_lt_is_Some_2 es i) as ([k v] & Hx); [lia|]. rewrite (crepr_quot b s es i k v) by done. cbn [mbind res_bind].
  assert (Hd : (bq b <$> keys_of es) !! i = Some (bq b k)) by (by rewrite !list_lookup_fmap, Hx).
  rewrite (drop_S _ _ _ Hd). cbn [first_index]. destruct (N.eqb_spec (bq b k) q) as [E|E].
  - cbn. do 2 f_equal. lia.
  - rewrite IH by lia. destruct (first_index q (drop (S i) (bq b <$> keys_of es))); cbn; [|done]. do 2 f_equal. lia.
Qed.
(** The quotients of a bucket identify its keys. *)
Lemma quot_index b ess es k : bmin <= b <= bmax -> placed (bb b) ess -> (forall k v, (k, v) ∈ concat ess -> k < 2^kw /\ v < 2^vw) ->
  k < 2^kw -> ess !! N.to_nat (bb b k) = Some es -> first_index (bq b k) (bq b <$> keys_of es) = first_index k (keys_of es).
Proof.
  intros Hb Hpl Hr Hk He. apply (fi_map (bq b)). intros x Hx Eq. apply keys_elem in Hx as (v & Hx).
  assert (Hin : (x, v) ∈ concat ess) by (apply elem_of_concat; eauto).
  eapply (zq_inj _ _ _ _ _ Hho b x k); try done; [by eapply Hr|]. rewrite (Hpl _ _ _ _ He Hx). lia.
Qed.
Lemma clocate t ess es k : crep t ess -> k < 2^kw -> ess !! N.to_nat (bb (cm_b t) k) = Some es ->
  c_locate_q pf c t (bb (cm_b t) k) (bq (cm_b t) k) = Ok (N.of_nat <$> first_index k (keys_of es)).
Proof.
  intros H Hk He. unfold c_locate_q. destruct (cslot_at _ _ _ _ H He) as (sl & s & _ & _ & -> & Hr). cbn [mbind res_bind].
  rewrite cqw_eq by apply H. destruct (crepr_size _ _ _ Hr) as [Hs _]. rewrite Hs, Nat2N.id.
  rewrite (cfind_spec (cm_b t) s es) by (try apply H; done). rewrite drop_0, (quot_index _ ess) by (try apply H; done). done.
Qed.
Lemma cmap_hash t ess k : crep t ess -> k < 2^kw -> hash_map (chm c (cm_kw t)) k (cm_b t) = Ok (bq (cm_b t) k, bb (cm_b t) k).
Proof. intros H Hk. rewrite (cr_kw _ _ H). by destruct (z_map _ _ _ _ _ Hho (cm_b t) k (cr_b _ _ H) Hk) as [E _]. Qed.

Lemma cfind_ok t ess es k : crep t ess -> k < 2^kw -> ess !! N.to_nat (bb (cm_b t) k) = Some es ->
  c_find pf c t k = Ok (match first_index k (keys_of es) with Some p => (bb (cm_b t) k, N.of_nat p) | None => end_nav end).
Proof.
  intros H Hk He. unfold c_find. pose proof (b_range _ _ H). rewrite (proj2 (N.eqb_neq _ _)) by lia.
  rewrite (cmap_hash _ _ _ H Hk). cbn [mbind res_bind]. rewrite (clocate _ _ _ _ H Hk He). cbn [mbind res_bind].
  by destruct (first_index k (keys_of es)).
Qed.

(** Replacing a bucket *)
Lemma crep_set t ess bk sl s es n es' : crep t ess -> cm_slots t = Some sl -> ess !! N.to_nat bk = Some es ->
  crepr (cm_b t) s es' -> placed (bb (cm_b t)) (<[N.to_nat bk := es']> ess) -> NoDup (keys_of (concat (<[N.to_nat bk := es']> ess))) ->
  (forall k v, (k, v) ∈ concat (<[N.to_nat bk := es']> ess) -> k < 2^kw /\ v < 2^vw) ->
  n = N.of_nat (length (concat (<[N.to_nat bk := es']> ess))) mod 2^64 ->
  crep (c_set (c_set_n t n) bk s) (<[N.to_nat bk := es']> ess).
Proof.
  intros H Hsl He Hr Hpl Hnd Hra Hn. unfold c_set, c_set_n. cbn [cm_slots cm_b cm_n cm_kw cm_vw]. rewrite Hsl.
  constructor; cbn [cm_slots cm_b cm_n cm_kw cm_vw]; try done; try apply H.
  - rewrite insert_length. apply H.
  - eexists. split; [done|]. destruct (cr_slots _ _ H) as (sl' & Hsl' & HF). assert (sl' = sl) as -> by congruence.
    by apply Forall2_insert.
Qed.

Lemma cpush f t ess es k v : crep t ess -> k < 2^kw -> v < 2^vw -> ess !! N.to_nat (bb (cm_b t) k) = Some es ->
  first_index k (keys_of es) = None -> (length es =? 255)%nat = false ->
  exists t', c_find_or_insert pf c (S f) t k v = Ok (t', (bb (cm_b t) k, N.of_nat (length es)))
    /\ cm_b t' = cm_b t /\ crep t' (<[N.to_nat (bb (cm_b t) k) := es ++ [(k, v)]]> ess).
Proof.
  intros H Hk Hv He Hnone Hfull. pose proof (b_range _ _ H) as Hb. pose proof (cr_b _ _ H) as Hbb.
  cbn [c_find_or_insert]. rewrite (proj2 (N.eqb_neq _ _)) by lia. cbn [mbind res_bind].
  rewrite (cmap_hash _ _ _ H Hk). cbn [mbind res_bind].
  destruct (cslot_at _ _ _ _ H He) as (sl & s & Hsl & Hs & -> & Hr). cbn [mbind res_bind].
  rewrite (clocate _ _ _ _ H Hk He), Hnone. cbn [mbind res_bind fmap option_fmap option_map].
  destruct (crepr_size _ _ _ Hr) as [Hsz H255]. apply Nat.eqb_neq in Hfull.
  rewrite Hsz. unfold c_max_bucket. rewrite (proj2 (N.eqb_neq _ _)) by lia. rewrite Nat2N.id.
  rewrite cqw_eq, cvw_eq by apply H.
  destruct (z_map _ _ _ _ _ Hho (cm_b t) k Hbb Hk) as (_ & Hbk & Hq & _).
  destruct (push_fields pf (cc_sb c) (co_sb _ _ _ _ _ OK) (co_acc _ _ _ _ _ OK) (bw (cm_b t)) vwn (bw_range _ Hbb) vw_range c s
    (bq (cm_b t) <$> keys_of es) (vals_of es) (bq (cm_b t) k) v) as (s' & Es & Hr'); [done|exact Hr|rewrite !fmap_length; lia|by apply small_n|by apply small_n|].
  rewrite !fmap_length in Es.
  destruct (cs_enlarge pf c s (bw (cm_b t)) vwn) as [s1| | |]; cbn [mbind res_bind] in Es |- *; try done.
  destruct (cs_set_quot pf c s1 (length es) (bw (cm_b t)) (bq (cm_b t) k)) as [s2| | |]; cbn [mbind res_bind] in Es |- *; try done.
  rewrite Es. cbn [mbind res_bind].
  assert (Hr2 : crepr (cm_b t) s' (es ++ [(k, v)])) by (unfold crepr; rewrite !fmap_app; exact Hr').
  assert (HP : concat (<[N.to_nat (bb (cm_b t) k) := es ++ [(k, v)]]> ess) ≡ₚ (k, v) :: concat ess) by (by apply concat_upd_push).
  destruct (crepr_size _ _ _ Hr2) as [Hsz2 _]. rewrite Hsz2, app_length. cbn [length].
  eexists. split; [|split; [|eapply crep_set; [exact H|exact Hsl|exact He|exact Hr2|..]]].
  - repeat f_equal. rewrite sub64_small by lia. lia.
  - done.
  - eapply placed_push; [apply H|done|lia].
  - rewrite (keys_perm _ _ HP). cbn. apply NoDup_cons. split; [|apply H].
    rewrite (own_bucket_key _ _ (cr_placed _ _ H) _ _ He). by apply fi_None.
  - intros k' v' Hin. rewrite HP in Hin. apply elem_of_cons in Hin as [[= -> ->]|Hin]; [done|by eapply cr_range].
  - rewrite (Permutation_length HP). cbn [length]. rewrite (cr_n _ _ H). unfold u64.
    rewrite N.add_mod_idemp_l by done. f_equal. lia.
Qed.

Lemma cfound f t ess es k v p : crep t ess -> k < 2^kw -> ess !! N.to_nat (bb (cm_b t) k) = Some es ->
  first_index k (keys_of es) = Some p -> c_find_or_insert pf c (S f) t k v = Ok (t, (bb (cm_b t) k, N.of_nat p)).
Proof.
  intros H Hk He Hp. pose proof (b_range _ _ H) as Hb.
  cbn [c_find_or_insert]. rewrite (proj2 (N.eqb_neq _ _)) by lia. cbn [mbind res_bind].
  rewrite (cmap_hash _ _ _ H Hk). cbn [mbind res_bind].
  destruct (cslot_at _ _ _ _ H He) as (sl & s & Hsl & Hs & -> & Hr). cbn [mbind res_bind].
  rewrite (clocate _ _ _ _ H Hk He), Hp. done.
Qed.
Lemma cfull f t ess es k v : crep t ess -> k < 2^kw -> v < 2^vw -> ess !! N.to_nat (bb (cm_b t) k) = Some es ->
  first_index k (keys_of es) = None -> (length es =? 255)%nat = true ->
  c_find_or_insert pf c (S f) t k v =
    (n ← shl64 1 (cm_b t + 1); t ← c_reserve_with pf c (c_find_or_insert pf c f) t n; c_find_or_insert pf c f t k v).
Proof.
  intros H Hk Hv He Hnone Hfull. pose proof (b_range _ _ H) as Hb.
  cbn [c_find_or_insert]. rewrite (proj2 (N.eqb_neq _ _)) by lia. cbn [mbind res_bind].
  rewrite (cmap_hash _ _ _ H Hk). cbn [mbind res_bind].
  destruct (cslot_at _ _ _ _ H He) as (sl & s & Hsl & Hs & -> & Hr). cbn [mbind res_bind].
  rewrite (clocate _ _ _ _ H Hk He), Hnone. cbn [mbind res_bind fmap option_fmap option_map].
  destruct (crepr_size _ _ _ Hr) as [Hsz H255]. apply Nat.eqb_eq in Hfull.
  rewrite Hsz, Hfull. done.
Qed.

(** A full bucket lies in a table that can still grow. *)
Lemma cgrow t ess es k : crep t ess -> k < 2^kw -> k ∉ keys_of (concat ess) -> ess !! N.to_nat (bb (cm_b t) k) = Some es ->
  length es = 255%nat -> cm_b t < bmax.
Proof.
  intros H Hk Hnk He Hlen.
  assert (Hes : forall x, x ∈ keys_of es -> x < 2^kw /\ bb (cm_b t) x = bb (cm_b t) k).
  { intros x Hx. apply keys_elem in Hx as (v & Hx). split.
    - eapply (cr_range _ _ H). apply elem_of_concat. eauto.
    - rewrite (cr_placed _ _ H _ _ _ _ He Hx). lia. }
  apply (z_spread _ _ _ _ _ Hho (cm_b t) (k :: keys_of es) 255).
  - pose proof (co_spread _ _ _ _ _ OK). destruct (cc_hash c); [lia|done].
  - apply H.
  - apply NoDup_cons. split.
    + by rewrite <-(own_bucket_key _ _ (cr_placed _ _ H) _ _ He).
    + pose proof (cr_nodup _ _ H) as Hnd. rewrite (concat_split _ _ _ He), !fmap_app in Hnd.
      apply NoDup_app in Hnd as (_ & _ & Hnd). by apply NoDup_app in Hnd as (? & _ & _).
  - cbn [length]. rewrite fmap_length, Hlen. done.
  - intros x Hx. apply elem_of_cons in Hx as [->|Hx]; [done|by apply Hes].
  - intros x y Hx Hy. apply elem_of_cons in Hx as [->|Hx]; apply elem_of_cons in Hy as [->|Hy]; try done.
    + symmetry. by apply Hes.
    + by apply Hes.
    + transitivity (bb (cm_b t) k); [by apply Hes|symmetry; by apply Hes].
Qed.

(** Allocation *)
Lemma crepr_nil b : crepr b (CSlot None 0) [].
Proof. unfold crepr, slot_fields, small. cbn. split; [done|]. split; [lia|]. split; [constructor|]. split; [constructor|done]. Qed.
Lemma calloc t n : cm_kw t = kw -> cm_vw t = vw -> cm_n t = 0 -> 1 <= n <= 2^63 -> bmin <= N.log2_up n <= bmax ->
  exists t' ess0, c_alloc t n = Ok t' /\ crep t' ess0 /\ concat ess0 = [] /\ cm_b t' = N.log2_up n.
Proof.
  intros E1 E2 E3 Hn Hb. unfold c_alloc. rewrite reserve_bits_spec by done. cbn [mbind res_bind].
  eexists _, (replicate (N.to_nat (2^N.log2_up n)) []). split; [done|].
  split; [|split; [apply concat_replicate_nil|done]].
  constructor; cbn [cm_slots cm_b cm_n cm_kw cm_vw]; try done.
  - rewrite replicate_length. lia.
  - eexists. split; [done|]. apply Forall2_replicate. apply crepr_nil.
  - apply placed_nil.
  - rewrite concat_replicate_nil. constructor.
  - intros k v. rewrite concat_replicate_nil. by intros ?%elem_of_nil.
  - rewrite concat_replicate_nil. done.
Qed.

(** Rehashing *)
Lemma ins_fold_app {T} (ins : T -> N -> N -> res (T * nav)) E1 E2 t :
  ins_fold ins (E1 ++ E2) t = (t' ← ins_fold ins E1 t; ins_fold ins E2 t').
Proof. apply rfold_app. Qed.
Lemma rehash_entries (ins : cmap -> N -> N -> res (cmap * nav)) t s es (bk : N) : cm_kw t = kw -> cm_vw t = vw -> bmin <= cm_b t <= bmax -> crepr (cm_b t) s es ->
  (forall k v, (k, v) ∈ es -> k < 2^kw /\ bb (cm_b t) k = bk) -> forall n i tmp, (i + n = length es)%nat ->
  rfold (fun (tmp : cmap) (j : nat) =>
        q ← cs_quot pf c s j (cqw c t);
        k ← hash_inv_map (chm c (cm_kw t)) q bk (cm_b t);
        v ← cs_value pf c s j (cqw c t) (cvw t);
        r ← ins tmp k v;
        Ok (fst r)) (seq i n) tmp = ins_fold ins (drop i es) tmp.
Proof.
  intros E1 E2 Hb Hr Hbk. rewrite cqw_eq, cvw_eq, E1 by done. unfold chm. fold (zm (cc_hash c) (cc_keybits c) (cc_hbits c) kw). induction n as [|n IH]; intros i tmp Hi; cbn [seq rfold].
  { by rewrite drop_ge by lia. }
  destruct (lookup_lt_is_Some_2 es i) as ([k v] & Hx); [lia|]. rewrite (drop_S _ _ _ Hx). unfold ins_fold. cbn [rfold fst snd].
  rewrite (crepr_quot _ s es i k v) by done. cbn [mbind res_bind].
  destruct (Hbk k v) as [Hk <-]; [by eapply elem_of_list_lookup_2|].
  destruct (z_map _ _ _ _ _ Hho (cm_b t) k Hb Hk) as (_ & _ & _ & Hinv).
  rewrite Hinv. cbn [mbind res_bind]. rewrite (crepr_value _ s es i k v) by done. cbn [mbind res_bind].
  destruct (ins tmp k v) as [r| | |]; cbn [mbind res_bind]; try done. apply IH. lia.
Qed.
Lemma crehash ins t ess : crep t ess -> forall sl es_s i tmp, Forall2 (crepr (cm_b t)) sl es_s ->
  (forall j es k v, es_s !! j = Some es -> (k, v) ∈ es -> k < 2^kw /\ bb (cm_b t) k = N.of_nat (i + j)) ->
  rfold (c_rehash_slot pf c ins t) (imap (fun j s => ((i + j)%nat, s)) sl) tmp = ins_fold ins (concat es_s) tmp.
Proof.
  intros H sl es_s i tmp HF. revert i tmp. induction HF as [|s es sl es_s Hr _ IH]; intros i tmp Hpl; [done|].
  cbn [imap concat]. rewrite ins_fold_app. cbn [rfold]. rewrite Nat.add_0_r.
  assert (Es : c_rehash_slot pf c ins t tmp (i, s) = ins_fold ins es tmp).
  { unfold c_rehash_slot. destruct (crepr_size _ _ _ Hr) as [Hsz _]. rewrite Hsz. destruct es as [|e es]; [done|].
    rewrite (proj2 (N.eqb_neq _ _)) by (cbn [length]; lia). rewrite Nat2N.id.
    rewrite (rehash_entries ins t s (e :: es) (N.of_nat i)); try apply H; try done.
    - rewrite drop_0. destruct (ins_fold ins (e :: es) tmp); cbn [mbind res_bind]; try done.
      unfold c_clear_slot, c_delete. rewrite (co_free _ _ _ _ _ OK). by destruct (cs_data s).
    - intros k v Hin. specialize (Hpl 0%nat (e :: es) k v eq_refl Hin). rewrite Nat.add_0_r in Hpl. done. }
  rewrite Es. destruct (ins_fold ins es tmp) as [tmp'| | |]; cbn [mbind res_bind]; try done.
  rewrite <-(IH (S i)).
  - f_equal. apply imap_ext. intros j x _. cbn. f_equal. lia.
  - intros j es' k v Hj Hin. specialize (Hpl (S j) es' k v Hj Hin). replace (S i + j)%nat with (i + S j)%nat by lia. done.
Qed.
Lemma creserve t ess n : crep t ess -> 1 <= n <= 2^63 -> bmin <= N.log2_up n <= bmax ->
  exists tmp ess0, crep tmp ess0 /\ concat ess0 = [] /\ cm_b tmp = N.log2_up n
    /\ forall ins, c_reserve_with pf c ins t n = ins_fold ins (concat ess) tmp.
Proof.
  intros H Hn Hb. pose proof (b_range _ _ H) as Hbr. pose proof (zbmax_le _ _ _ _ _ Hho).
  assert (Hlog : N.log2_up (2^N.log2_up n) = N.log2_up n) by (apply N.log2_up_pow2; lia).
  destruct (calloc (c_new (cm_kw t) (cm_vw t)) (2^N.log2_up n)) as (tmp & ess0 & Ea & HR & Hc & Hbt).
  { apply H. } { apply H. } { done. }
  { split; [pose proof (pow2_pos (N.log2_up n)); lia|]. apply pow2_le_63. lia. }
  { by rewrite Hlog. }
  rewrite Hlog in Hbt. exists tmp, ess0. split; [done|]. split; [done|]. split; [done|]. intros ins.
  unfold c_reserve_with. rewrite (proj2 (N.eqb_neq _ _)) by lia. rewrite reserve_bits_spec by done. cbn [mbind res_bind].
  rewrite Ea. cbn [mbind res_bind]. destruct (cr_slots _ _ H) as (sl & Hsl & HF). rewrite Hsl.
  rewrite (count_eq _ _ H), take_ge by (rewrite (Forall2_length _ _ _ HF); pose proof (cr_len _ _ H); lia).
  pose proof (crehash ins t ess H sl ess 0 tmp HF) as Hre. change (imap (fun j s => ((0 + j)%nat, s)) sl) with (imap pair sl) in Hre. rewrite Hre.
  - destruct (ins_fold ins (concat ess) tmp); cbn [mbind res_bind]; try done.
    unfold c_clear_structure. rewrite Hsl, (co_free _ _ _ _ _ OK). done.
  - intros j es k v Hj Hin. split; [|by eapply (cr_placed _ _ H)]. eapply (cr_range _ _ H). apply elem_of_concat. eauto.
Qed.

(** Erasing, writing *)
Lemma nav_bucket t ess x k v : crep t ess -> nav_at ess x = Some (k, v) -> exists es, ess !! N.to_nat (fst x) = Some es
  /\ es !! N.to_nat (snd x) = Some (k, v) /\ snd x < 255.
Proof.
  intros H Hx. unfold nav_at in Hx. destruct (ess !! N.to_nat (fst x)) as [es|] eqn:He; [|done]. cbn in Hx.
  exists es. split; [done|]. split; [done|]. destruct (cslot_at _ _ _ _ H He) as (sl & s & _ & _ & _ & Hr).
  destruct (crepr_size _ _ _ Hr). apply lookup_lt_Some in Hx. lia.
Qed.
Lemma cerase_at t ess x k v : crep t ess -> nav_at ess x = Some (k, v) ->
  exists t' es, ess !! N.to_nat (fst x) = Some es /\ c_erase_at pf c t x = Ok (t', 1) /\ cm_b t' = cm_b t
    /\ crep t' (<[N.to_nat (fst x) := delete (N.to_nat (snd x)) es]> ess).
Proof.
  intros H Hx. destruct (nav_bucket _ _ _ _ _ H Hx) as (es & He & Hp & H255). destruct x as [bk p]. cbn [fst snd] in *.
  destruct (cslot_at _ _ _ _ H He) as (sl & s & Hsl & Hs & Es & Hr).
  unfold c_erase_at. rewrite (proj2 (N.eqb_neq _ _)) by (unfold ones64; lia). rewrite Es. cbn [mbind res_bind].
  rewrite cqw_eq, cvw_eq by apply H. pose proof (cr_b _ _ H) as Hb. pose proof (lookup_lt_Some _ _ _ Hp).
  destruct (erase_fields pf (cc_sb c) (co_sb _ _ _ _ _ OK) (co_acc _ _ _ _ _ OK) (bw (cm_b t)) vwn (bw_range _ Hb) vw_range c s
    (bq (cm_b t) <$> keys_of es) (vals_of es) (N.to_nat p)) as (s' & -> & Hr'); [done|exact Hr|by rewrite !fmap_length|].
  cbn [mbind res_bind].
  assert (Hr2 : crepr (cm_b t) s' (delete (N.to_nat p) es)) by (unfold crepr; rewrite !list_fmap_delete; exact Hr').
  pose proof (concat_upd_delete _ _ _ _ _ He Hp) as HP.
  assert (Hinc : forall e, e ∈ concat (<[N.to_nat bk := delete (N.to_nat p) es]> ess) -> e ∈ concat ess).
  { intros e Hin. rewrite HP. by right. }
  eexists _, es. split; [done|]. split; [done|]. split; [done|].
  eapply crep_set; [exact H|exact Hsl|exact He|exact Hr2|..].
  - eapply placed_delete; [apply H|done].
  - pose proof (cr_nodup _ _ H) as Hnd. rewrite (keys_perm _ _ HP) in Hnd. cbn in Hnd. by apply NoDup_cons in Hnd as [_ ?].
  - intros k' v' Hin. eapply (cr_range _ _ H). by apply Hinc.
  - rewrite (cr_n _ _ H), (Permutation_length HP). cbn [length]. etrans; [apply (u64_sub (N.of_nat (S _))); lia|]. unfold u64. f_equal. lia.
Qed.
Lemma cwrite t ess x k v v' : crep t ess -> nav_at ess x = Some (k, v) -> v' < 2^vw ->
  exists t' es, ess !! N.to_nat (fst x) = Some es /\ c_write_value pf c t x v' = Ok t' /\ cm_b t' = cm_b t
    /\ crep t' (<[N.to_nat (fst x) := <[N.to_nat (snd x) := (k, v')]> es]> ess).
Proof.
  intros H Hx Hv. destruct (nav_bucket _ _ _ _ _ H Hx) as (es & He & Hp & H255). destruct x as [bk p]. cbn [fst snd] in *.
  destruct (cslot_at _ _ _ _ H He) as (sl & s & Hsl & Hs & Es & Hr).
  unfold c_write_value. rewrite Es. cbn [mbind res_bind].
  rewrite cqw_eq, cvw_eq by apply H. pose proof (cr_b _ _ H) as Hb. pose proof (lookup_lt_Some _ _ _ Hp) as Hpl.
  pose proof Hr as (H1 & H2 & Hsq & Hsv & Hd). unfold cs_set_value. rewrite H1, !fmap_length, Nat2N.id.
  destruct (cs_data s) as [l|] eqn:Ed; [|destruct Hd as [Hd _]; apply (f_equal length) in Hd; rewrite !fmap_length in Hd; cbn in Hd; lia].
  destruct Hd as [Hne Hf].
  destruct (fields_write_v pf (cc_sb c) (co_sb _ _ _ _ _ OK) (co_acc _ _ _ _ _ OK) (bw (cm_b t)) vwn (bw_range _ Hb) vw_range l
    (bq (cm_b t) <$> keys_of es) (vals_of es) (N.to_nat p) v' Hf) as (l' & Ew & Hf'); [by rewrite !fmap_length|].
  rewrite !fmap_length in Ew. rewrite Ew. cbn [mbind res_bind].
  destruct (concat_upd_set ess (N.to_nat bk) es (N.to_nat p) k v v' He Hp) as (R & HP1 & HP2).
  assert (Hkeys : keys_of (<[N.to_nat p := (k, v')]> es) = keys_of es).
  { rewrite list_fmap_insert. cbn. apply list_insert_id. by rewrite list_lookup_fmap, Hp. }
  assert (Hr2 : crepr (cm_b t) (CSlot (Some l') (N.of_nat (length es))) (<[N.to_nat p := (k, v')]> es)).
  { unfold crepr. rewrite Hkeys, list_fmap_insert. cbn [snd]. unfold slot_fields. cbn [cs_size cs_data]. rewrite !fmap_length.
    split; [done|]. rewrite !fmap_length in H2. split; [done|]. split; [done|]. split; [|done].
    apply Forall_insert; [done|by apply small_n]. }
  eexists _, es. split; [done|]. split; [done|]. split; [done|].
  assert (Et : c_set t bk (CSlot (Some l') (N.of_nat (length es))) = c_set (c_set_n t (cm_n t)) bk (CSlot (Some l') (N.of_nat (length es)))).
  { by destruct t. }
  rewrite Et. eapply crep_set; [exact H|exact Hsl|exact He|exact Hr2|..].
  - eapply placed_set; [apply H|done|done].
  - pose proof (cr_nodup _ _ H) as Hnd. rewrite (keys_perm _ _ HP1) in Hnd. by rewrite (keys_perm _ _ HP2).
  - intros k2 v2 Hin. rewrite HP2 in Hin. apply elem_of_cons in Hin as [[= -> ->]|Hin].
    + split; [|done]. eapply (cr_range _ _ H k v). rewrite HP1. by left.
    + eapply (cr_range _ _ H). rewrite HP1. by right.
  - rewrite (cr_n _ _ H), (Permutation_length HP1), (Permutation_length HP2). done.
Qed.
Lemma cclear t ess : crep t ess -> exists t', c_clear pf t = Ok t' /\ czero t'.
Proof.
  intros H. unfold c_clear. destruct (cr_slots _ _ H) as (sl & Hsl & HF). rewrite Hsl.
  destruct (rmap_Forall2 (fun s => if cs_size s =? 0 then Ok s else c_clear_slot pf s) (take (N.to_nat (c_bucket_count t)) sl) (fun _ _ => True))
    as (ys & -> & _).
  { intros s _. destruct (cs_size s =? 0); [by eexists|]. unfold c_clear_slot, c_delete. rewrite (co_free _ _ _ _ _ OK).
    destruct (cs_data s); by eexists. }
  cbn [mbind res_bind]. unfold c_clear_structure. cbn [cm_slots]. rewrite (co_free _ _ _ _ _ OK). cbn [mbind res_bind].
  eexists. split; [done|]. unfold czero. cbn. by rewrite (cr_kw _ _ H), (cr_vw _ _ H).
Qed.

(** What a navigator shows *)
Definition cokey : N -> N -> Prop := if N.of_nat (cc_sb c) <? (match cc_hash c with HBij _ => kw - bmin | HAdapter _ => kw end)
  then (fun _ _ => True) else eq.
Lemma cshows t ess : crep t ess -> shows cokey (c_view pf c t) (cm_b t) ess.
Proof.
  intros H. pose proof (b_range _ _ H) as Hb. pose proof (cr_b _ _ H) as Hbb.
  assert (Hq : forall x k v, nav_at ess x = Some (k, v) ->
    c_quotient_at pf c t (fst x) (snd x) (remainder_width (chm c (cm_kw t)) (cm_b t)) = Ok (bq (cm_b t) k)
    /\ k < 2^kw /\ bb (cm_b t) k = fst x).
  { intros x k v Hx. destruct (nav_bucket _ _ _ _ _ H Hx) as (es & He & Hp & H255).
    destruct (cslot_at _ _ _ _ H He) as (sl & s & Hsl & Hs & Es & Hr). unfold c_quotient_at. rewrite Es. cbn [mbind res_bind].
    pose proof (elem_of_list_lookup_2 _ _ _ Hp) as Hin. split; [|split].
    - rewrite (cr_kw _ _ H). by eapply crepr_quot.
    - eapply (cr_range _ _ H). apply elem_of_concat. eauto.
    - rewrite (cr_placed _ _ H _ _ _ _ He Hin). lia. }
  constructor.
  - done.
  - apply (count_eq _ _ H).
  - apply H.
  - intros bk es He. destruct (cslot_at _ _ _ _ H He) as (sl & s & Hsl & Hs & Es & Hr).
    cbn [v_size c_view]. unfold c_bucket_size. rewrite Es. cbn [mbind res_bind]. destruct (crepr_size _ _ _ Hr) as [-> ?]. done.
  - intros x k v Hx. destruct (Hq x k v Hx) as (Ek & Hk & Ebk). destruct x as [bk p]. cbn [fst snd] in *.
    unfold vn_key. cbn [c_view v_quot v_hash v_b v_storebits]. rewrite Ek. cbn [mbind res_bind].
    destruct (z_map _ _ _ _ _ Hho (cm_b t) k Hbb Hk) as (_ & _ & Hqw & Hinv).
    unfold cokey. destruct (N.ltb_spec (N.of_nat (cc_sb c)) (match cc_hash c with HBij _ => kw - bmin | HAdapter _ => kw end)) as [Hlt|Hge].
    + destruct (z_inv_total _ _ _ _ _ Hho (cm_b t) (bq (cm_b t) k mod 2^N.of_nat (cc_sb c)) bk Hbb) as (k' & Hk').
      exists k'. split; [|done]. rewrite (cr_kw _ _ H). exact Hk'.
    + exists k. split; [|done]. rewrite (cr_kw _ _ H), N.mod_small; [by rewrite <-Ebk|].
      eapply N.lt_le_trans; [exact Hqw|]. apply N.pow_le_mono_r; [done|]. pose proof (zw_le _ _ _ _ _ Hho (cm_b t) Hbb). lia.
  - intros x k v Hx. destruct (nav_bucket _ _ _ _ _ H Hx) as (es & He & Hp & H255).
    destruct (cslot_at _ _ _ _ H He) as (sl & s & Hsl & Hs & Es & Hr). destruct x as [bk p]. cbn [fst snd] in *.
    unfold vn_value. cbn [c_view v_value]. unfold c_value_at. rewrite Es. cbn [mbind res_bind].
    rewrite cqw_eq, cvw_eq by apply H. by eapply crepr_value.
Qed.

(** *** The instance *)
Definition cfullb (t : cmap) (ess : list entries) (bk : N) : bool := (length (default [] (ess !! N.to_nat bk)) =? 255)%nat.
Lemma compact_chain fuel : (64 <= fuel)%nat ->
  chain_ok (c_impl pf c fuel) kw vw bmin bmax cokey cm_b bb crep czero cfullb (c_find_or_insert pf c) (c_reserve_with pf c) fuel.
Proof.
  intros Hfuel. pose proof (zbmax_le _ _ _ _ _ Hho) as H63. pose proof (ho_bmin _ _ _ _ _ Hho) as Hbm.
  constructor; cbn [c_impl i_view i_find i_insert i_write i_erase i_erase_at i_size i_reserve i_clear].
  - lia.
  - done.
  - intros b k Hb Hk. by destruct (z_map _ _ _ _ _ Hho b k Hb Hk) as (_ & ? & _).
  - intros t ess H. apply H.
  - intros t ess H. apply H.
  - intros t ess H. apply H.
  - intros t ess k v H Hin. by eapply cr_range.
  - apply cshows.
  - intros t (_ & _ & Hb & _). cbn. unfold c_bucket_count. by rewrite Hb.
  - intros t ess es k H Hk He. by eapply cfind_ok.
  - intros t k (_ & _ & Hb & _). unfold c_find. by rewrite Hb.
  - done.
  - intros f t ess es k v p H Hk He Hp. by eapply cfound.
  - intros f t ess es k v H Hk Hv He Hn Hfull. unfold cfullb in Hfull. rewrite He in Hfull. by eapply cpush.
  - intros f t ess es k v H Hk Hv He Hn Hfull. unfold cfullb in Hfull. rewrite He in Hfull. by eapply cfull.
  - intros t ess k H Hk Hnk Hfull. unfold cfullb in Hfull. destruct (ess !! N.to_nat (bb (cm_b t) k)) as [es|] eqn:He; [|done].
    apply Nat.eqb_eq in Hfull. by eapply cgrow.
  - intros t ess n H Hn Hb. destruct (creserve t ess n H Hn Hb) as (tmp & ess0 & HR & Hc & Hbt & E).
    exists tmp, ess0, Ok. split; [done|]. split; [done|]. split; [done|]. split; [done|]. intros ins. rewrite E. by destruct (ins_fold ins (concat ess) tmp).
  - done.
  - intros t n (E1 & E2 & Hb & Hn0 & _) Hn Hlog. unfold c_reserve, c_reserve_with. rewrite Hb. cbn [N.eqb].
    by apply calloc.
  - intros f t (E1 & E2 & Hb & Hn0 & _). destruct (co_init _ _ _ _ _ OK) as [Hkw3 Hini].
    destruct (calloc t (N.min (kw - 1) 16)) as (t' & ess0 & Ea & HR & Hc & Hbt); try done.
    { split; [lia|]. etrans; [apply N.le_min_r|done]. }
    exists t', ess0. split; [done|]. split; [done|]. intros k v. cbn [c_find_or_insert]. rewrite Hb, E1. cbn [N.eqb].
    pose proof (ho_kw _ _ _ _ _ Hho). rewrite sub64_small by lia. rewrite Ea. cbn [mbind res_bind].
    pose proof (b_range _ _ HR). rewrite (proj2 (N.eqb_neq _ _)) by lia. done.
  - intros t ess x k v H Hx. by eapply cerase_at.
  - intros t. done.
  - intros t ess es k H Hk He. unfold c_erase, c_locate. pose proof (b_range _ _ H). rewrite !(proj2 (N.eqb_neq _ _)) by lia.
    rewrite (cmap_hash _ _ _ H Hk). cbn [mbind res_bind]. rewrite (clocate _ _ _ _ H Hk He). cbn [mbind res_bind].
    by destruct (first_index k (keys_of es)).
  - intros t k (_ & _ & Hb & _). unfold c_erase. by rewrite Hb.
  - intros t ess x k v v' H Hx Hv. by eapply cwrite.
  - intros t ess H. apply H.
  - by intros t (_ & _ & _ & Hn & _).
  - intros t ess H. by eapply cclear.
  - intros t (E1 & E2 & Hb & Hn & Hsl). exists t. unfold c_clear. rewrite Hsl. done.
Qed.
Lemma czero_new : czero (c_new kw vw).
Proof. done. Qed.
End compact.
