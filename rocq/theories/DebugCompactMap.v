(** The debug build of compact_chaining_map: no check fails in valid histories. *)
From Verif Require Export DebugCompactRep CompactProofs.
From Verif Require Import DebugGroupRep.

Section compact.
Context (pf : platform) (c : ccfg) (kw vw bmin : N).
Hypothesis OK : compact_ok pf c kw vw bmin.
Hypothesis Hkb : kw <= cc_keybits c.
Notation bmax := (zbmax (cc_hash c) kw).
Notation bq := (zq (cc_hash c) (cc_keybits c) (cc_hbits c) kw).
Notation bb := (zb (cc_hash c) (cc_keybits c) (cc_hbits c) kw).
Notation bw b := (N.to_nat (zw (cc_hash c) (cc_keybits c) (cc_hbits c) kw b)).
Notation vwn := (N.to_nat vw).
Notation crep := (crep c kw vw bmin).
Notation hm := (chm c kw).

Definition xrepr (b : N) (s : xslot) (es : entries) : Prop :=
  xfields c (bw b) vwn s (keys_of es) (bq b <$> keys_of es) (vals_of es).
(** The state of a map; the values may be too wide. *)
Record wrep (t : xmap) (ess : list entries) : Prop := {
  wr_kw : xm_kw t = kw;
  wr_vw : xm_vw t = vw;
  wr_b : bmin <= xm_b t <= bmax;
  wr_len : N.of_nat (length ess) = 2^xm_b t;
  wr_slots : exists sl, xm_slots t = Some sl /\ Forall2 (xrepr (xm_b t)) sl ess;
  wr_placed : placed (bb (xm_b t)) ess;
  wr_range : forall k v, (k, v) ∈ concat ess -> k < 2^kw
}.
Definition xrep (t : xmap) (ess : list entries) : Prop := wrep t ess /\ crep (xstrip t) ess.
Definition xzero (t : xmap) : Prop := czero kw vw (xstrip t) /\ xm_slots t = None.

Local Lemma Hho : hash_ok (cc_hash c) (cc_keybits c) (cc_hbits c) kw bmin. Proof. apply OK. Qed.
Local Hint Resolve Hho : core.
Lemma xkw_range : 3 <= kw <= 64.
Proof. pose proof (ho_kw _ _ _ _ _ Hho). destruct (co_init _ _ _ _ _ OK) as [? _]. lia. Qed.

(** ** The hash function with its checks *)
Lemma xz_width b : bmin <= b <= bmax -> dremainder_width hm b = Ok (zw (cc_hash c) (cc_keybits c) (cc_hbits c) kw b).
Proof.
  intros Hb. unfold dremainder_width, zw, zm, chm. cbn [h_kind h_width]. pose proof xkw_range. unfold zbmax in Hb. destruct (cc_hash c); [|done].
  rewrite (proj2 (N.ltb_lt b kw)) by lia. done.
Qed.
Lemma xz_map b k : bmin <= b <= bmax -> k < 2^kw -> dhash_map hm k b = Ok (bq b k, bb b k) /\ dhash_inv_map hm (bq b k) (bb b k) b = Ok k.
Proof.
  intros Hb Hk. destruct (z_map _ _ _ _ _ Hho b k Hb Hk) as (E & Hbk & Hq & Hi). pose proof xkw_range as Hkw. pose proof (ho_store _ _ _ _ _ Hho) as Hst.
  pose proof (ho_bmin _ _ _ _ _ Hho) as Hbm. unfold zm in E, Hi. unfold chm. unfold zbmax in *. destruct (cc_hash c) as [f|f] eqn:Eh.
  - destruct (dhash_map_bij f kw (cc_keybits c) (cc_hbits c) k b) as (q & bk & E' & -> & _ & _ & Hi'); try lia. rewrite E in E'. injection E' as -> ->. done.
  - unfold dhash_map, dhash_inv_map. cbn [h_kind]. done.
Qed.
Lemma xz_inv b k q : bmin <= b <= bmax -> k < 2^kw -> q <= bq b k -> exists k', dhash_inv_map hm q (bb b k) b = Ok k'.
Proof.
  intros Hb Hk Hle. destruct (z_map _ _ _ _ _ Hho b k Hb Hk) as (E & Hbk & Hq & _). destruct (z_inv_total _ _ _ _ _ Hho b q (bb b k) Hb) as (k' & Hk').
  pose proof xkw_range as Hkw. exists k'. unfold zm, zw, remainder_width in *. unfold chm. unfold zbmax in *. destruct (cc_hash c) as [f|f].
  - cbn [h_kind h_width zm] in *. pose proof (ho_bmin _ _ _ _ _ Hho) as Hbm. unfold zbmax in Hbm. rewrite sub8_small in Hq by lia.
    apply dhash_inv_map_bij; [lia|lia| |done|done]. by eapply N.le_lt_trans.
  - done.
Qed.
Lemma x_new_ok : exists t, x_new c kw vw = Ok t /\ xzero t /\ t = XMap None 0 0 kw vw.
Proof.
  pose proof xkw_range as Hkw. pose proof (co_vw _ _ _ _ _ OK) as Hvw. unfold x_new. rewrite !u8_small by lia.
  assert (E : dhash_new (cc_hash c) kw = Ok tt).
  { unfold dhash_new. destruct (cc_hash c); [|done]. rewrite (proj2 (N.ltb_lt 0 kw)), (proj2 (N.leb_le kw 64)) by lia. cbn [chk mbind res_bind].
    rewrite mask_ones, N.ones_equiv by lia. assert (2^1 <= 2^kw) by (apply N.pow_le_mono_r; lia). rewrite (proj2 (N.ltb_lt _ _)); [done|]. change (2^1) with 2 in *. lia. }
  rewrite E. cbn [mbind res_bind]. rewrite !(proj2 (N.leb_le _ _)) by lia. cbn [chk mbind res_bind]. eexists. split; [done|].
  split; [|done]. split; [|done]. unfold czero. cbn. repeat split; done.
Qed.

(** ** Buckets *)
Let Hsb := co_sb _ _ _ _ _ OK.
Let Hacc := co_acc _ _ _ _ _ OK.
Let bwr := CompactProofs.bw_range pf c kw vw bmin OK.
Let vwr := CompactProofs.vw_range pf c kw vw bmin OK.
Lemma xb_range t ess : wrep t ess -> 1 <= xm_b t <= 63.
Proof. intros H. pose proof (wr_b _ _ H). pose proof (zbmax_le _ _ _ _ _ Hho). pose proof (ho_bmin _ _ _ _ _ Hho). lia. Qed.
Lemma xqw_eq t : xm_kw t = kw -> cqw c (xstrip t) = bw (xm_b t).
Proof. intros E. exact (cqw_eq c kw (xstrip t) E). Qed.
Lemma xvw_eq t : xm_vw t = vw -> cvw (xstrip t) = vwn.
Proof. intros E. exact (cvw_eq vw (xstrip t) E). Qed.
Lemma xcount t ess : wrep t ess -> c_bucket_count (xstrip t) = 2^xm_b t.
Proof. intros H. unfold c_bucket_count. change (cm_b (xstrip t)) with (xm_b t). pose proof (xb_range _ _ H). by rewrite (proj2 (N.eqb_neq _ _)) by lia. Qed.
Lemma xslot_at t ess bk es : wrep t ess -> ess !! N.to_nat bk = Some es ->
  exists sl s, xm_slots t = Some sl /\ sl !! N.to_nat bk = Some s /\ x_slot t bk = Ok s /\ xrepr (xm_b t) s es.
Proof.
  intros H He. destruct (wr_slots _ _ H) as (sl & Hsl & HF). destruct (Forall2_lookup_r _ _ _ _ _ HF He) as (s & Hs & Hr).
  exists sl, s. split; [done|]. split; [done|]. split; [|done]. unfold x_slot. rewrite Hsl.
  pose proof (lookup_lt_Some _ _ _ Hs). rewrite (proj2 (N.ltb_lt _ _)) by lia. by rewrite Hs.
Qed.
Lemma xrepr_size b s es : xrepr b s es -> cs_size (x_s s) = N.of_nat (length es) /\ (length es <= 255)%nat.
Proof. intros H. pose proof (xf_size _ _ _ _ _ _ _ H). pose proof (xf_255 _ _ _ _ _ _ _ H). rewrite !fmap_length in *. done. Qed.
Lemma xwidth t : xm_kw t = kw -> bmin <= xm_b t <= bmax -> x_width c t = Ok tt.
Proof.
  intros E Hb. unfold x_width. rewrite E, xz_width by done. cbn [mbind res_bind]. pose proof (zw_range _ _ _ _ _ Hho _ Hb).
  rewrite (proj2 (N.ltb_lt _ _)), (proj2 (N.leb_le _ _)) by lia. done.
Qed.
Lemma xrw t : xm_kw t = kw -> bmin <= xm_b t <= bmax -> x_rw c t = Ok tt.
Proof. intros E Hb. unfold x_rw. rewrite E, xz_width by done. done. Qed.
Lemma xmap_ok t k : xm_kw t = kw -> bmin <= xm_b t <= bmax -> k < 2^kw -> x_map c t k = Ok (bq (xm_b t) k, bb (xm_b t) k).
Proof.
  intros E Hb Hk. unfold x_map. rewrite E. destruct (xz_map _ _ Hb Hk) as [E1 E2]. rewrite E1. cbn [mbind res_bind fst snd]. rewrite E2. cbn [mbind res_bind].
  by rewrite N.eqb_refl.
Qed.
Definition xhome (b bk : N) (es : entries) : Prop := forall k v, (k, v) ∈ es -> k < 2^kw /\ bb b k = bk.
Lemma xhome_at t ess bk es : wrep t ess -> ess !! N.to_nat bk = Some es -> xhome (xm_b t) bk es.
Proof.
  intros H He k v Hin. split.
  - eapply (wr_range _ _ H). apply elem_of_concat. eauto.
  - rewrite <-(N2Nat.id bk). exact (wr_placed _ _ H _ _ _ _ He Hin).
Qed.
Lemma home_inv b bk es : bmin <= b <= bmax -> xhome b bk es -> inv_ok hm bk b (keys_of es) (bq b <$> keys_of es).
Proof.
  intros Hb Hh i k x Hk Hx. rewrite !list_lookup_fmap in *. destruct (es !! i) as [[k0 v0]|] eqn:E; [|done]. cbn in Hk, Hx. injection Hk as ->. injection Hx as <-.
  destruct (Hh k v0) as [Hk <-]; [by eapply elem_of_list_lookup_2|]. by apply xz_map.
Qed.
Lemma xs_quot_at b s es i k v : bmin <= b <= bmax -> xrepr b s es -> es !! i = Some (k, v) -> xs_quot pf c s i (bw b) = Ok (bq b k).
Proof. intros Hb Hr Hi. eapply xs_quot_ok; [done|done|by apply bwr|exact vwr|exact Hr|]. by rewrite !list_lookup_fmap, Hi. Qed.
Lemma xs_value_at b s es i k v : bmin <= b <= bmax -> xrepr b s es -> es !! i = Some (k, v) ->
  xs_value pf c s i (bw b) vwn = if v <? 2^vw then Ok v else Throw.
Proof.
  intros Hb Hr Hi. erewrite xs_value_ok; [|done|done|by apply bwr|exact vwr|exact Hr|]; [|by rewrite !list_lookup_fmap, Hi]. unfold fits. by rewrite N2Nat.id.
Qed.
Lemma xkey_at b s es i k v : xrepr b s es -> es !! i = Some (k, v) -> xcell (x_keys s) i = Ok k.
Proof. intros Hr Hi. eapply plain_cell; [apply Hr|]. by rewrite list_lookup_fmap, Hi. Qed.
Lemma xval_at b s es i k v : xrepr b s es -> es !! i = Some (k, v) -> xcell (x_vals s) i = Ok v.
Proof. intros Hr Hi. eapply plain_cell; [apply Hr|]. by rewrite list_lookup_fmap, Hi. Qed.
Lemma xindex t ess es k : wrep t ess -> k < 2^kw -> ess !! N.to_nat (bb (xm_b t) k) = Some es ->
  first_index (bq (xm_b t) k) (bq (xm_b t) <$> keys_of es) = first_index k (keys_of es).
Proof.
  intros H Hk He. apply (fi_map (bq (xm_b t))). intros x Hx Eq. apply keys_elem in Hx as (v & Hx).
  destruct (xhome_at _ _ _ _ H He x v Hx). eapply (zq_inj _ _ _ _ _ Hho (xm_b t) x k); try done. apply H.
Qed.
Lemma xfind_spec t bk s es q : xm_kw t = kw -> bmin <= xm_b t <= bmax -> xrepr (xm_b t) s es -> xhome (xm_b t) bk es -> forall n i, (i + n = length es)%nat ->
  x_find_from pf c t bk s i n q = Ok ((fun j => N.of_nat (i + j)) <$> first_index q (drop i (bq (xm_b t) <$> keys_of es))).
Proof.
  intros E1 Hb Hr Hh. induction n as [|n IH]; intros i Hi; cbn [x_find_from].
  { rewrite drop_ge by (rewrite !fmap_length; lia). done. }
  destruct (lookup_lt_is_Some_2 es i) as ([k v] & Hx); [lia|]. rewrite xqw_eq, E1 by done. rewrite (xs_quot_at _ _ _ _ _ _ Hb Hr Hx). cbn [mbind res_bind].
  destruct (Hh k v) as [Hk Ebk]; [by eapply elem_of_list_lookup_2|]. destruct (xz_map _ _ Hb Hk) as [_ Hinv]. rewrite Ebk in Hinv. rewrite Hinv. cbn [mbind res_bind].
  rewrite (xkey_at _ _ _ _ _ _ Hr Hx). cbn [mbind res_bind]. rewrite N.eqb_refl. cbn [chk mbind res_bind].
  assert (Hd : (bq (xm_b t) <$> keys_of es) !! i = Some (bq (xm_b t) k)) by (by rewrite !list_lookup_fmap, Hx).
  rewrite (drop_S _ _ _ Hd). cbn [first_index]. destruct (bq (xm_b t) k =? q).
  - cbn. do 2 f_equal. lia.
  - rewrite IH by lia. destruct (first_index q (drop (S i) _)); cbn; [|done]. do 2 f_equal. lia.
Qed.
Lemma xlocate t ess es k : wrep t ess -> k < 2^kw -> ess !! N.to_nat (bb (xm_b t) k) = Some es ->
  x_locate_q pf c t (bb (xm_b t) k) (bq (xm_b t) k) = Ok (N.of_nat <$> first_index k (keys_of es)).
Proof.
  intros H Hk He. pose proof (wr_b _ _ H) as Hb. destruct (z_map _ _ _ _ _ Hho _ _ Hb Hk) as (_ & _ & Hq & _).
  unfold x_locate_q. rewrite (xwidth t (wr_kw _ _ H) Hb). cbn [mbind res_bind]. rewrite xqw_eq by apply H.
  rewrite msb_ok by (try (apply bwr; done); by apply small_n). cbn [chk mbind res_bind].
  destruct (xslot_at _ _ _ _ H He) as (sl & s & _ & _ & -> & Hr). cbn [mbind res_bind]. destruct (xrepr_size _ _ _ Hr) as [Hs H255]. rewrite Hs, Nat2N.id.
  rewrite (xfind_spec t _ s es) by (try apply H; try done; by eapply xhome_at). cbn [mbind res_bind]. rewrite drop_0, (xindex _ ess) by done.
  destruct (first_index k (keys_of es)) as [j|] eqn:Ej; cbn [fmap option_fmap option_map]; [|done].
  apply fi_Some, lookup_lt_Some in Ej. rewrite fmap_length in Ej. rewrite (proj2 (N.ltb_lt _ _)) by lia. done.
Qed.
Lemma xfind_ok t ess es k : wrep t ess -> k < 2^kw -> ess !! N.to_nat (bb (xm_b t) k) = Some es ->
  x_find pf c t k = Ok (match first_index k (keys_of es) with Some p => (bb (xm_b t) k, N.of_nat p) | None => end_nav end).
Proof.
  intros H Hk He. unfold x_find. pose proof (xb_range _ _ H). rewrite (proj2 (N.eqb_neq _ _)) by lia.
  rewrite (xmap_ok t k) by (try apply H; done). cbn [mbind res_bind]. rewrite (xlocate _ _ _ _ H Hk He). cbn [mbind res_bind].
  by destruct (first_index k (keys_of es)).
Qed.
Lemma x_enter t ess : wrep t ess -> (1 <? xm_kw t) = true /\ (xm_b t =? 0) = false.
Proof. intros H. pose proof (xb_range _ _ H). pose proof xkw_range. rewrite (wr_kw _ _ H). split; [by apply N.ltb_lt; lia|by apply N.eqb_neq; lia]. Qed.
Lemma xfound f t ess es k v p : wrep t ess -> k < 2^kw -> ess !! N.to_nat (bb (xm_b t) k) = Some es ->
  first_index k (keys_of es) = Some p -> x_find_or_insert pf c (S f) t k v = Ok (t, (bb (xm_b t) k, N.of_nat p)).
Proof.
  intros H Hk He Hp. destruct (x_enter _ _ H) as [F1 F2]. cbn [x_find_or_insert]. rewrite F1, F2. cbn [chk mbind res_bind].
  rewrite (xmap_ok t k) by (try apply H; done). cbn [mbind res_bind].
  destruct (xslot_at _ _ _ _ H He) as (sl & s & Hsl & Hs & -> & Hr). cbn [mbind res_bind].
  rewrite (xlocate _ _ _ _ H Hk He), Hp. cbn [fmap option_fmap option_map mbind res_bind]. destruct (xrepr_size _ _ _ Hr) as [-> _].
  apply fi_Some, lookup_lt_Some in Hp. rewrite fmap_length in Hp. rewrite (proj2 (N.ltb_lt _ _)) by lia. done.
Qed.
Lemma xfull f t ess es k v : wrep t ess -> k < 2^kw -> ess !! N.to_nat (bb (xm_b t) k) = Some es ->
  first_index k (keys_of es) = None -> (length es =? 255)%nat = true ->
  x_find_or_insert pf c (S f) t k v =
    (n ← shl64 1 (xm_b t + 1); t ← x_reserve_with pf c (x_find_or_insert pf c f) t n; x_find_or_insert pf c f t k v).
Proof.
  intros H Hk He Hnone Hfull. destruct (x_enter _ _ H) as [F1 F2]. cbn [x_find_or_insert]. rewrite F1, F2. cbn [chk mbind res_bind].
  rewrite (xmap_ok t k) by (try apply H; done). cbn [mbind res_bind].
  destruct (xslot_at _ _ _ _ H He) as (sl & s & Hsl & Hs & -> & Hr). cbn [mbind res_bind].
  rewrite (xlocate _ _ _ _ H Hk He), Hnone. cbn [mbind res_bind fmap option_fmap option_map].
  destruct (xrepr_size _ _ _ Hr) as [-> _]. apply Nat.eqb_eq in Hfull. rewrite Hfull. done.
Qed.

(** ** Changing a bucket *)
Lemma wrep_set t ess bk s n es es' : wrep t ess -> ess !! N.to_nat bk = Some es -> xrepr (xm_b t) s es' ->
  placed (bb (xm_b t)) (<[N.to_nat bk := es']> ess) -> (forall k v, (k, v) ∈ concat (<[N.to_nat bk := es']> ess) -> k < 2^kw) ->
  wrep (x_set (x_set_n t n) bk s) (<[N.to_nat bk := es']> ess).
Proof.
  intros H He Hr Hpl Hra. destruct (wr_slots _ _ H) as (sl & Hsl & HF). constructor; cbn [x_set x_set_n xm_slots xm_b xm_n xm_kw xm_vw]; try done; try apply H.
  - rewrite insert_length. apply H.
  - rewrite Hsl. cbn. eexists. split; [done|]. by apply Forall2_insert.
Qed.
(** A slot of a map whose release part is known *)
Lemma xrep_set t ess bk s n es es' : xrep t ess -> ess !! N.to_nat bk = Some es -> xrepr (xm_b t) s es' ->
  crep (xstrip (x_set (x_set_n t n) bk s)) (<[N.to_nat bk := es']> ess) -> xrep (x_set (x_set_n t n) bk s) (<[N.to_nat bk := es']> ess).
Proof.
  intros [H _] He Hr HC. split; [|done]. eapply wrep_set; [done|exact He|exact Hr|..].
  - exact (cr_placed _ _ _ _ _ _ HC).
  - intros k v Hin. by eapply (cr_range _ _ _ _ _ _ HC).
Qed.
Lemma xsmall t ess bk es : xrep t ess -> ess !! N.to_nat bk = Some es -> small vwn (vals_of es).
Proof.
  intros [_ HC] He. destruct (cslot_at _ _ _ _ _ _ _ _ HC He) as (sl & s & _ & _ & _ & Hr). apply Hr.
Qed.
Lemma xpush_spec t ess es k v : xrep t ess -> k < 2^kw -> ess !! N.to_nat (bb (xm_b t) k) = Some es -> (length es < 255)%nat ->
  exists s s', x_slot t (bb (xm_b t) k) = Ok s /\ x_push pf c t (bb (xm_b t) k) (bq (xm_b t) k) k v s = (if v <? 2^vw then Ok s' else Throw)
    /\ xrepr (xm_b t) s' (es ++ [(k, v)]).
Proof.
  intros H Hk He Hlt. pose proof H as [HW HC]. pose proof (wr_b _ _ HW) as Hb. destruct (xslot_at _ _ _ _ HW He) as (sl & s & Hsl & Hs & Es & Hr).
  destruct (z_map _ _ _ _ _ Hho _ _ Hb Hk) as (_ & _ & Hq & _). pose proof (xhome_at _ _ _ _ HW He) as Hh.
  destruct (xs_push_spec pf c Hsb Hacc (bw (xm_b t)) vwn (bwr _ Hb) vwr hm (bb (xm_b t) k) (xm_b t) s _ _ _ (bq (xm_b t) k) k v Hr) as (s' & Ep & Hr').
  - by eapply xsmall.
  - rewrite !fmap_length. lia.
  - by apply small_n.
  - pose proof (home_inv (xm_b t) (bb (xm_b t) k) (es ++ [(k, v)]) Hb) as Hi. rewrite !fmap_app in Hi. apply Hi. intros k' v' Hin.
    apply elem_of_app in Hin as [Hin|Hin]; [by eapply Hh|]. apply elem_of_list_singleton in Hin. by injection Hin as -> ->.
  - exists s, s'. split; [done|]. split.
    + unfold x_push. rewrite (xwidth t) by apply HW. cbn [mbind res_bind]. rewrite xqw_eq, xvw_eq, (wr_kw _ _ HW) by apply HW.
      unfold xs_push in Ep. cbv zeta in Ep |- *. rewrite Ep. unfold fits. by rewrite N2Nat.id.
    + unfold xrepr. rewrite !fmap_app. exact Hr'.
Qed.
Lemma xpush f t ess es k v : xrep t ess -> k < 2^kw -> v < 2^vw -> ess !! N.to_nat (bb (xm_b t) k) = Some es ->
  first_index k (keys_of es) = None -> (length es =? 255)%nat = false ->
  exists t', x_find_or_insert pf c (S f) t k v = Ok (t', (bb (xm_b t) k, N.of_nat (length es)))
    /\ xm_b t' = xm_b t /\ xrep t' (<[N.to_nat (bb (xm_b t) k) := es ++ [(k, v)]]> ess).
Proof.
  intros H Hk Hv He Hnone Hfull. pose proof H as [HW HC]. destruct (x_enter _ _ HW) as [F1 F2].
  destruct (cpush pf c kw vw bmin OK f (xstrip t) ess es k v HC Hk Hv He Hnone Hfull) as (t0 & E0 & _ & HC0).
  change (cm_b (xstrip t)) with (xm_b t) in *. destruct (xslot_at _ _ _ _ HW He) as (_ & s0 & _ & _ & Es0 & Hr0). destruct (xrepr_size _ _ _ Hr0) as [Hsz H255].
  apply Nat.eqb_neq in Hfull. destruct (xpush_spec t ess es k v H Hk He ltac:(lia)) as (s & s' & Es & Ep & Hr). rewrite Es0 in Es. injection Es as <-.
  rewrite (proj2 (N.ltb_lt _ _)) in Ep by done. destruct (xrepr_size _ _ _ Hr) as [Hsz' _]. rewrite app_length in Hsz'. cbn [length] in Hsz'.
  assert (E : x_find_or_insert pf c (S f) t k v = Ok (x_set (x_set_n t (u64 (xm_n t + 1))) (bb (xm_b t) k) s', (bb (xm_b t) k, N.of_nat (length es)))).
  { cbn [x_find_or_insert]. rewrite F1, F2. cbn [chk mbind res_bind]. rewrite (xmap_ok t k) by (try apply HW; done). cbn [mbind res_bind].
    rewrite Es0. cbn [mbind res_bind]. rewrite (xlocate _ _ _ _ HW Hk He), Hnone. cbn [mbind res_bind fmap option_fmap option_map].
    rewrite Hsz. unfold c_max_bucket. rewrite (proj2 (N.eqb_neq _ _)) by lia. rewrite Ep. cbn [mbind res_bind]. rewrite Hsz', sub64_small by lia.
    repeat f_equal. lia. }
  eexists. split; [exact E|]. split; [done|]. eapply xrep_set; [done|exact He|exact Hr|].
  apply x_find_or_insert_eq in E. rewrite E0 in E. cbn [fst snd] in E. injection E as <-. exact HC0.
Qed.
(** A value that does not fit is refused. *)
Lemma xpush_wide f t ess es k v : xrep t ess -> k < 2^kw -> 2^vw <= v -> ess !! N.to_nat (bb (xm_b t) k) = Some es ->
  first_index k (keys_of es) = None -> (length es =? 255)%nat = false -> x_find_or_insert pf c (S f) t k v = Throw.
Proof.
  intros H Hk Hv He Hnone Hfull. pose proof H as [HW HC]. destruct (x_enter _ _ HW) as [F1 F2].
  destruct (xslot_at _ _ _ _ HW He) as (_ & s0 & _ & _ & Es0 & Hr0). destruct (xrepr_size _ _ _ Hr0) as [Hsz H255].
  apply Nat.eqb_neq in Hfull. destruct (xpush_spec t ess es k v H Hk He ltac:(lia)) as (s & s' & Es & Ep & Hr). rewrite Es0 in Es. injection Es as <-.
  rewrite (proj2 (N.ltb_ge _ _)) in Ep by done.
  cbn [x_find_or_insert]. rewrite F1, F2. cbn [chk mbind res_bind]. rewrite (xmap_ok t k) by (try apply HW; done). cbn [mbind res_bind].
  rewrite Es0. cbn [mbind res_bind]. rewrite (xlocate _ _ _ _ HW Hk He), Hnone. cbn [mbind res_bind fmap option_fmap option_map].
  rewrite Hsz. unfold c_max_bucket. rewrite (proj2 (N.eqb_neq _ _)) by lia. by rewrite Ep.
Qed.

(** ** Allocation and rehashing *)
Lemma xrepr_none b : xrepr b x_none [].
Proof.
  unfold xrepr, x_none. constructor; cbn [fmap list_fmap length x_s cs_size cs_data x_large x_keys x_vals x_bits app]; try done; try lia; try (by constructor).
  rewrite Nat.mul_0_l, (cdiv_0 pf (cc_sb c) Hsb Hacc 1%nat 1%nat) by lia. lia.
Qed.
Lemma xalloc t n : xm_kw t = kw -> xm_vw t = vw -> xm_n t = 0 -> 1 <= n <= 2^63 -> bmin <= N.log2_up n <= bmax ->
  exists t' ess0, x_alloc t n = Ok t' /\ xrep t' ess0 /\ concat ess0 = [] /\ xm_b t' = N.log2_up n.
Proof.
  intros E1 E2 E3 Hn Hb. unfold x_alloc. rewrite reserve_bits_spec by done. cbn [mbind res_bind].
  eexists _, (replicate (N.to_nat (2^N.log2_up n)) []). split; [done|].
  split; [|split; [apply concat_replicate_nil|done]]. split; constructor; cbn [xstrip xm_slots xm_b xm_n xm_kw xm_vw cm_slots cm_b cm_n cm_kw cm_vw]; try done.
  - rewrite replicate_length. lia.
  - eexists. split; [done|]. apply Forall2_replicate. apply xrepr_none.
  - apply placed_nil.
  - intros k v. rewrite concat_replicate_nil. by intros ?%elem_of_nil.
  - rewrite replicate_length. lia.
  - eexists. split; [done|]. change (map x_s ?l) with (x_s <$> l). rewrite fmap_replicate. apply Forall2_replicate. apply crepr_nil.
  - apply placed_nil.
  - rewrite concat_replicate_nil. constructor.
  - intros k v. rewrite concat_replicate_nil. by intros ?%elem_of_nil.
  - rewrite concat_replicate_nil. done.
Qed.
Lemma xclear_slot s : exists s', xs_clear pf s = Ok s'.
Proof.
  unfold xs_clear, c_clear_slot, c_delete. rewrite (co_free _ _ _ _ _ OK). destruct (x_large s), (cs_data (x_s s)); by eexists.
Qed.
Lemma xrehash_entries (ins : xmap -> N -> N -> res (xmap * nav)) t s es (bk : N) : xm_kw t = kw -> xm_vw t = vw -> bmin <= xm_b t <= bmax -> xrepr (xm_b t) s es ->
  xhome (xm_b t) bk es -> forall n i tmp, (i + n <= length es)%nat -> small vwn (vals_of (take n (drop i es))) ->
  rfold (fun (tmp : xmap) (j : nat) =>
        q ← xs_quot pf c s j (cqw c (xstrip t));
        k ← dhash_inv_map (chm c (xm_kw t)) q bk (xm_b t);
        pk ← xcell (x_keys s) j;
        _ ← chk (k =? pk);
        v ← xs_value pf c s j (cqw c (xstrip t)) (cvw (xstrip t));
        pv ← xcell (x_vals s) j;
        _ ← chk (v =? pv);
        r ← ins tmp k v;
        Ok (fst r)) (seq i n) tmp = ins_fold ins (take n (drop i es)) tmp.
Proof.
  intros E1 E2 Hb Hr Hh. rewrite xqw_eq, xvw_eq, E1 by done. induction n as [|n IH]; intros i tmp Hi; cbn [seq rfold]; [done|].
  destruct (lookup_lt_is_Some_2 es i) as ([k v] & Hx); [lia|]. rewrite (drop_S _ _ _ Hx). cbn [take fmap list_fmap]. intros Hsm. apply Forall_cons in Hsm as [Hv Hsm].
  cbn [snd] in Hv. rewrite N2Nat.id in Hv. unfold ins_fold. cbn [rfold fst snd].
  rewrite (xs_quot_at _ _ _ _ _ _ Hb Hr Hx). cbn [mbind res_bind].
  destruct (Hh k v) as [Hk Ebk]; [by eapply elem_of_list_lookup_2|]. destruct (xz_map _ _ Hb Hk) as [_ Hinv]. rewrite Ebk in Hinv. rewrite Hinv. cbn [mbind res_bind].
  rewrite (xkey_at _ _ _ _ _ _ Hr Hx). cbn [mbind res_bind]. rewrite N.eqb_refl. cbn [chk mbind res_bind].
  rewrite (xs_value_at _ _ _ _ _ _ Hb Hr Hx), (proj2 (N.ltb_lt _ _)) by done. cbn [mbind res_bind]. rewrite (xval_at _ _ _ _ _ _ Hr Hx). cbn [mbind res_bind]. rewrite N.eqb_refl. cbn [chk mbind res_bind].
  destruct (ins tmp k v) as [r| | |]; cbn [mbind res_bind]; try done. apply IH; [lia|done].
Qed.
Lemma xrehash ins t ess : wrep t ess -> forall sl es_s i tmp, Forall2 (xrepr (xm_b t)) sl es_s ->
  (forall j es, es_s !! j = Some es -> xhome (xm_b t) (N.of_nat (i + j)) es /\ small vwn (vals_of es)) ->
  rfold (x_rehash_slot pf c ins t) (imap (fun j s => ((i + j)%nat, s)) sl) tmp = ins_fold ins (concat es_s) tmp.
Proof.
  intros H sl es_s i tmp HF. revert i tmp. induction HF as [|s es sl es_s Hr _ IH]; intros i tmp Hpl; [done|].
  cbn [imap concat]. rewrite ins_fold_app. cbn [rfold]. rewrite Nat.add_0_r.
  assert (Es : x_rehash_slot pf c ins t tmp (i, s) = ins_fold ins es tmp).
  { unfold x_rehash_slot. destruct (xrepr_size _ _ _ Hr) as [Hsz _]. rewrite Hsz. destruct es as [|e es]; [done|].
    rewrite (proj2 (N.eqb_neq _ _)) by (cbn [length]; lia). rewrite Nat2N.id.
    destruct (Hpl 0%nat (e :: es) eq_refl) as [Hh Hsm]. rewrite Nat.add_0_r in Hh.
    rewrite (xrehash_entries ins t s (e :: es) (N.of_nat i)); try apply H; try done; [|by rewrite drop_0, take_ge by done].
    rewrite drop_0, take_ge by done. destruct (ins_fold ins (e :: es) tmp); cbn [mbind res_bind]; try done. destruct (xclear_slot s) as (s' & ->). done. }
  rewrite Es. destruct (ins_fold ins es tmp) as [tmp'| | |]; cbn [mbind res_bind]; try done.
  rewrite <-(IH (S i)).
  - f_equal. apply imap_ext. intros j x _. cbn. f_equal. lia.
  - intros j es' Hj. specialize (Hpl (S j) es' Hj). replace (S i + j)%nat with (i + S j)%nat by lia. done.
Qed.
Lemma xreserve t ess n : xrep t ess -> 1 <= n <= 2^63 -> bmin <= N.log2_up n <= bmax ->
  exists tmp ess0, xrep tmp ess0 /\ concat ess0 = [] /\ xm_b tmp = N.log2_up n
    /\ forall ins, x_reserve_with pf c ins t n = ins_fold ins (concat ess) tmp.
Proof.
  intros H Hn Hb. pose proof H as [HW HC]. pose proof (xb_range _ _ HW) as Hbr. pose proof (zbmax_le _ _ _ _ _ Hho). destruct x_new_ok as (t0 & Et0 & _ & Ez).
  assert (Hlog : N.log2_up (2^N.log2_up n) = N.log2_up n) by (apply N.log2_up_pow2; lia).
  destruct (xalloc (XMap None 0 0 kw vw) (2^N.log2_up n)) as (tmp & ess0 & Ea & HR & Hc & Hbt); try done.
  { split; [pose proof (pow2_pos (N.log2_up n)); lia|]. apply pow2_le_63. lia. }
  { by rewrite Hlog. }
  rewrite Hlog in Hbt. exists tmp, ess0. split; [done|]. split; [done|]. split; [done|]. intros ins.
  unfold x_reserve_with. rewrite (proj2 (N.eqb_neq _ _)) by lia. rewrite reserve_bits_spec by done. cbn [mbind res_bind].
  rewrite (wr_kw _ _ HW), (wr_vw _ _ HW), Et0. cbn [mbind res_bind]. rewrite Ea. cbn [mbind res_bind]. rewrite (xwidth t) by apply HW. cbn [mbind res_bind].
  destruct (wr_slots _ _ HW) as (sl & Hsl & HF). rewrite Hsl.
  rewrite (xcount _ _ HW), take_ge by (rewrite (Forall2_length _ _ _ HF); pose proof (wr_len _ _ HW); lia).
  pose proof (xrehash ins t ess HW sl ess 0 tmp HF) as Hre. change (imap (fun j s => ((0 + j)%nat, s)) sl) with (imap pair sl) in Hre. rewrite Hre.
  - destruct (ins_fold ins (concat ess) tmp); cbn [mbind res_bind]; try done. unfold x_clear_structure. rewrite Hsl, (co_free _ _ _ _ _ OK). done.
  - intros j es Hj. rewrite Nat.add_0_l. rewrite <-(Nat2N.id j) in Hj. split; [exact (xhome_at _ _ _ _ HW Hj)|exact (xsmall _ _ _ _ H Hj)].
Qed.

(** ** Erasing, writing, clearing *)
Lemma xerase_at t ess x k v : xrep t ess -> nav_at ess x = Some (k, v) ->
  exists t' es, ess !! N.to_nat (fst x) = Some es /\ x_erase_at pf c t x = Ok (t', 1) /\ xm_b t' = xm_b t
    /\ xrep t' (<[N.to_nat (fst x) := delete (N.to_nat (snd x)) es]> ess).
Proof.
  intros H Hx. pose proof H as [HW HC]. destruct (nav_bucket _ _ _ _ _ _ _ _ _ HC Hx) as (es & He & Hp & H255).
  destruct (cerase_at _ _ _ _ _ OK _ _ _ _ _ HC Hx) as (t0 & es0 & He0 & E0 & _ & HC0). rewrite He in He0. injection He0 as <-. destruct x as [bk p]. cbn [fst snd] in *.
  destruct (xslot_at _ _ _ _ HW He) as (sl & s & Hsl & Hs & Es & Hr). pose proof (wr_b _ _ HW) as Hb. pose proof (lookup_lt_Some _ _ _ Hp).
  destruct (xs_erase_ok pf c Hsb Hacc (bw (xm_b t)) vwn (bwr _ Hb) vwr hm bk (xm_b t) s _ _ _ (N.to_nat p) Hr) as (s' & Ee & Hr').
  { apply home_inv; [done|]. by eapply xhome_at. } { by eapply xsmall. } { by rewrite !fmap_length. }
  assert (E : x_erase_at pf c t (bk, p) = Ok (x_set (x_set_n t (sub64 (xm_n t) 1)) bk s', 1)).
  { unfold x_erase_at. rewrite (proj2 (N.eqb_neq _ _)) by (unfold ones64; lia). rewrite Es. cbn [mbind res_bind]. rewrite (xwidth t) by apply HW. cbn [mbind res_bind].
    rewrite xqw_eq, xvw_eq, (wr_kw _ _ HW), Ee by apply HW. done. }
  eexists _, es. split; [done|]. split; [exact E|]. split; [done|]. eapply xrep_set; [done|exact He| |].
  - unfold xrepr. rewrite !list_fmap_delete. exact Hr'.
  - apply x_erase_at_eq in E. rewrite E0 in E. cbn [fst snd] in E. injection E as <-. exact HC0.
Qed.
Lemma xwrite_any t ess bk p es k v y : wrep t ess -> ess !! N.to_nat bk = Some es -> es !! N.to_nat p = Some (k, v) ->
  exists s', x_write_value pf c t (bk, p) y = Ok (x_set (x_set_n t (xm_n t)) bk s') /\ xrepr (xm_b t) s' (<[N.to_nat p := (k, y)]> es).
Proof.
  intros HW He Hp. destruct (xslot_at _ _ _ _ HW He) as (sl & s & Hsl & Hs & Es & Hr). pose proof (wr_b _ _ HW) as Hb. pose proof (lookup_lt_Some _ _ _ Hp).
  destruct (xs_set_value_ok pf c Hsb Hacc (bw (xm_b t)) vwn (bwr _ Hb) vwr s _ _ _ (N.to_nat p) y Hr) as (s' & Ew & Hr'); [by rewrite !fmap_length|].
  exists s'. split.
  - unfold x_write_value. rewrite (xrw t) by apply HW. cbn [mbind res_bind]. rewrite Es. cbn [mbind res_bind]. rewrite xqw_eq, xvw_eq, Ew by apply HW. cbn [mbind res_bind]. by destruct t.
  - unfold xrepr. assert (Hkeys : keys_of (<[N.to_nat p := (k, y)]> es) = keys_of es).
    { rewrite list_fmap_insert. cbn. apply list_insert_id. by rewrite list_lookup_fmap, Hp. }
    rewrite Hkeys, list_fmap_insert. exact Hr'.
Qed.
Lemma xwrite t ess x k v v' : xrep t ess -> nav_at ess x = Some (k, v) -> v' < 2^vw ->
  exists t' es, ess !! N.to_nat (fst x) = Some es /\ x_write_value pf c t x v' = Ok t' /\ xm_b t' = xm_b t
    /\ xrep t' (<[N.to_nat (fst x) := <[N.to_nat (snd x) := (k, v')]> es]> ess).
Proof.
  intros H Hx Hv. pose proof H as [HW HC]. destruct (nav_bucket _ _ _ _ _ _ _ _ _ HC Hx) as (es & He & Hp & H255).
  destruct (cwrite _ _ _ _ _ OK _ _ _ _ _ _ HC Hx Hv) as (t0 & es0 & He0 & E0 & _ & HC0). rewrite He in He0. injection He0 as <-. destruct x as [bk p]. cbn [fst snd] in *.
  destruct (xwrite_any _ _ _ _ _ _ _ v' HW He Hp) as (s' & Ew & Hr'). eexists _, es. split; [done|]. split; [exact Ew|]. split; [done|].
  eapply xrep_set; [done|exact He|exact Hr'|]. apply x_write_value_eq in Ew. rewrite E0 in Ew. injection Ew as <-. exact HC0.
Qed.
Lemma xclear t ess : wrep t ess -> exists t', x_clear pf t = Ok t' /\ xzero t'.
Proof.
  intros H. unfold x_clear. destruct (wr_slots _ _ H) as (sl & Hsl & HF). rewrite Hsl.
  destruct (rmap_Forall2 (fun s => if cs_size (x_s s) =? 0 then Ok s else xs_clear pf s) (take (N.to_nat (c_bucket_count (xstrip t))) sl) (fun _ _ => True))
    as (ys & -> & _).
  { intros s _. destruct (cs_size (x_s s) =? 0); [by eexists|]. destruct (xclear_slot s) as (s' & ->). by eexists. }
  cbn [mbind res_bind]. unfold x_clear_structure. cbn [xm_slots]. rewrite (co_free _ _ _ _ _ OK). cbn [mbind res_bind].
  eexists. split; [done|]. split; [|done]. unfold czero. cbn. by rewrite (wr_kw _ _ H), (wr_vw _ _ H).
Qed.

(** ** Navigators *)
Lemma xsize_at t ess bk es : wrep t ess -> ess !! N.to_nat bk = Some es -> x_bucket_size t bk = Ok (N.of_nat (length es)) /\ (length es <= 255)%nat.
Proof.
  intros H He. destruct (xslot_at _ _ _ _ H He) as (sl & s & Hsl & Hs & Es & Hr). unfold x_bucket_size. pose proof (lookup_lt_Some _ _ _ He). pose proof (wr_len _ _ H).
  rewrite (xcount _ _ H), (proj2 (N.ltb_lt _ _)) by lia. cbn [chk mbind res_bind]. rewrite Es. cbn [mbind res_bind]. by destruct (xrepr_size _ _ _ Hr) as [-> ?].
Qed.
Lemma xvalue_at t ess bk p es k v : wrep t ess -> ess !! N.to_nat bk = Some es -> es !! N.to_nat p = Some (k, v) ->
  x_value_at pf c t bk p = if v <? 2^vw then Ok v else Throw.
Proof.
  intros H He Hp. destruct (xslot_at _ _ _ _ H He) as (sl & s & Hsl & Hs & Es & Hr). unfold x_value_at, x_valid. destruct (xsize_at _ _ _ _ H He) as [-> _]. cbn [mbind res_bind].
  pose proof (lookup_lt_Some _ _ _ Hp). rewrite (proj2 (N.ltb_lt p _)) by lia. cbn [chk mbind res_bind]. rewrite (xrw t) by apply H. cbn [mbind res_bind].
  rewrite Es. cbn [mbind res_bind]. rewrite xqw_eq, xvw_eq by apply H. eapply xs_value_at; [apply H|done|exact Hp].
Qed.
Lemma xshows t ess : xrep t ess -> NavProofs.shows (cokey c kw bmin) (x_view pf c t) (xm_b t) ess.
Proof.
  intros [H HC]. pose proof (cshows pf c kw vw bmin OK _ _ HC) as HS. constructor.
  - by eapply xb_range.
  - apply (xcount _ _ H).
  - apply H.
  - intros bk es He. by eapply xsize_at.
  - intros x k v Hx. destruct (sh_key _ _ _ _ HS x k v Hx) as (k' & Ek & Hok). exists k'. split; [|done].
    destruct (nav_bucket _ _ _ _ _ _ _ _ _ HC Hx) as (es & He & Hp & H255). destruct x as [bk p]. cbn [fst snd] in *. pose proof (wr_b _ _ H) as Hbb.
    destruct (xslot_at _ _ _ _ H He) as (sl & s & Hsl & Hs & Es & Hr). destruct (xhome_at _ _ _ _ H He k v) as [Hk Ebk]; [by eapply elem_of_list_lookup_2|].
    assert (Eq : x_quotient_at pf c t bk p (remainder_width (chm c (xm_kw t)) (xm_b t)) = Ok (bq (xm_b t) k)).
    { unfold x_quotient_at, x_valid. destruct (xsize_at _ _ _ _ H He) as [-> _]. cbn [mbind res_bind]. pose proof (lookup_lt_Some _ _ _ Hp). rewrite (proj2 (N.ltb_lt p _)) by lia. cbn [chk mbind res_bind].
      rewrite (xwidth t) by apply H. cbn [mbind res_bind]. rewrite Es, (wr_kw _ _ H). cbn [mbind res_bind]. change (remainder_width hm (xm_b t)) with (zw (cc_hash c) (cc_keybits c) (cc_hbits c) kw (xm_b t)).
      rewrite (xs_quot_at _ _ _ _ _ _ Hbb Hr Hp). cbn [mbind res_bind].
      destruct (xz_inv (xm_b t) k (bq (xm_b t) k mod 2^N.of_nat (cc_sb c)) Hbb Hk) as (k2 & Hk2); [apply N.mod_le; apply N.pow_nonzero; done|]. rewrite Ebk in Hk2. by rewrite Hk2. }
    assert (Ec : c_quotient_at pf c (xstrip t) bk p (remainder_width (chm c (xm_kw t)) (xm_b t)) = Ok (bq (xm_b t) k)) by (by apply x_quotient_at_eq).
    revert Ek. unfold vn_key. cbn [x_view c_view v_quot v_hash v_b v_storebits]. change (cm_kw (xstrip t)) with (xm_kw t). change (cm_b (xstrip t)) with (xm_b t). by rewrite Eq, Ec.
  - intros x k v Hx. destruct (nav_bucket _ _ _ _ _ _ _ _ _ HC Hx) as (es & He & Hp & H255). destruct x as [bk p]. cbn [fst snd] in *.
    unfold vn_value. cbn [x_view v_value]. rewrite (xvalue_at _ _ _ _ _ _ _ H He Hp). rewrite (proj2 (N.ltb_lt _ _)); [done|].
    eapply (cr_range _ _ _ _ _ _ HC). apply elem_of_concat. exists (N.to_nat bk), es. split; [done|]. by eapply elem_of_list_lookup_2.
Qed.

(** ** The instance *)
Lemma debug_compact_chain fuel : (64 <= fuel)%nat ->
  chain_ok (x_impl pf c fuel) kw vw bmin bmax (cokey c kw bmin) xm_b bb xrep xzero (fun t ess bk => cfullb (xstrip t) ess bk) (x_find_or_insert pf c) (x_reserve_with pf c) fuel.
Proof.
  intros Hfuel. pose proof (zbmax_le _ _ _ _ _ Hho) as H63. pose proof (ho_bmin _ _ _ _ _ Hho) as Hbm. pose proof xkw_range as Hkwr.
  constructor; cbn [x_impl i_view i_find i_insert i_write i_erase i_erase_at i_size i_reserve i_clear].
  - lia.
  - done.
  - intros b k Hb Hk. by destruct (z_map _ _ _ _ _ Hho b k Hb Hk) as (_ & ? & _).
  - intros t ess [H _]. apply H.
  - intros t ess [H _]. apply H.
  - intros t ess [_ H]. apply H.
  - intros t ess k v [_ H] Hin. by eapply (cr_range _ _ _ _ _ _ H).
  - apply xshows.
  - intros t [(_ & _ & Hb & _) _]. cbn. unfold c_bucket_count. by rewrite Hb.
  - intros t ess es k [H _] Hk He. by eapply xfind_ok.
  - intros t k [(_ & _ & Hb & _) _]. unfold x_find. change (cm_b (xstrip t)) with (xm_b t) in Hb. by rewrite Hb.
  - done.
  - intros f t ess es k v p [H _] Hk He Hp. by eapply xfound.
  - intros f t ess es k v H Hk Hv He Hn Hfull. unfold cfullb in Hfull. rewrite He in Hfull. by eapply xpush.
  - intros f t ess es k v [H _] Hk Hv He Hn Hfull. unfold cfullb in Hfull. rewrite He in Hfull. by eapply xfull.
  - intros t ess k [_ H] Hk Hnk Hfull. unfold cfullb in Hfull. destruct (ess !! N.to_nat (bb (xm_b t) k)) as [es|] eqn:He; [|done].
    apply Nat.eqb_eq in Hfull. by eapply (cgrow _ _ _ _ _ OK (xstrip t)).
  - intros t ess n H Hn Hb. destruct (xreserve t ess n H Hn Hb) as (tmp & ess0 & HR & Hc & Hbt & E).
    exists tmp, ess0, Ok. split; [done|]. split; [done|]. split; [done|]. split; [done|]. intros ins. rewrite E. by destruct (ins_fold ins (concat ess) tmp).
  - done.
  - intros t n [(E1 & E2 & Hb & Hn0 & _) _] Hn Hlog. change (cm_b (xstrip t)) with (xm_b t) in Hb. unfold x_reserve, x_reserve_with. rewrite Hb. cbn [N.eqb]. by apply xalloc.
  - intros f t [(E1 & E2 & Hb & Hn0 & _) _]. change (cm_b (xstrip t)) with (xm_b t) in Hb. change (cm_kw (xstrip t)) with (xm_kw t) in E1.
    destruct (co_init _ _ _ _ _ OK) as [Hkw3 Hini].
    destruct (xalloc t (N.min (kw - 1) 16)) as (t' & ess0 & Ea & HR & Hc & Hbt); try done.
    { split; [lia|]. etrans; [apply N.le_min_r|done]. }
    exists t', ess0. split; [done|]. split; [done|]. intros k v. destruct (x_enter _ _ (proj1 HR)) as [F1 F2]. cbn [x_find_or_insert]. rewrite F1, F2, Hb, E1. cbn [N.eqb].
    rewrite (proj2 (N.ltb_lt 1 kw)) by lia. cbn [chk mbind res_bind]. rewrite sub64_small by lia. rewrite Ea. cbn [mbind res_bind]. done.
  - intros t ess x k v H Hx. by eapply xerase_at.
  - done.
  - intros t ess es k [H _] Hk He. unfold x_erase, x_locate. destruct (x_enter _ _ H) as [_ F2]. rewrite F2.
    rewrite (xmap_ok t k) by (try apply H; done). cbn [mbind res_bind]. rewrite (xlocate _ _ _ _ H Hk He). cbn [mbind res_bind].
    by destruct (first_index k (keys_of es)).
  - intros t k [(_ & _ & Hb & _) _]. unfold x_erase. change (cm_b (xstrip t)) with (xm_b t) in Hb. by rewrite Hb.
  - intros t ess x k v v' H Hx Hv. by eapply xwrite.
  - intros t ess [_ H]. apply H.
  - by intros t [(_ & _ & _ & Hn & _) _].
  - intros t ess [H _]. by eapply xclear.
  - intros t [H E]. exists t. unfold x_clear. by rewrite E.
Qed.
End compact.
