(** Single steps of navigators: operator-- undoes operator++ and the other way round. *)
From Verif Require Export NavProofs ArrayTable TableStable.

(** *** Neighbouring non-empty buckets *)
Section neighbours.
Context (ess : list entries).
Implicit Types (bk r : N) (es : entries).
Lemma neighbour_back bk r r' es es' : ess !! N.to_nat bk = Some es -> es <> [] -> bk < r ->
  (forall i es, (N.to_nat bk < i < N.to_nat r)%nat -> ess !! i = Some es -> es = []) ->
  r' < r -> ess !! N.to_nat r' = Some es' -> es' <> [] ->
  (forall i es, (N.to_nat r' < i < N.to_nat r)%nat -> ess !! i = Some es -> es = []) -> r' = bk.
Proof.
  intros He Hne Hlt Hemp Hlt' He' Hne' Hemp'. destruct (N.lt_trichotomy r' bk) as [?|[?|?]]; [|done|].
  - destruct Hne. apply (Hemp' (N.to_nat bk)); [lia|done].
  - destruct Hne'. apply (Hemp (N.to_nat r')); [lia|done].
Qed.
Lemma neighbour_none bk r es : ess !! N.to_nat bk = Some es -> es <> [] -> bk < r -> concat (take (N.to_nat r) ess) <> [].
Proof.
  intros He Hne Hlt Hc. apply Hne. destruct es as [|e es]; [done|]. exfalso. apply (not_elem_of_nil e). rewrite <-Hc.
  apply elem_of_list_In, in_concat. exists (e :: es). split; [|by left]. apply elem_of_list_In, elem_of_list_lookup. exists (N.to_nat bk).
  by rewrite lookup_take by lia.
Qed.
End neighbours.
Lemma in_range_ne (es : entries) (p : N) : (N.to_nat p < length es)%nat -> es <> [].
Proof. destruct es; [cbn; lia|done]. Qed.

(** *** Maps without overflow *)
Section view.
Context (okey : N -> N -> Prop) (V : view) (b : N) (ess : list entries).
Hypothesis H : NavProofs.shows okey V b ess.

Lemma vvalid_at x : vn_invalid V x = Ok false -> exists e, nav_at ess x = Some e.
Proof.
  destruct x as [bk p]. unfold vn_invalid. rewrite (sh_count _ _ _ _ H). destruct (N.leb_spec (2^b) bk) as [|Hlt]; [done|].
  destruct (sh_lookup _ _ _ _ H bk Hlt) as (es & He). destruct (sh_size _ _ _ _ H _ _ He) as [-> _]. cbn [mbind res_bind].
  destruct (N.leb_spec (N.of_nat (length es)) p) as [|Hp]; [done|]. intros _.
  destruct (lookup_lt_is_Some_2 es (N.to_nat p)) as (e & Ee); [lia|]. exists e. by eapply nav_at_intro.
Qed.

Lemma vstep_next x : vn_invalid V x = Ok false -> exists y, vn_next V x = Ok y /\ (vn_invalid V y = Ok false -> vn_prev V y = Ok x)
  /\ (vn_invalid V y <> Ok false -> vn_eq V y end_nav = Ok true).
Proof.
  intros (e & He)%vvalid_at. destruct x as [bk p]. destruct (nav_at_bucket _ _ _ _ H _ _ _ He) as (es & Hes & _ & Hb & Hp). clear e He.
  destruct (sh_size _ _ _ _ H _ _ Hes) as [Hs H255]. pose proof (sh_pow _ _ _ _ H) as Hpow. pose proof (sh_count _ _ _ _ H) as Hc.
  unfold vn_next. rewrite Hs. cbn [mbind res_bind]. rewrite u64_small by lia.
  destruct (N.leb_spec (N.of_nat (length es)) (p + 1)) as [Hle|Hgt].
  - destruct (vnext_scan_spec _ _ _ _ H (N.to_nat (v_count V)) bk Hb) as (r & -> & Hr & Hemp & Hner); [rewrite Hc; lia|].
    cbn [mbind res_bind]. exists (r, 0). split; [done|]. destruct (decide (r = 2^b)) as [->|Hne].
    { rewrite (vn_invalid_past _ _ _ _ H) by lia. split; [done|]. intros _. by rewrite (vn_eq_end_past _ _ _ _ H) by lia. }
    destruct Hner as (es2 & He2 & Hne2); [lia|]. split.
    2:{ intros Hn. destruct Hn. destruct es2 as [|e2 es2]; [done|]. apply (vn_invalid_at _ _ _ _ H (r, 0) e2). by eapply nav_at_intro. }
    intros _. unfold vn_prev. cbn [N.ltb N.compare mbind res_bind andb].
    destruct (vprev_scan_spec _ _ _ _ H (N.to_nat (v_count V)) r) as [(r' & es' & -> & Hr' & He' & Hne' & Hemp')|[_ Hcc]]; [lia|rewrite Hc; lia| |].
    + assert (r' = bk) as -> by (eapply (neighbour_back ess bk r r'); eauto using in_range_ne; lia).
      cbn [mbind res_bind]. rewrite Hc, (proj2 (N.ltb_lt _ _)) by lia. rewrite Hs. cbn [mbind res_bind]. rewrite sub64_small by lia.
      do 2 f_equal. lia.
    + exfalso. revert Hcc. apply (neighbour_none ess bk r es); [done|by eapply in_range_ne|lia].
  - exists (bk, p + 1). split; [done|]. split.
    + intros _. unfold vn_prev. rewrite (proj2 (N.ltb_lt 0 (p + 1))) by lia. rewrite Hs. cbn [mbind res_bind andb].
      rewrite (proj2 (N.ltb_lt _ _)) by lia. rewrite N.min_l by lia. rewrite sub64_small by lia. do 2 f_equal. lia.
    + intros Hn. destruct Hn. destruct (lookup_lt_is_Some_2 es (N.to_nat (p + 1))) as (e2 & E2); [lia|].
      apply (vn_invalid_at _ _ _ _ H (bk, p + 1) e2). by eapply nav_at_intro.
Qed.

Lemma vstep_prev x : vn_invalid V x = Ok false -> exists y, vn_prev V x = Ok y /\ (vn_invalid V y = Ok false -> vn_next V y = Ok x)
  /\ (vn_invalid V y <> Ok false -> vn_eq V y end_nav = Ok true).
Proof.
  intros (e & He)%vvalid_at. destruct x as [bk p]. destruct (nav_at_bucket _ _ _ _ H _ _ _ He) as (es & Hes & _ & Hb & Hp). clear e He.
  destruct (sh_size _ _ _ _ H _ _ Hes) as [Hs H255]. pose proof (sh_pow _ _ _ _ H) as Hpow. pose proof (sh_count _ _ _ _ H) as Hc.
  unfold vn_prev. destruct (N.ltb_spec 0 p) as [Hpos|Hzero].
  - rewrite Hs. cbn [mbind res_bind andb]. rewrite (proj2 (N.ltb_lt _ _)) by lia. rewrite N.min_l by lia. rewrite sub64_small by lia.
    exists (bk, p - 1). split; [done|]. split.
    + intros _. unfold vn_next. rewrite Hs. cbn [mbind res_bind]. rewrite u64_small by lia. rewrite (proj2 (N.leb_gt _ _)) by lia. do 2 f_equal. lia.
    + intros Hn. destruct Hn. destruct (lookup_lt_is_Some_2 es (N.to_nat (p - 1))) as (e2 & E2); [lia|].
      apply (vn_invalid_at _ _ _ _ H (bk, p - 1) e2). by eapply nav_at_intro.
  - replace p with 0 in * by lia. cbn [mbind res_bind andb].
    destruct (vprev_scan_spec _ _ _ _ H (N.to_nat (v_count V)) bk) as [(r' & es' & -> & Hr' & He' & Hne' & Hemp')|[-> Hcc]]; [lia|rewrite Hc; lia| |].
    + cbn [mbind res_bind]. rewrite Hc, (proj2 (N.ltb_lt r' _)) by lia. destruct (sh_size _ _ _ _ H _ _ He') as [Hs' H255'].
      rewrite Hs'. cbn [mbind res_bind]. assert (0 < length es')%nat by (destruct es'; [done|cbn; lia]). rewrite sub64_small by lia.
      exists (r', N.of_nat (length es') - 1). split; [done|]. split.
      * intros _. unfold vn_next. rewrite Hs'. cbn [mbind res_bind]. rewrite u64_small by lia. rewrite (proj2 (N.leb_le _ _)) by lia.
        destruct (vnext_scan_spec _ _ _ _ H (N.to_nat (v_count V)) r') as (r & -> & Hr & Hemp & Hner); [lia|rewrite Hc; lia|].
        cbn [mbind res_bind]. do 2 f_equal. destruct (N.lt_trichotomy r bk) as [?|[?|?]]; [|done|].
        -- destruct Hner as (es2 & He2 & Hne2); [lia|]. destruct Hne2. apply (Hemp' (N.to_nat r)); [lia|done].
        -- assert (Hen : es = []) by (apply (Hemp (N.to_nat bk)); [lia|done]). rewrite Hen in Hp. cbn in Hp. lia.
      * intros Hn. destruct Hn. destruct (lookup_lt_is_Some_2 es' (N.to_nat (N.of_nat (length es') - 1))) as (e2 & E2); [lia|].
        apply (vn_invalid_at _ _ _ _ H (r', N.of_nat (length es') - 1) e2). by eapply nav_at_intro.
    + cbn [mbind res_bind]. assert (2^63 < ones64) by done. rewrite Hc, (proj2 (N.ltb_ge ones64 _)) by lia.
      exists (ones64, 0). split; [done|]. rewrite (vn_invalid_past _ _ _ _ H) by lia. split; [done|]. intros _. by rewrite (vn_eq_end_past _ _ _ _ H) by lia.
Qed.

Lemma vsteps x : vn_invalid V x = Ok false ->
  (exists y, vn_next V x = Ok y /\ (vn_invalid V y = Ok false /\ vn_prev V y = Ok x \/ vn_eq V y end_nav = Ok true))
  /\ (exists y, vn_prev V x = Ok y /\ (vn_invalid V y = Ok false /\ vn_next V y = Ok x \/ vn_eq V y end_nav = Ok true)).
Proof.
  intros Hx. destruct (vstep_next x Hx) as (y & E & H1 & H2). destruct (vstep_prev x Hx) as (z & E' & H1' & H2'). split.
  - exists y. split; [done|]. destruct (vn_invalid V y) as [[]| | |] eqn:Ey; [right|left; auto|right..]; by apply H2.
  - exists z. split; [done|]. destruct (vn_invalid V z) as [[]| | |] eqn:Ez; [right|left; auto|right..]; by apply H2'.
Qed.
End view.

(** *** Positions of an overflow *)
Section overflow.
Context (pf : platform).
Lemma um_scan_back_stop nb els p : um_empty pf nb els p = false -> forall d fuel q, (N.to_nat (q - p) <= d)%nat -> (d <= fuel)%nat -> p <= q ->
  (forall j, p < j -> j <= q -> um_empty pf nb els j = true) -> um_scan_back pf fuel nb els q = p.
Proof.
  intros Hp. induction d as [|d IH]; intros fuel q Hd Hf Hpq Hemp.
  - replace q with p by lia. destruct fuel; cbn [um_scan_back]; [done|]. by rewrite Hp, andb_false_r.
  - destruct (decide (q = p)) as [->|]; [destruct fuel; cbn [um_scan_back]; [done|]; by rewrite Hp, andb_false_r|].
    destruct fuel as [|fuel]; [lia|]. cbn [um_scan_back]. rewrite (proj2 (N.ltb_lt _ _)) by lia. rewrite (Hemp q) by lia. cbn [andb].
    apply IH; [lia|lia|lia|]. intros j Hj1 Hj2. apply Hemp; lia.
Qed.
Lemma um_scan_back_spec nb els : forall fuel q, (N.to_nat q <= fuel)%nat ->
  let p := um_scan_back pf fuel nb els q in p <= q /\ (forall j, p < j -> j <= q -> um_empty pf nb els j = true).
Proof.
  induction fuel as [|f IH]; intros q Hq; cbn [um_scan_back].
  - split; [lia|]. intros; lia.
  - destruct (N.ltb_spec 0 q); cbn [andb]; [|split; [lia|intros; lia]]. destruct (um_empty pf nb els q) eqn:E; [|split; [lia|intros; lia]].
    destruct (IH (q - 1)) as [H1 H2]; [lia|]. cbv zeta in *. split; [lia|]. intros j Hj1 Hj2.
    destruct (decide (j = q)) as [->|]; [done|]. apply H2; lia.
Qed.
Lemma um_scan_stop nb els q : q < nb -> um_empty pf nb els q = false -> forall d fuel p, (N.to_nat (q - p) <= d)%nat -> (d <= fuel)%nat -> p <= q ->
  (forall j, p <= j -> j < q -> um_empty pf nb els j = true) -> um_scan pf fuel nb els p = q.
Proof.
  intros Hq He. induction d as [|d IH]; intros fuel p Hd Hf Hpq Hemp.
  - replace p with q by lia. destruct fuel; cbn [um_scan]; [done|]. by rewrite He, andb_false_r.
  - destruct (decide (p = q)) as [->|]; [destruct fuel; cbn [um_scan]; [done|]; by rewrite He, andb_false_r|].
    destruct fuel as [|fuel]; [lia|]. cbn [um_scan]. rewrite (proj2 (N.ltb_lt _ _)) by lia. rewrite (Hemp p) by lia. cbn [andb].
    apply IH; [lia|lia|lia|]. intros j Hj1 Hj2. apply Hemp; lia.
Qed.
Lemma ov_step_next o p : ov_size o < 2^64 -> ov_valid pf o p = true -> ov_valid pf o (ov_next pf o p) = true ->
  0 < ov_next pf o p /\ ov_prev pf o (ov_next pf o p) = p.
Proof.
  intros Hs Hv Hv'. destruct o as [|ks vs n full|nb els full]; [done|..]; cbn [ov_valid ov_next ov_prev ov_size] in *.
  - apply N.ltb_lt in Hv, Hv'. assert (p + 1 < 2^64 \/ p + 1 = n) as [?|En] by lia.
    + rewrite u64_small in * by lia. split; [lia|]. rewrite sub64_small by lia. lia.
    + rewrite u64_small in * by lia. lia.
  - apply andb_true_iff in Hv as [Hp He], Hv' as [Hq Hqe]. apply N.ltb_lt in Hp, Hq. apply negb_true_iff in He.
    destruct (um_scan_spec pf nb els (N.to_nat nb) (p + 1)) as (Hq1 & Hq2 & _); [lia|]. cbv zeta in Hq1, Hq2.
    split; [lia|]. apply (um_scan_back_stop nb els p He (N.to_nat (um_scan pf (N.to_nat nb) nb els (p + 1) - 1 - p))); [lia|lia|lia|].
    intros j Hj1 Hj2. apply Hq2; lia.
Qed.
Lemma ov_step_prev o q : ov_size o < 2^64 -> 0 < q -> ov_valid pf o q = true -> ov_valid pf o (ov_prev pf o q) = true ->
  ov_next pf o (ov_prev pf o q) = q.
Proof.
  intros Hs Hq Hv Hv'. destruct o as [|ks vs n full|nb els full]; [done|..]; cbn [ov_valid ov_next ov_prev ov_size] in *.
  - apply N.ltb_lt in Hv, Hv'. rewrite sub64_small by lia. rewrite u64_small by lia. lia.
  - apply andb_true_iff in Hv as [Hp He]. apply N.ltb_lt in Hp. apply negb_true_iff in He.
    destruct (um_scan_back_spec nb els (N.to_nat nb) (q - 1)) as [H1 H2]; [lia|]. cbv zeta in H1, H2.
    apply (um_scan_stop nb els q Hp He (N.to_nat (q - (um_scan_back pf (N.to_nat nb) nb els (q - 1) + 1)))); [lia|lia|lia|].
    intros j Hj1 Hj2. apply H2; lia.
Qed.
End overflow.

(** *** separate_chaining_table, with any overflow *)
Section table.
Context (pf : platform) (c : cfg) (kw vw bmin bmax : N) (strict : Prop).
Notation tinv := (tinv pf c kw vw bmin bmax strict).
Notation nav_entry := (nav_entry pf).
Hypothesis OK : table_ok0 pf c kw vw bmin bmax.
Implicit Types (t : table) (ess : list entries) (ovl : entries) (sl : list slot).

Lemma tvalid_bucket t sl ess ovl bk p : tinv t sl ess ovl -> nav_invalid pf t (bk, p) = Ok false -> bk <> bucket_count t ->
  exists es, ess !! N.to_nat bk = Some es /\ (N.to_nat p < length es)%nat.
Proof.
  intros H Hv Hne. destruct (nav_valid_entry _ _ _ _ _ _ _ OK _ _ _ _ _ H Hv) as (e & He).
  destruct (tinv_bc _ _ _ _ _ _ _ OK _ _ _ _ H) as [_ Hb]. unfold TableInv.nav_entry in He. cbn [fst snd] in He.
  rewrite (proj2 (N.eqb_neq _ _)) in He by congruence. destruct (ess !! N.to_nat bk) as [es|]; [|done]. exists es. split; [done|].
  cbn in He. by apply lookup_lt_Some in He.
Qed.
Lemma tover t bk : bk < bucket_count t -> (0 <? ov_size (t_ov t)) && (bk =? bucket_count t) = false.
Proof. intros Hb. rewrite (proj2 (N.eqb_neq _ _)) by lia. by rewrite andb_false_r. Qed.
Lemma tvalid_intro t sl ess ovl bk p es : tinv t sl ess ovl -> ess !! N.to_nat bk = Some es -> (N.to_nat p < length es)%nat -> nav_invalid pf t (bk, p) = Ok false.
Proof.
  intros H He Hp. destruct (bucket_size_spec _ _ _ _ _ _ _ OK _ _ _ _ _ _ H He) as (Hlt & Hs & _). destruct (tinv_bc _ _ _ _ _ _ _ OK _ _ _ _ H) as [_ Hb].
  unfold nav_invalid. rewrite (tover t bk) by lia. cbn [andb]. rewrite (proj2 (N.leb_gt _ _)) by lia. unfold bucket_size in Hs.
  destruct (get_slot t bk) as [s| | |]; cbn [mbind res_bind] in *; [|done..]. injection Hs as ->. by rewrite (proj2 (N.leb_gt _ _)) by lia.
Qed.

(** Both navigators in buckets. *)
Lemma tstep_next t sl ess ovl x : tinv t sl ess ovl -> nav_invalid pf t x = Ok false -> fst x < bucket_count t ->
  exists y, nav_next pf t x = Ok y /\ (fst y < bucket_count t -> nav_invalid pf t y = Ok false /\ nav_prev pf t y = Ok x)
    /\ (bucket_count t <= fst y -> y = (bucket_count t, 0)).
Proof.
  intros H Hv Hlt. destruct x as [bk p]. cbn [fst] in Hlt. destruct (tvalid_bucket _ _ _ _ _ _ H Hv) as (es & Hes & Hp); [lia|].
  destruct (bucket_size_spec _ _ _ _ _ _ _ OK _ _ _ _ _ _ H Hes) as (Hb & Hs & H255). destruct (tinv_bc _ _ _ _ _ _ _ OK _ _ _ _ H) as [_ Hc].
  pose proof (pow_lt_u64 _ _ _ _ _ _ _ OK _ _ _ _ H) as Hpow. unfold nav_next. rewrite (tover t bk) by done. rewrite Hs. cbn [mbind res_bind]. rewrite u64_small by lia.
  destruct (N.leb_spec (N.of_nat (length es)) (p + 1)) as [Hle|Hgt].
  - destruct (next_scan_spec _ _ _ _ _ _ _ OK _ _ _ _ H (N.to_nat (bucket_count t)) bk Hb) as (r & -> & Hr & Hemp & Hner); [rewrite Hc; lia|].
    cbn [mbind res_bind]. exists (r, 0). split; [done|]. cbn [fst]. rewrite Hc. split; [|intros ?; f_equal; lia]. intros Hr2.
    destruct (Hner Hr2) as (es2 & He2 & Hne2). split; [eapply tvalid_intro; eauto; destruct es2; [done|cbn; lia]|].
    unfold nav_prev. rewrite (tover t r) by lia. cbn [N.ltb N.compare mbind res_bind andb].
    destruct (prev_scan_spec _ _ _ _ _ _ _ OK _ _ _ _ H (N.to_nat (bucket_count t)) r) as [(r' & es' & -> & Hr' & He' & Hne' & Hemp')|[_ Hcc]]; [lia|rewrite Hc; lia| |].
    + assert (r' = bk) as -> by (eapply (neighbour_back ess bk r r'); eauto using in_range_ne; lia).
      cbn [mbind res_bind]. rewrite Hc, (proj2 (N.ltb_lt _ _)) by lia. rewrite Hs. cbn [mbind res_bind]. rewrite sub64_small by lia.
      do 2 f_equal. lia.
    + exfalso. revert Hcc. apply (neighbour_none ess bk r es); [done|by eapply in_range_ne|lia].
  - exists (bk, p + 1). split; [done|]. cbn [fst]. split; [|lia]. intros _. split; [eapply tvalid_intro; eauto; lia|].
    unfold nav_prev. rewrite (tover t bk) by done. rewrite (proj2 (N.ltb_lt 0 (p + 1))) by lia. rewrite Hs. cbn [mbind res_bind andb].
    rewrite (proj2 (N.ltb_lt _ _)) by lia. rewrite N.min_l by lia. rewrite sub64_small by lia. do 2 f_equal. lia.
Qed.
Lemma tstep_prev t sl ess ovl x : tinv t sl ess ovl -> nav_invalid pf t x = Ok false -> fst x < bucket_count t ->
  exists y, nav_prev pf t x = Ok y /\ (fst y < bucket_count t -> nav_invalid pf t y = Ok false /\ nav_next pf t y = Ok x)
    /\ (bucket_count t <= fst y -> fst y = ones64).
Proof.
  intros H Hv Hlt. destruct x as [bk p]. cbn [fst] in Hlt. destruct (tvalid_bucket _ _ _ _ _ _ H Hv) as (es & Hes & Hp); [lia|].
  destruct (bucket_size_spec _ _ _ _ _ _ _ OK _ _ _ _ _ _ H Hes) as (Hb & Hs & H255). destruct (tinv_bc _ _ _ _ _ _ _ OK _ _ _ _ H) as [_ Hc].
  pose proof (pow_lt_u64 _ _ _ _ _ _ _ OK _ _ _ _ H) as Hpow. unfold nav_prev. rewrite (tover t bk) by done.
  destruct (N.ltb_spec 0 p) as [Hpos|Hzero].
  - rewrite Hs. cbn [mbind res_bind andb]. rewrite (proj2 (N.ltb_lt _ _)) by lia. rewrite N.min_l by lia. rewrite sub64_small by lia.
    exists (bk, p - 1). split; [done|]. cbn [fst]. split; [|lia]. intros _. split; [eapply tvalid_intro; eauto; lia|].
    unfold nav_next. rewrite (tover t bk) by done. rewrite Hs. cbn [mbind res_bind]. rewrite u64_small by lia.
    rewrite (proj2 (N.leb_gt _ _)) by lia. do 2 f_equal. lia.
  - replace p with 0 in * by lia. cbn [mbind res_bind andb].
    destruct (prev_scan_spec _ _ _ _ _ _ _ OK _ _ _ _ H (N.to_nat (bucket_count t)) bk) as [(r' & es' & -> & Hr' & He' & Hne' & Hemp')|[-> Hcc]]; [lia|rewrite Hc; lia| |].
    + cbn [mbind res_bind]. rewrite Hc, (proj2 (N.ltb_lt r' _)) by lia. destruct (bucket_size_spec _ _ _ _ _ _ _ OK _ _ _ _ _ _ H He') as (_ & Hs' & H255').
      rewrite Hs'. cbn [mbind res_bind]. assert (0 < length es')%nat by (destruct es'; [done|cbn; lia]). rewrite sub64_small by lia.
      exists (r', N.of_nat (length es') - 1). split; [done|]. cbn [fst]. split; [|lia]. intros _. split; [eapply tvalid_intro; eauto; lia|].
      unfold nav_next. rewrite (tover t r') by lia. rewrite Hs'. cbn [mbind res_bind]. rewrite u64_small by lia. rewrite (proj2 (N.leb_le _ _)) by lia.
      destruct (next_scan_spec _ _ _ _ _ _ _ OK _ _ _ _ H (N.to_nat (bucket_count t)) r') as (r & -> & Hr & Hemp & Hner); [lia|rewrite Hc; lia|].
      cbn [mbind res_bind]. do 2 f_equal. destruct (N.lt_trichotomy r bk) as [?|[?|?]]; [|done|].
      * destruct Hner as (es2 & He2 & Hne2); [lia|]. destruct Hne2. apply (Hemp' (N.to_nat r)); [lia|done].
      * assert (Hen : es = []) by (apply (Hemp (N.to_nat bk)); [lia|done]). rewrite Hen in Hp. cbn in Hp. lia.
    + cbn [mbind res_bind]. assert (2^63 < ones64) by done. rewrite Hc, (proj2 (N.ltb_ge ones64 _)) by lia.
      exists (ones64, 0). split; [done|]. cbn [fst]. split; [lia|done].
Qed.
(** Both navigators in the overflow. *)
Lemma tvalid_over t p : nav_invalid pf t (bucket_count t, p) = Ok false -> 0 < ov_size (t_ov t) /\ ov_valid pf (t_ov t) p = true.
Proof.
  unfold nav_invalid. rewrite N.eqb_refl, N.leb_refl, andb_true_r. destruct (N.ltb_spec 0 (ov_size (t_ov t))) as [|]; cbn [andb]; [|done].
  destruct (ov_valid pf (t_ov t) p); done.
Qed.
Lemma tov_size t sl ess ovl : tinv t sl ess ovl -> ov_size (t_ov t) < 2^64.
Proof.
  intros H. pose proof (ti_ov _ _ _ _ _ _ _ _ _ _ _ H) as Ho. rewrite (ov_size_spec _ _ _ _ _ _ Ho). destruct (t_ov t) as [| |nb els full]; cbn [ovrel] in Ho.
  - by destruct Ho as [-> _].
  - destruct Ho as (_ & _ & Hl & _). assert (256 < 2^64) by done. lia.
  - destruct Ho as (-> & (Hnb & Hmax & _) & Hnd & _). enough (N.of_nat (length els) <= nb) by lia.
    assert (Hle : (length (map (fun e => um_bucket pf nb (fst e)) els) <= length (map N.of_nat (seq 0 (N.to_nat nb))))%nat).
    { apply submseteq_length, NoDup_submseteq; [done|]. intros x (e & -> & _)%elem_of_list_fmap. apply elem_of_list_fmap.
      exists (N.to_nat (um_bucket pf nb (fst e))). split; [by rewrite N2Nat.id|]. apply elem_of_seq.
      unfold um_bucket. pose proof (N.mod_lt (um_hash pf (fst e)) nb). lia. }
    rewrite !map_length, seq_length in Hle. lia.
Qed.
Lemma tstep_over t sl ess ovl p : tinv t sl ess ovl -> nav_invalid pf t (bucket_count t, p) = Ok false ->
  (exists q, nav_next pf t (bucket_count t, p) = Ok (bucket_count t, q)
     /\ (nav_invalid pf t (bucket_count t, q) = Ok false -> nav_prev pf t (bucket_count t, q) = Ok (bucket_count t, p)))
  /\ (0 < p -> exists q, nav_prev pf t (bucket_count t, p) = Ok (bucket_count t, q)
     /\ (nav_invalid pf t (bucket_count t, q) = Ok false -> nav_next pf t (bucket_count t, q) = Ok (bucket_count t, p)))
  /\ (p = 0 -> nav_prev pf t (bucket_count t, p) = Ok (bucket_count t - 1, ones64)).
Proof.
  intros H [Hs Hv]%tvalid_over. pose proof (tov_size _ _ _ _ H) as Hsz. unfold nav_next, nav_prev. rewrite N.eqb_refl, (proj2 (N.ltb_lt 0 (ov_size (t_ov t)))) by done. cbn [andb].
  split; [|split].
  - exists (ov_next pf (t_ov t) p). split; [done|]. intros [_ Hv']%tvalid_over.
    destruct (ov_step_next pf _ _ Hsz Hv Hv') as [Hpos E]. rewrite (proj2 (N.ltb_lt _ _)) by done. by rewrite E.
  - intros Hp. rewrite (proj2 (N.ltb_lt _ _)) by done. exists (ov_prev pf (t_ov t) p). split; [done|]. intros [_ Hv']%tvalid_over.
    by rewrite (ov_step_prev pf _ _ Hsz Hp Hv Hv').
  - intros ->. cbn [N.ltb N.compare]. destruct (tinv_bc _ _ _ _ _ _ _ OK _ _ _ _ H) as [_ Hc]. pose proof (pow2_pos (t_b t)).
    pose proof (pow_lt_u64 _ _ _ _ _ _ _ OK _ _ _ _ H) as Hpow. rewrite sub64_small by lia. rewrite Hc.
    destruct (lookup_lt_is_Some_2 ess (N.to_nat (2^t_b t - 1))) as (es & He); [pose proof (tinv_len _ _ _ _ _ _ _ _ _ _ _ H); lia|].
    destruct (bucket_size_spec _ _ _ _ _ _ _ OK _ _ _ _ _ _ H He) as (_ & -> & _). cbn [mbind res_bind]. by rewrite N.min_0_l.
Qed.

(** clear() as a function of what ov_clear does. *)
Lemma clear_any t sl ess ovl : tinv t sl ess ovl -> exists o', ov_clear pf (kbn c) (vbn c) (t_ov t) = Ok o' /\ clear pf c t = Ok (Table None 0 0 (t_kw t) (t_vw t) o').
Proof.
  intros H. unfold clear. rewrite (ti_slots _ _ _ _ _ _ _ _ _ _ _ H). destruct (tinv_bc _ _ _ _ _ _ _ OK _ _ _ _ H) as [_ ->].
  pose proof (ti_len _ _ _ _ _ _ _ _ _ _ _ H) as Hlen. rewrite take_ge, drop_ge by lia.
  assert (Hr : exists sl', rmap (fun s => if s_size s =? 0 then Ok s else clear_slot pf c s) sl = Ok sl' /\ Forall (fun s => s = empty_slot) sl').
  { pose proof (ti_repr _ _ _ _ _ _ _ _ _ _ _ H) as HF. clear Hlen H. revert HF. generalize ess. induction sl as [|s sl1 IH]; intros ess1 HF.
    - exists []. split; [done|constructor].
    - apply Forall2_cons_inv_l in HF as (es & ess' & Hs & HF & ->). cbn [rmap].
      assert (E : (if s_size s =? 0 then Ok s else clear_slot pf c s) = Ok empty_slot).
      { destruct (N.eqb_spec (s_size s) 0) as [E|E]; [|by eapply slot_clear].
        destruct Hs as (Hsz & _ & Hs & _). destruct es; [by rewrite Hs|cbn in Hsz; lia]. }
      rewrite E. cbn [mbind res_bind]. destruct (IH _ HF) as (sl2 & -> & H1). cbn [mbind res_bind].
      exists (empty_slot :: sl2). split; [done|]. by constructor. }
  destruct Hr as (sl' & -> & Hall). cbn [mbind res_bind]. rewrite app_nil_r. unfold clear_structure. cbn [t_slots t_kw t_vw t_ov].
  rewrite free_empty by done. cbn [mbind res_bind].
  destruct (ov_clear_ok pf (kbn c) (vbn c) _ _ _ _ _ (ti_ov _ _ _ _ _ _ _ _ _ _ _ H)) as (o' & -> & _). cbn [mbind res_bind].
  by exists o'.
Qed.
End table.
