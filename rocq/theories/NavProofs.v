(** Navigators over a map that shows given bucket contents. *)
From Verif Require Export NavModel TableIter.

Definition nav_at (ess : list entries) (x : nav) : option (N * N) := es ← ess !! N.to_nat (fst x); es !! N.to_nat (snd x).

(** [okey k' k]: k' is what a navigator reports for a stored key k. *)
Record shows (okey : N -> N -> Prop) (V : view) (b : N) (ess : list entries) : Prop := {
  sh_b : 1 <= b <= 63;
  sh_count : v_count V = 2^b;
  sh_len : N.of_nat (length ess) = 2^b;
  sh_size : forall bk es, ess !! N.to_nat bk = Some es -> v_size V bk = Ok (N.of_nat (length es)) /\ (length es <= 255)%nat;
  sh_key : forall x k v, nav_at ess x = Some (k, v) -> exists k', vn_key V x = Ok k' /\ okey k' k;
  sh_value : forall x k v, nav_at ess x = Some (k, v) -> vn_value V x = Ok v
}.
(** Pair seen and pair stored. *)
Definition oent (okey : N -> N -> Prop) (a e : N * N) : Prop := okey (fst a) (fst e) /\ snd a = snd e.

Section nav.
Context (okey : N -> N -> Prop) (V : view) (b : N) (ess : list entries).
Hypothesis H : shows okey V b ess.

Lemma sh_pow : 1 <= 2^b <= 2^63.
Proof. split; [pose proof (pow2_pos b); lia|]. apply pow2_le_63. apply H. Qed.
Lemma nav_at_bucket bk p e : nav_at ess (bk, p) = Some e -> exists es, ess !! N.to_nat bk = Some es /\ es !! N.to_nat p = Some e
  /\ bk < 2^b /\ (N.to_nat p < length es)%nat.
Proof.
  unfold nav_at. cbn [fst snd]. intros He. destruct (ess !! N.to_nat bk) as [es|] eqn:E; [|done]. cbn in He.
  exists es. split; [done|]. split; [done|]. pose proof (sh_len _ _ _ _ H). apply lookup_lt_Some in E, He. lia.
Qed.
Lemma nav_at_intro bk p es e : ess !! N.to_nat bk = Some es -> es !! N.to_nat p = Some e -> nav_at ess (bk, p) = Some e.
Proof. intros He Hp. unfold nav_at. cbn [fst snd]. rewrite He. done. Qed.
Lemma sh_lookup bk : bk < 2^b -> exists es, ess !! N.to_nat bk = Some es.
Proof. intros Hb. apply lookup_lt_is_Some. pose proof (sh_len _ _ _ _ H). lia. Qed.

Lemma vn_invalid_end : vn_invalid V end_nav = Ok true.
Proof.
  unfold vn_invalid, end_nav. pose proof sh_pow. assert (2^63 <= ones64) by done. rewrite (sh_count _ _ _ _ H).
  by rewrite (proj2 (N.leb_le _ _)) by lia.
Qed.
Lemma vn_invalid_past bk p : 2^b <= bk -> vn_invalid V (bk, p) = Ok true.
Proof. intros Hb. unfold vn_invalid. rewrite (sh_count _ _ _ _ H). by rewrite (proj2 (N.leb_le _ _)) by lia. Qed.
Lemma vn_invalid_at x e : nav_at ess x = Some e -> vn_invalid V x = Ok false.
Proof.
  destruct x as [bk p]. intros He. destruct (nav_at_bucket _ _ _ He) as (es & Hes & Hp & Hb & Hl).
  unfold vn_invalid. rewrite (sh_count _ _ _ _ H), (proj2 (N.leb_gt _ _)) by lia.
  destruct (sh_size _ _ _ _ H _ _ Hes) as [-> _]. cbn [mbind res_bind]. by rewrite (proj2 (N.leb_gt _ _)) by lia.
Qed.
Lemma vn_eq_end_at x e : nav_at ess x = Some e -> vn_eq V x end_nav = Ok false.
Proof. intros He. unfold vn_eq. rewrite vn_invalid_end, (vn_invalid_at _ _ He). done. Qed.
Lemma vn_eq_end_end : vn_eq V end_nav end_nav = Ok true.
Proof. unfold vn_eq. rewrite vn_invalid_end. done. Qed.
Lemma vn_eq_end_past bk p : 2^b <= bk -> vn_eq V (bk, p) end_nav = Ok true.
Proof. intros Hb. unfold vn_eq. rewrite vn_invalid_end, vn_invalid_past by done. done. Qed.
Lemma vn_read_at x e : nav_at ess x = Some e -> exists a, vn_read V x = Ok a /\ oent okey a e.
Proof.
  destruct e as [k v]. intros He. destruct (sh_key _ _ _ _ H _ _ _ He) as (k' & Hk & Ho). unfold vn_read.
  rewrite Hk. cbn [mbind res_bind]. rewrite (sh_value _ _ _ _ H _ _ _ He). by exists (k', v).
Qed.
Lemma v_iter_at_end : v_iter_at V end_nav = Ok None.
Proof. unfold v_iter_at. by rewrite vn_invalid_end. Qed.
Lemma v_iter_at_at x e : nav_at ess x = Some e -> exists a, v_iter_at V x = Ok (Some a) /\ oent okey a e.
Proof.
  intros He. destruct (vn_read_at _ _ He) as (a & Ha & Ho). exists a. split; [|done]. unfold v_iter_at.
  rewrite (vn_invalid_at _ _ He). cbn [mbind res_bind]. by rewrite Ha.
Qed.

(** ** Forwards *)
Lemma vnext_scan_spec : forall f bk, bk < 2^b -> (N.to_nat (2^b - bk) <= S f)%nat ->
  exists r, vnext_scan V f bk = Ok r /\ bk < r <= 2^b
    /\ (forall i es, (N.to_nat bk < i < N.to_nat r)%nat -> ess !! i = Some es -> es = [])
    /\ (r < 2^b -> exists es, ess !! N.to_nat r = Some es /\ es <> []).
Proof.
  pose proof sh_pow as Hpow. pose proof (sh_len _ _ _ _ H) as Hlen. pose proof (sh_count _ _ _ _ H) as Hbc.
  induction f as [|f IH]; intros bk Hbk Hf.
  - cbn [vnext_scan]. rewrite Hbc, u64_small by lia. rewrite (proj2 (N.ltb_ge _ _)) by lia.
    exists (bk + 1). split; [done|]. split; [lia|]. split; [intros; lia|lia].
  - cbn [vnext_scan]. rewrite Hbc, u64_small by lia. destruct (N.ltb_spec (bk + 1) (2^b)) as [Hlt|Hge].
    + destruct (sh_lookup (bk + 1) Hlt) as (es & He).
      destruct (sh_size _ _ _ _ H _ _ He) as [-> _]. cbn [mbind res_bind].
      destruct es as [|e es].
      * cbn [length N.of_nat N.eqb]. destruct (IH (bk + 1) Hlt ltac:(lia)) as (r & -> & Hr & Hempty & Hne).
        exists r. split; [done|]. split; [lia|]. split; [|done]. intros i es' Hi Hes'.
        destruct (decide (i = N.to_nat (bk + 1))) as [->|]; [congruence|]. apply (Hempty i es'); [lia|done].
      * rewrite (proj2 (N.eqb_neq _ _)) by (cbn [length]; lia). exists (bk + 1). split; [done|]. split; [lia|].
        split; [intros; lia|]. intros _. by exists (e :: es).
    + exists (bk + 1). split; [done|]. split; [lia|]. split; [intros; lia|lia].
Qed.

Lemma v_iterate_end f bk p : 2^b <= bk -> v_iterate V f (bk, p) = Ok [].
Proof. intros Hb. destruct f; cbn [v_iterate]; by rewrite (vn_eq_end_past _ _ Hb). Qed.
Lemma v_iterate_end_nav f : v_iterate V f end_nav = Ok [].
Proof. apply v_iterate_end. pose proof sh_pow. assert (2^63 <= ones64) by done. lia. Qed.

Lemma v_iterate_spec : forall l bk p es, ess !! N.to_nat bk = Some es -> (N.to_nat p < length es)%nat ->
  drop (N.to_nat p) es ++ concat (drop (S (N.to_nat bk)) ess) = l ->
  forall f, (length l <= f)%nat -> exists l', v_iterate V f (bk, p) = Ok l' /\ Forall2 (oent okey) l' l.
Proof.
  pose proof (sh_len _ _ _ _ H) as Hlen. pose proof (sh_count _ _ _ _ H) as Hbc.
  induction l as [|e l IH]; intros bk p es He Hp Hl f Hf.
  { exfalso. apply (f_equal length) in Hl. rewrite app_length, drop_length in Hl. cbn in Hl. lia. }
  destruct (lookup_lt_is_Some_2 es (N.to_nat p) Hp) as (e' & Hep).
  rewrite (drop_S _ _ _ Hep) in Hl. cbn [app] in Hl. injection Hl as <- Hl.
  destruct (sh_size _ _ _ _ H _ _ He) as [Hbs H255].
  assert (Hlt : bk < 2^b) by (apply lookup_lt_Some in He; lia).
  pose proof (nav_at_intro _ _ _ _ He Hep) as Hne.
  destruct (vn_read_at _ _ Hne) as (a & Hrd & Ha).
  destruct f as [|f]; [cbn in Hf; lia|]. cbn [length] in Hf.
  cbn [v_iterate]. rewrite (vn_eq_end_at _ _ Hne). cbn [mbind res_bind]. rewrite Hrd. cbn [mbind res_bind].
  unfold vn_next. rewrite Hbs. cbn [mbind res_bind].
  rewrite u64_small by lia. destruct (N.leb_spec (N.of_nat (length es)) (p + 1)) as [Hle|Hgt].
  - rewrite drop_ge in Hl by lia. cbn [app] in Hl.
    destruct (vnext_scan_spec (N.to_nat (v_count V)) bk Hlt) as (r & -> & Hr & Hempty & Hner); [rewrite Hbc; lia|].
    cbn [mbind res_bind]. rewrite (concat_drop_skip ess _ (N.to_nat r)) in Hl; [|lia|intros i es' Hi; apply Hempty; lia].
    destruct (decide (r = 2^b)) as [->|].
    + rewrite drop_ge in Hl by lia. cbn in Hl. subst l. rewrite v_iterate_end by lia. cbn [mbind res_bind].
      exists [a]. split; [done|]. apply List.Forall2_cons; [done|apply List.Forall2_nil].
    + destruct Hner as (es' & He' & Hne'); [lia|]. rewrite (drop_S _ _ _ He') in Hl. cbn [concat] in Hl.
      destruct (IH r 0 es' He') with (f := f) as (l' & -> & Hl'); [destruct es'; [done|cbn; lia]|done|lia|].
      cbn [mbind res_bind]. exists (a :: l'). split; [done|]. by apply List.Forall2_cons.
  - cbn [mbind res_bind]. destruct (IH bk (p + 1) es He) with (f := f) as (l' & -> & Hl'); [lia| |lia|].
    + rewrite <-Hl. by replace (N.to_nat (p + 1)) with (S (N.to_nat p)) by lia.
    + cbn [mbind res_bind]. exists (a :: l'). split; [done|]. by apply List.Forall2_cons.
Qed.

Lemma v_begin_scan_spec : forall n bk, (N.to_nat bk + n = length ess)%nat ->
  (exists r es, v_begin_scan V n bk = Ok (r, 0) /\ bk <= r /\ ess !! N.to_nat r = Some es /\ es <> []
     /\ (forall i es, (N.to_nat bk <= i < N.to_nat r)%nat -> ess !! i = Some es -> es = []))
  \/ (v_begin_scan V n bk = Ok end_nav /\ concat (drop (N.to_nat bk) ess) = []).
Proof.
  induction n as [|n IH]; intros bk Hn.
  - right. split; [done|]. by rewrite drop_ge by lia.
  - destruct (lookup_lt_is_Some_2 ess (N.to_nat bk) ltac:(lia)) as (es & He).
    destruct (sh_size _ _ _ _ H _ _ He) as [Hbs _]. cbn [v_begin_scan]. rewrite Hbs. cbn [mbind res_bind].
    destruct es as [|e es].
    + cbn [length N.of_nat N.ltb N.compare]. destruct (IH (bk + 1) ltac:(lia)) as [(r & es & Hs & Hr & He' & Hne & Hempty)|[-> Hc]].
      * left. exists r, es. split; [done|]. split; [lia|]. split; [done|]. split; [done|]. intros i es' Hi Hes'.
        destruct (decide (i = N.to_nat bk)) as [->|]; [congruence|]. apply (Hempty i); [lia|done].
      * right. split; [done|]. rewrite (drop_S _ _ _ He). cbn [concat app].
        by replace (S (N.to_nat bk)) with (N.to_nat (bk + 1)) by lia.
    + left. rewrite (proj2 (N.ltb_lt _ _)) by (cbn [length]; lia). exists bk, (e :: es). split; [done|]. split; [lia|].
      split; [done|]. split; [done|]. intros; lia.
Qed.

(** The whole map from the first element of the first non-empty bucket on. *)
Lemma v_iterate_first r es f : ess !! N.to_nat r = Some es -> es <> [] ->
  (forall i es, (i < N.to_nat r)%nat -> ess !! i = Some es -> es = []) -> (length (concat ess) <= f)%nat ->
  exists l, v_iterate V f (r, 0) = Ok l /\ Forall2 (oent okey) l (concat ess).
Proof.
  intros He Hne Hempty Hf.
  assert (E : concat ess = es ++ concat (drop (S (N.to_nat r)) ess)).
  { etrans; [exact (concat_drop_skip ess 0 (N.to_nat r) ltac:(lia) ltac:(intros i es' Hi; apply Hempty; lia))|].
    by rewrite (drop_S _ _ _ He). }
  apply (v_iterate_spec (concat ess) r 0 es He); [destruct es; [done|cbn; lia]|done|done].
Qed.
Lemma v_forward_spec f : (length (concat ess) <= f)%nat ->
  exists l, (x ← v_begin V; v_iterate V f x) = Ok l /\ Forall2 (oent okey) l (concat ess).
Proof.
  intros Hf. unfold v_begin. rewrite (sh_count _ _ _ _ H). pose proof (sh_len _ _ _ _ H) as Hlen.
  destruct (v_begin_scan_spec (N.to_nat (2^b)) 0) as [(r & es & -> & Hr & He & Hne & Hempty)|[-> Hc]]; [lia|..]; cbn [mbind res_bind].
  - eapply v_iterate_first; try done. intros i es' Hi. apply Hempty. lia.
  - change (concat ess = []) in Hc. rewrite Hc, v_iterate_end_nav. exists []. split; [done|constructor].
Qed.

(** ** Backwards *)
Lemma vprev_scan_spec : forall f bk, bk < 2^b -> (N.to_nat bk <= f)%nat ->
  (exists r es, vprev_scan V f bk = Ok r /\ r < bk /\ ess !! N.to_nat r = Some es /\ es <> []
     /\ (forall i es, (N.to_nat r < i < N.to_nat bk)%nat -> ess !! i = Some es -> es = []))
  \/ vprev_scan V f bk = Ok ones64 /\ concat (take (N.to_nat bk) ess) = [].
Proof.
  pose proof sh_pow as Hpow. pose proof (sh_len _ _ _ _ H) as Hlen. pose proof (sh_count _ _ _ _ H) as Hbc.
  assert (Hones : 2^63 < ones64) by done.
  assert (Hzero : forall f, vprev_scan V f 0 = Ok ones64).
  { intros f. destruct f; cbn [vprev_scan]; change (sub64 0 1) with ones64; rewrite Hbc, (proj2 (N.ltb_ge _ _)) by lia; done. }
  induction f as [|f IH]; intros bk Hbk Hf.
  - right. replace bk with 0 by lia. split; [apply Hzero|done].
  - destruct (decide (bk = 0)) as [->|Hne0]; [right; split; [apply Hzero|done]|].
    cbn [vprev_scan]. rewrite sub64_small by lia. rewrite Hbc, (proj2 (N.ltb_lt _ _)) by lia.
    destruct (sh_lookup (bk - 1) ltac:(lia)) as (es & He).
    destruct (sh_size _ _ _ _ H _ _ He) as [-> _]. cbn [mbind res_bind].
    destruct es as [|e es].
    + cbn [length N.of_nat N.eqb]. destruct (IH (bk - 1) ltac:(lia) ltac:(lia)) as [(r & es & Hs & Hr & He' & Hne & Hempty)|[-> Hc]].
      * left. exists r, es. split; [done|]. split; [lia|]. split; [done|]. split; [done|]. intros i es' Hi Hes'.
        destruct (decide (i = N.to_nat (bk - 1))) as [->|]; [congruence|]. apply (Hempty i); [lia|done].
      * right. split; [done|]. replace (N.to_nat bk) with (S (N.to_nat (bk - 1))) by lia.
        rewrite (take_S_r _ _ _ He), concat_app, Hc. done.
    + left. rewrite (proj2 (N.eqb_neq _ _)) by (cbn [length]; lia). exists (bk - 1), (e :: es). split; [done|].
      split; [lia|]. split; [done|]. split; [done|]. intros; lia.
Qed.

Lemma vn_prev_spec bk p es : ess !! N.to_nat bk = Some es -> (N.to_nat p <= length es)%nat ->
  (exists bk' p' es', vn_prev V (bk, p) = Ok (bk', p') /\ ess !! N.to_nat bk' = Some es' /\ (N.to_nat p' < length es')%nat
     /\ concat (take (N.to_nat bk) ess) ++ take (N.to_nat p) es = concat (take (N.to_nat bk') ess) ++ take (S (N.to_nat p')) es')
  \/ (exists p', vn_prev V (bk, p) = Ok (ones64, p')) /\ concat (take (N.to_nat bk) ess) ++ take (N.to_nat p) es = [].
Proof.
  intros He Hp. destruct (sh_size _ _ _ _ H _ _ He) as [Hbs H255]. pose proof (sh_len _ _ _ _ H) as Hlen.
  assert (Hlt : bk < 2^b) by (apply lookup_lt_Some in He; lia).
  pose proof (sh_count _ _ _ _ H) as Hbc. pose proof sh_pow as Hpow.
  unfold vn_prev. destruct (N.ltb_spec 0 p) as [Hpos|Hzero].
  - rewrite Hbs. cbn [mbind res_bind andb]. rewrite (proj2 (N.ltb_lt _ _)) by lia. left.
    rewrite N.min_l by lia. rewrite sub64_small by lia. exists bk, (p - 1), es. split; [done|]. split; [done|].
    split; [lia|]. by replace (S (N.to_nat (p - 1))) with (N.to_nat p) by lia.
  - cbn [mbind res_bind andb]. replace p with 0 in * by lia.
    change (take (N.to_nat 0) es) with (@nil (N * N)). rewrite app_nil_r.
    destruct (vprev_scan_spec (N.to_nat (v_count V)) bk Hlt) as [(r & es' & -> & Hr & He' & Hne & Hempty)|[-> Hc]]; [rewrite Hbc; lia|..].
    + cbn [mbind res_bind]. rewrite Hbc, (proj2 (N.ltb_lt r (2^b))) by lia.
      destruct (sh_size _ _ _ _ H _ _ He') as [-> H255']. cbn [mbind res_bind].
      left. assert (0 < length es')%nat by (destruct es'; [done|cbn; lia]).
      rewrite sub64_small by lia. exists r, (N.of_nat (length es') - 1), es'. split; [done|]. split; [done|]. split; [lia|].
      rewrite (concat_take_skip ess (S (N.to_nat r))); [|lia|intros i es2 Hi; apply Hempty; lia].
      rewrite (take_S_r _ _ _ He'), concat_app. cbn [concat]. rewrite app_nil_r. f_equal. by rewrite take_ge by lia.
    + cbn [mbind res_bind]. assert (2^63 < ones64) by done. rewrite Hbc, (proj2 (N.ltb_ge ones64 (2^b))) by lia.
      right. split; [by eexists|done].
Qed.

Lemma v_iterate_rev_end f bk p : 2^b <= bk -> v_iterate_rev V f (bk, p) = Ok [].
Proof. intros Hb. destruct f; cbn [v_iterate_rev]; by rewrite (vn_eq_end_past _ _ Hb). Qed.

Lemma v_iterate_rev_spec : forall l bk p es, ess !! N.to_nat bk = Some es -> (N.to_nat p < length es)%nat ->
  concat (take (N.to_nat bk) ess) ++ take (S (N.to_nat p)) es = rev l ->
  forall f, (length l <= f)%nat -> exists l', v_iterate_rev V f (bk, p) = Ok l' /\ Forall2 (oent okey) l' l.
Proof.
  induction l as [|e l IH]; intros bk p es He Hp Hl f Hf.
  { exfalso. apply (f_equal length) in Hl. rewrite app_length, take_length in Hl. cbn [rev length] in Hl. lia. }
  destruct (lookup_lt_is_Some_2 es (N.to_nat p) Hp) as (e' & Hep).
  rewrite (take_S_r _ _ _ Hep), app_assoc in Hl. cbn [rev] in Hl. apply app_inj_tail in Hl as [Hl <-].
  pose proof (nav_at_intro _ _ _ _ He Hep) as Hne.
  destruct (vn_read_at _ _ Hne) as (a & Hrd & Ha).
  destruct f as [|f]; [cbn in Hf; lia|]. cbn [length] in Hf.
  cbn [v_iterate_rev]. rewrite (vn_eq_end_at _ _ Hne). cbn [mbind res_bind]. rewrite Hrd. cbn [mbind res_bind].
  destruct (vn_prev_spec bk p es He) as [(bk' & p' & es' & -> & He' & Hp' & Ec)|[(p' & ->) Ec]]; [lia|..].
  - cbn [mbind res_bind]. destruct (IH bk' p' es' He' Hp') with (f := f) as (l' & -> & Hl'); [by rewrite <-Ec|lia|].
    cbn [mbind res_bind]. exists (a :: l'). split; [done|]. by apply List.Forall2_cons.
  - cbn [mbind res_bind]. rewrite Hl in Ec. destruct l as [|y l]; [|cbn in Ec; by destruct (rev l)].
    pose proof sh_pow. assert (2^63 < ones64) by done.
    rewrite v_iterate_rev_end by lia. exists [a]. split; [done|]. apply List.Forall2_cons; [done|apply List.Forall2_nil].
Qed.

Lemma v_rbegin_scan_spec : concat ess <> [] -> forall f bk, bk < 2^b -> (N.to_nat bk < f)%nat ->
  concat (drop (S (N.to_nat bk)) ess) = [] ->
  exists r es, v_rbegin_scan V f bk = Ok (r, N.of_nat (length es) - 1) /\ ess !! N.to_nat r = Some es /\ es <> [] /\ concat (drop (S (N.to_nat r)) ess) = [].
Proof.
  intros Hne. pose proof sh_pow as Hpow.
  induction f as [|f IH]; intros bk Hbk Hf Hc; [lia|]. cbn [v_rbegin_scan].
  destruct (sh_lookup bk Hbk) as (es & He).
  destruct (sh_size _ _ _ _ H _ _ He) as [-> H255]. cbn [mbind res_bind].
  destruct es as [|e es].
  - cbn [length N.of_nat N.ltb N.compare].
    assert (Hc' : concat (drop (N.to_nat bk) ess) = []) by (by rewrite (drop_S _ _ _ He)).
    destruct (decide (bk = 0)) as [->|]; [done|].
    rewrite sub64_small by lia. apply IH; [lia|lia|]. by replace (S (N.to_nat (bk - 1))) with (N.to_nat bk) by lia.
  - rewrite (proj2 (N.ltb_lt _ _)) by (cbn [length]; lia). rewrite sub64_small by (cbn [length] in *; lia).
    by exists bk, (e :: es).
Qed.
Lemma v_backward_spec f : concat ess <> [] -> (length (concat ess) <= f)%nat ->
  exists l, (x ← v_rbegin V; v_iterate_rev V f x) = Ok l /\ Forall2 (oent okey) l (rev (concat ess)).
Proof.
  intros Hne Hf. pose proof (sh_len _ _ _ _ H) as Hlen. pose proof sh_pow as Hpow.
  unfold v_rbegin. rewrite (sh_count _ _ _ _ H). rewrite (proj2 (N.eqb_neq _ _)) by lia. rewrite sub64_small by lia.
  destruct (v_rbegin_scan_spec Hne (S (N.to_nat (2^b))) (2^b - 1)) as (r & es & -> & He & Hes & Hc); [lia|lia|by rewrite drop_ge by lia|].
  cbn [mbind res_bind]. assert (0 < length es)%nat by (destruct es; [done|cbn; lia]).
  apply (v_iterate_rev_spec (rev (concat ess)) r (N.of_nat (length es) - 1) es He); [lia| |by rewrite rev_length].
  rewrite rev_involutive, (concat_split _ _ _ He), Hc, app_nil_r. f_equal. apply take_ge. lia.
Qed.
End nav.

(** Reported keys are the stored keys. *)
Lemma oent_eq l l' : Forall2 (oent eq) l l' -> l = l'.
Proof.
  induction 1 as [|[a1 a2] [e1 e2] l l' [H1 H2] _ IH]; [done|]. cbn in *. congruence.
Qed.
