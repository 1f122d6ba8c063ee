(** Iteration over a table without overflow elements. *)
From Verif Require Export IterModel TableFacts.

Section lists.
Context {A : Type}.
Implicit Types (ess : list (list A)).
Lemma concat_drop_skip ess i j : (i <= j)%nat -> (forall r es, (i <= r < j)%nat -> ess !! r = Some es -> es = []) ->
  concat (drop i ess) = concat (drop j ess).
Proof.
  intros Hij H. induction j as [|j IH]; [by replace i with 0%nat by lia|].
  destruct (decide (i = S j)) as [->|]; [done|]. rewrite IH; [|lia|intros; eapply H; [|done]; lia].
  destruct (ess !! j) as [es|] eqn:E.
  - rewrite (drop_S _ _ _ E). cbn [concat]. by rewrite (H j es ltac:(lia) E).
  - apply lookup_ge_None in E. by rewrite !drop_ge by lia.
Qed.
Lemma concat_take_skip ess i j : (i <= j)%nat -> (forall r es, (i <= r < j)%nat -> ess !! r = Some es -> es = []) ->
  concat (take j ess) = concat (take i ess).
Proof.
  intros Hij H. induction j as [|j IH]; [by replace i with 0%nat by lia|].
  destruct (decide (i = S j)) as [->|]; [done|].
  destruct (ess !! j) as [es|] eqn:E.
  - rewrite (take_S_r _ _ _ E), concat_app. cbn [concat]. rewrite (H j es ltac:(lia) E), !app_nil_r.
    apply IH; [lia|]. intros; eapply H; [|done]; lia.
  - apply lookup_ge_None in E. rewrite !take_ge by lia. rewrite <-IH; [|lia|intros; eapply H; [|done]; lia].
    by rewrite take_ge by lia.
Qed.
End lists.

Section iter.
Context (pf : platform) (c : cfg) (kw vw bmin bmax : N) (strict : Prop).
Notation nv := (nv c vw).
Notation tinv := (tinv pf c kw vw bmin bmax strict).
Notation tzero := (tzero pf c kw vw).
Notation nav_entry := (nav_entry pf).
Hypothesis OK : table_ok0 pf c kw vw bmin bmax.
Implicit Types (t : table) (ess : list entries) (ovl E : entries) (sl : list slot).

Lemma tinv_noov t sl ess : tinv t sl ess [] -> (0 <? ov_size (t_ov t)) = false.
Proof. intros H. rewrite (ov_size_spec _ _ _ _ _ _ (ti_ov _ _ _ _ _ _ _ _ _ _ _ H)). done. Qed.

Lemma bucket_size_spec t sl ess ovl bk es : tinv t sl ess ovl -> ess !! N.to_nat bk = Some es ->
  bk < 2^(t_b t) /\ bucket_size t bk = Ok (N.of_nat (length es)) /\ (length es <= 255)%nat.
Proof.
  intros H He. assert (Hlt : bk < 2^(t_b t)).
  { pose proof (tinv_len _ _ _ _ _ _ _ _ _ _ _ H). apply lookup_lt_Some in He. lia. }
  split; [done|].
  destruct (tinv_slot pf c kw vw bmin bmax strict t sl ess ovl bk H Hlt) as (s & es' & Hg & _ & He' & Hr).
  rewrite He in He'. injection He' as <-. unfold bucket_size. rewrite Hg. cbn [mbind res_bind].
  destruct Hr as (-> & Hle & _). pose proof (ok_maxb _ _ _ _ _ _ OK). split; [done|lia].
Qed.
Lemma pow_lt_u64 t sl ess ovl : tinv t sl ess ovl -> 2^(t_b t) <= 2^63.
Proof. intros H. apply pow2_le_63. pose proof (tinv_b pf c kw vw bmin bmax strict OK _ _ _ _ H). lia. Qed.

Lemma nav_eq_valid t sl ess ovl x e : tinv t sl ess ovl -> nav_entry t ess x = Some e ->
  nav_eq pf t x end_nav = Ok false /\ nav_read pf c t x = Ok e.
Proof.
  intros H He. split; [by eapply nav_eq_end|]. destruct e as [k v].
  destruct (nav_entry_read pf c kw vw bmin bmax strict OK _ _ _ _ _ _ _ H He) as (_ & Hk & Hv).
  unfold nav_read. rewrite Hk. cbn [mbind res_bind]. by rewrite Hv.
Qed.
Lemma nav_eq_invalid t sl ess bk p : tinv t sl ess [] -> 2^(t_b t) <= bk -> nav_eq pf t (bk, p) end_nav = Ok true.
Proof.
  intros H Hbk. unfold nav_eq. rewrite (end_nav_invalid pf c kw vw bmin bmax strict OK _ _ _ _ H).
  unfold nav_invalid at 1. rewrite (tinv_noov _ _ _ H). cbn [andb].
  destruct (tinv_bc pf c kw vw bmin bmax strict OK _ _ _ _ H) as [_ ->]. by rewrite (proj2 (N.leb_le _ _)) by done.
Qed.

(** ** Forwards *)
Lemma next_scan_spec t sl ess ovl : tinv t sl ess ovl -> forall f bk, bk < 2^(t_b t) -> (N.to_nat (2^(t_b t) - bk) <= S f)%nat ->
  exists r, next_scan f t bk = Ok r /\ bk < r <= 2^(t_b t)
    /\ (forall i es, (N.to_nat bk < i < N.to_nat r)%nat -> ess !! i = Some es -> es = [])
    /\ (r < 2^(t_b t) -> exists es, ess !! N.to_nat r = Some es /\ es <> []).
Proof.
  intros H. pose proof (pow_lt_u64 _ _ _ _ H) as Hpow. pose proof (tinv_len _ _ _ _ _ _ _ _ _ _ _ H) as Hlen.
  destruct (tinv_bc pf c kw vw bmin bmax strict OK _ _ _ _ H) as [_ Hbc].
  induction f as [|f IH]; intros bk Hbk Hf.
  - cbn [next_scan]. rewrite Hbc, u64_small by lia. rewrite (proj2 (N.ltb_ge _ _)) by lia.
    exists (bk + 1). split; [done|]. split; [lia|]. split; [intros; lia|lia].
  - cbn [next_scan]. rewrite Hbc, u64_small by lia. destruct (N.ltb_spec (bk + 1) (2^(t_b t))) as [Hlt|Hge].
    + destruct (lookup_bucket_lt ess (bk + 1) _ Hlen Hlt) as (es & He).
      destruct (bucket_size_spec _ _ _ _ _ _ H He) as (_ & -> & _). cbn [mbind res_bind].
      destruct es as [|e es].
      * cbn [length N.of_nat N.eqb]. destruct (IH (bk + 1) Hlt ltac:(lia)) as (r & -> & Hr & Hempty & Hne).
        exists r. split; [done|]. split; [lia|]. split; [|done]. intros i es' Hi Hes'.
        destruct (decide (i = N.to_nat (bk + 1))) as [->|]; [congruence|]. apply (Hempty i es'); [lia|done].
      * rewrite (proj2 (N.eqb_neq _ _)) by (cbn [length]; lia). exists (bk + 1). split; [done|]. split; [lia|].
        split; [intros; lia|]. intros _. by exists (e :: es).
    + exists (bk + 1). split; [done|]. split; [lia|]. split; [intros; lia|lia].
Qed.

Lemma iterate_spec t sl ess : tinv t sl ess [] -> forall l bk p es, ess !! N.to_nat bk = Some es -> (N.to_nat p < length es)%nat ->
  drop (N.to_nat p) es ++ concat (drop (S (N.to_nat bk)) ess) = l ->
  forall f, (length l <= f)%nat -> iterate pf c f t (bk, p) = Ok l.
Proof.
  intros H. pose proof (tinv_len _ _ _ _ _ _ _ _ _ _ _ H) as Hlen.
  destruct (tinv_bc pf c kw vw bmin bmax strict OK _ _ _ _ H) as [_ Hbc].
  induction l as [|e l IH]; intros bk p es He Hp Hl f Hf.
  { exfalso. apply (f_equal length) in Hl. rewrite app_length, drop_length in Hl. cbn in Hl. lia. }
  destruct (lookup_lt_is_Some_2 es (N.to_nat p) Hp) as (e' & Hep).
  rewrite (drop_S _ _ _ Hep) in Hl. cbn [app] in Hl. injection Hl as <- Hl.
  destruct (bucket_size_spec _ _ _ _ _ _ H He) as (Hlt & Hbs & H255).
  assert (Hne : nav_entry t ess (bk, p) = Some e') by (by eapply nav_entry_bucket).
  destruct (nav_eq_valid _ _ _ _ _ _ H Hne) as [Heq Hrd].
  destruct f as [|f]; [cbn in Hf; lia|]. cbn [length] in Hf.
  cbn [iterate]. rewrite Heq. cbn [mbind res_bind]. rewrite Hrd. cbn [mbind res_bind].
  unfold nav_next. rewrite (tinv_noov _ _ _ H). cbn [andb]. rewrite Hbs. cbn [mbind res_bind].
  rewrite u64_small by lia. destruct (N.leb_spec (N.of_nat (length es)) (p + 1)) as [Hle|Hgt].
  - rewrite drop_ge in Hl by lia. cbn [app] in Hl.
    destruct (next_scan_spec _ _ _ _ H (N.to_nat (bucket_count t)) bk Hlt) as (r & -> & Hr & Hempty & Hner); [rewrite Hbc; lia|].
    cbn [mbind res_bind]. rewrite (concat_drop_skip ess _ (N.to_nat r)) in Hl; [|lia|intros i es' Hi; apply Hempty; lia].
    destruct (decide (r = 2^(t_b t))) as [->|].
    + rewrite drop_ge in Hl by lia. cbn in Hl. subst l.
      assert (Hit : iterate pf c f t (2^(t_b t), 0) = Ok []).
      { destruct f; cbn [iterate]; rewrite (nav_eq_invalid _ _ _ _ _ H) by lia; done. }
      by rewrite Hit.
    + destruct Hner as (es' & He' & Hne'); [lia|]. rewrite (drop_S _ _ _ He') in Hl. cbn [concat] in Hl.
      rewrite (IH r 0 es' He'); [done| |done|lia]. destruct es'; [done|cbn; lia].
  - cbn [mbind res_bind]. rewrite (IH bk (p + 1) es He); [done|lia| |lia].
    rewrite <-Hl. by replace (N.to_nat (p + 1)) with (S (N.to_nat p)) by lia.
Qed.

Lemma begin_scan_spec t sl ess ovl : tinv t sl ess ovl -> forall n bk, (N.to_nat bk + n = length ess)%nat ->
  (exists r es, begin_scan t n bk = Ok (r, 0) /\ bk <= r /\ ess !! N.to_nat r = Some es /\ es <> []
     /\ (forall i es, (N.to_nat bk <= i < N.to_nat r)%nat -> ess !! i = Some es -> es = []))
  \/ (begin_scan t n bk = (if 0 <? ov_size (t_ov t) then Ok (bucket_count t, 0) else Ok end_nav)
      /\ concat (drop (N.to_nat bk) ess) = []).
Proof.
  intros H. induction n as [|n IH]; intros bk Hn.
  - right. split; [done|]. by rewrite drop_ge by lia.
  - destruct (lookup_lt_is_Some_2 ess (N.to_nat bk) ltac:(lia)) as (es & He).
    destruct (bucket_size_spec _ _ _ _ _ _ H He) as (_ & Hbs & _). cbn [begin_scan]. rewrite Hbs. cbn [mbind res_bind].
    destruct es as [|e es].
    + cbn [length N.of_nat N.ltb N.compare]. destruct (IH (bk + 1) ltac:(lia)) as [(r & es & Hs & Hr & He' & Hne & Hempty)|[-> Hc]].
      * left. exists r, es. split; [done|]. split; [lia|]. split; [done|]. split; [done|]. intros i es' Hi Hes'.
        destruct (decide (i = N.to_nat bk)) as [->|]; [congruence|]. apply (Hempty i); [lia|done].
      * right. split; [done|]. rewrite (drop_S _ _ _ He). cbn [concat app].
        by replace (S (N.to_nat bk)) with (N.to_nat (bk + 1)) by lia.
    + left. rewrite (proj2 (N.ltb_lt _ _)) by (cbn [length]; lia). exists bk, (e :: es). split; [done|]. split; [lia|].
      split; [done|]. split; [done|]. intros; lia.
Qed.

Lemma forward_spec t sl ess : tinv t sl ess [] -> forall f, (length (concat ess) <= f)%nat -> forward pf c f t = Ok (concat ess).
Proof.
  intros H f Hf. unfold forward, begin_nav. destruct (tinv_bc pf c kw vw bmin bmax strict OK _ _ _ _ H) as [_ ->].
  pose proof (tinv_len _ _ _ _ _ _ _ _ _ _ _ H) as Hlen.
  destruct (begin_scan_spec _ _ _ _ H (N.to_nat (2^(t_b t))) 0) as [(r & es & -> & Hr & He & Hne & Hempty)|[-> Hc]]; [lia|..].
  - cbn [mbind res_bind].
    assert (E : concat ess = es ++ concat (drop (S (N.to_nat r)) ess)).
    { etrans; [exact (concat_drop_skip ess 0 (N.to_nat r) ltac:(lia) ltac:(intros i es' Hi; apply Hempty; lia))|].
      by rewrite (drop_S _ _ _ He). }
    rewrite (iterate_spec _ _ _ H (concat ess) r 0 es He); [done| |done|done]. destruct es; [done|cbn; lia].
  - rewrite (tinv_noov _ _ _ H). cbn [mbind res_bind]. change (concat ess = []) in Hc. rewrite Hc.
    pose proof (pow_lt_u64 _ _ _ _ H). assert (2^63 < ones64) by done.
    pose proof (nav_eq_invalid _ _ _ ones64 ones64 H ltac:(lia)) as Heq. change (ones64, ones64) with end_nav in Heq.
    destruct f; cbn [iterate]; rewrite Heq; done.
Qed.

(** ** Backwards *)
Lemma prev_scan_spec t sl ess ovl : tinv t sl ess ovl -> forall f bk, bk < 2^(t_b t) -> (N.to_nat bk <= f)%nat ->
  (exists r es, prev_scan f t bk = Ok r /\ r < bk /\ ess !! N.to_nat r = Some es /\ es <> []
     /\ (forall i es, (N.to_nat r < i < N.to_nat bk)%nat -> ess !! i = Some es -> es = []))
  \/ prev_scan f t bk = Ok ones64 /\ concat (take (N.to_nat bk) ess) = [].
Proof.
  intros H. pose proof (pow_lt_u64 _ _ _ _ H) as Hpow. pose proof (tinv_len _ _ _ _ _ _ _ _ _ _ _ H) as Hlen.
  destruct (tinv_bc pf c kw vw bmin bmax strict OK _ _ _ _ H) as [_ Hbc].
  assert (Hones : 2^63 < ones64) by done.
  assert (Hzero : forall f, prev_scan f t 0 = Ok ones64).
  { intros f. destruct f; cbn [prev_scan]; change (sub64 0 1) with ones64; rewrite Hbc, (proj2 (N.ltb_ge _ _)) by lia; done. }
  induction f as [|f IH]; intros bk Hbk Hf.
  - right. replace bk with 0 by lia. split; [apply Hzero|done].
  - destruct (decide (bk = 0)) as [->|Hne0]; [right; split; [apply Hzero|done]|].
    cbn [prev_scan]. rewrite sub64_small by lia. rewrite Hbc, (proj2 (N.ltb_lt _ _)) by lia.
    destruct (lookup_bucket_lt ess (bk - 1) _ Hlen ltac:(lia)) as (es & He).
    destruct (bucket_size_spec _ _ _ _ _ _ H He) as (_ & -> & _). cbn [mbind res_bind].
    destruct es as [|e es].
    + cbn [length N.of_nat N.eqb]. destruct (IH (bk - 1) ltac:(lia) ltac:(lia)) as [(r & es & Hs & Hr & He' & Hne & Hempty)|[-> Hc]].
      * left. exists r, es. split; [done|]. split; [lia|]. split; [done|]. split; [done|]. intros i es' Hi Hes'.
        destruct (decide (i = N.to_nat (bk - 1))) as [->|]; [congruence|]. apply (Hempty i); [lia|done].
      * right. split; [done|]. replace (N.to_nat bk) with (S (N.to_nat (bk - 1))) by lia.
        rewrite (take_S_r _ _ _ He), concat_app, Hc. done.
    + left. rewrite (proj2 (N.eqb_neq _ _)) by (cbn [length]; lia). exists (bk - 1), (e :: es). split; [done|].
      split; [lia|]. split; [done|]. split; [done|]. intros; lia.
Qed.

(** Going back from (bk, p) when bucket bk holds the entries [es] and p <= length es: the preceding entry in
    iteration order, or an invalid navigator. *)
Lemma nav_prev_spec t sl ess bk p es : tinv t sl ess [] -> ess !! N.to_nat bk = Some es -> (N.to_nat p <= length es)%nat ->
  (exists bk' p' es', nav_prev pf t (bk, p) = Ok (bk', p') /\ ess !! N.to_nat bk' = Some es' /\ (N.to_nat p' < length es')%nat
     /\ concat (take (N.to_nat bk) ess) ++ take (N.to_nat p) es = concat (take (N.to_nat bk') ess) ++ take (S (N.to_nat p')) es'
     /\ (bk' = bk \/ bk' < bk /\ S (N.to_nat p') = length es' /\ (forall i es, (N.to_nat bk' < i < N.to_nat bk)%nat -> ess !! i = Some es -> es = [])))
  \/ (exists p', nav_prev pf t (bk, p) = Ok (ones64, p')) /\ concat (take (N.to_nat bk) ess) ++ take (N.to_nat p) es = [].
Proof.
  intros H He Hp. destruct (bucket_size_spec _ _ _ _ _ _ H He) as (Hlt & Hbs & H255).
  destruct (tinv_bc pf c kw vw bmin bmax strict OK _ _ _ _ H) as [_ Hbc].
  pose proof (pow_lt_u64 _ _ _ _ H) as Hpow.
  unfold nav_prev. rewrite (tinv_noov _ _ _ H). cbn [andb]. destruct (N.ltb_spec 0 p) as [Hpos|Hzero].
  - rewrite Hbs. cbn [mbind res_bind andb]. rewrite (proj2 (N.ltb_lt _ _)) by lia. left.
    rewrite N.min_l by lia. rewrite sub64_small by lia. exists bk, (p - 1), es. split; [done|]. split; [done|].
    split; [lia|]. split; [|by left]. by replace (S (N.to_nat (p - 1))) with (N.to_nat p) by lia.
  - cbn [mbind res_bind andb]. replace p with 0 in * by lia.
    change (take (N.to_nat 0) es) with (@nil (N * N)). rewrite app_nil_r.
    destruct (prev_scan_spec _ _ _ _ H (N.to_nat (bucket_count t)) bk Hlt) as [(r & es' & -> & Hr & He' & Hne & Hempty)|[-> Hc]]; [rewrite Hbc; lia|..].
    + cbn [mbind res_bind]. rewrite Hbc, (proj2 (N.ltb_lt r (2^t_b t))) by lia.
      destruct (bucket_size_spec _ _ _ _ _ _ H He') as (_ & -> & H255'). cbn [mbind res_bind].
      left. assert (0 < length es')%nat by (destruct es'; [done|cbn; lia]).
      rewrite sub64_small by lia. exists r, (N.of_nat (length es') - 1), es'. split; [done|]. split; [done|]. split; [lia|].
      split; [|right; split; [lia|]; split; [lia|done]].
      rewrite (concat_take_skip ess (S (N.to_nat r))); [|lia|intros i es2 Hi; apply Hempty; lia].
      rewrite (take_S_r _ _ _ He'), concat_app. cbn [concat]. rewrite app_nil_r. f_equal. by rewrite take_ge by lia.
    + cbn [mbind res_bind]. assert (2^63 < ones64) by done. rewrite Hbc, (proj2 (N.ltb_ge ones64 (2^t_b t))) by lia.
      right. split; [by eexists|done].
Qed.

Lemma take_S_app (A : Type) (es : list A) p e : es !! p = Some e -> take (S p) es = take p es ++ [e].
Proof. apply take_S_r. Qed.

Lemma iterate_rev_spec t sl ess : tinv t sl ess [] -> forall l bk p es, ess !! N.to_nat bk = Some es -> (N.to_nat p < length es)%nat ->
  concat (take (N.to_nat bk) ess) ++ take (S (N.to_nat p)) es = rev l ->
  forall f, (length l <= f)%nat -> iterate_rev pf c f t (bk, p) = Ok l.
Proof.
  intros H. induction l as [|e l IH]; intros bk p es He Hp Hl f Hf.
  { exfalso. apply (f_equal length) in Hl. rewrite app_length, take_length in Hl. cbn [rev length] in Hl. lia. }
  destruct (lookup_lt_is_Some_2 es (N.to_nat p) Hp) as (e' & Hep).
  rewrite (take_S_r _ _ _ Hep), app_assoc in Hl. cbn [rev] in Hl. apply app_inj_tail in Hl as [Hl <-].
  destruct (bucket_size_spec _ _ _ _ _ _ H He) as (Hlt & _ & _).
  assert (Hne : nav_entry t ess (bk, p) = Some e') by (by eapply nav_entry_bucket).
  destruct (nav_eq_valid _ _ _ _ _ _ H Hne) as [Heq Hrd].
  destruct f as [|f]; [cbn in Hf; lia|]. cbn [length] in Hf.
  cbn [iterate_rev]. rewrite Heq. cbn [mbind res_bind]. rewrite Hrd. cbn [mbind res_bind].
  destruct (nav_prev_spec t sl ess bk p es H He) as [(bk' & p' & es' & -> & He' & Hp' & Ec & _)|[(p' & ->) Ec]]; [lia|..].
  - cbn [mbind res_bind]. rewrite (IH bk' p' es' He' Hp'); [done| |lia]. by rewrite <-Ec.
  - cbn [mbind res_bind]. rewrite Hl in Ec. destruct l as [|y l]; [|cbn in Ec; by destruct (rev l)].
    pose proof (pow_lt_u64 _ _ _ _ H). assert (2^63 < ones64) by done.
    destruct f; cbn [iterate_rev]; rewrite (nav_eq_invalid _ _ _ _ _ H) by lia; done.
Qed.

Lemma rbegin_scan_spec t sl ess : tinv t sl ess [] -> concat ess <> [] -> forall f bk, bk < 2^(t_b t) -> (N.to_nat bk < f)%nat ->
  concat (drop (S (N.to_nat bk)) ess) = [] ->
  exists r es, rbegin_scan f t bk = Ok (r, N.of_nat (length es) - 1) /\ ess !! N.to_nat r = Some es /\ es <> [] /\ concat (drop (S (N.to_nat r)) ess) = [].
Proof.
  intros H Hne. pose proof (pow_lt_u64 _ _ _ _ H) as Hpow. pose proof (tinv_len _ _ _ _ _ _ _ _ _ _ _ H) as Hlen.
  induction f as [|f IH]; intros bk Hbk Hf Hc; [lia|]. cbn [rbegin_scan].
  destruct (lookup_bucket_lt ess bk _ Hlen Hbk) as (es & He).
  destruct (bucket_size_spec _ _ _ _ _ _ H He) as (_ & -> & H255). cbn [mbind res_bind].
  destruct es as [|e es].
  - cbn [length N.of_nat N.ltb N.compare].
    assert (Hc' : concat (drop (N.to_nat bk) ess) = []) by (by rewrite (drop_S _ _ _ He)).
    destruct (decide (bk = 0)) as [->|]; [done|].
    rewrite sub64_small by lia. apply IH; [lia|lia|]. by replace (S (N.to_nat (bk - 1))) with (N.to_nat bk) by lia.
  - rewrite (proj2 (N.ltb_lt _ _)) by (cbn [length]; lia). rewrite sub64_small by (cbn [length] in *; lia).
    by exists bk, (e :: es).
Qed.
Lemma rbegin_spec t sl ess : tinv t sl ess [] -> concat ess <> [] ->
  exists r es, rbegin_nav t = Ok (r, N.of_nat (length es) - 1) /\ ess !! N.to_nat r = Some es /\ es <> [] /\ concat (drop (S (N.to_nat r)) ess) = []
    /\ concat ess = concat (take (N.to_nat r) ess) ++ es.
Proof.
  intros H Hne. pose proof (tinv_len _ _ _ _ _ _ _ _ _ _ _ H) as Hlen. pose proof (pow_lt_u64 _ _ _ _ H).
  unfold rbegin_nav. rewrite (tinv_noov _ _ _ H). destruct (tinv_bc pf c kw vw bmin bmax strict OK _ _ _ _ H) as [_ ->].
  assert (0 < 2^(t_b t)) by apply pow2_pos. rewrite (proj2 (N.eqb_neq _ _)) by lia. rewrite sub64_small by lia.
  destruct (rbegin_scan_spec _ _ _ H Hne (S (N.to_nat (2^(t_b t)))) (2^(t_b t) - 1)) as (r & es & -> & He & Hes & Hc); [lia|lia|by rewrite drop_ge by lia|].
  exists r, es. do 4 (split; [done|]). rewrite (concat_split _ _ _ He). by rewrite Hc, app_nil_r.
Qed.

Lemma backward_spec t sl ess : tinv t sl ess [] -> concat ess <> [] -> forall f, (length (concat ess) <= f)%nat ->
  backward pf c f t = Ok (rev (concat ess)).
Proof.
  intros H Hne f Hf. destruct (rbegin_spec _ _ _ H Hne) as (r & es & E & He & Hes & _ & Ec). unfold backward. rewrite E.
  cbn [mbind res_bind]. assert (0 < length es)%nat by (destruct es; [done|cbn; lia]).
  apply (iterate_rev_spec _ _ _ H _ r _ es); [done|lia| |by rewrite rev_length].
  rewrite rev_involutive, Ec. f_equal. by rewrite take_ge by lia.
Qed.

(** ** Draining *)
Lemma drain_spec : forall l t sl ess bk p es, tinv t sl ess [] -> ess !! N.to_nat bk = Some es -> length es = S (N.to_nat p) ->
  concat (drop (S (N.to_nat bk)) ess) = [] -> concat ess = rev l ->
  forall f, (length l <= f)%nat -> exists t' sl' ess', drain_from pf c f t (bk, p) = Ok (t', l) /\ tinv t' sl' ess' [] /\ concat ess' = [].
Proof.
  induction l as [|e l IH]; intros t sl ess bk p es H He Hp Hc Hl f Hf.
  { exfalso. rewrite (concat_split _ _ _ He) in Hl. apply (f_equal length) in Hl. rewrite !app_length in Hl. cbn in Hl. lia. }
  destruct (lookup_lt_is_Some_2 es (N.to_nat p) ltac:(lia)) as ([k v] & Hep).
  destruct (bucket_size_spec _ _ _ _ _ _ H He) as (Hlt & _ & _).
  assert (Hne : nav_entry t ess (bk, p) = Some (k, v)) by (by eapply nav_entry_bucket).
  destruct (nav_eq_valid _ _ _ _ _ _ H Hne) as [Heq Hrd].
  assert (Hes : es = take (N.to_nat p) es ++ [(k, v)]).
  { rewrite <-(take_S_r _ _ _ Hep). by rewrite take_ge by lia. }
  assert (Hl' : concat (take (N.to_nat bk) ess) ++ take (N.to_nat p) es = rev l /\ (k, v) = e).
  { rewrite (concat_split _ _ _ He), Hc, app_nil_r in Hl. rewrite Hes, app_assoc in Hl. cbn [rev] in Hl.
    apply app_inj_tail in Hl as [Hl ->]. split; [|done]. rewrite <-Hl. done. }
  destruct Hl' as [Hl' <-].
  destruct f as [|f]; [cbn in Hf; lia|]. cbn [length] in Hf.
  cbn [drain_from]. rewrite Heq. cbn [mbind res_bind]. rewrite Hrd. cbn [mbind res_bind].
  destruct (erase_at_spec pf c kw vw bmin bmax strict OK _ _ _ _ (bk, p) _ _ (fun Hx => False_ind _ (N.lt_neq _ _ Hlt Hx)) H Hne) as (t1 & sl1 & ess1 & ovl1 & -> & H1 & Hb1 & HP & Hx).
  cbn [mbind res_bind]. destruct (Hx Hlt) as (es0 & He0 & Hess1 & ->). cbn [fst snd] in He0, Hess1.
  rewrite He in He0. injection He0 as <-.
  assert (Hdel : delete (N.to_nat p) es = take (N.to_nat p) es).
  { rewrite delete_take_drop, drop_ge by lia. by rewrite app_nil_r. }
  rewrite Hdel in Hess1. set (es1 := take (N.to_nat p) es) in *.
  assert (He1 : ess1 !! N.to_nat bk = Some es1).
  { rewrite Hess1. apply list_lookup_insert. by eapply lookup_lt_Some. }
  assert (Htk : take (N.to_nat bk) ess1 = take (N.to_nat bk) ess) by (rewrite Hess1; by rewrite take_insert by lia).
  assert (Hdr : drop (S (N.to_nat bk)) ess1 = drop (S (N.to_nat bk)) ess) by (rewrite Hess1; by rewrite drop_insert_gt by lia).
  assert (Hc1 : concat ess1 = rev l).
  { rewrite (concat_split _ _ _ He1), Htk, Hdr, Hc, app_nil_r. done. }
  assert (Hlen1 : length es1 = N.to_nat p) by (unfold es1; rewrite take_length; lia).
  destruct (nav_prev_spec t1 sl1 ess1 bk p es1 H1 He1) as [(bk' & p' & es' & -> & He' & Hp' & Ec & Hpos)|[(p' & ->) Ec]]; [lia|..].
  - cbn [mbind res_bind].
    assert (Hfull : length es' = S (N.to_nat p') /\ concat (drop (S (N.to_nat bk')) ess1) = []).
    { destruct Hpos as [->|(Hlt' & Hlen' & Hempty)].
      - rewrite He1 in He'. injection He' as <-. split; [|by rewrite Hdr].
        rewrite Htk in Ec. rewrite (take_ge es1) in Ec by lia. apply app_inv_head in Ec.
        assert (S (N.to_nat p') <= length es1)%nat by lia. apply (f_equal length) in Ec. rewrite take_length in Ec. lia.
      - split; [lia|].
        destruct (decide (p = 0)) as [->|].
        + rewrite (concat_drop_skip ess1 _ (S (N.to_nat bk))); [by rewrite Hdr|lia|].
          intros i es2 Hi Hes2. destruct (decide (i = N.to_nat bk)) as [->|]; [|apply (Hempty i); [lia|done]].
          rewrite He1 in Hes2. injection Hes2 as <-. by apply nil_length_inv.
        + exfalso. (* with p > 0 the navigator stays in its bucket *)
          assert (E2 : concat (take (N.to_nat bk) ess1) = concat (take (S (N.to_nat bk')) ess1)).
          { apply concat_take_skip; [lia|]. intros i es2 Hi. apply Hempty. lia. }
          rewrite E2 in Ec. rewrite (take_S_r _ _ _ He'), concat_app in Ec. cbn [concat] in Ec. rewrite app_nil_r in Ec.
          rewrite (take_ge es') in Ec by lia. apply (f_equal length) in Ec. rewrite !app_length, take_length in Ec. lia. }
    destruct Hfull as [Hf1 Hf2].
    destruct (IH t1 sl1 ess1 bk' p' es' H1 He' Hf1 Hf2 Hc1 f ltac:(lia)) as (t' & sl' & ess' & -> & H' & Hc').
    cbn [mbind res_bind]. exists t', sl', ess'. done.
  - cbn [mbind res_bind]. rewrite Htk in Ec. rewrite (take_ge es1) in Ec by lia. rewrite Hl' in Ec.
    destruct l as [|y l]; [|cbn in Ec; by destruct (rev l)].
    pose proof (pow_lt_u64 _ _ _ _ H1). assert (2^63 < ones64) by done. exists t1, sl1, ess1.
    assert (E : drain_from pf c f t1 (ones64, p') = Ok (t1, [])).
    { destruct f; cbn [drain_from]; rewrite (nav_eq_invalid _ _ _ _ _ H1) by lia; done. }
    rewrite E. cbn [mbind res_bind]. split; [done|]. split; [done|]. by rewrite Hc1.
Qed.

Lemma drain_all t sl ess : tinv t sl ess [] -> concat ess <> [] -> forall f, (length (concat ess) <= f)%nat ->
  exists t' sl' ess', drain pf c f t = Ok (t', rev (concat ess)) /\ tinv t' sl' ess' [] /\ concat ess' = [].
Proof.
  intros H Hne f Hf. destruct (rbegin_spec _ _ _ H Hne) as (r & es & E & He & Hes & Hc & Ec). unfold drain. rewrite E.
  cbn [mbind res_bind]. assert (0 < length es)%nat by (destruct es; [done|cbn; lia]).
  apply (drain_spec _ t sl ess r _ es); [done|done|lia|done|by rewrite rev_involutive|by rewrite rev_length].
Qed.
End iter.
