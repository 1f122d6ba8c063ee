(** Iteration of tables with elements in a map_overflow. *)
From Verif Require Export TableReach.

Section iter.
Context (pf : platform) (c : cfg) (kw vw bmin bmax : N) (strict : Prop).
Notation tinv := (tinv pf c kw vw bmin bmax strict).
Notation nav_entry := (nav_entry pf).
Hypothesis OK : table_ok0 pf c kw vw bmin bmax.
Implicit Types (t : table) (ess : list entries) (ovl : entries) (sl : list slot).

Lemma ov_umap t sl ess ovl : c_ov c <> OvArray -> tinv t sl ess ovl -> ovl <> [] ->
  exists nb full, t_ov t = OUmap nb ovl full /\ 1 <= nb < 2^64 /\ NoDup (map (fun e => um_bucket pf nb (fst e)) ovl)
    /\ (0 <? ov_size (t_ov t)) = true.
Proof.
  intros Harr H Hne. pose proof (ti_ov _ _ _ _ _ _ _ _ _ _ _ H) as Ho. destruct (t_ov t) as [| |nb els full]; cbn in Ho.
  - by destruct Ho as [-> _].
  - by destruct Ho as (_ & [? _] & _).
  - destruct Ho as (-> & (? & ? & _) & Hnd & _). exists nb, full. split; [done|]. split; [done|]. split; [done|].
    cbn [ov_size]. apply N.ltb_lt. destruct els; [done|cbn [length]; lia].
Qed.

(** An overflow position without element counts as the end. *)
Lemma ov_end t sl ess ovl p : tinv t sl ess ovl -> ov_valid pf (t_ov t) p = false -> nav_eq pf t (2^(t_b t), p) end_nav = Ok true.
Proof.
  intros H Hv. unfold nav_eq. rewrite (end_nav_invalid pf c kw vw bmin bmax strict OK _ _ _ _ H).
  unfold nav_invalid. rewrite Hv, andb_false_r. destruct (tinv_bc pf c kw vw bmin bmax strict OK _ _ _ _ H) as [_ ->].
  by rewrite (proj2 (N.leb_le _ _)) by lia.
Qed.

Lemma iterate_ov t sl ess ovl nb full : tinv t sl ess ovl -> ovl <> [] -> t_ov t = OUmap nb ovl full -> 1 <= nb ->
  NoDup (map (fun e => um_bucket pf nb (fst e)) ovl) ->
  forall n p, (N.to_nat (nb - p) <= n)%nat -> (p < nb -> um_empty pf nb ovl p = false) ->
  exists l, l ≡ₚ um_rest pf nb ovl p /\ forall f, (length l <= f)%nat -> iterate pf c f t (2^(t_b t), p) = Ok l.
Proof.
  intros H Hne Ho Hnb Hnd. pose proof (ti_nodup _ _ _ _ _ _ _ _ _ _ _ H) as Hkn. rewrite fmap_app in Hkn. apply NoDup_app in Hkn as (_ & _ & Hkn).
  destruct (tinv_bc pf c kw vw bmin bmax strict OK _ _ _ _ H) as [_ Hbc].
  assert (Hend : forall p, nb <= p -> forall f, iterate pf c f t (2^(t_b t), p) = Ok []).
  { intros p Hp f. assert (Hv : ov_valid pf (t_ov t) p = false) by (rewrite Ho; cbn [ov_valid]; rewrite (proj2 (N.ltb_ge _ _)) by lia; done).
    destruct f; cbn [iterate]; rewrite (ov_end _ _ _ _ _ H Hv); done. }
  induction n as [|n IH]; intros p Hn Hp.
  - exists []. rewrite um_rest_end by lia. split; [done|]. intros f _. apply Hend. lia.
  - destruct (N.lt_ge_cases p nb) as [Hlt|Hge].
    2:{ exists []. rewrite um_rest_end by lia. split; [done|]. intros f _. by apply Hend. }
    specialize (Hp Hlt). assert (He : exists k v, nav_entry t ess (2^(t_b t), p) = Some (k, v) /\ (k, v) ∈ ovl /\ um_bucket pf nb k = p).
    { rewrite nav_entry_ov, Ho. cbn [ov_entry]. rewrite (proj2 (N.ltb_lt _ _)) by done. unfold um_empty in Hp.
      destruct (um_chain pf nb ovl p) as [|[k v] r] eqn:Ec; [done|]. exists k, v. split; [done|].
      apply (um_chain_elem pf nb ovl p (k, v)). rewrite Ec. by constructor. }
    destruct He as (k & v & He & Hin & Hpos). destruct (nav_entry_read pf c kw vw bmin bmax strict OK _ _ _ _ _ _ _ H He) as (_ & Hk & Hv).
    pose proof (nav_eq_end pf c kw vw bmin bmax strict OK _ _ _ _ _ _ H He) as Heq.
    destruct (um_scan_spec pf nb ovl (N.to_nat nb) (p + 1)) as (Hq1 & Hq2 & Hq3); [lia|]. cbv zeta in Hq1, Hq2, Hq3.
    set (q := um_scan pf (N.to_nat nb) nb ovl (p + 1)) in *.
    destruct (IH q) as (l & HP & Hl); [lia|done|].
    exists ((k, v) :: l). split.
    + rewrite HP. rewrite (um_rest_step pf nb ovl p k v Hkn Hnd Hin Hpos). f_equiv.
      by rewrite (um_rest_skip pf nb ovl (p + 1) q Hq1 Hq2).
    + intros f Hf. destruct f as [|f]; [cbn in Hf; lia|]. cbn [length] in Hf. cbn [iterate]. rewrite Heq. cbn [mbind res_bind].
      unfold nav_read. rewrite Hk. cbn [mbind res_bind]. rewrite Hv. cbn [mbind res_bind].
      unfold nav_next. rewrite Hbc, N.eqb_refl, Ho. cbn [ov_size ov_next]. destruct ovl as [|e0 ovl0]; [done|].
      rewrite (proj2 (N.ltb_lt 0 _)) by (cbn [length]; lia). cbn [andb mbind res_bind]. fold q. rewrite Hl by lia. done.
Qed.

(** Walking through the buckets when the walk from behind the last bucket shows [tl]. *)
Lemma iterate_buckets t sl ess ovl tl : tinv t sl ess ovl ->
  (forall f, (length tl <= f)%nat -> iterate pf c f t (2^(t_b t), 0) = Ok tl) ->
  forall l bk p es, ess !! N.to_nat bk = Some es -> (N.to_nat p < length es)%nat ->
  drop (N.to_nat p) es ++ concat (drop (S (N.to_nat bk)) ess) = l ->
  forall f, (length (l ++ tl) <= f)%nat -> iterate pf c f t (bk, p) = Ok (l ++ tl).
Proof.
  intros H Htl. pose proof (tinv_len _ _ _ _ _ _ _ _ _ _ _ H) as Hlen.
  destruct (tinv_bc pf c kw vw bmin bmax strict OK _ _ _ _ H) as [_ Hbc].
  induction l as [|e l IH]; intros bk p es He Hp Hl f Hf.
  { exfalso. apply (f_equal length) in Hl. rewrite app_length, drop_length in Hl. cbn in Hl. lia. }
  destruct (lookup_lt_is_Some_2 es (N.to_nat p) Hp) as (e' & Hep).
  rewrite (drop_S _ _ _ Hep) in Hl. cbn [app] in Hl. injection Hl as <- Hl.
  destruct (bucket_size_spec pf c kw vw bmin bmax strict OK _ _ _ _ _ _ H He) as (Hlt & Hbs & H255).
  assert (Hne : nav_entry t ess (bk, p) = Some e') by (by eapply nav_entry_bucket).
  destruct (nav_eq_valid pf c kw vw bmin bmax strict OK _ _ _ _ _ _ H Hne) as [Heq Hrd].
  destruct f as [|f]; [cbn in Hf; lia|]. cbn [length app] in Hf.
  cbn [iterate app]. rewrite Heq. cbn [mbind res_bind]. rewrite Hrd. cbn [mbind res_bind].
  unfold nav_next. rewrite Hbc, (proj2 (N.eqb_neq bk _)) by lia. rewrite andb_false_r. rewrite Hbs. cbn [mbind res_bind].
  rewrite u64_small by lia. destruct (N.leb_spec (N.of_nat (length es)) (p + 1)) as [Hle|Hgt].
  - rewrite drop_ge in Hl by lia. cbn [app] in Hl.
    destruct (next_scan_spec pf c kw vw bmin bmax strict OK _ _ _ _ H (N.to_nat (2^(t_b t))) bk Hlt) as (r & -> & Hr & Hempty & Hner); [lia|].
    cbn [mbind res_bind]. rewrite (concat_drop_skip ess _ (N.to_nat r)) in Hl; [|lia|intros i es' Hi; apply Hempty; lia].
    destruct (decide (r = 2^(t_b t))) as [->|].
    + rewrite drop_ge in Hl by lia. cbn in Hl. subst l. cbn [app] in *. by rewrite Htl by lia.
    + destruct Hner as (es' & He' & Hne'); [lia|]. rewrite (drop_S _ _ _ He') in Hl. cbn [concat] in Hl.
      rewrite (IH r 0 es' He'); [done| |done|lia]. destruct es'; [done|cbn; lia].
  - cbn [mbind res_bind]. rewrite (IH bk (p + 1) es He); [done|lia| |lia].
    rewrite <-Hl. by replace (N.to_nat (p + 1)) with (S (N.to_nat p)) by lia.
Qed.

Lemma forward_with t sl ess ovl tl : tinv t sl ess ovl -> ovl <> [] ->
  (forall f, (length tl <= f)%nat -> iterate pf c f t (2^(t_b t), 0) = Ok tl) ->
  forall f, (length (concat ess ++ tl) <= f)%nat -> forward pf c f t = Ok (concat ess ++ tl).
Proof.
  intros H Hne Htl f Hf. destruct (tinv_bc pf c kw vw bmin bmax strict OK _ _ _ _ H) as [_ Hbc].
  pose proof (tinv_len _ _ _ _ _ _ _ _ _ _ _ H) as Hlen.
  assert (Hsz : (0 <? ov_size (t_ov t)) = true).
  { rewrite (ov_size_spec _ _ _ _ _ _ (ti_ov _ _ _ _ _ _ _ _ _ _ _ H)). apply N.ltb_lt. destruct ovl; [done|cbn [length]; lia]. }
  unfold forward, begin_nav. rewrite Hbc.
  destruct (begin_scan_spec pf c kw vw bmin bmax strict OK _ _ _ _ H (N.to_nat (2^(t_b t))) 0) as [(r & es & -> & Hr & He & Hnes & Hempty)|[-> Hc]]; [lia|..].
  - cbn [mbind res_bind].
    assert (E : concat ess = es ++ concat (drop (S (N.to_nat r)) ess)).
    { etrans; [exact (concat_drop_skip ess 0 (N.to_nat r) ltac:(lia) ltac:(intros i es' Hi; apply Hempty; lia))|].
      by rewrite (drop_S _ _ _ He). }
    rewrite (iterate_buckets _ _ _ _ tl H Htl (concat ess) r 0 es He); [done| |done|done]. destruct es; [done|cbn; lia].
  - rewrite Hsz, Hbc. cbn [mbind res_bind]. change (concat ess = []) in Hc. rewrite Hc in *. cbn [app] in *. by apply Htl.
Qed.
Lemma forward_ov t sl ess ovl : c_ov c <> OvArray -> tinv t sl ess ovl -> ovl <> [] ->
  exists tl, (forall f, (length (concat ess ++ tl) <= f)%nat -> forward pf c f t = Ok (concat ess ++ tl))
    /\ if ov_valid pf (t_ov t) 0 then tl ≡ₚ ovl else tl = [].
Proof.
  intros Harr H Hne. destruct (ov_umap _ _ _ _ Harr H Hne) as (nb & full & Ho & Hnb & Hnd & Hsz).
  assert (Htl : exists tl, (forall f, (length tl <= f)%nat -> iterate pf c f t (2^(t_b t), 0) = Ok tl)
    /\ if ov_valid pf (t_ov t) 0 then tl ≡ₚ ovl else tl = []).
  { destruct (ov_valid pf (t_ov t) 0) eqn:Hv.
    - rewrite Ho in Hv. cbn [ov_valid] in Hv. apply andb_true_iff in Hv as [_ Hv]. apply negb_true_iff in Hv.
      destruct (iterate_ov _ _ _ _ _ _ H Hne Ho ltac:(lia) Hnd (N.to_nat nb) 0) as (l & HP & Hl); [lia|done|]. exists l. split; [done|].
      rewrite HP. apply Permutation_refl'. unfold um_rest. clear. induction ovl as [|e l IH]; [done|]. cbn [List.filter].
      rewrite (proj2 (N.leb_le _ _)) by lia. by rewrite IH.
    - exists []. split; [|done]. intros f _. destruct f; cbn [iterate]; rewrite (ov_end _ _ _ _ _ H Hv); done. }
  destruct Htl as (tl & Htl & Hres). exists tl. split; [|done]. exact (forward_with _ _ _ _ _ H Hne Htl).
Qed.

(** An array_overflow is walked in the order of insertion. *)
Lemma forward_arr t sl ess ovl : c_ov c = OvArray -> tinv t sl ess ovl -> ovl <> [] ->
  forall f, (length (concat ess ++ ovl) <= f)%nat -> forward pf c f t = Ok (concat ess ++ ovl).
Proof.
  intros Harr H Hne. apply (forward_with _ _ _ _ _ H Hne). destruct (tinv_bc pf c kw vw bmin bmax strict OK _ _ _ _ H) as [_ Hbc].
  assert (Ha : exists full, t_ov t = arr_state pf ovl full /\ (length ovl <= 256)%nat).
  { pose proof (ti_ov _ _ _ _ _ _ _ _ _ _ _ H) as Ho. destruct (t_ov t) as [|? ? ? full|]; cbn [ovrel] in Ho.
    - destruct Ho as [_ [? _]]. congruence.
    - destruct Ho as (E & _ & Hl & _). by exists full.
    - destruct Ho as (_ & (_ & _ & [? _]) & _). congruence. }
  destruct Ha as (full & Ho & Hl).
  assert (Hsz : (0 <? ov_size (t_ov t)) = true) by (rewrite Ho; cbn [arr_state ov_size]; apply N.ltb_lt; destruct ovl; [done|cbn [length]; lia]).
  cut (forall n p, (length ovl - p <= n)%nat -> (p <= length ovl)%nat ->
    forall f, (length (drop p ovl) <= f)%nat -> iterate pf c f t (2^(t_b t), N.of_nat p) = Ok (drop p ovl)).
  { intros Hx. apply (Hx (length ovl) 0%nat); lia. }
  induction n as [|n IH]; intros p Hn Hp f Hf.
  - rewrite drop_ge by lia. assert (Hv : ov_valid pf (t_ov t) (N.of_nat p) = false) by (rewrite Ho; cbn [arr_state ov_valid]; apply N.ltb_ge; lia).
    destruct f; cbn [iterate]; rewrite (ov_end _ _ _ _ _ H Hv); done.
  - destruct (decide (p = length ovl)) as [->|Hlt].
    { rewrite drop_ge by lia. assert (Hv : ov_valid pf (t_ov t) (N.of_nat (length ovl)) = false) by (rewrite Ho; cbn [arr_state ov_valid]; apply N.ltb_ge; lia).
      destruct f; cbn [iterate]; rewrite (ov_end _ _ _ _ _ H Hv); done. }
    destruct (lookup_lt_is_Some_2 ovl p) as [[k v] Ep]; [lia|]. rewrite (drop_S _ _ _ Ep) in *. cbn [length] in Hf. destruct f as [|f]; [lia|].
    assert (He : nav_entry t ess (2^(t_b t), N.of_nat p) = Some (k, v)).
    { rewrite nav_entry_ov, Ho. cbn [arr_state ov_entry]. fold (arr_state pf ovl full). by rewrite arr_entry_lookup, Nat2N.id. }
    destruct (nav_entry_read pf c kw vw bmin bmax strict OK _ _ _ _ _ _ _ H He) as (_ & Hk & Hv).
    cbn [iterate]. rewrite (nav_eq_end pf c kw vw bmin bmax strict OK _ _ _ _ _ _ H He). cbn [mbind res_bind].
    unfold nav_read. rewrite Hk. cbn [mbind res_bind]. rewrite Hv. cbn [mbind res_bind].
    unfold nav_next. rewrite Hbc, N.eqb_refl, Hsz. cbn [andb mbind res_bind]. rewrite Ho. cbn [arr_state ov_next].
    rewrite u64_small by (change (2^64) with 18446744073709551616; lia).
    replace (N.of_nat p + 1) with (N.of_nat (S p)) by lia. rewrite IH by lia. done.
Qed.

(** Reverse iteration starts at overflow position size(), which in general holds no element. *)
Lemma backward_ov t sl ess ovl f : c_ov c <> OvArray -> tinv t sl ess ovl -> ovl <> [] -> ov_valid pf (t_ov t) (ov_size (t_ov t)) = false ->
  backward pf c f t = Ok [].
Proof.
  intros Harr H Hne Hv. destruct (ov_umap _ _ _ _ Harr H Hne) as (nb & full & Ho & Hnb & Hnd & Hsz).
  destruct (tinv_bc pf c kw vw bmin bmax strict OK _ _ _ _ H) as [_ Hbc].
  unfold backward, rbegin_nav. rewrite Hsz, Hbc. cbn [mbind res_bind].
  destruct f; cbn [iterate_rev]; rewrite (ov_end _ _ _ _ _ H Hv); done.
Qed.
Lemma backward_arr t sl ess ovl f : c_ov c = OvArray -> tinv t sl ess ovl -> ovl <> [] -> backward pf c f t = Ok [].
Proof.
  intros Harr H Hne. destruct (tinv_bc pf c kw vw bmin bmax strict OK _ _ _ _ H) as [_ Hbc].
  assert (Hsz : (0 <? ov_size (t_ov t)) = true).
  { rewrite (ov_size_spec _ _ _ _ _ _ (ti_ov _ _ _ _ _ _ _ _ _ _ _ H)). apply N.ltb_lt. destruct ovl; [done|cbn [length]; lia]. }
  assert (Hv : ov_valid pf (t_ov t) (ov_size (t_ov t)) = false).
  { pose proof (ti_ov _ _ _ _ _ _ _ _ _ _ _ H) as Ho. destruct (t_ov t) as [|? ? ? full|]; cbn [ovrel] in Ho; [done|apply N.ltb_irrefl|].
    destruct Ho as (_ & (_ & _ & [? _]) & _). congruence. }
  unfold backward, rbegin_nav. rewrite Hsz, Hbc. cbn [mbind res_bind].
  destruct f; cbn [iterate_rev]; rewrite (ov_end _ _ _ _ _ H Hv); done.
Qed.
End iter.

Lemma iterate_ov_fact pf c kw vw t m : params pf c kw vw -> reachable pf c kw vw t m -> 0 < ov_size (t_ov t) ->
  (exists l, NoDup (map fst l) /\ (forall k v, (k, v) ∈ l -> m !! k = Some v)
     /\ (forall f, (length l <= f)%nat -> forward pf c f t = Ok l)
     /\ (ov_valid pf (t_ov t) 0 = true -> list_to_map l = m)
     /\ (ov_valid pf (t_ov t) 0 = false -> N.of_nat (length l) + ov_size (t_ov t) = N.of_nat (size m)))
  /\ (ov_valid pf (t_ov t) (ov_size (t_ov t)) = false -> forall f, backward pf c f t = Ok []).
Proof.
  intros P Hr Ho. pose proof (reach_ok0 _ _ _ _ P) as OK. apply (reachable_rep _ _ _ _ P) in Hr as [[Hz ->]|(sl & ess & ovl & H & Hm)].
  { exfalso. destruct Hz as (_ & _ & _ & _ & Hz & _). rewrite (ov_zero_size _ _ _ Hz) in Ho. lia. }
  assert (Hs : ov_size (t_ov t) = N.of_nat (length ovl)) by (apply (ov_size_spec _ _ _ _ _ _ (ti_ov _ _ _ _ _ _ _ _ _ _ _ H))).
  assert (Hne : ovl <> []) by (intros ->; cbn in Hs; lia).
  split; [|intros Hv f; by apply (backward_ov _ _ _ _ _ _ _ OK _ _ _ _ _ (noarr _ _ _ _ P) H Hne)].
  destruct (forward_ov _ _ _ _ _ _ _ OK _ _ _ _ (noarr _ _ _ _ P) H Hne) as (tl & Hf & Hres).
  pose proof (ti_nodup _ _ _ _ _ _ _ _ _ _ _ H) as Hnd.
  exists (concat ess ++ tl).
  assert (HP : concat ess ++ tl ≡ₚ concat ess ++ ovl \/ tl = [] /\ ov_valid pf (t_ov t) 0 = false).
  { destruct (ov_valid pf (t_ov t) 0); [left; by rewrite Hres|by right]. }
  assert (Hnd' : NoDup (keys_of (concat ess ++ tl)) /\ forall e, e ∈ concat ess ++ tl -> e ∈ concat ess ++ ovl).
  { destruct HP as [HP|[-> _]].
    - rewrite HP. split; [done|]. intros e. by rewrite HP.
    - rewrite app_nil_r. rewrite fmap_app in Hnd. apply NoDup_app in Hnd as (Hnd & _). split; [done|]. intros e He. apply elem_of_app. by left. }
  destruct Hnd' as [Hnd1 Hsub]. split; [exact Hnd1|]. split; [|split; [done|split]].
  - intros k v Hin. rewrite <-Hm. apply emap_Some; [done|]. by apply Hsub.
  - intros Hv. rewrite Hv in Hres. rewrite <-Hm. unfold emap. apply list_to_map_proper; [done|]. by rewrite Hres.
  - intros Hv. rewrite Hv in Hres. subst tl. rewrite app_nil_r, <-Hm, emap_size by done. rewrite Hs, app_length. lia.
Qed.
