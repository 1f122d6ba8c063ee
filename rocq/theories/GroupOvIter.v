(** Iteration and serialization of group_chaining_table with an overflow. *)
From Verif Require Export GroupOvTable.
From Verif Require SerialProofs.

Lemma set_n_begin g n : g_begin (g_set_n g n) = g_begin g.
Proof.
  unfold g_begin. change (g_group_count (g_set_n g n)) with (g_group_count g). change (gt_groups (g_set_n g n)) with (gt_groups g).
  destruct (g_group_count g) as [gc| | |]; cbn [mbind res_bind]; [|done..]. case_match; [done|].
  generalize 0%nat. induction (take (N.to_nat gc) (default [] (gt_groups g))) as [|k l IH]; intros i; cbn [g_begin_scan]; [done|].
  change (gbpg (g_set_n g n)) with (gbpg g). destruct (if kv_empty k then _ else _) as [o| | |]; cbn [mbind res_bind]; [|done..]. destruct o as [o|]; [done|]. apply IH.
Qed.
Lemma set_n_rbegin g n : g_rbegin (g_set_n g n) = g_rbegin g.
Proof.
  unfold g_rbegin. change (g_group_count (g_set_n g n)) with (g_group_count g). change (gt_groups (g_set_n g n)) with (gt_groups g).
  change (g_bucket_count (g_set_n g n)) with (g_bucket_count g).
  destruct (g_group_count g) as [gc| | |]; cbn [mbind res_bind]; [|done..]. case_match; [done|]. case_match; [done|].
  induction (rev (take (N.to_nat gc) (default [] (gt_groups g)))) as [|k l IH]; cbn [g_rbegin_scan]; [done|].
  change (gbpg (g_set_n g n)) with (gbpg g). destruct (if kv_empty k then _ else _) as [o| | |]; cbn [mbind res_bind]; [|done..]. destruct o as [[? ?]|]; [done|]. apply IH.
Qed.

Section iter.
Context (er : Prop) (pf : platform) (c : gcfg) (kind : ovkind) (kw vw bmin : N).
Hypothesis OK : group_ok c kw vw bmin.
Hypothesis Hkind : kind <> OvArray.
Hypothesis Hfair : kind = OvMap -> um_fair pf.
Notation bmax := (zbmax (gc_hash c) kw).
Notation gorep := (gorep er pf c kind kw vw bmin).
Notation gozero := (gozero pf kind kw vw).
Notation gomap := (gomap er pf c kind kw vw bmin).
Notation V t := (go_view pf c t).
Implicit Types (t : gotable) (ess : list entries) (ovl : entries).

(** *** An overflow without elements changes nothing *)
Lemma empty_eq (W : oview) x y : ov_size (o_ov W) = 0 -> on_eq pf W x y = vn_eq (o_view W) x y.
Proof. intros E. unfold on_eq, vn_eq, on_invalid, on_over. by rewrite E. Qed.
Lemma empty_iterate (W : oview) : ov_size (o_ov W) = 0 -> forall f x, on_iterate pf W f x = v_iterate (o_view W) f x.
Proof.
  intros E. induction f as [|f IH]; intros x; cbn [on_iterate v_iterate]; rewrite (empty_eq _ _ _ E); [done|].
  destruct (vn_eq (o_view W) x end_nav) as [[]| | |]; cbn [mbind res_bind]; try done.
  unfold on_read, on_key, on_value, on_next, on_over. rewrite E. cbn [N.ltb N.compare andb]. unfold vn_read.
  destruct (vn_key (o_view W) x); cbn [mbind res_bind]; try done. destruct (vn_value (o_view W) x); cbn [mbind res_bind]; try done.
  destruct (vn_next (o_view W) x); cbn [mbind res_bind]; try done. by rewrite IH.
Qed.

Lemma begin_g t ess ovl : gorep t ess ovl ->
  (exists r es, g_begin (go_g t) = Ok (r, 0) /\ ess !! N.to_nat r = Some es /\ es <> [] /\ (forall i es, (i < N.to_nat r)%nat -> ess !! i = Some es -> es = []))
  \/ (g_begin (go_g t) = Ok end_nav /\ concat ess = []).
Proof. intros H. pose proof (begin_spec _ _ _ _ _ _ OK _ _ (or_g _ _ _ _ _ _ _ _ _ _ H)) as B. by rewrite set_n_begin in B. Qed.
Lemma begin_not_end t ess ovl r es : gorep t ess ovl -> ess !! N.to_nat r = Some es -> (r =? ones64) = false.
Proof.
  intros H He. pose proof (olen _ _ _ _ _ _ _ _ _ _ H) as Hlen. pose proof (sh_pow _ _ _ _ (oshows _ _ _ _ _ _ _ OK _ _ _ H)) as Hp. apply lookup_lt_Some in He.
  apply N.eqb_neq. assert (2^63 < ones64) by done. lia.
Qed.

Lemma oov_end t ess ovl p : gorep t ess ovl -> ov_valid pf (go_ov t) p = false -> on_eq pf (V t) (2^gt_b (go_g t), p) end_nav = Ok true.
Proof.
  intros H Hv. unfold on_eq. rewrite (oend _ _ _ _ _ _ _ OK _ _ _ H). cbn [mbind res_bind]. unfold on_invalid. cbn [fst snd].
  change (o_ov (V t)) with (go_ov t). rewrite Hv, andb_false_r.
  by rewrite (vn_invalid_past _ _ _ _ (oshows _ _ _ _ _ _ _ OK _ _ _ H)) by lia.
Qed.
Lemma on_over_last t ess ovl : gorep t ess ovl -> ovl <> [] -> on_over (V t) (2^gt_b (go_g t)) = true.
Proof.
  intros H Hne. unfold on_over. change (o_ov (V t)) with (go_ov t). rewrite (osize _ _ _ _ _ _ _ _ _ _ H).
  rewrite (sh_count _ _ _ _ (oshows _ _ _ _ _ _ _ OK _ _ _ H)), N.eqb_refl. rewrite (proj2 (N.ltb_lt _ _)); [done|]. destruct ovl; [done|cbn [length]; lia].
Qed.

Lemma oiterate_ov t ess ovl nb full : gorep t ess ovl -> ovl <> [] -> go_ov t = OUmap nb ovl full -> 1 <= nb ->
  NoDup (map (fun e => um_bucket pf nb (fst e)) ovl) ->
  forall n p, (N.to_nat (nb - p) <= n)%nat -> (p < nb -> um_empty pf nb ovl p = false) ->
  exists l, l ≡ₚ um_rest pf nb ovl p /\ forall f, (length l <= f)%nat -> on_iterate pf (V t) f (2^gt_b (go_g t), p) = Ok l.
Proof.
  intros H Hne Ho Hnb Hnd. pose proof (ond _ _ _ _ _ _ _ _ _ _ H) as Hkn.
  assert (Hend : forall p, nb <= p -> forall f, on_iterate pf (V t) f (2^gt_b (go_g t), p) = Ok []).
  { intros p Hp f. assert (Hv : ov_valid pf (go_ov t) p = false) by (rewrite Ho; cbn [ov_valid]; rewrite (proj2 (N.ltb_ge _ _)) by lia; done).
    destruct f; cbn [on_iterate]; rewrite (oov_end _ _ _ _ H Hv); done. }
  induction n as [|n IH]; intros p Hn Hp.
  - exists []. rewrite um_rest_end by lia. split; [done|]. intros f _. apply Hend. lia.
  - destruct (N.lt_ge_cases p nb) as [Hlt|Hge].
    2:{ exists []. rewrite um_rest_end by lia. split; [done|]. intros f _. by apply Hend. }
    specialize (Hp Hlt). assert (He : exists k v, ov_entry pf (go_ov t) p = Some (k, v) /\ (k, v) ∈ ovl /\ um_bucket pf nb k = p).
    { rewrite Ho. cbn [ov_entry]. rewrite (proj2 (N.ltb_lt _ _)) by done. unfold um_empty in Hp.
      destruct (um_chain pf nb ovl p) as [|[k v] r] eqn:Ec; [done|]. exists k, v. split; [done|].
      apply (um_chain_elem pf nb ovl p (k, v)). rewrite Ec. by constructor. }
    destruct He as (k & v & He & Hin & Hpos). destruct (oov_at _ _ _ _ _ _ _ OK _ _ _ _ _ _ H Hin He) as [_ Hx].
    destruct (oat_read _ _ _ _ _ _ _ OK _ _ _ _ _ _ H Hx) as (_ & _ & Hk & Hv).
    pose proof (oat_eq _ _ _ _ _ _ _ OK _ _ _ _ _ _ H Hx) as Heq.
    destruct (um_scan_spec pf nb ovl (N.to_nat nb) (p + 1)) as (Hq1 & Hq2 & Hq3); [lia|]. cbv zeta in Hq1, Hq2, Hq3.
    set (q := um_scan pf (N.to_nat nb) nb ovl (p + 1)) in *.
    destruct (IH q) as (l & HP & Hl); [lia|done|].
    exists ((k, v) :: l). split.
    + rewrite HP. rewrite (um_rest_step pf nb ovl p k v Hkn Hnd Hin Hpos). f_equiv.
      by rewrite (um_rest_skip pf nb ovl (p + 1) q Hq1 Hq2).
    + intros f Hf. destruct f as [|f]; [cbn in Hf; lia|]. cbn [length] in Hf. cbn [on_iterate]. rewrite Heq. cbn [mbind res_bind].
      unfold on_read. rewrite Hk. cbn [mbind res_bind]. rewrite Hv. cbn [mbind res_bind].
      unfold on_next. cbn [fst snd]. rewrite (on_over_last _ _ _ H Hne). change (o_ov (V t)) with (go_ov t). rewrite Ho. cbn [ov_next mbind res_bind].
      fold q. rewrite Hl by lia. done.
Qed.

(** Walking through the buckets when the walk from behind the last bucket shows [tl]. *)
Lemma oiterate_buckets t ess ovl tl : gorep t ess ovl ->
  (forall f, (length tl <= f)%nat -> on_iterate pf (V t) f (2^gt_b (go_g t), 0) = Ok tl) ->
  forall l bk p es, ess !! N.to_nat bk = Some es -> (N.to_nat p < length es)%nat ->
  drop (N.to_nat p) es ++ concat (drop (S (N.to_nat bk)) ess) = l ->
  forall f, (length (l ++ tl) <= f)%nat -> on_iterate pf (V t) f (bk, p) = Ok (l ++ tl).
Proof.
  intros H Htl. pose proof (olen _ _ _ _ _ _ _ _ _ _ H) as Hlen. pose proof (oshows _ _ _ _ _ _ _ OK _ _ _ H) as Hs.
  pose proof (sh_count _ _ _ _ Hs) as Hbc. pose proof (sh_pow _ _ _ _ Hs) as Hpow.
  induction l as [|e l IH]; intros bk p es He Hp Hl f Hf.
  { exfalso. apply (f_equal length) in Hl. rewrite app_length, drop_length in Hl. cbn in Hl. lia. }
  destruct (lookup_lt_is_Some_2 es (N.to_nat p) Hp) as (e' & Hep).
  rewrite (drop_S _ _ _ Hep) in Hl. cbn [app] in Hl. injection Hl as <- Hl.
  destruct (sh_size _ _ _ _ Hs _ _ He) as [Hbs H255].
  assert (Hlt : bk < 2^gt_b (go_g t)) by (apply lookup_lt_Some in He; lia).
  destruct e' as [k v].
  assert (Hne : go_at pf t ess (bk, p) = Some (k, v)).
  { rewrite (oat_bucket _ _ _ _ _ _ _ _ _ _ _ _ H Hlt). by eapply nav_at_intro. }
  destruct (oat_read _ _ _ _ _ _ _ OK _ _ _ _ _ _ H Hne) as (_ & _ & Hk & Hv).
  destruct f as [|f]; [cbn in Hf; lia|]. cbn [length app] in Hf.
  cbn [on_iterate app]. rewrite (oat_eq _ _ _ _ _ _ _ OK _ _ _ _ _ _ H Hne). cbn [mbind res_bind]. unfold on_read. rewrite Hk. cbn [mbind res_bind].
  rewrite Hv. cbn [mbind res_bind].
  unfold on_next, on_over. cbn [fst]. rewrite Hbc, (proj2 (N.eqb_neq bk _)) by lia. rewrite andb_false_r. unfold vn_next. rewrite Hbs. cbn [mbind res_bind].
  rewrite u64_small by lia. destruct (N.leb_spec (N.of_nat (length es)) (p + 1)) as [Hle|Hgt].
  - rewrite drop_ge in Hl by lia. cbn [app] in Hl.
    destruct (vnext_scan_spec _ _ _ _ Hs (N.to_nat (v_count (o_view (V t)))) bk Hlt) as (r & -> & Hr & Hempty & Hner); [rewrite Hbc; lia|].
    cbn [mbind res_bind]. rewrite (concat_drop_skip ess _ (N.to_nat r)) in Hl; [|lia|intros i es' Hi; apply Hempty; lia].
    destruct (decide (r = 2^gt_b (go_g t))) as [->|].
    + rewrite drop_ge in Hl by lia. cbn in Hl. subst l. cbn [app] in *. by rewrite Htl by lia.
    + destruct Hner as (es' & He' & Hne'); [lia|]. rewrite (drop_S _ _ _ He') in Hl. cbn [concat] in Hl.
      rewrite (IH r 0 es' He'); [done| |done|lia]. destruct es'; [done|cbn; lia].
  - cbn [mbind res_bind]. rewrite (IH bk (p + 1) es He); [done|lia| |lia].
    rewrite <-Hl. by replace (N.to_nat (p + 1)) with (S (N.to_nat p)) by lia.
Qed.

Lemma oforward t ess ovl : gorep t ess ovl ->
  exists tl, (forall f, (length (concat ess ++ tl) <= f)%nat -> go_forward pf c f t = Ok (concat ess ++ tl))
    /\ if ov_valid pf (go_ov t) 0 then tl ≡ₚ ovl else tl = [].
Proof.
  intros H. unfold go_forward, go_begin. pose proof (osize _ _ _ _ _ _ _ _ _ _ H) as Hsz.
  destruct ovl as [|e0 ovl0] eqn:Eo.
  { exists []. rewrite app_nil_r. cbn [length N.of_nat] in Hsz. rewrite Hsz. cbn [N.ltb N.compare andb].
    split; [|destruct (ov_valid pf (go_ov t) 0); done]. intros f Hf. pose proof (oshows _ _ _ _ _ _ _ OK _ _ _ H) as Hs.
    destruct (begin_g _ _ _ H) as [(r & es & -> & He & Hne & Hemp)|[-> Hc]]; cbn [mbind res_bind]; rewrite andb_false_r, empty_iterate by done.
    - destruct (v_iterate_first _ _ _ _ Hs r es f He Hne Hemp Hf) as (l & -> & HF). by rewrite (oent_eq _ _ HF).
    - rewrite Hc. by eapply v_iterate_end_nav. }
  rewrite <-Eo in *. assert (Hne0 : ovl <> []) by (by rewrite Eo). clear Eo e0 ovl0.
  assert (Hpos : (0 <? ov_size (go_ov t)) = true) by (rewrite Hsz; apply N.ltb_lt; destruct ovl; [done|cbn [length]; lia]).
  assert (Htl : exists tl, (forall f, (length tl <= f)%nat -> on_iterate pf (V t) f (2^gt_b (go_g t), 0) = Ok tl)
    /\ if ov_valid pf (go_ov t) 0 then tl ≡ₚ ovl else tl = []).
  { destruct (ov_valid pf (go_ov t) 0) eqn:Hv.
    - pose proof (or_ov _ _ _ _ _ _ _ _ _ _ H) as Ho. destruct (go_ov t) as [| |nb els full] eqn:Ego; [done|..].
      { destruct Ho as (_ & Ha & _). unfold oside in Ha. congruence. }
      destruct Ho as (-> & (Hnb & _) & Hnd & _). cbn [ov_valid] in Hv. apply andb_true_iff in Hv as [_ Hv]. apply negb_true_iff in Hv.
      destruct (oiterate_ov _ _ _ _ _ H Hne0 Ego Hnb Hnd (N.to_nat nb) 0) as (l & HP & Hl); [lia|done|]. exists l. split; [done|].
      rewrite HP. apply Permutation_refl'. unfold um_rest. clear. induction els as [|e l IH]; [done|]. cbn [List.filter].
      rewrite (proj2 (N.leb_le _ _)) by lia. by rewrite IH.
    - exists []. split; [|done]. intros f _. destruct f; cbn [on_iterate]; rewrite (oov_end _ _ _ _ H Hv); done. }
  destruct Htl as (tl & Htl & Hres). exists tl. split; [|done]. intros f Hf.
  destruct (begin_g _ _ _ H) as [(r & es & -> & He & Hne & Hemp)|[-> Hc]]; cbn [mbind res_bind].
  - cbn [fst end_nav]. rewrite (begin_not_end _ _ _ _ _ H He). cbn [andb].
    assert (E : concat ess = es ++ concat (drop (S (N.to_nat r)) ess)).
    { etrans; [exact (concat_drop_skip ess 0 (N.to_nat r) ltac:(lia) ltac:(intros i es' Hi; apply Hemp; lia))|].
      by rewrite (drop_S _ _ _ He). }
    rewrite (oiterate_buckets _ _ _ tl H Htl (concat ess) r 0 es He); [done| |done|done]. destruct es; [done|cbn; lia].
  - rewrite Hpos. cbn [andb fst end_nav]. rewrite N.eqb_refl. rewrite (ocount _ _ _ _ _ _ _ OK _ _ _ H), Hc in *. cbn [app] in *. by apply Htl.
Qed.

(** Backwards nothing is visited, unless the overflow has an element at position size(). *)
Lemma obackward t ess ovl f : gorep t ess ovl -> ov_valid pf (go_ov t) (ov_size (go_ov t)) = false -> go_backward pf c f t = Ok [].
Proof.
  intros H Hv. unfold go_backward, go_rbegin. pose proof (or_g _ _ _ _ _ _ _ _ _ _ H) as Hg. pose proof (oshows _ _ _ _ _ _ _ OK _ _ _ H) as Hs.
  destruct (gr_groups _ _ _ _ _ _ _ _ Hg) as (gs & Hgs & Hl & _). pose proof (ggroup_count _ _ _ _ _ _ OK _ _ _ Hg Hgs Hl) as Hgc.
  change (g_group_count (g_set_n (go_g t) (gn ess))) with (g_group_count (go_g t)) in Hgc. rewrite Hgc. cbn [mbind res_bind].
  destruct (0 <? ov_size (go_ov t)) eqn:Es; cbn [mbind res_bind].
  - rewrite (ocount _ _ _ _ _ _ _ OK _ _ _ H). destruct f; cbn [on_iterate_rev]; rewrite (oov_end _ _ _ _ H Hv); done.
  - assert (E0 : ov_size (o_ov (V t)) = 0) by (apply N.ltb_ge in Es; cbn [go_view o_ov]; lia).
    assert (Hrb : (exists r es, g_rbegin (go_g t) = Ok (r, N.of_nat (length es)) /\ ess !! N.to_nat r = Some es) \/ g_rbegin (go_g t) = Ok end_nav).
    { pose proof (rbegin_spec _ _ _ _ _ _ OK _ _ Hg) as B. rewrite set_n_rbegin in B. destruct B as [(r & es & E & He & _)|[E _]]; [left; exists r, es; by split|by right]. }
    destruct Hrb as [(r & es & -> & He)| ->]; cbn [mbind res_bind].
    + assert (Ee : on_eq pf (V t) (r, N.of_nat (length es)) end_nav = Ok true).
      { rewrite empty_eq by done. unfold vn_eq. rewrite (vn_invalid_end _ _ _ _ Hs). cbn [mbind res_bind].
        unfold vn_invalid. destruct (_ <=? r); [done|]. destruct (sh_size _ _ _ _ Hs _ _ He) as [-> _]. cbn [mbind res_bind].
        by rewrite N.leb_refl. }
      destruct f; cbn [on_iterate_rev]; by rewrite Ee.
    + assert (Ee : on_eq pf (V t) end_nav end_nav = Ok true) by (rewrite empty_eq by done; exact (vn_eq_end_end _ _ _ _ Hs)).
      destruct f; cbn [on_iterate_rev]; by rewrite Ee.
Qed.

Lemma omap_forward t m : gomap t m -> exists l, NoDup (map fst l) /\ (forall k v, (k, v) ∈ l -> m !! k = Some v)
  /\ (forall f, (length l <= f)%nat -> go_forward pf c f t = Ok l)
  /\ (ov_size (go_ov t) = 0 \/ ov_valid pf (go_ov t) 0 = true -> l ≡ₚ map_to_list m)
  /\ (ov_valid pf (go_ov t) 0 = false -> N.of_nat (length l) + ov_size (go_ov t) = N.of_nat (size m)).
Proof.
  intros [[[Hz Ho] ->]|(ess & ovl & H & Hm)].
  - exists []. split; [constructor|]. split; [by intros k v ?%elem_of_nil|]. pose proof (ov_zero_size _ _ _ Ho) as E0.
    split; [|split; [intros _; by rewrite map_to_list_empty|intros _; by rewrite E0, map_size_empty]].
    intros f _. pose proof (gforward0 pf c kw vw (go_g t) f Hz) as Hf. destruct Hz as (_ & _ & Hb & _ & Hg & _).
    unfold go_forward, go_begin, g_begin, g_group_count. rewrite Hg, E0. cbn [mbind res_bind default length N.of_nat N.ltb N.compare take N.to_nat g_begin_scan].
    rewrite andb_false_r. rewrite empty_iterate by done.
    assert (Ee : vn_eq (o_view (V t)) end_nav end_nav = Ok true).
    { unfold vn_eq, vn_invalid, end_nav. cbn [go_view o_view g_view v_count]. unfold g_bucket_count. by rewrite Hb. }
    destruct f; cbn [v_iterate]; by rewrite Ee.
  - destruct (oforward _ _ _ H) as (tl & Hf & Hres). exists (concat ess ++ tl). pose proof (or_nodup _ _ _ _ _ _ _ _ _ _ H) as Hnd.
    pose proof (osize _ _ _ _ _ _ _ _ _ _ H) as Hs.
    assert (Hnd' : NoDup (keys_of (concat ess ++ tl)) /\ forall e, e ∈ concat ess ++ tl -> e ∈ concat ess ++ ovl).
    { destruct (ov_valid pf (go_ov t) 0).
      - split; [by rewrite Hres|]. intros e. by rewrite Hres.
      - subst tl. rewrite app_nil_r. rewrite fmap_app in Hnd. apply NoDup_app in Hnd as (Hnd & _). split; [done|]. intros e He. apply elem_of_app. by left. }
    destruct Hnd' as [Hnd1 Hsub]. split; [exact Hnd1|]. split; [|split; [done|split]].
    + intros k v Hin. rewrite <-Hm. apply emap_Some; [done|]. by apply Hsub.
    + intros Hv. assert (HP : concat ess ++ tl ≡ₚ concat ess ++ ovl).
      { destruct (ov_valid pf (go_ov t) 0); [by rewrite Hres|]. destruct Hv as [Hv|]; [|done]. subst tl. rewrite Hs in Hv.
        assert (ovl = []) as -> by (apply nil_length_inv; lia). done. }
      rewrite HP, <-Hm. symmetry. by apply map_to_list_to_map.
    + intros Hv. rewrite Hv in Hres. subst tl. rewrite app_nil_r, <-Hm, emap_size by done. rewrite Hs, app_length. lia.
Qed.

(** *** Serialization *)
Lemma gomap_g t m : gomap t m -> ov_size (go_ov t) = 0 -> gmrep pf c kw vw bmin er (go_g t) m.
Proof.
  intros [[[Hz Ho] ->]|(ess & ovl & H & Hm)] E0; [by left|right].
  assert (ovl = []) as -> by (pose proof (osize _ _ _ _ _ _ _ _ _ _ H); apply nil_length_inv; lia).
  rewrite app_nil_r in Hm. exists ess. split; [|done]. pose proof (or_g _ _ _ _ _ _ _ _ _ _ H) as Hg. pose proof (or_n _ _ _ _ _ _ _ _ _ _ H) as Hn.
  rewrite app_nil_r in Hn. unfold gn in Hg. rewrite <-Hn, set_n_id in Hg. done.
Qed.
Lemma oov_serialize t m : gomap t m -> ov_size (go_ov t) = 0 -> exists d, ov_serialize pf (go_cfg c kind) (go_ov t) = Ok d
  /\ forall o0 st, ovzero pf (oside kind) o0 -> exists o', ov_deserialize pf (go_cfg c kind) o0 (d ++ st) = Ok (o', st) /\ ovzero pf (oside kind) o'.
Proof.
  intros H E0.
  assert (Ho : ovzero pf (oside kind) (go_ov t)).
  { destruct H as [[[_ Ho] _]|(ess & ovl & H & _)]; [done|]. pose proof (or_ov _ _ _ _ _ _ _ _ _ _ H) as Ho. pose proof (osize _ _ _ _ _ _ _ _ _ _ H) as Hs.
    assert (ovl = []) as -> by (apply nil_length_inv; lia). destruct (go_ov t); cbn in *; [apply Ho| |].
    - destruct Ho as (_ & Ha & _). unfold oside in Ha. congruence.
    - destruct Ho as (-> & (_ & _ & ?) & _). done. }
  destruct (go_ov t) as [| |nb els full]; cbn [ovzero] in Ho.
  - exists []. split; [done|]. intros [| |nb' els' full'] st; cbn [ovzero]; unfold oside in *; [|intros [_ ?]; congruence|intros [_ ?]; congruence]. by exists ODummy.
  - destruct Ho as [_ Ho]. unfold oside in Ho. congruence.
  - destruct Ho as [-> Ho]. exists (nbits 64 0). split; [done|].
    intros [| |nb' els' full'] st; cbn [ovzero]; unfold oside in *; [intros ?; congruence|intros [_ ?]; congruence|]. intros [-> _]. cbn [ov_deserialize].
    rewrite (SerialProofs.read_var_app 64 0) by done. cbn [used of_option mbind res_bind um_read N.to_nat].
    eexists; split; [done|]. done.
Qed.
Lemma oserialize_ub t ess ovl : gorep t ess ovl -> ovl <> [] -> go_serialize pf c kind t = Ub OobRead.
Proof.
  intros H Hne. unfold go_serialize. pose proof (or_ov _ _ _ _ _ _ _ _ _ _ H) as Ho. destruct (go_ov t) as [| |nb els full]; cbn in Ho.
  - by destruct Ho as [? _].
  - destruct Ho as (_ & Ha & _). unfold oside in Ha. congruence.
  - destruct Ho as (-> & _). by destruct els.
Qed.
End iter.

Section roundtrip.
Context (er : Prop) (pf : platform) (c : gcfg) (kind : ovkind) (kw vw bmin : N).
Hypothesis OK : group_ok c kw vw bmin.
Hypothesis Hkind : kind <> OvArray.
Hypothesis Hfair : kind = OvMap -> um_fair pf.
Lemma gomap_of_g (er' : Prop) g o m : gmrep pf c kw vw bmin er' g m -> ovzero pf (oside kind) o ->
  gomap er' pf c kind kw vw bmin (GOTable g (if gt_b g =? 0 then o else ov_resize_buckets pf o (2^gt_b g))) m.
Proof.
  intros [[Hz ->]|(ess & H & Hm)] Ho.
  - left. split; [|done]. split; [done|]. destruct Hz as (_ & _ & Hb & _). by rewrite Hb.
  - right. exists ess, []. rewrite app_nil_r. split; [|done]. pose proof (b_range _ _ _ _ _ _ OK _ _ H) as Hb.
    rewrite (proj2 (N.eqb_neq _ _)) by lia. constructor; cbn [go_g go_ov]; rewrite ?app_nil_r.
    + unfold gn. rewrite <-(gr_n _ _ _ _ _ _ _ _ H), set_n_id. done.
    + apply ov_resize_spec; [intros E; apply Hfair; symmetry; exact E| |done]. apply pow2_le_63. lia.
    + apply H.
    + apply H.
    + apply H.
Qed.
Lemma oroundtrip t m kw0 vw0 bmin0 er0 t0 m0 : gomap er pf c kind kw vw bmin t m -> ov_size (go_ov t) = 0 -> N.of_nat (size m) < 2^64 ->
  group_ok c kw0 vw0 bmin0 -> gomap er0 pf c kind kw0 vw0 bmin0 t0 m0 ->
  exists s, go_serialize pf c kind t = Ok s /\ forall s', exists t', go_deserialize pf c kind t0 (s ++ s') = Ok (t', s')
    /\ gomap (8 <= slack pf)%nat pf c kind kw vw bmin t' m /\ ov_size (go_ov t') = 0.
Proof.
  intros H E0 Hsz OK0 H0. destruct (oov_serialize _ _ _ _ _ _ _ Hkind _ _ H E0) as (d & Ed & Hd).
  destruct (gmrep_roundtrip pf c kw vw bmin OK er (go_g t) m (gomap_g _ _ _ _ _ _ _ _ _ H E0) Hsz) as (s & Es & Hs).
  exists (d ++ s). unfold go_serialize. rewrite Ed. cbn [mbind res_bind]. rewrite Es. split; [done|]. intros s'.
  assert (Hc : exists t1, go_clear pf t0 = Ok t1 /\ gozero pf kind kw0 vw0 t1).
  { destruct H0 as [[Hz _]|(ess0 & ovl0 & H0 & _)]; [by apply oclear0|by eapply oclear]. }
  destruct Hc as (t1 & Ec & [Hz Ho]). unfold go_deserialize. rewrite Ec. cbn [mbind res_bind]. rewrite <-app_assoc.
  destruct (Hd (go_ov t1) (s ++ s') Ho) as (o' & -> & Ho'). cbn [mbind res_bind].
  destruct (Hs (go_g t1) s') as (g' & -> & Hg'). { exists (go_g t1). by eapply gclear0. }
  cbn [mbind res_bind]. eexists. split; [done|]. split; [by apply gomap_of_g|]. cbn [go_ov]. destruct (gt_b g' =? 0); [by eapply ov_zero_size|].
  destruct o' as [| |nb els full]; cbn [ovzero ov_resize_buckets ov_size] in *; [done|unfold oside in Ho'; destruct Ho'; congruence|]. by destruct Ho' as [-> _].
Qed.
End roundtrip.
