(** C124: operator== of navigators and iterators. *)
From Verif Require Import NavEqModel NavStep CompactProofs GroupHist PropTable PropSerial PropOverflow PropCompact PropGroup PropGroupOv GroupOvIter PropStep.

(** Specification: navigators can always be compared.  Two of them that are not end() denote the elements with the keys k and k', which find
    returns, and are equal exactly if k = k'; all others are equal exactly if both are end(). *)
Definition compares {A} (inv : A -> res bool) (find : N -> res A) (eq : A -> A -> res bool) (m : gmap N N) : Prop :=
  forall x y, exists ix iy, inv x = Ok ix /\ inv y = Ok iy /\
    if ix || iy then eq x y = Ok (ix && iy)
    else exists k k', is_Some (m !! k) /\ is_Some (m !! k') /\ find k = Ok x /\ find k' = Ok y /\ eq x y = Ok (bool_decide (k = k')).

Lemma compares_intro (E : nav -> option (N * N)) inv find eqf m :
  (forall x, exists i, inv x = Ok i /\ (i = false -> exists k v, E x = Some (k, v))) ->
  (forall x k v, E x = Some (k, v) -> m !! k = Some v /\ exists x', find k = Ok x' /\ E x' = Some (k, v)) ->
  (forall x y k v v', E x = Some (k, v) -> E y = Some (k, v') -> x = y) ->
  (forall x y ix iy, inv x = Ok ix -> inv y = Ok iy ->
    eqf x y = Ok (if negb iy && negb ix then (fst x =? fst y) && (snd x =? snd y) else eqb iy ix)) ->
  compares inv find eqf m.
Proof.
  intros H1 H2 H3 H4 x y. destruct (H1 x) as (ix & Hx & Ex), (H1 y) as (iy & Hy & Ey). exists ix, iy. split; [done|]. split; [done|].
  rewrite (H4 _ _ _ _ Hx Hy). destruct ix, iy; cbn [negb andb orb eqb]; try done.
  destruct (Ex eq_refl) as (k & v & Ek), (Ey eq_refl) as (k' & v' & Ek'). exists k, k'.
  destruct (H2 _ _ _ Ek) as (Hm & x' & Hf & E'), (H2 _ _ _ Ek') as (Hm' & y' & Hf' & E'').
  rewrite (H3 _ _ _ _ _ E' Ek) in Hf. rewrite (H3 _ _ _ _ _ E'' Ek') in Hf'. split; [by exists v|]. split; [by exists v'|]. split; [done|]. split; [done|].
  f_equal. destruct (decide (k = k')) as [->|Hne].
  - rewrite bool_decide_true by done. rewrite (H3 _ _ _ _ _ Ek Ek'). by rewrite !N.eqb_refl.
  - rewrite bool_decide_false by done. apply not_true_iff_false. intros [Hb Hp]%andb_prop. apply N.eqb_eq in Hb, Hp.
    destruct Hne. rewrite (surjective_pairing x), Hb, Hp, <- surjective_pairing in Ek. congruence.
Qed.
Lemma compares_zero inv find eqf m : (forall x, inv x = Ok true) -> (forall x y ix iy, inv x = Ok ix -> inv y = Ok iy ->
    eqf x y = Ok (if negb iy && negb ix then (fst x =? fst y) && (snd x =? snd y) else eqb iy ix)) -> compares inv find eqf m.
Proof. intros H1 H2 x y. exists true, true. split; [apply H1|]. split; [apply H1|]. cbn [orb andb]. by rewrite (H2 x y true true). Qed.

(** ** separate_chaining_table *)
Theorem C124_table : forall pf c kw vw t m, params pf c kw vw /\ reachable pf c kw vw t m \/ arr_params pf c kw vw /\ arr_reach pf c kw vw t m ->
  compares (nav_invalid pf t) (TableModel.find pf c t) (nav_eq pf t) m.
Proof.
  intros pf c kw vw t m HP.
  assert (Hr : table_ok0 pf c kw vw 1 (bits_max c kw) /\ trep pf c kw vw 1 (bits_max c kw) True t m).
  { destruct HP as [[P Hr]|[P Hr]].
    - split; [exact (reach_ok0 _ _ _ _ P)|exact (reachable_rep _ _ _ _ P _ _ Hr)].
    - split; [exact (arr_ok pf c kw vw P)|exact (arr_reach_rep pf c kw vw P _ _ Hr)]. }
  assert (Heq : forall x y ix iy, nav_invalid pf t x = Ok ix -> nav_invalid pf t y = Ok iy ->
    nav_eq pf t x y = Ok (if negb iy && negb ix then (fst x =? fst y) && (snd x =? snd y) else eqb iy ix)).
  { intros x y ix iy Hx Hy. unfold nav_eq. rewrite Hx, Hy. cbn [mbind res_bind]. by destruct (negb iy && negb ix). }
  destruct Hr as [OK [[Hz _]|(sl & ess & ovl & H & Hm)]].
  - apply compares_zero; [|exact Heq]. intros [bk p]. unfold nav_invalid, bucket_count. destruct Hz as (Hb & _ & _ & _ & Ho & _).
    rewrite Hb, (ov_zero_size _ _ _ Ho). cbn [N.eqb N.ltb N.compare andb]. by rewrite (proj2 (N.leb_le 0 bk)) by lia.
  - apply (compares_intro (nav_entry pf t ess)); [..|exact Heq].
    + intros x. assert (Hi : exists i, nav_invalid pf t x = Ok i).
      { destruct x as [bk p]. unfold nav_invalid. destruct (_ && _ && _); [by eexists|]. destruct (tinv_bc _ _ _ _ _ _ _ OK _ _ _ _ H) as [_ ->].
        destruct (N.leb_spec (2^t_b t) bk) as [|Hlt]; [by eexists|]. destruct (tinv_slot _ _ _ _ _ _ _ _ _ _ _ _ H Hlt) as (s & es & -> & _). by eexists. }
      destruct Hi as (i & Hi). exists i. split; [done|]. intros ->. destruct (nav_valid_entry _ _ _ _ _ _ _ OK _ _ _ _ _ H Hi) as ([k v] & He). by exists k, v.
    + intros x k v He. pose proof (nav_entry_elem _ _ _ _ _ _ _ _ _ _ _ _ _ H He) as Hin.
      pose proof (proj2 (emap_Some _ k v (ti_nodup _ _ _ _ _ _ _ _ _ _ _ H)) Hin) as Hk. rewrite <- Hm. split; [done|].
      destruct (ti_range _ _ _ _ _ _ _ _ _ _ _ H _ _ Hin) as [Hd _].
      pose proof (find_spec _ _ _ _ _ _ _ OK _ _ _ _ k H Hd) as Hf. by rewrite Hk in Hf.
    + intros x y k v v'. exact (nav_entry_inj _ _ _ _ _ _ _ _ _ _ _ _ _ _ _ _ H).
Qed.
Print Assumptions C124_table.

(** ** compact_chaining_map and group_chaining_table *)
Lemma nav_at_elem ess (bk p : N) (e : N * N) : nav_at ess (bk, p) = Some e -> exists es, ess !! N.to_nat bk = Some es /\ es !! N.to_nat p = Some e.
Proof. unfold nav_at. cbn [fst snd]. destruct (ess !! N.to_nat bk) as [es|]; [|done]. intros H. by exists es. Qed.
Lemma nav_at_inj (hb : N -> N) ess (x y : nav) k v v' : placed hb ess -> NoDup (keys_of (concat ess)) -> nav_at ess x = Some (k, v) -> nav_at ess y = Some (k, v') -> x = y.
Proof.
  intros Hp Hn Hx Hy. destruct x as [bk p], y as [bk' p']. apply nav_at_elem in Hx as (es & He & Hx). apply nav_at_elem in Hy as (es' & He' & Hy).
  pose proof (Hp _ _ _ _ He (elem_of_list_lookup_2 _ _ _ Hx)) as E1. pose proof (Hp _ _ _ _ He' (elem_of_list_lookup_2 _ _ _ Hy)) as E2.
  assert (bk = bk') by lia. subst bk'. rewrite He in He'. injection He' as <-. f_equal. assert (N.to_nat p = N.to_nat p'); [|lia].
  assert (Hne : NoDup (keys_of es)).
  { apply elem_of_list_split_length in He as (l1 & l2 & -> & _). rewrite concat_app, fmap_app in Hn. apply NoDup_app in Hn as (_ & _ & Hn).
    cbn [concat] in Hn. rewrite fmap_app in Hn. by apply NoDup_app in Hn as (Hn & _). }
  eapply NoDup_lookup; [exact Hne|rewrite list_lookup_fmap, Hx; done|rewrite list_lookup_fmap, Hy; done].
Qed.
Lemma veq_cases V x y ix iy : vn_invalid V x = Ok ix -> vn_invalid V y = Ok iy ->
  vn_eq V x y = Ok (if negb iy && negb ix then (fst x =? fst y) && (snd x =? snd y) else eqb iy ix).
Proof. intros Hx Hy. unfold vn_eq. rewrite Hx, Hy. cbn [mbind res_bind]. by destruct (negb iy && negb ix). Qed.
Lemma vinvalid_total okey V b ess x : NavProofs.shows okey V b ess -> exists i, vn_invalid V x = Ok i.
Proof.
  intros H. destruct x as [bk p]. unfold vn_invalid. rewrite (sh_count _ _ _ _ H). destruct (N.leb_spec (2^b) bk) as [|Hlt]; [by eexists|].
  destruct (sh_lookup _ _ _ _ H bk Hlt) as (es & He). destruct (sh_size _ _ _ _ H _ _ He) as [-> _]. by eexists.
Qed.
Lemma chain_compares {T} (I : mapimpl T) kw vw bmin bmax okey bits hb Rep Zero full foi resv fuel :
  chain_ok I kw vw bmin bmax okey bits hb Rep Zero full foi resv fuel -> forall t m, mrep Rep Zero t m ->
  compares (vn_invalid (i_view I t)) (i_find I t) (vn_eq (i_view I t)) m.
Proof.
  intros C t m [[Hz _]|(ess & HR & Hm)].
  - apply compares_zero; [|apply veq_cases]. intros [bk p]. unfold vn_invalid. rewrite (ch_shows0 _ _ _ _ _ _ _ _ _ _ _ _ _ _ C _ Hz).
    by rewrite (proj2 (N.leb_le 0 bk)) by lia.
  - pose proof (ch_shows _ _ _ _ _ _ _ _ _ _ _ _ _ _ C _ _ HR) as Hs. pose proof (ch_nodup _ _ _ _ _ _ _ _ _ _ _ _ _ _ C _ _ HR) as Hnd.
    pose proof (ch_placed _ _ _ _ _ _ _ _ _ _ _ _ _ _ C _ _ HR) as Hpl.
    apply (compares_intro (nav_at ess)); [..|apply veq_cases].
    + intros x. destruct (vinvalid_total _ _ _ _ x Hs) as (i & Hi). exists i. split; [done|]. intros ->. destruct (vvalid_at _ _ _ _ Hs _ Hi) as ([k v] & He). by exists k, v.
    + intros x k v Hx. pose proof (nav_at_map _ _ _ _ _ _ _ _ _ _ _ _ _ _ C _ _ _ _ _ HR Hx) as Hk. rewrite <- Hm. split; [done|].
      apply emap_Some in Hk; [|done]. destruct (ch_range _ _ _ _ _ _ _ _ _ _ _ _ _ _ C _ _ _ _ HR Hk) as [Hlt _]. apply (emap_Some _ _ _ Hnd) in Hk.
      destruct (ch_bucket _ _ _ _ _ _ _ _ _ _ _ _ _ _ C _ _ _ HR Hlt) as (es & He).
      rewrite (ch_find _ _ _ _ _ _ _ _ _ _ _ _ _ _ C _ _ _ _ HR Hlt He). pose proof (ch_lookup _ _ _ _ _ _ _ _ _ _ _ _ _ _ C _ _ _ _ HR He) as Hl.
      destruct (first_index k (keys_of es)) as [p|]; [|congruence]. destruct Hl as (v' & Hv & Ha). eexists. split; [done|]. rewrite Ha. congruence.
    + intros x y k v v'. by apply (nav_at_inj (hb (bits t))).
Qed.
Theorem C124_compact : forall pf c kw vw bmin fuel t m, compact_ok pf c kw vw bmin -> (64 <= fuel)%nat -> c_after pf c kw vw bmin fuel t m ->
  compares (vn_invalid (c_view pf c t)) (c_find pf c t) (vn_eq (c_view pf c t)) m.
Proof.
  intros pf c kw vw bmin fuel t m OK Hf Ha.
  exact (chain_compares _ _ _ _ _ _ _ _ _ _ _ _ _ _ (compact_chain pf c kw vw bmin OK fuel Hf) t m (c_after_rep _ _ _ _ _ _ _ _ OK Hf Ha)).
Qed.
Print Assumptions C124_compact.
Theorem C124_group : forall pf c kw vw bmin t m, g_reached pf c kw vw bmin t m ->
  compares (vn_invalid (g_view pf c t)) (g_find pf c t) (vn_eq (g_view pf c t)) m.
Proof.
  intros pf c kw vw bmin t m (OK & HR)%g_reached_rep.
  exact (chain_compares _ _ _ _ _ _ _ _ _ _ _ _ _ _ (group_chain True pf c kw vw bmin OK 64 I (Nat.le_refl _)) t m HR).
Qed.
Print Assumptions C124_group.

(** ** group_chaining_table with an overflow *)
Lemma ov_entry_inj pf fair bo nbk o ovl p q k v v' : ovrel pf fair bo nbk o ovl -> NoDup (keys_of ovl) -> ov_entry pf o p = Some (k, v) -> ov_entry pf o q = Some (k, v') -> p = q.
Proof.
  intros Ho Hn. unfold ov_entry. destruct o as [|ks vs e full|nb els full]; [done| |].
  - destruct Ho as (Eo & _). rewrite Eo, !arr_entry_lookup. intros H1 H2. assert (N.to_nat p = N.to_nat q); [|lia].
    eapply NoDup_lookup; [exact Hn|rewrite list_lookup_fmap, H1; done|rewrite list_lookup_fmap, H2; done].
  - assert (Hpos : forall q w, (if q <? nb then head (um_chain pf nb els q) else None) = Some (k, w) -> um_bucket pf nb k = q).
    { intros r w Hq. destruct (r <? nb); [|done]. destruct (um_chain pf nb els r) as [|e l] eqn:Ec; [done|]. injection Hq as ->.
      assert (Hin : (k, w) ∈ um_chain pf nb els r) by (rewrite Ec; by constructor). by apply um_chain_elem in Hin as [_ ?]. }
    intros H1 H2. rewrite <-(Hpos _ _ H1). by apply Hpos in H2.
Qed.
Theorem C124_group_overflow : forall pf c kind kw vw bmin t m, go_reached pf c kind kw vw bmin t m ->
  compares (on_invalid pf (go_view pf c t)) (go_find pf c t) (on_eq pf (go_view pf c t)) m.
Proof.
  intros pf c kind kw vw bmin t m (OK & [Hk0 _] & HR)%go_reached_rep.
  assert (Heq : forall x y ix iy, on_invalid pf (go_view pf c t) x = Ok ix -> on_invalid pf (go_view pf c t) y = Ok iy ->
    on_eq pf (go_view pf c t) x y = Ok (if negb iy && negb ix then (fst x =? fst y) && (snd x =? snd y) else eqb iy ix)).
  { intros x y ix iy Hx Hy. unfold on_eq. rewrite Hx, Hy. cbn [mbind res_bind]. by destruct (negb iy && negb ix). }
  destruct HR as [[[(_ & _ & Hb & _) Ho] _]|(ess & ovl & H & Hm)].
  - apply compares_zero; [|exact Heq]. intros [bk p]. unfold on_invalid, on_over. cbn [go_view o_ov fst snd]. rewrite (ov_zero_size _ _ _ Ho). cbn [N.ltb N.compare andb].
    unfold vn_invalid. cbn [go_view o_view v_count g_view]. unfold g_bucket_count. rewrite Hb. cbn [N.eqb]. by rewrite (proj2 (N.leb_le 0 bk)) by lia.
  - pose proof (oshows _ _ _ _ _ _ _ OK _ _ _ H) as Hs. pose proof (ocount _ _ _ _ _ _ _ OK _ _ _ H) as Hc.
    pose proof (or_nodup _ _ _ _ _ _ _ _ _ _ H) as Hnd.
    apply (compares_intro (go_at pf t ess)); [..|exact Heq].
    + intros x. destruct (on_invalid pf (go_view pf c t) x) as [i| | |] eqn:Hi.
      2-4: exfalso; unfold on_invalid in Hi; destruct (_ && _) in Hi; [done|]; destruct (vinvalid_total _ _ _ _ x Hs) as (i & E); by rewrite E in Hi.
      exists i. split; [done|]. intros ->. unfold go_at. unfold on_invalid in Hi. destruct x as [bk p]. cbn [fst snd] in *.
      destruct (on_over (go_view pf c t) bk && ov_valid pf (o_ov (go_view pf c t)) p) eqn:E.
      * apply andb_prop in E as [E1 E2]. unfold on_over in E1. apply andb_prop in E1 as [_ E1]. cbn [go_view o_view o_ov v_count g_view] in *.
        change (g_bucket_count (go_g t)) with (go_bucket_count t) in E1. rewrite Hc in E1. rewrite E1.
        destruct (ov_valid_entry _ _ _ _ _ _ _ (or_ov _ _ _ _ _ _ _ _ _ _ H) E2) as ([k v] & He). by exists k, v.
      * destruct (vvalid_at _ _ _ _ Hs _ Hi) as ([k v] & He). exists k, v. destruct (N.eqb_spec bk (2^gt_b (go_g t))) as [->|]; [|done].
        unfold vn_invalid in Hi. rewrite (sh_count _ _ _ _ Hs), N.leb_refl in Hi. done.
    + intros x k v Hx. assert (Hk : emap (concat ess ++ ovl) !! k = Some v) by (eapply oat_emap; eauto). rewrite <- Hm. split; [done|].
      pose proof Hk as Hin. apply (emap_Some _ _ _ Hnd) in Hin. destruct (or_range _ _ _ _ _ _ _ _ _ _ H _ _ Hin) as [Hlt _].
      destruct (ofind _ _ _ _ _ _ _ OK Hk0 _ _ _ _ H Hlt) as (x' & Hf & Hx'). rewrite Hk in Hx'. by exists x'.
    + intros x y k v v'. destruct x as [bk p], y as [bk' p']. unfold go_at. cbn [fst snd].
      assert (Hcross : forall p (x : nav) w w', ov_entry pf (go_ov t) p = Some (k, w) -> nav_at ess x = Some (k, w') -> False).
      { intros p0 [b0 q0] w w' Ho Hx. apply (ov_entry_spec _ 0 0 _ _ _ _ _ _ _ _ (or_ov _ _ _ _ _ _ _ _ _ _ H)) in Ho as [Ho _].
        apply nav_at_elem in Hx as (es & He & Hx). rewrite fmap_app in Hnd. apply NoDup_app in Hnd as (_ & Hd & _). apply (Hd k).
        - apply keys_elem. exists w'. apply elem_of_concat. exists (N.to_nat b0), es. split; [done|]. by eapply elem_of_list_lookup_2.
        - apply keys_elem. by exists w. }
      destruct (N.eqb_spec bk (2^gt_b (go_g t))) as [->|Hne], (N.eqb_spec bk' (2^gt_b (go_g t))) as [->|Hne'].
      * intros H1 H2. f_equal. apply (ov_entry_inj _ _ _ _ _ _ _ _ _ _ _ (or_ov _ _ _ _ _ _ _ _ _ _ H) (ond _ _ _ _ _ _ _ _ _ _ H) H1 H2).
      * intros H1 H2. by destruct (Hcross _ _ _ _ H1 H2).
      * intros H1 H2. by destruct (Hcross _ _ _ _ H2 H1).
      * intros H1 H2. pose proof (or_g _ _ _ _ _ _ _ _ _ _ H) as Hg.
        exact (nav_at_inj _ _ _ _ _ _ _ (gr_placed _ _ _ _ _ _ _ _ Hg) (gr_nodup _ _ _ _ _ _ _ _ Hg) H1 H2).
Qed.
Print Assumptions C124_group_overflow.

(** ** Iterators of two tables: m_map is not compared, so the iterators of two elements with different keys in different tables may be equal *)
Definition ex_eq_ops (k : N) : list op := [OpReserve 16; OpInsert k 3].
Definition ex_eq_t (k : N) : table := ex_hist ex_var 20 9 (ex_eq_ops k).
Lemma ex_eq_reach k : k < 2^20 -> reachable lax_pf ex_var 20 9 (ex_eq_t k) (fst (spec_run ∅ (ex_eq_ops k))).
Proof.
  intros Hk. apply ex_hist_reach; [exact ex_var_ok|done|]. unfold ex_eq_ops. constructor; [cbn [valid_op]; vm_compute; split; done|].
  constructor; [|constructor]. cbn [valid_op]. split; [exact Hk|done].
Qed.
Theorem C124_two_tables_refuted : exists pf c kw vw t t' m m' k k' x, params pf c kw vw /\ reachable pf c kw vw t m /\ reachable pf c kw vw t' m' /\
  k <> k' /\ is_Some (m !! k) /\ m !! k' = None /\ is_Some (m' !! k') /\ m' !! k = None /\
  TableModel.find pf c t k = Ok x /\ TableModel.find pf c t' k' = Ok x /\ nav_eq2 pf t t' x x = Ok true.
Proof.
  exists lax_pf, ex_var, 20, 9, (ex_eq_t 9), (ex_eq_t 41), (fst (spec_run ∅ (ex_eq_ops 9))), (fst (spec_run ∅ (ex_eq_ops 41))), 9, 41, (2, 0).
  split; [exact ex_var_ok|]. split; [by apply ex_eq_reach|]. split; [by apply ex_eq_reach|]. split; [done|].
  split; [by eexists|]. split; [done|]. split; [by eexists|]. split; [done|]. split; [vm_compute; reflexivity|]. split; vm_compute; reflexivity.
Qed.
Print Assumptions C124_two_tables_refuted.

(** Within one table two such iterators differ, and so does an iterator from end(). *)
Example C124_case : params lax_pf ex_var 20 9 /\ reachable lax_pf ex_var 20 9 ex_step_t (fst (spec_run ∅ ex_step_ops))
  /\ TableModel.find lax_pf ex_var ex_step_t 9 = Ok (2, 0) /\ TableModel.find lax_pf ex_var ex_step_t 41 = Ok (2, 1)
  /\ nav_eq lax_pf ex_step_t (2, 0) (2, 0) = Ok true /\ nav_eq lax_pf ex_step_t (2, 0) (2, 1) = Ok false
  /\ nav_eq lax_pf ex_step_t (2, 0) end_nav = Ok false /\ nav_eq lax_pf ex_step_t (16, 3) end_nav = Ok true.
Proof. split; [exact ex_var_ok|]. split; [exact ex_step_reach|]. split; [vm_compute; reflexivity|]. repeat split; vm_compute; reflexivity. Qed.
Example C124_group_case : g_reached strict_pf ex_gx 20 9 1 ex_g_tab ex_g_map /\ exists x y, x <> y
  /\ vn_invalid (g_view strict_pf ex_gx ex_g_tab) x = Ok false /\ vn_invalid (g_view strict_pf ex_gx ex_g_tab) y = Ok false
  /\ vn_eq (g_view strict_pf ex_gx ex_g_tab) x y = Ok false /\ vn_eq (g_view strict_pf ex_gx ex_g_tab) x end_nav = Ok false.
Proof.
  split; [exact ex_g_reached|].
  exists (167, 0), (169, 0). split; [done|]. repeat split; vm_compute; reflexivity.
Qed.
(** An element of the overflow compares different from an element of a group and from end(). *)
Example C124_overflow_case : go_reached lax_pf ex_gx OvMap 10 4 1 ex_go2 ex_gom2 /\ exists x y, snd x = 0 /\ fst x = 2^gt_b (go_g ex_go2)
  /\ on_invalid lax_pf (go_view lax_pf ex_gx ex_go2) x = Ok false /\ on_invalid lax_pf (go_view lax_pf ex_gx ex_go2) y = Ok false
  /\ on_eq lax_pf (go_view lax_pf ex_gx ex_go2) x y = Ok false /\ on_eq lax_pf (go_view lax_pf ex_gx ex_go2) x end_nav = Ok false.
Proof.
  split; [exact ex_go2_reached|]. exists (2^gt_b (go_g ex_go2), 0), (0, 0). split; [done|]. split; [done|]. repeat split; vm_compute; reflexivity.
Qed.
