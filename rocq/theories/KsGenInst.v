(** keysplit_adapter over separate_chaining_map and group_chaining_table, release and debug builds. *)
From Verif Require Export KsGenProofs DebugGroupConf DebugConf DebugGroupTrans GroupSerial TableReach.

(** *** Calls of a map that return what the calls of another map return *)
Record sub_le {T U} (S : submap T) (R : submap U) (p : T -> U) : Prop := {
  sl_find : forall t k x, sm_find S t k = Ok x -> sm_find R (p t) k = Ok x;
  sl_index : forall t k r, sm_index S t k = Ok r -> sm_index R (p t) k = Ok (p (fst r), snd r);
  sl_erase : forall t k r, sm_erase S t k = Ok r -> sm_erase R (p t) k = Ok (p (fst r), snd r);
  sl_count : forall t k n, sm_count S t k = Ok n -> sm_count R (p t) k = Ok n;
  sl_size : forall t, sm_size S t = sm_size R (p t);
  sl_shrink : forall t t', sm_shrink S t = Ok t' -> sm_shrink R (p t) = Ok (p t');
  sl_clear : forall t t', sm_clear S t = Ok t' -> sm_clear R (p t) = Ok (p t');
  sl_invalid : forall t x b, sm_invalid S t x = Ok b -> sm_invalid R (p t) x = Ok b;
  sl_pair : forall t x e, sm_pair S t x = Ok e -> sm_pair R (p t) x = Ok e;
  sl_value : forall t x v, sm_value S t x = Ok v -> sm_value R (p t) x = Ok v;
  sl_write : forall t x v t', sm_write S t x v = Ok t' -> sm_write R (p t) x v = Ok (p t')
}.
Section le.
Context {T U : Type} (S : submap T) (R : submap U) (p : T -> U) (max_bits m_length : N).
Hypothesis LE : sub_le S R p.
Implicit Types s : list T.
Lemma slot_le k slot : gks_slot true max_bits m_length k = Ok slot -> gks_slot false max_bits m_length k = Ok slot.
Proof. intros E. by apply gks_slot_dbg in E as [? _]. Qed.
Lemma map_le s i t : gks_map s i = Ok t -> gks_map (p <$> s) i = Ok (p t).
Proof. unfold gks_map. rewrite list_lookup_fmap. destruct (s !! _); [|done]. intros E. by injection E as ->. Qed.
Lemma eq_le s x y b : gks_eq S s x y = Ok b -> gks_eq R (p <$> s) x y = Ok b.
Proof.
  unfold gks_eq. intros H. do 4 dinv1 H. rewrite (map_le _ _ _ E). cbn [mbind res_bind]. rewrite (map_le _ _ _ E0). cbn [mbind res_bind].
  rewrite (sl_invalid _ _ _ LE _ _ _ E1). cbn [mbind res_bind]. rewrite (sl_invalid _ _ _ LE _ _ _ E2). done.
Qed.
Lemma find_le s k x : gks_find S true max_bits m_length s k = Ok x -> gks_find R false max_bits m_length (p <$> s) k = Ok x.
Proof.
  unfold gks_find. intros H. do 3 dinv1 H. rewrite (slot_le _ _ E). cbn [mbind res_bind]. rewrite (map_le _ _ _ E0). cbn [mbind res_bind].
  by rewrite (sl_find _ _ _ LE _ _ _ E1).
Qed.
Lemma index_le s k r : gks_index S true max_bits m_length s k = Ok r -> gks_index R false max_bits m_length (p <$> s) k = Ok (p <$> fst r, snd r).
Proof.
  unfold gks_index. intros H. do 3 dinv1 H. destruct a1 as [t x]. injection H as <-. rewrite (slot_le _ _ E). cbn [mbind res_bind].
  rewrite (map_le _ _ _ E0). cbn [mbind res_bind]. rewrite (sl_index _ _ _ LE _ _ _ E1). cbn [mbind res_bind fst snd]. by rewrite list_fmap_insert.
Qed.
Lemma erase_le s k r : gks_erase S true max_bits m_length s k = Ok r -> gks_erase R false max_bits m_length (p <$> s) k = Ok (p <$> fst r, snd r).
Proof.
  unfold gks_erase. intros H. do 3 dinv1 H. destruct a1 as [t x]. injection H as <-. rewrite (slot_le _ _ E). cbn [mbind res_bind].
  rewrite (map_le _ _ _ E0). cbn [mbind res_bind]. rewrite (sl_erase _ _ _ LE _ _ _ E1). cbn [mbind res_bind fst snd]. by rewrite list_fmap_insert.
Qed.
Lemma size_le s : gks_size S s = gks_size R (p <$> s).
Proof.
  unfold gks_size. generalize 0. induction s as [|t s IH]; intros n; [done|]. cbn [foldl fmap list_fmap]. rewrite (sl_size _ _ _ LE). apply IH.
Qed.
Lemma rmap_le (f : T -> res T) (g : U -> res U) : (forall t t', f t = Ok t' -> g (p t) = Ok (p t')) -> forall s s', rmap f s = Ok s' -> rmap g (p <$> s) = Ok (p <$> s').
Proof.
  intros Hf. induction s as [|t s IH]; intros s' H; cbn [rmap fmap list_fmap] in *; [by injection H as <-|]. do 2 dinv1 H. injection H as <-.
  rewrite (Hf _ _ E). cbn [mbind res_bind]. rewrite (IH _ eq_refl). done.
Qed.
Lemma run_op_le s o r : gks_run_op S true max_bits m_length s o = Ok r -> gks_run_op R false max_bits m_length (p <$> s) o = Ok (p <$> fst r, snd r).
Proof.
  intros H. destruct o; cbn [gks_run_op] in *; try done.
  - do 2 dinv1 H. rewrite (find_le _ _ _ E). cbn [mbind res_bind]. rewrite (eq_le _ _ _ _ E0). cbn [mbind res_bind]. destruct a0; [by injection H as <-|].
    do 2 dinv1 H. injection H as <-. rewrite (map_le _ _ _ E1). cbn [mbind res_bind]. by rewrite (sl_pair _ _ _ LE _ _ _ E2).
  - unfold gks_count in *. dinv1 H. injection H as <-. do 2 dinv1 E. rewrite (slot_le _ _ E0). cbn [mbind res_bind]. rewrite (map_le _ _ _ E1). cbn [mbind res_bind].
    by rewrite (sl_count _ _ _ LE _ _ _ E).
  - dinv1 H. destruct a as [s1 x]. do 2 dinv1 H. injection H as <-. rewrite (index_le _ _ _ E). cbn [mbind res_bind fst snd].
    rewrite (map_le _ _ _ E0). cbn [mbind res_bind]. by rewrite (sl_value _ _ _ LE _ _ _ E1).
  - dinv1 H. destruct a as [s1 x]. do 2 dinv1 H. injection H as <-. rewrite (index_le _ _ _ E). cbn [mbind res_bind fst snd].
    rewrite (map_le _ _ _ E0). cbn [mbind res_bind]. rewrite (sl_write _ _ _ LE _ _ _ _ E1). cbn [mbind res_bind]. by rewrite list_fmap_insert.
  - dinv1 H. destruct a as [s1 n]. injection H as <-. by rewrite (erase_le _ _ _ E).
  - injection H as <-. by rewrite size_le.
  - dinv1 H. injection H as <-. by rewrite (rmap_le _ (sm_shrink R) (sl_shrink _ _ _ LE) _ _ E).
  - dinv1 H. injection H as <-. by rewrite (rmap_le _ (sm_clear R) (sl_clear _ _ _ LE) _ _ E).
Qed.
Lemma run_le ops : forall s r, gks_run S true max_bits m_length s ops = Ok r -> gks_run R false max_bits m_length (p <$> s) ops = Ok (p <$> fst r, snd r).
Proof.
  induction ops as [|o ops IH]; intros s r H; cbn [gks_run] in *; [by injection H as <-|]. dinv1 H. destruct a as [s' x]. dinv1 H. destruct a as [s2 xs].
  injection H as <-. rewrite (run_op_le _ _ _ E). cbn [mbind res_bind fst snd]. rewrite (IH _ _ E0). done.
Qed.
End le.

(** Without checks and over separate_chaining_map this is the adapter of KsModel.v. *)
Lemma gks_new_plain pf c vw fuel max_bits m_length : gks_new (sub_table pf vw fuel c) max_bits m_length = ks_new pf c vw max_bits m_length.
Proof.
  unfold gks_new, ks_new. destruct (ks_interval max_bits m_length); cbn [mbind res_bind]; try done.
  generalize (seq 0 (N.to_nat m_length)). induction l as [|i l IH]; cbn [rmap map]; [done|]. cbn [sub_table sm_new mbind res_bind] in *. by rewrite IH.
Qed.
Lemma gks_slot_plain max_bits m_length k : gks_slot false max_bits m_length k = ks_slot max_bits m_length k.
Proof. unfold gks_slot. by destruct (ks_slot max_bits m_length k). Qed.
Lemma gks_run_op_plain pf c vw fuel max_bits m_length s o :
  gks_run_op (sub_table pf vw fuel c) false max_bits m_length s o = ks_run_op pf c fuel max_bits m_length s o.
Proof.
  destruct o; cbn [gks_run_op ks_run_op]; try done;
    unfold gks_find, gks_count, gks_index, gks_erase, ks_find, ks_count, ks_index, ks_erase; rewrite gks_slot_plain; done.
Qed.
Lemma gks_run_plain pf c vw fuel max_bits m_length ops : forall s,
  gks_run (sub_table pf vw fuel c) false max_bits m_length s ops = ks_run pf c fuel max_bits m_length s ops.
Proof.
  induction ops as [|o ops IH]; intros s; [done|]. cbn [gks_run ks_run]. rewrite gks_run_op_plain.
  destruct (ks_run_op pf c fuel max_bits m_length s o) as [[s1 x]| | |]; cbn [mbind res_bind]; [|done..]. by rewrite IH.
Qed.

Lemma dtable_le pf vw fuel c junk : sub_le (sub_dtable pf vw fuel c junk) (sub_table pf vw fuel c) strip.
Proof.
  constructor; cbn [sub_dtable sub_table sm_find sm_index sm_erase sm_count sm_size sm_shrink sm_clear sm_invalid sm_pair sm_value sm_write].
  - intros t k x. apply dfind_eq.
  - intros t k r. unfold dindex, index. exact (dfind_or_insert_eq pf c junk fuel t k 0 r).
  - intros t k r. apply derase_eq.
  - intros t k r. apply dcount_eq.
  - done.
  - intros t t'. apply dshrink_to_fit_eq.
  - intros t t'. apply dclear_eq.
  - done.
  - intros t x e. apply diter_at_eq.
  - intros t x e. apply dnav_value_eq.
  - intros t x v t'. apply dwrite_value_eq.
Qed.
Lemma dgroup_le pf vw fuel c : sub_le (sub_dgroup pf vw fuel c) (sub_group pf vw fuel c) gstrip.
Proof.
  pose proof (dg_impl_le pf c fuel) as L. pose proof (il_view _ _ _ L) as LV. constructor; cbn [sub_dgroup sub_group sub_of sm_find sm_index sm_erase sm_count sm_size sm_shrink sm_clear sm_invalid sm_pair sm_value sm_write].
  - intros t k x. apply (il_find _ _ _ L).
  - intros t k r. apply (il_insert _ _ _ L).
  - intros t k r. apply (il_erase _ _ _ L).
  - done.
  - apply (il_size _ _ _ L).
  - intros t t' E. by injection E as <-.
  - intros t t'. apply (il_clear _ _ _ L).
  - intros t x b. by apply vl_invalid.
  - intros t x b. by apply vl_iter_at.
  - intros t x b. by apply vl_val.
  - intros t x v t'. apply (il_write _ _ _ L).
Qed.

(** *** The maps behave like finite maps *)
Lemma valid_any kw vw a b a' b' o : ks_has_op o -> valid_op kw vw a b o -> valid_op kw vw a' b' o.
Proof. by destruct o. Qed.
Lemma spec1 m o : snd (spec_run m [o]) = [snd (spec_step m o)] /\ fst (spec_run m [o]) = fst (spec_step m o).
Proof. cbn [spec_run]. by destruct (spec_step m o). Qed.

Lemma drun_sub pf vw fuel c junk d o : ks_has_op o -> sm_run_op (sub_dtable pf vw fuel c junk) d o = drun_op pf c junk fuel d o.
Proof. by destruct o. Qed.
Section dtable.
Context (pf : platform) (c : cfg) (junk : option N) (kw vw : N) (fuel : nat).
Hypothesis P : params pf c kw vw.
Hypothesis D : debug_ok c junk kw vw.
Hypothesis Hf : (64 <= fuel)%nat.
Hypothesis Hval : c_val c <> KNull.
Definition dtrep (d : dtable) (m : gmap N N) : Prop := dpart pf c kw vw True d /\ trep pf c kw vw 1 (bits_max c kw) True (strip d) m.
Lemma dtrep_new : exists d, dnew_table pf c kw vw = Ok d /\ dtrep d ∅.
Proof.
  destruct (any_facts _ _ _ _ _ (or_introl P) D) as (OK & SP & DOK & Hi & Hc & _).
  apply (dnew_rep pf c junk kw vw 1 (bits_max c kw) True OK DOK).
Qed.
Lemma dtrep_step d m o : dtrep d m -> ks_has_op o -> valid_op kw vw 0 0 o ->
  exists d', sm_run_op (sub_dtable pf vw fuel c junk) d o = Ok (d', snd (spec_step m o)) /\ dtrep d' (fst (spec_step m o)).
Proof.
  intros [Hd Hr] Ho Hv. rewrite drun_sub by done. destruct (any_facts _ _ _ _ _ (or_introl P) D) as (OK & SP & DOK & Hi & Hc & _).
  destruct (drun_ok pf c junk kw vw 1 (bits_max c kw) True OK DOK fuel SP Hf [o] d m) as (d' & E & Hd' & Hr'); try done.
  - intros v Hlt. eapply cfg_values; [exact Hc|done|done].
  - apply Forall_singleton. by eapply valid_any.
  - by apply (noarr_ops _ _ _ _ P).
  - destruct (spec1 m o) as [E1 E2]. rewrite E1 in E. rewrite E2 in Hr'. cbn [drun_ops] in E. dinv1 E. destruct a as [d1 x]. injection E as <- <-.
    exists d1. done.
Qed.
Lemma dtrep_end d m : dtrep d m -> nav_invalid pf (strip d) end_nav = Ok true.
Proof.
  intros [_ [[Hz _]|(sl & ess & ovl & H & _)]]; [by eapply end_nav_invalid_zero|].
  by eapply (end_nav_invalid _ _ _ _ _ _ _ (params_ok0 _ _ _ _ P)).
Qed.
Lemma dtrep_wide d m f k : dtrep d m -> c_hash c = HBij f -> 2^kw <= k -> dindex pf c junk fuel d k = Throw.
Proof.
  intros [Hd Hr] Hh Hk. destruct (any_facts _ _ _ _ _ (or_introl P) D) as (OK & _ & DOK & Hi & Hc & _).
  pose proof (de_kw _ _ _ _ D) as Hkw. pose proof (co_kw _ _ _ _ _ Hc) as Hk64.
  assert (Hgo : forall d2 g, d_kw d2 = kw -> (d_b d2 =? 0) = false -> dfind_or_insert pf c junk (S g) d2 k 0 = Throw).
  { intros d2 g Hk2 Hb2. cbn [dfind_or_insert]. rewrite Hb2, Hk2, (proj2 (N.ltb_lt 1 kw)) by lia. cbn [chk mbind res_bind].
    rewrite (dmap_wide _ _ _ _ Hh) by (rewrite Hk2; lia). done. }
  unfold dindex. destruct fuel as [|g]; [lia|]. destruct Hr as [[Hz _]|(sl & ess & ovl & Hinv & _)].
  - destruct (dfoi_zero pf c junk kw vw 1 (bits_max c kw) True OK DOK (S g) Hf g d k 0 Hz (dpart_zero _ _ _ _ _ _ Hz Hd) Hi) as (d2 & sl & ess & -> & Hinv & _).
    apply Hgo; [apply (ti_kw _ _ _ _ _ _ _ _ _ _ _ Hinv)|apply (tinv_bc _ _ _ _ _ _ _ OK _ _ _ _ Hinv)].
  - apply Hgo; [apply (ti_kw _ _ _ _ _ _ _ _ _ _ _ Hinv)|apply (tinv_bc _ _ _ _ _ _ _ OK _ _ _ _ Hinv)].
Qed.
End dtable.

(** Maps of the interface of NavModel.v.  They have no member count. *)
Definition gk_has_op (o : op) : Prop := match o with OpCount _ => False | _ => ks_has_op o end.
Lemma run_sub_of {T} (J : mapimpl T) new t o : gk_has_op o -> sm_run_op (sub_of J new) t o = m_run_op J t o.
Proof. by destruct o. Qed.
Lemma sub_of_pair {T} (J : mapimpl T) new t x :
  sm_pair (sub_of J new) t x = (b ← sm_invalid (sub_of J new) t x; if (b : bool) then Ok None else sm_pair (sub_of J new) t x).
Proof.
  cbn [sub_of sm_pair sm_invalid]. unfold v_iter_at. destruct (vn_invalid (i_view J t) x) as [[]| | |]; done.
Qed.
Lemma sub_of_step {T} (J : mapimpl T) new kw vw bmin bmax (mrep : T -> gmap N N -> Prop) :
  (forall ops t m, mrep t m -> valid_ops kw vw bmin bmax ops -> exists t', m_run_ops J t ops = Ok (t', snd (spec_run m ops)) /\ mrep t' (fst (spec_run m ops))) ->
  forall t m o, mrep t m -> gk_has_op o -> valid_op kw vw 0 0 o ->
  exists t', sm_run_op (sub_of J new) t o = Ok (t', snd (spec_step m o)) /\ mrep t' (fst (spec_step m o)).
Proof.
  intros H t m o HR Ho Hv. rewrite run_sub_of by done. destruct (H [o] t m HR) as (t' & E & HR').
  - apply Forall_singleton. eapply valid_any; [|exact Hv]. by destruct o.
  - destruct (spec1 m o) as [E1 E2]. rewrite E1 in E. rewrite E2 in HR'. cbn [m_run_ops] in E. dinv1 E. destruct a as [d1 x]. injection E as <- <-. by exists d1.
Qed.

(** *** Histories of the adapter *)
Lemma width_range max_bits interval i : 3 <= max_bits -> 3 <= interval -> 3 <= ks_width max_bits interval i <= max_bits.
Proof. intros. unfold ks_width. nia. Qed.
Lemma debug_narrow c junk kw kw' vw : debug_ok c junk kw vw -> 3 <= kw' <= kw -> debug_ok c junk kw' vw.
Proof. intros [H1 H2 H3] Hk. split; [lia|done|done]. Qed.

Section hist.
Context (pf : platform) (vw : N) (fuel : nat) (mb ml I : N).
Hypothesis Hf : (64 <= fuel)%nat.
Hypothesis Hb : 3 <= mb <= 64.
Hypothesis Hl : 1 <= ml < 2^63.
Hypothesis HI : ks_interval mb ml = Ok I.
Hypothesis H3 : 3 <= I.
Notation w i := (ks_width mb I (N.of_nat i)).
Notation hist S dbg has rep := (exists s0, gks_new S mb ml = Ok s0 /\ forall ops, Forall has ops -> valid_ops mb vw 0 0 ops ->
  exists s, gks_run S dbg mb ml s0 ops = Ok (s, snd (spec_run ∅ ops)) /\ gkrep mb ml I rep s (fst (spec_run ∅ ops))).

Definition dtrep_at c (i : nat) := dtrep pf c (w i) vw.
Lemma dks_history c junk dbg : params pf c mb vw -> debug_ok c junk mb vw -> c_val c <> KNull ->
  hist (sub_dtable pf vw fuel c junk) dbg ks_has_op (dtrep_at c).
Proof.
  intros P D Hval. assert (Pi : forall i, params pf c (w i) vw /\ debug_ok c junk (w i) vw).
  { intros i. pose proof (width_range mb I (N.of_nat i) (proj1 Hb) H3). split; [by eapply params_narrow|by eapply debug_narrow]. }
  apply (gks_history (sub_dtable pf vw fuel c junk) dbg vw mb ml I ltac:(lia) Hl HI ks_has_op (dtrep_at c)); try done.
  - intros i _. destruct (Pi i) as [Pw Dw]. exact (dtrep_new pf c junk (w i) vw Pw Dw).
  - intros i t m _ HR. exact (dtrep_end pf c (w i) vw (proj1 (Pi i)) t m HR).
  - intros t x. cbn [sub_dtable sm_pair sm_invalid]. unfold diter_at. destruct (nav_invalid pf (strip t) x) as [[]| | |]; done.
  - intros i t m o _ HR. destruct (Pi i) as [Pw Dw]. exact (dtrep_step pf c junk (w i) vw fuel Pw Dw Hf Hval t m o HR).
Qed.
Definition grep_at pf c (i : nat) t m := exists bmin, group_ok c (w i) vw bmin /\ gmrep pf c (w i) vw bmin True t m.
Lemma group_ks_history c dbg : (forall w, 3 <= w <= mb -> exists bmin, group_ok c w vw bmin) ->
  hist (sub_group pf vw fuel c) dbg gk_has_op (grep_at pf c).
Proof.
  intros OK. apply (gks_history (sub_group pf vw fuel c) dbg vw mb ml I ltac:(lia) Hl HI gk_has_op (grep_at pf c)); try done.
  - by intros [].
  - intros i Hi. destruct (OK (w i)) as (bmin & OKi); [apply width_range; lia|]. eexists. split; [done|]. exists bmin. split; [done|]. apply gmrep_new.
  - intros i t m _ (bmin & OKi & HR). exact (mrep_end _ _ _ _ _ _ _ _ _ _ _ _ _ _ (group_chain True pf c _ vw bmin OKi fuel Logic.I Hf) t m HR).
  - intros t x. apply sub_of_pair.
  - intros i t m o _ (bmin & OKi & HR) Ho Hvo.
    destruct (sub_of_step (g_impl pf c fuel) (fun kw => Ok (g_new kw vw)) (w i) vw bmin (zbmax (gc_hash c) (w i)) (gmrep pf c (w i) vw bmin True)) with (t := t) (m := m) (o := o)
      as (t' & E & HR'); try done.
    { intros os t1 m1 H1 H2. destruct (group_run pf c _ vw bmin OKi True fuel os t1 m1 Hf H1 H2 (or_introl Logic.I)) as (t2 & E & HR2 & _). exists t2. split; [exact E|by apply HR2]. }
    exists t'. split; [exact E|]. by exists bmin.
Qed.
Definition dgrep_at c (i : nat) t m := exists bmin, group_ok c (w i) vw bmin /\ dgmrep pf c (w i) vw bmin t m.
Lemma dgroup_ks_history c dbg : (forall w, 3 <= w <= mb -> exists bmin, group_ok c w vw bmin) ->
  hist (sub_dgroup pf vw fuel c) dbg gk_has_op (dgrep_at c).
Proof.
  intros OK. apply (gks_history (sub_dgroup pf vw fuel c) dbg vw mb ml I ltac:(lia) Hl HI gk_has_op (dgrep_at c)); try done.
  - by intros [].
  - intros i Hi. destruct (OK (w i)) as (bmin & OKi); [apply width_range; lia|]. destruct (dg_new_ok c (w i) vw bmin OKi) as (t & E & Hz).
    exists t. split; [exact E|]. exists bmin. split; [done|]. by left.
  - intros i t m _ (bmin & OKi & HR). exact (mrep_end _ _ _ _ _ _ _ _ _ _ _ _ _ _ (debug_group_chain pf c _ vw bmin OKi fuel Hf) t m HR).
  - intros t x. apply sub_of_pair.
  - intros i t m o _ (bmin & OKi & HR) Ho Hvo.
    destruct (sub_of_step (dg_impl pf c fuel) (fun kw => dg_new c kw vw) (w i) vw bmin (zbmax (gc_hash c) (w i)) (dgmrep pf c (w i) vw bmin)) with (t := t) (m := m) (o := o)
      as (t' & E & HR'); try done.
    { intros os t1 m1 H1 H2. exact (debug_group_run pf c (w i) vw bmin OKi fuel os t1 m1 Hf H1 H2). }
    exists t'. split; [exact E|]. by exists bmin.
Qed.

(** Keys that do not fit *)
Lemma wide_slot k : 2^mb <= k < 2^64 -> ks_slot mb ml k = Ok ((bit_width k - 1) / I) /\ mb < bit_width k.
Proof.
  intros Hk. destruct (bit_width_spec k (proj2 Hk)) as (H1 & H2 & H4).
  assert (Hbw : mb < bit_width k).
  { assert (2^mb < 2^(bit_width k)) as Hp by lia. by apply N.pow_lt_mono_r_iff in Hp; [|lia]. }
  split; [|done]. unfold ks_slot. rewrite HI. cbn [mbind res_bind]. rewrite (proj2 (N.eqb_neq _ _)) by lia. rewrite (proj2 (N.eqb_neq _ _)) by lia.
  unfold u8. rewrite N.mod_small; [done|]. change (2^8) with 256. pose proof (N.div_le_upper_bound (bit_width k - 1) I (bit_width k - 1) ltac:(lia) ltac:(nia)). lia.
Qed.
Lemma wide_caught {T} (S : submap T) (rep : nat -> T -> gmap N N -> Prop) s m k :
  gkrep mb ml I rep s m -> 2^mb <= k < 2^64 ->
  (forall i t m, (i < N.to_nat ml)%nat -> rep i t m -> sm_index S t k = Throw) -> gks_index S true mb ml s k = Throw.
Proof.
  intros HR Hk HT. destruct (wide_slot k Hk) as [E _]. unfold gks_index, gks_slot. rewrite E. cbn [mbind res_bind].
  destruct (N.ltb_spec ((bit_width k - 1) / I) ml) as [Hlt|]; [|done]. cbn [chk mbind res_bind].
  destruct (gkrep_at mb ml I rep s m (N.to_nat ((bit_width k - 1) / I)) HR) as (t & Ht & Hr); [lia|].
  unfold gks_map. rewrite Ht. cbn [of_option mbind res_bind]. rewrite (HT (N.to_nat ((bit_width k - 1) / I)) t _ ltac:(lia) Hr). done.
Qed.
Lemma wide_width k i : 2^mb <= k -> 2^(w i) <= k.
Proof. intros Hk. etransitivity; [|exact Hk]. apply N.pow_le_mono_r; [done|]. unfold ks_width. lia. Qed.
End hist.
