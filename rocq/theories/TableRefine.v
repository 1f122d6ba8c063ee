(** Refinement: histories of the table model agree with the abstract specification. *)
From Verif Require Export TableRun TableOps.

Section refine.
Context (pf : platform) (c : cfg) (kw vw bmin bmax : N) (strict : Prop) (fuel : nat).
Notation nv := (nv c vw).
Notation tinv := (tinv pf c kw vw bmin bmax strict).
Notation tzero := (tzero pf c kw vw).
Notation nav_entry := (nav_entry pf).
Hypothesis OK : table_ok pf c kw vw bmin bmax.
Hypothesis Hfuel : (64 <= fuel)%nat.

Implicit Types (t : table) (ess : list entries) (ovl E : entries) (sl : list slot).

Lemma fuel_enough b : bmin <= b -> (N.to_nat (bmax - b) < fuel)%nat.
Proof. pose proof (ok_b _ _ _ _ _ _ OK). lia. Qed.

(** t represents the finite map m. *)
Definition trep_full t (m : gmap N N) : Prop := exists sl ess ovl, tinv t sl ess ovl /\ emap (concat ess ++ ovl) = m.
Definition trep t (m : gmap N N) : Prop := (tzero t /\ m = ∅) \/ trep_full t m.

Lemma log2_up_range n : 2^bmin / 2 < n -> n <= 2^bmax -> 1 <= n <= 2^63 /\ bmin <= N.log2_up n <= bmax.
Proof.
  pose proof (ok_b _ _ _ _ _ _ OK) as (H1 & H2 & H3). intros Hlo Hhi.
  pose proof (pow2_le_63 bmax ltac:(lia)). split; [lia|].
  split; [|apply N.log2_up_le_pow2; lia].
  replace bmin with (N.succ (bmin - 1)) in Hlo |- * by lia. apply N.le_succ_l.
  rewrite N.pow_succ_r' in Hlo. rewrite N.mul_comm, N.div_mul in Hlo by done.
  apply N.log2_up_lt_pow2; lia.
Qed.

Lemma emap_perm_cons E E' k v : NoDup (keys_of E) -> E' ≡ₚ (k, v) :: E -> k ∉ keys_of E -> emap E' = <[k := v]> (emap E).
Proof.
  intros Hnd HP Hk. rewrite <-emap_cons. symmetry. apply emap_perm; [|by symmetry]. cbn. by apply NoDup_cons.
Qed.

(** find_or_insert at map level *)
Lemma insert_full t m k v : trep_full t m -> kdom c kw k -> nv v = v \/ c_val c = KNull ->
  exists t' x, find_or_insert pf c fuel t k v = Ok (t', x) /\
    exists sl ess ovl, tinv t' sl ess ovl /\
    match m !! k with
    | Some v0 => t' = t /\ nav_entry t' ess x = Some (k, v0) /\ emap (concat ess ++ ovl) = m
    | None => emap (concat ess ++ ovl) = <[k := nv v]> m /\ nav_entry t' ess x = Some (k, nv v)
    end.
Proof.
  intros (sl & ess & ovl & H & Hm) Hk Hv.
  destruct (find_or_insert_spec pf c kw vw bmin bmax strict OK (ok_spread _ _ _ _ _ _ OK) fuel t sl ess ovl k v H) as (t' & x & sl' & ess' & ovl' & Ef & H' & _ & Hres);
    [apply fuel_enough, H|done|done|].
  exists t', x. split; [done|]. exists sl', ess', ovl'. split; [done|]. rewrite Hm in Hres.
  destruct (m !! k) as [v0|] eqn:Ek.
  - destruct Hres as (-> & -> & -> & Hn). done.
  - destruct Hres as [HP Hn]. split; [|done]. rewrite <-Hm. apply emap_perm_cons; [apply H|done|].
    apply emap_None. by rewrite Hm.
Qed.
Lemma insert_zero t k v : tzero t -> init_ok kw bmin bmax -> kdom c kw k -> nv v = v \/ c_val c = KNull ->
  exists t' x, find_or_insert pf c fuel t k v = Ok (t', x) /\
    exists sl ess ovl, tinv t' sl ess ovl /\
    emap (concat ess ++ ovl) = <[k := nv v]> ∅ /\ nav_entry t' ess x = Some (k, nv v).
Proof.
  intros Hz Hi Hk Hv. destruct fuel as [|f] eqn:Ef; [lia|]. rewrite <-Ef in *.
  destruct (find_or_insert_zero pf c kw vw bmin bmax strict OK f t k v Hz Hi) as (t1 & Hb1 & E & sl & ess & H & Hc).
  rewrite Ef, E, <-Ef.
  destruct (insert_full t1 ∅ k v) as (t' & x & E' & sl' & ess' & ovl' & H' & Hres); [|done|done|].
  - exists sl, ess, []. split; [done|]. by rewrite Hc.
  - rewrite lookup_empty in Hres. exists t', x. split; [done|]. by exists sl', ess', ovl'.
Qed.
Lemma insert_rep t m k v : trep t m -> (m = ∅ -> init_ok kw bmin bmax) -> kdom c kw k -> nv v = v \/ c_val c = KNull ->
  exists t' x, find_or_insert pf c fuel t k v = Ok (t', x) /\
    exists sl ess ovl, tinv t' sl ess ovl /\
    match m !! k with
    | Some v0 => t' = t /\ nav_entry t' ess x = Some (k, v0) /\ emap (concat ess ++ ovl) = m
    | None => emap (concat ess ++ ovl) = <[k := nv v]> m /\ nav_entry t' ess x = Some (k, nv v)
    end.
Proof.
  intros [[Hz ->]|Hm] Hi Hk Hv; [|by apply insert_full].
  rewrite lookup_empty. apply insert_zero; auto.
Qed.

(** ** One call on a table with buckets *)
Definition needs_value (o : op) : Prop :=
  match o with OpInsert _ v | OpWrite _ v => nv v = v | _ => True end.

Lemma entry_map t sl ess ovl x k v : tinv t sl ess ovl -> nav_entry t ess x = Some (k, v) -> emap (concat ess ++ ovl) !! k = Some v.
Proof.
  intros H He. apply emap_Some; [apply H|]. by eapply nav_entry_elem.
Qed.

Lemma erase_full t sl ess ovl t' sl' ess' ovl' k v : tinv t sl ess ovl -> tinv t' sl' ess' ovl' ->
  concat ess ++ ovl ≡ₚ (k, v) :: concat ess' ++ ovl' -> trep t' (delete k (emap (concat ess ++ ovl))).
Proof.
  intros H H' HP. right. exists sl', ess', ovl'. split; [done|]. eapply emap_delete; [apply H|exact HP].
Qed.

Lemma write_rep t sl ess ovl x k v v' : tinv t sl ess ovl -> nav_entry t ess x = Some (k, v) -> nv v' = v' ->
  exists t', write_value pf c t x v' = Ok t' /\ trep_full t' (<[k := v']> (emap (concat ess ++ ovl))).
Proof.
  intros H He Hv'.
  destruct (write_value_spec pf c kw vw bmin bmax strict OK t sl ess ovl x k v v' H He Hv')
    as (t' & sl' & ess' & ovl' & R & Ew & H' & _ & HR & HR' & _).
  exists t'. split; [done|]. exists sl', ess', ovl'. split; [done|].
  pose proof (ti_nodup _ _ _ _ _ _ _ _ _ _ _ H) as Hnd. pose proof (ti_nodup _ _ _ _ _ _ _ _ _ _ _ H') as Hnd'.
  rewrite (emap_perm _ _ Hnd' HR'), (emap_perm _ _ Hnd HR), !emap_cons. by rewrite insert_insert.
Qed.

Lemma step_rep t m o : trep t m -> (m = ∅ -> init_ok kw bmin bmax) \/ trep_full t m ->
  c_val c <> KNull -> nv 0 = 0 -> valid_op kw vw bmin bmax o -> (c_ov c = OvArray -> grow_op o) -> needs_value o ->
  exists t', run_op pf c fuel t o = Ok (t', snd (spec_step m o)) /\
    match o with OpClear => trep t' (fst (spec_step m o)) | OpFind _ | OpCount _ | OpSize | OpEmpty => t' = t /\ trep t (fst (spec_step m o))
    | _ => trep t' (fst (spec_step m o)) /\ (trep_full t m -> trep_full t' (fst (spec_step m o))) end.
Proof.
  intros Hrep Hinit Hval Hnv0 Hvalid Hgrow Hneed.
  assert (Hins : forall k v, kdom c kw k -> nv v = v -> exists t' x, find_or_insert pf c fuel t k v = Ok (t', x) /\
    exists sl ess ovl, tinv t' sl ess ovl /\
    match m !! k with
    | Some v0 => t' = t /\ nav_entry t' ess x = Some (k, v0) /\ emap (concat ess ++ ovl) = m
    | None => emap (concat ess ++ ovl) = <[k := v]> m /\ nav_entry t' ess x = Some (k, v)
    end).
  { intros k v Hk Hv. destruct Hinit as [Hi|Hf].
    - destruct (insert_rep t m k v Hrep Hi Hk) as (t' & x & E & R); [by left|]. rewrite Hv in R. by exists t', x.
    - destruct (insert_full t m k v Hf Hk) as (t' & x & E & R); [by left|]. rewrite Hv in R. by exists t', x. }
  destruct o as [k|k|k v|k|k v|k|k| | |n| |]; cbn [run_op valid_op needs_value grow_op] in *.
  - (* find *) exists t. cbn [spec_step fst snd]. split; [|done].
    destruct Hrep as [[Hz ->]|(sl & ess & ovl & H & Hm)].
    + rewrite (find_zero pf c kw vw) by done. cbn [mbind res_bind]. unfold iter_at.
      rewrite (end_nav_invalid_zero pf c kw vw) by done. done.
    + pose proof (find_spec pf c kw vw bmin bmax strict OK _ _ _ _ k H (conj Hvalid Hgrow)) as Hf. rewrite Hm in Hf.
      destruct (m !! k) as [v|].
      * destruct Hf as (x & -> & He). cbn [mbind res_bind].
        rewrite (iter_at_entry pf c kw vw bmin bmax strict OK _ _ _ _ _ _ H He). done.
      * rewrite Hf. cbn [mbind res_bind]. unfold iter_at.
        rewrite (end_nav_invalid pf c kw vw bmin bmax strict OK _ _ _ _ H). done.
  - (* count *) exists t. cbn [spec_step fst snd]. split; [|done].
    destruct Hrep as [[Hz ->]|(sl & ess & ovl & H & Hm)].
    + rewrite (count_zero pf c kw vw) by done. done.
    + rewrite (count_spec pf c kw vw bmin bmax strict OK _ _ _ _ k H (conj Hvalid Hgrow)), Hm. done.
  - (* insert *) destruct (Hins k v) as (t' & x & -> & sl & ess & ovl & H & R); [by split; [apply Hvalid|]|done|].
    cbn [mbind res_bind spec_step]. exists t'. destruct (m !! k) as [v0|].
    + destruct R as (-> & He & Hm). rewrite (iter_at_entry pf c kw vw bmin bmax strict OK _ _ _ _ _ _ H He).
      split; [done|]. cbn [fst]. done.
    + destruct R as (Hm & He). rewrite (iter_at_entry pf c kw vw bmin bmax strict OK _ _ _ _ _ _ H He).
      split; [done|]. cbn [fst]. assert (trep_full t' (<[k:=v]> m)) by (by exists sl, ess, ovl). split; [by right|done].
  - (* read *) unfold index. destruct (Hins k 0) as (t' & x & -> & sl & ess & ovl & H & R); [by split|done|].
    cbn [mbind res_bind spec_step]. exists t'. destruct (m !! k) as [v0|].
    + destruct R as (-> & He & Hm). destruct (nav_entry_read pf c kw vw bmin bmax strict OK _ _ _ _ _ _ _ H He) as (_ & _ & ->).
      split; [done|]. cbn [fst]. done.
    + destruct R as (Hm & He). destruct (nav_entry_read pf c kw vw bmin bmax strict OK _ _ _ _ _ _ _ H He) as (_ & _ & ->).
      split; [done|]. cbn [fst]. assert (trep_full t' (<[k:=0]> m)) by (by exists sl, ess, ovl). split; [by right|done].
  - (* write *) unfold index. destruct (Hins k 0) as (t' & x & -> & sl & ess & ovl & H & R); [by split; [apply Hvalid|]|done|].
    cbn [mbind res_bind spec_step fst snd].
    assert (He : exists v0, nav_entry t' ess x = Some (k, v0) /\ <[k := v]> (emap (concat ess ++ ovl)) = <[k := v]> m).
    { destruct (m !! k) as [v0|].
      - destruct R as (_ & He & Hm). exists v0. split; [done|]. by rewrite Hm.
      - destruct R as (Hm & He). exists 0. split; [done|]. by rewrite Hm, insert_insert. }
    destruct He as (v0 & He & Em).
    destruct (write_rep _ _ _ _ _ _ _ v H He Hneed) as (t2 & -> & Hf). cbn [mbind res_bind]. rewrite Em in Hf.
    exists t2. split; [done|]. split; [by right|done].
  - (* erase *) destruct Hrep as [[Hz ->]|(sl & ess & ovl & H & Hm)].
    + rewrite (erase_zero pf c kw vw) by done. cbn [mbind res_bind spec_step]. rewrite lookup_empty. cbn [fst snd].
      exists t. split; [done|]. split; [by left|done].
    + pose proof (erase_spec pf c kw vw bmin bmax strict OK _ _ _ _ k (fun _ => Hgrow) H (kdom_intro _ _ _ Hgrow Hvalid)) as He. rewrite Hm in He. cbn [spec_step].
      destruct (m !! k) as [v|].
      * destruct He as (t' & sl' & ess' & ovl' & -> & H' & _ & HP). cbn [mbind res_bind fst snd]. exists t'. split; [done|].
        assert (trep_full t' (delete k m)).
        { exists sl', ess', ovl'. split; [done|]. rewrite <-Hm. eapply emap_delete; [apply H|exact HP]. }
        split; [by right|done].
      * rewrite He. cbn [mbind res_bind fst snd]. exists t. split; [done|].
        assert (trep_full t m) by (by exists sl, ess, ovl). split; [by right|done].
  - (* erase(find) *) destruct Hrep as [[Hz ->]|(sl & ess & ovl & H & Hm)].
    + rewrite (find_zero pf c kw vw) by done. cbn [mbind res_bind spec_step]. rewrite lookup_empty. cbn [fst snd].
      unfold erase_at, end_nav. rewrite N.eqb_refl. cbn [mbind res_bind]. exists t. split; [done|]. split; [by left|done].
    + pose proof (find_spec pf c kw vw bmin bmax strict OK _ _ _ _ k H (kdom_intro _ _ _ Hgrow Hvalid)) as Hf. rewrite Hm in Hf. cbn [spec_step].
      destruct (m !! k) as [v|].
      * destruct Hf as (x & -> & He). cbn [mbind res_bind].
        destruct (erase_at_spec pf c kw vw bmin bmax strict OK _ _ _ _ _ _ _ (fun _ => Hgrow) H He) as (t' & sl' & ess' & ovl' & -> & H' & _ & HP & _).
        cbn [mbind res_bind fst snd]. exists t'. split; [done|].
        assert (trep_full t' (delete k m)).
        { exists sl', ess', ovl'. split; [done|]. rewrite <-Hm. eapply emap_delete; [apply H|exact HP]. }
        split; [by right|done].
      * rewrite Hf. cbn [mbind res_bind fst snd]. unfold erase_at, end_nav. rewrite N.eqb_refl. cbn [mbind res_bind].
        exists t. split; [done|]. assert (trep_full t m) by (by exists sl, ess, ovl). split; [by right|done].
  - (* size *) exists t. cbn [spec_step fst snd]. split; [|done]. unfold TableModel.size. do 2 f_equal.
    destruct Hrep as [[(_ & -> & _) ->]|(sl & ess & ovl & H & <-)]; [done|].
    rewrite (ti_n _ _ _ _ _ _ _ _ _ _ _ H). rewrite emap_size by apply H. done.
  - (* empty *) exists t. cbn [spec_step fst snd]. split; [|done]. unfold TableModel.empty. do 3 f_equal.
    destruct Hrep as [[(_ & -> & _) ->]|(sl & ess & ovl & H & <-)]; [done|].
    rewrite (ti_n _ _ _ _ _ _ _ _ _ _ _ H). rewrite emap_size by apply H. done.
  - (* reserve *) destruct (log2_up_range n) as [Hn Hb]; [apply Hvalid|apply Hvalid|]. cbn [spec_step fst snd].
    destruct Hrep as [[Hz ->]|(sl & ess & ovl & H & Hm)].
    + destruct (reserve_zero pf c kw vw bmin bmax strict OK fuel t n Hz Hn Hb) as (t' & sl' & ess' & -> & H' & _ & Hc).
      cbn [mbind res_bind]. exists t'. split; [done|].
      assert (trep_full t' ∅) by (exists sl', ess', []; split; [done|]; by rewrite Hc). split; [by right|done].
    + destruct (reserve_spec pf c kw vw bmin bmax strict OK fuel t sl ess ovl n (ok_spread _ _ _ _ _ _ OK) H Hn Hb) as (t' & sl' & ess' & ovl' & -> & H' & _ & HP);
        [by apply fuel_enough|]. cbn [mbind res_bind]. exists t'. split; [done|].
      assert (trep_full t' m). { exists sl', ess', ovl'. split; [done|]. rewrite <-Hm. apply emap_perm; [apply H'|done]. }
      split; [by right|done].
  - (* shrink *) cbn [spec_step fst snd]. destruct Hrep as [[Hz ->]|(sl & ess & ovl & H & Hm)].
    + rewrite (shrink_zero pf c kw vw) by done. cbn [mbind res_bind]. exists t. split; [done|]. split; [by left|done].
    + destruct (shrink_spec pf c kw vw bmin bmax strict OK t sl ess ovl H) as (t' & sl' & -> & H' & _). cbn [mbind res_bind].
      exists t'. split; [done|]. assert (trep_full t' m) by (by exists sl', ess, ovl). split; [by right|done].
  - (* clear *) cbn [spec_step fst snd]. destruct Hrep as [[Hz ->]|(sl & ess & ovl & H & Hm)].
    + destruct (clear_zero pf c kw vw t Hgrow Hz) as (t' & -> & Hz'). cbn [mbind res_bind]. exists t'. split; [done|]. by left.
    + destruct (clear_spec pf c kw vw bmin bmax strict OK t sl ess ovl Hgrow H) as (t' & -> & Hz'). cbn [mbind res_bind]. exists t'.
      split; [done|]. by left.
Qed.

(** ** Histories *)
Lemma run_rep : forall ops t m, trep t m -> init_ok kw bmin bmax -> c_val c <> KNull -> (forall v, v < 2^vw -> nv v = v) ->
  valid_ops kw vw bmin bmax ops -> (c_ov c = OvArray -> Forall grow_op ops) ->
  exists t', run_ops pf c fuel t ops = Ok (t', snd (spec_run m ops)) /\ trep t' (fst (spec_run m ops)).
Proof.
  induction ops as [|o ops IH]; intros t m Hrep Hi Hval Hnv Hv Hgr; [by exists t|].
  apply Forall_cons in Hv as [Ho Hv].
  assert (Hg1 : c_ov c = OvArray -> grow_op o) by (intros E; specialize (Hgr E); by apply Forall_cons in Hgr as [? _]).
  assert (Hg2 : c_ov c = OvArray -> Forall grow_op ops) by (intros E; specialize (Hgr E); by apply Forall_cons in Hgr as [_ ?]). cbn [run_ops spec_run].
  destruct (step_rep t m o Hrep) as (t1 & -> & Ht1); [by left|done|apply Hnv, pow2_pos|done|done| |].
  { destruct o; cbn in Ho |- *; try done; apply Hnv; apply Ho. }
  cbn [mbind res_bind].
  assert (Hrep1 : trep t1 (fst (spec_step m o))).
  { destruct o; try done; try (by destruct Ht1 as [-> ?]); by destruct Ht1. }
  destruct (IH t1 _ Hrep1 Hi Hval Hnv Hv Hg2) as (t2 & -> & Hrep2). cbn [mbind res_bind].
  exists t2. destruct (spec_step m o) as [m1 r1]. cbn [fst snd] in *. destruct (spec_run m1 ops) as [m2 rs]. done.
Qed.

(** Histories without clear() never lose the buckets, so the first allocation does not matter. *)
Lemma run_full : forall ops t m, trep_full t m -> c_val c <> KNull -> (forall v, v < 2^vw -> nv v = v) ->
  valid_ops kw vw bmin bmax ops -> (c_ov c = OvArray -> Forall grow_op ops) -> Forall (fun o => o <> OpClear) ops ->
  exists t', run_ops pf c fuel t ops = Ok (t', snd (spec_run m ops)) /\ trep_full t' (fst (spec_run m ops)).
Proof.
  induction ops as [|o ops IH]; intros t m Hrep Hval Hnv Hv Hgr Hc; [by exists t|].
  assert (Hg1 : c_ov c = OvArray -> grow_op o) by (intros E; specialize (Hgr E); by apply Forall_cons in Hgr as [? _]).
  assert (Hg2 : c_ov c = OvArray -> Forall grow_op ops) by (intros E; specialize (Hgr E); by apply Forall_cons in Hgr as [_ ?]).
  apply Forall_cons in Hv as [Ho Hv]. apply Forall_cons in Hc as [Hc1 Hc]. cbn [run_ops spec_run].
  destruct (step_rep t m o) as (t1 & -> & Ht1); [by right|by right|done|apply Hnv, pow2_pos|done|done| |].
  { destruct o; cbn in Ho |- *; try done; apply Hnv; apply Ho. }
  cbn [mbind res_bind].
  assert (Hrep1 : trep_full t1 (fst (spec_step m o))).
  { destruct o; try done; try (by destruct Ht1 as [_ Hx]; apply Hx); by destruct Ht1 as [-> _]. }
  destruct (IH t1 _ Hrep1 Hval Hnv Hv Hg2 Hc) as (t2 & -> & Hrep2). cbn [mbind res_bind].
  exists t2. destruct (spec_step m o) as [m1 r1]. cbn [fst snd] in *. destruct (spec_run m1 ops) as [m2 rs]. done.
Qed.

(** ** The set *)
Definition srep t (s : gset N) : Prop := exists m, trep t m /\ dom m = s.

Lemma key_at_entry t sl ess ovl x k v : tinv t sl ess ovl -> nav_entry t ess x = Some (k, v) -> key_at pf c t x = Ok (Some k).
Proof.
  intros H He. destruct (nav_entry_read pf c kw vw bmin bmax strict OK _ _ _ _ _ _ _ H He) as (Hi & Hk & _).
  unfold key_at. rewrite Hi. cbn [mbind res_bind]. by rewrite Hk.
Qed.
Lemma dom_lookup (m : gmap N N) k : (if decide (k ∈ dom m) then true else false) = match m !! k with Some _ => true | None => false end.
Proof. destruct (decide (k ∈ dom m)) as [H|H]; rewrite elem_of_dom in H; destruct (m !! k); try done; destruct H; try done. Qed.

Lemma set_noarr : c_val c = KNull -> c_ov c <> OvArray.
Proof. intros Hn E. pose proof (ok_ov _ _ _ _ _ _ OK) as Ho. rewrite E in Ho. by destruct Ho as (_ & ? & _). Qed.
Lemma set_step_rep t s o : srep t s -> init_ok kw bmin bmax -> c_val c = KNull -> valid_sop kw bmin bmax o ->
  exists t', run_sop pf c fuel t o = Ok (t', snd (set_step s o)) /\ srep t' (fst (set_step s o)).
Proof.
  intros (m & Hrep & <-) Hi Hval Hvalid. pose proof (set_noarr Hval) as Harr.
  assert (Hdec : forall (A : Type) k (a b : A), (if decide (k ∈ dom m) then a else b) = match m !! k with Some _ => a | None => b end).
  { intros A k a b. pose proof (dom_lookup m k). destruct (decide (k ∈ dom m)), (m !! k); done. }
  destruct o as [k|k|k|k| | |n| |]; cbn [run_sop valid_sop set_step] in *; rewrite ?Hdec; cbn [fst snd].
  - exists t. split; [|by exists m].
    destruct Hrep as [[Hz ->]|(sl & ess & ovl & H & Hm)].
    + rewrite (find_zero pf c kw vw) by done. cbn [mbind res_bind]. unfold key_at.
      rewrite (end_nav_invalid_zero pf c kw vw) by done. by rewrite lookup_empty.
    + pose proof (find_spec pf c kw vw bmin bmax strict OK _ _ _ _ k H (kdom_intro _ _ _ Harr Hvalid)) as Hf. rewrite Hm in Hf.
      destruct (m !! k) as [v|].
      * destruct Hf as (x & -> & He). cbn [mbind res_bind]. by rewrite (key_at_entry _ _ _ _ _ _ _ H He).
      * rewrite Hf. cbn [mbind res_bind]. unfold key_at.
        rewrite (end_nav_invalid pf c kw vw bmin bmax strict OK _ _ _ _ H). done.
  - exists t. split; [|by exists m].
    destruct Hrep as [[Hz ->]|(sl & ess & ovl & H & Hm)].
    + rewrite (count_zero pf c kw vw) by done. by rewrite lookup_empty.
    + rewrite (count_spec pf c kw vw bmin bmax strict OK _ _ _ _ k H (kdom_intro _ _ _ Harr Hvalid)), Hm. done.
  - destruct (insert_rep t m k 0 Hrep) as (t' & x & -> & sl & ess & ovl & H & R); [done|done|by right|].
    cbn [mbind res_bind]. exists t'. destruct (m !! k) as [v0|] eqn:Ek.
    + destruct R as (-> & He & Hm). rewrite (key_at_entry _ _ _ _ _ _ _ H He). split; [done|]. exists m. split; [done|].
      assert (k ∈ dom m) by (by apply elem_of_dom). set_solver.
    + destruct R as (Hm & He). rewrite (key_at_entry _ _ _ _ _ _ _ H He). split; [done|].
      eexists. split; [right; exists sl, ess, ovl; split; [done|exact Hm]|]. by rewrite dom_insert_L.
  - destruct Hrep as [[Hz ->]|(sl & ess & ovl & H & Hm)].
    + rewrite (erase_zero pf c kw vw) by done. cbn [mbind res_bind]. rewrite lookup_empty. exists t. split; [done|].
      exists ∅. split; [by left|]. set_solver.
    + pose proof (erase_spec pf c kw vw bmin bmax strict OK _ _ _ _ k (fun _ => Harr) H (kdom_intro _ _ _ Harr Hvalid)) as He. rewrite Hm in He.
      destruct (m !! k) as [v|] eqn:Ek.
      * destruct He as (t' & sl' & ess' & ovl' & -> & H' & _ & HP). cbn [mbind res_bind]. exists t'. split; [done|].
        exists (delete k m). split; [|by rewrite dom_delete_L]. right. exists sl', ess', ovl'. split; [done|].
        rewrite <-Hm. eapply emap_delete; [apply H|exact HP].
      * rewrite He. cbn [mbind res_bind]. exists t. split; [done|]. exists m. split; [right; by exists sl, ess, ovl|].
        apply not_elem_of_dom in Ek. set_solver.
  - exists t. split; [|by exists m]. unfold TableModel.size. do 2 f_equal.
    destruct Hrep as [[(_ & -> & _) ->]|(sl & ess & ovl & H & <-)]; [done|].
    rewrite (ti_n _ _ _ _ _ _ _ _ _ _ _ H). rewrite size_dom, emap_size by apply H. done.
  - exists t. split; [|by exists m]. unfold TableModel.empty. do 3 f_equal.
    destruct Hrep as [[(_ & -> & _) ->]|(sl & ess & ovl & H & <-)]; [done|].
    rewrite (ti_n _ _ _ _ _ _ _ _ _ _ _ H). rewrite size_dom, emap_size by apply H. done.
  - destruct (log2_up_range n) as [Hn Hb]; [apply Hvalid|apply Hvalid|].
    destruct Hrep as [[Hz ->]|(sl & ess & ovl & H & Hm)].
    + destruct (reserve_zero pf c kw vw bmin bmax strict OK fuel t n Hz Hn Hb) as (t' & sl' & ess' & -> & H' & _ & Hc).
      cbn [mbind res_bind]. exists t'. split; [done|]. exists ∅. split; [|done].
      right. exists sl', ess', []; split; [done|]; by rewrite Hc.
    + destruct (reserve_spec pf c kw vw bmin bmax strict OK fuel t sl ess ovl n (ok_spread _ _ _ _ _ _ OK) H Hn Hb) as (t' & sl' & ess' & ovl' & -> & H' & _ & HP);
        [by apply fuel_enough|]. cbn [mbind res_bind]. exists t'. split; [done|]. exists m. split; [|done].
      right. exists sl', ess', ovl'. split; [done|]. rewrite <-Hm. apply emap_perm; [apply H'|done].
  - destruct Hrep as [[Hz ->]|(sl & ess & ovl & H & Hm)].
    + rewrite (shrink_zero pf c kw vw) by done. cbn [mbind res_bind]. exists t. split; [done|]. exists ∅. split; [by left|done].
    + destruct (shrink_spec pf c kw vw bmin bmax strict OK t sl ess ovl H) as (t' & sl' & -> & H' & _). cbn [mbind res_bind].
      exists t'. split; [done|]. exists m. split; [right; by exists sl', ess, ovl|done].
  - destruct Hrep as [[Hz ->]|(sl & ess & ovl & H & Hm)].
    + destruct (clear_zero pf c kw vw t Harr Hz) as (t' & -> & Hz'). cbn [mbind res_bind]. exists t'. split; [done|]. exists ∅.
      split; [by left|]. set_solver.
    + destruct (clear_spec pf c kw vw bmin bmax strict OK t sl ess ovl Harr H) as (t' & -> & Hz'). cbn [mbind res_bind]. exists t'.
      split; [done|]. exists ∅. split; [by left|]. set_solver.
Qed.

Lemma set_run_rep : forall ops t s, srep t s -> init_ok kw bmin bmax -> c_val c = KNull -> Forall (valid_sop kw bmin bmax) ops ->
  exists t', run_sops pf c fuel t ops = Ok (t', snd (set_run s ops)) /\ srep t' (fst (set_run s ops)).
Proof.
  induction ops as [|o ops IH]; intros t s Hrep Hi Hval Hv; [by exists t|].
  apply Forall_cons in Hv as [Ho Hv]. cbn [run_sops set_run].
  destruct (set_step_rep t s o Hrep Hi Hval Ho) as (t1 & -> & Hrep1). cbn [mbind res_bind].
  destruct (IH t1 _ Hrep1 Hi Hval Hv) as (t2 & -> & Hrep2). cbn [mbind res_bind].
  exists t2. destruct (set_step s o) as [m1 r1]. cbn [fst snd] in *. destruct (set_run m1 ops) as [m2 rs]. done.
Qed.
End refine.
