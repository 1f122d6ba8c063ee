(** Facts about tables that went through serialize and deserialize any number of times. *)
From Verif Require Export SerialProofs.

(** t arises from new tables by valid histories and by deserializing what serialize wrote, any number of times and
    in any nesting; a finite map that went through the same operations holds m.  The value width is a byte. *)
Inductive alive (pf : platform) (c : cfg) : N -> N -> table -> gmap N N -> Prop :=
| al_new kw vw : params pf c kw vw -> vw < 2^8 -> alive pf c kw vw (new_table pf c kw vw) ∅
| al_map kw vw t m fuel ops t' outs : alive pf c kw vw t m -> (64 <= fuel)%nat -> c_val c <> KNull ->
    valid_ops kw vw 1 (bits_max c kw) ops -> run_ops pf c fuel t ops = Ok (t', outs) ->
    alive pf c kw vw t' (fst (spec_run m ops))
| al_set kw vw t m fuel ops t' outs : alive pf c kw vw t m -> (64 <= fuel)%nat -> c_val c = KNull ->
    Forall (valid_sop kw 1 (bits_max c kw)) ops -> run_sops pf c fuel t ops = Ok (t', outs) ->
    alive pf c kw vw t' (gset_to_gmap 1 (fst (set_run (dom m) ops)))
| al_copy kw vw t m d kw0 vw0 t0 m0 fuel rest t' : alive pf c kw vw t m -> ov_size (t_ov t) = 0 -> serialize pf c t = Ok d ->
    alive pf c kw0 vw0 t0 m0 -> deserialize pf c fuel t0 (d ++ rest) = Ok (t', rest) ->
    alive pf c kw vw t' m.

Lemma reachable_alive pf c kw vw t m : params pf c kw vw -> vw < 2^8 -> reachable pf c kw vw t m -> alive pf c kw vw t m.
Proof.
  intros P Hb [fuel ops t' outs Hf Hv Hops Hrun|fuel ops t' outs Hf Hv Hops Hrun].
  - eapply al_map; [by constructor|done..].
  - replace ∅ with (dom (∅ : gmap N N)) by set_solver. eapply al_set; [by constructor|done..].
Qed.

Section alive.
Context (pf : platform) (c : cfg).
Hypothesis CL : class_ok pf c.
Notation rep kw vw := (TableRefine.trep pf c kw vw 1 (bits_max c kw) False).

Lemma params_ok kw vw : params pf c kw vw -> table_ok pf c kw vw 1 (bits_max c kw).
Proof. intros P. apply cfg_table_ok, P. Qed.
Lemma params_ok0 kw vw : params pf c kw vw -> table_ok0 pf c kw vw 1 (bits_max c kw).
Proof. intros P. by apply params_ok. Qed.
Lemma params_byte kw vw : params pf c kw vw -> kw < 2^8.
Proof. intros [P _]. pose proof (co_kw _ _ _ _ _ P). change (2^8) with 256. lia. Qed.

Lemma null_values' kw vw t m : c_val c = KNull -> rep kw vw t m -> m = gset_to_gmap 1 (dom m).
Proof.
  intros Hn Hr. apply map_eq. intros k. rewrite lookup_gset_to_gmap. destruct (m !! k) as [v|] eqn:Ek.
  - rewrite option_guard_True by (by apply elem_of_dom). f_equal.
    destruct Hr as [[_ ->]|(sl & ess & ovl & H & <-)]; [by rewrite lookup_empty in Ek|].
    apply emap_Some in Ek; [|apply H]. apply (ti_range _ _ _ _ _ _ _ _ _ _ _ H) in Ek as [_ Hv].
    rewrite <-Hv. unfold nv. by rewrite Hn.
  - rewrite option_guard_False; [done|]. by apply not_elem_of_dom.
Qed.

Lemma rep_clear kw vw t m : params pf c kw vw -> rep kw vw t m -> exists tz, clear pf c t = Ok tz /\ tzero pf c kw vw tz.
Proof.
  intros P [[Hz ->]|(sl & ess & ovl & H & Hm)]; [by apply clear_zero; [eapply noarr|]|].
  apply (clear_spec _ _ _ _ _ _ _ (params_ok0 _ _ P) _ _ _ _ (noarr _ _ _ _ P) H).
Qed.

(** A table and its copy hold the same entries in the same buckets. *)
Definition twins kw vw t t' (m : gmap N N) : Prop :=
  (tzero pf c kw vw t /\ tzero pf c kw vw t' /\ m = ∅)
  \/ exists sl sl' ess, TableInv.tinv pf c kw vw 1 (bits_max c kw) False t sl ess []
       /\ TableInv.tinv pf c kw vw 1 (bits_max c kw) False t' sl' ess [] /\ t_b t' = t_b t /\ emap (concat ess) = m.

Lemma copy_twins kw vw t m kw0 vw0 t0 m0 : params pf c kw vw -> vw < 2^8 -> rep kw vw t m -> ov_size (t_ov t) = 0 ->
  params pf c kw0 vw0 -> vw0 < 2^8 -> rep kw0 vw0 t0 m0 ->
  exists d, serialize pf c t = Ok d /\ forall fuel rest, exists t', deserialize pf c fuel t0 (d ++ rest) = Ok (t', rest) /\ twins kw vw t t' m.
Proof.
  intros P Hv Hr Ho P0 Hv0 Hr0. pose proof (params_byte _ _ P) as Hk. pose proof (params_byte _ _ P0) as Hk0.
  destruct (rep_clear _ _ _ _ P0 Hr0) as (tz & Hc & Hz). destruct Hr as [[Hzt ->]|(sl & ess & ovl & H & Hm)].
  - destruct (serialize_zero pf c kw vw t (noarr _ _ _ _ P) Hk Hv Hzt) as (d & E & D). exists d. split; [done|].
    intros fuel rest. destruct (D fuel t0 tz kw0 vw0 rest Hc Hz Hk0 Hv0) as (t' & E' & Hz'). exists t'. split; [done|]. by left.
  - assert (ovl = []) as ->.
    { rewrite (ov_size_spec _ _ _ _ _ _ (ti_ov _ _ _ _ _ _ _ _ _ _ _ H)) in Ho. destruct ovl; [done|cbn in Ho; lia]. }
    destruct (serialize_full pf c kw vw 1 (bits_max c kw) False (params_ok0 _ _ P) CL t sl ess (noarr _ _ _ _ P) Hk Hv H) as (d & E & D). exists d. split; [done|].
    intros fuel rest. destruct (D fuel t0 tz kw0 vw0 rest Hc Hz Hk0 Hv0) as (t' & sl' & E' & H' & Hb'). exists t'. split; [done|]. right.
    exists sl, sl', ess. rewrite app_nil_r in Hm. done.
Qed.
Lemma twins_rep kw vw t t' m : twins kw vw t t' m -> rep kw vw t' m.
Proof.
  intros [(_ & Hz & ->)|(sl & sl' & ess & _ & H & _ & Hm)]; [by left|]. right. exists sl', ess, []. by rewrite app_nil_r.
Qed.

Lemma alive_rep kw vw t m : alive pf c kw vw t m -> (params pf c kw vw /\ vw < 2^8) /\ rep kw vw t m.
Proof.
  induction 1 as [kw vw P Hvb|kw vw t m fuel ops t' outs _ [[P Hvb] IH] Hf Hv Hops Hrun|kw vw t m fuel ops t' outs _ [[P Hvb] IH] Hf Hv Hops Hrun
    |kw vw t m d kw0 vw0 t0 m0 fuel rest t' _ [[P Hvb] IH] Ho Hs _ [[P0 Hvb0] IH0] Hd].
  - split; [done|]. left. split; [|done]. apply (new_table_zero _ _ _ _ _ _ (params_ok0 _ _ P)).
  - split; [done|].
    destruct (run_rep pf c kw vw 1 (bits_max c kw) False fuel (params_ok _ _ P) Hf ops _ _ IH (params_init _ _ _ _ P) Hv) as (t2 & E & Hr); [|done|by apply (noarr_ops _ _ _ _ P)|].
    + intros v Hlt. eapply cfg_values; [apply P|done|done].
    + rewrite Hrun in E. by injection E as -> _.
  - split; [done|].
    destruct (set_run_rep pf c kw vw 1 (bits_max c kw) False fuel (params_ok _ _ P) Hf ops t (dom m)) as (t2 & E & Hr); [by exists m|apply (params_init _ _ _ _ P)|done|done|].
    rewrite Hrun in E. injection E as -> _. destruct Hr as (m2 & Hm & <-). by rewrite <-(null_values' _ _ _ _ Hv Hm).
  - split; [done|]. destruct (copy_twins kw vw t m kw0 vw0 t0 m0 P Hvb IH Ho P0 Hvb0 IH0) as (d' & Es & D). rewrite Hs in Es. injection Es as <-.
    destruct (D fuel rest) as (t2 & E2 & Htw). rewrite Hd in E2. injection E2 as ->. by apply twins_rep in Htw.
Qed.

(** What a copy shares with the original. *)
Definition same_behaviour (kw vw : N) (t t' : table) (m : gmap N N) : Prop :=
  t_kw t' = kw /\ t_vw t' = vw /\ t_kw t = kw /\ t_vw t = vw /\ bucket_count t' = bucket_count t /\ TableModel.size t' = TableModel.size t
  /\ shows pf c kw t' m /\ shows pf c kw t m
  /\ (exists l, list_to_map l = m /\ NoDup (map fst l) /\ forall f, (length l <= f)%nat -> forward pf c f t = Ok l /\ forward pf c f t' = Ok l)
  /\ (forall fuel ops, (64 <= fuel)%nat -> c_val c <> KNull -> valid_ops kw vw 1 (bits_max c kw) ops ->
       exists t1 t1' outs, run_ops pf c fuel t ops = Ok (t1, outs) /\ run_ops pf c fuel t' ops = Ok (t1', outs))
  /\ (forall fuel ops, (64 <= fuel)%nat -> c_val c = KNull -> Forall (valid_sop kw 1 (bits_max c kw)) ops ->
       exists t1 t1' outs, run_sops pf c fuel t ops = Ok (t1, outs) /\ run_sops pf c fuel t' ops = Ok (t1', outs)).

Lemma forward_zero kw vw t f : tzero pf c kw vw t -> forward pf c f t = Ok [].
Proof.
  intros Hz. pose proof (end_nav_invalid_zero _ _ _ _ _ Hz) as Hi. destruct Hz as (Hb & _ & _ & _ & Ho & _).
  unfold forward, begin_nav, bucket_count. rewrite Hb.
  cbn [N.eqb N.to_nat begin_scan]. assert (ov_size (t_ov t) = 0) as ->.
  { by apply (ov_zero_size _ _ _ Ho). }
  cbn [N.ltb N.compare mbind res_bind].
  destruct f; cbn [iterate]; unfold nav_eq; rewrite Hi; done.
Qed.

Lemma twins_same kw vw t t' m : params pf c kw vw -> twins kw vw t t' m -> same_behaviour kw vw t t' m.
Proof.
  intros P Htw. pose proof (twins_rep _ _ _ _ _ Htw) as Hr'.
  assert (Hr : rep kw vw t m).
  { destruct Htw as [(Hz & _ & ->)|(sl & sl' & ess & H & _ & _ & Hm)]; [by left|]. right. exists sl, ess, []. by rewrite app_nil_r. }
  pose proof (trep_shows _ _ _ _ _ _ _ (params_ok0 _ _ P) _ _ (noarr _ _ _ _ P) Hr) as Hs.
  pose proof (trep_shows _ _ _ _ _ _ _ (params_ok0 _ _ P) _ _ (noarr _ _ _ _ P) Hr') as Hs'.
  assert (Hw : t_kw t' = kw /\ t_vw t' = vw /\ t_kw t = kw /\ t_vw t = vw /\ bucket_count t' = bucket_count t).
  { destruct Htw as [((Hb & _ & Hk & Hv & _) & (Hb' & _ & Hk' & Hv' & _) & _)|(sl & sl' & ess & H & H' & Hb & _)].
    - unfold bucket_count. by rewrite Hb, Hb'.
    - unfold bucket_count. rewrite Hb. repeat split; [apply H'|apply H'|apply H|apply H]. }
  destruct Hw as (W1 & W2 & W3 & W4 & W5). unfold same_behaviour. do 5 (split; [done|]).
  split; [by rewrite (proj2 Hs), (proj2 Hs')|]. split; [done|]. split; [done|]. split; [|split].
  - destruct Htw as [(Hz & Hz' & ->)|(sl & sl' & ess & H & H' & Hb & Hm)].
    + exists []. split; [done|]. split; [constructor|]. intros f _. by rewrite !(forward_zero kw vw) by done.
    + exists (concat ess). split; [done|]. pose proof (ti_nodup _ _ _ _ _ _ _ _ _ _ _ H) as Hnd. rewrite app_nil_r in Hnd. split; [done|].
      intros f Hf. split; [by apply (forward_spec _ _ _ _ _ _ _ (params_ok0 _ _ P) _ _ _ H)|by apply (forward_spec _ _ _ _ _ _ _ (params_ok0 _ _ P) _ _ _ H')].
  - intros fuel ops Hf Hv Hops.
    assert (Hnv : forall v, v < 2^vw -> nv c vw v = v) by (intros v Hlt; eapply cfg_values; [apply P|done|done]).
    destruct (run_rep pf c kw vw 1 (bits_max c kw) False fuel (params_ok _ _ P) Hf ops _ _ Hr (params_init _ _ _ _ P) Hv Hnv Hops (noarr_ops _ _ _ _ P ops)) as (t1 & E & _).
    destruct (run_rep pf c kw vw 1 (bits_max c kw) False fuel (params_ok _ _ P) Hf ops _ _ Hr' (params_init _ _ _ _ P) Hv Hnv Hops (noarr_ops _ _ _ _ P ops)) as (t1' & E' & _).
    by exists t1, t1', (snd (spec_run m ops)).
  - intros fuel ops Hf Hv Hops.
    destruct (set_run_rep pf c kw vw 1 (bits_max c kw) False fuel (params_ok _ _ P) Hf ops t (dom m)) as (t1 & E & _); [by exists m|apply (params_init _ _ _ _ P)|done|done|].
    destruct (set_run_rep pf c kw vw 1 (bits_max c kw) False fuel (params_ok _ _ P) Hf ops t' (dom m)) as (t1' & E' & _); [by exists m|apply (params_init _ _ _ _ P)|done|done|].
    by exists t1, t1', (snd (set_run (dom m) ops)).
Qed.

Lemma round_trip kw vw t m kw0 vw0 t0 m0 : alive pf c kw vw t m -> ov_size (t_ov t) = 0 -> alive pf c kw0 vw0 t0 m0 ->
  exists d, serialize pf c t = Ok d /\ forall fuel rest, exists t', deserialize pf c fuel t0 (d ++ rest) = Ok (t', rest)
    /\ alive pf c kw vw t' m /\ same_behaviour kw vw t t' m.
Proof.
  intros Ha Ho Ha0. destruct (alive_rep _ _ _ _ Ha) as [[P Hvb] Hr]. destruct (alive_rep _ _ _ _ Ha0) as [[P0 Hvb0] Hr0].
  destruct (copy_twins kw vw t m kw0 vw0 t0 m0 P Hvb Hr Ho P0 Hvb0 Hr0) as (d & E & D). exists d. split; [done|].
  intros fuel rest. destruct (D fuel rest) as (t' & E' & Htw). exists t'. split; [done|].
  split; [by eapply al_copy|by apply twins_same].
Qed.

(** An empty stream: the bucket count is read from an uninitialised variable. *)
Lemma empty_stream kw vw t m fuel : alive pf c kw vw t m -> c_ov c = OvDummy -> deserialize pf c fuel t [] = Ub Indeterminate.
Proof.
  intros Ha Hd. destruct (alive_rep _ _ _ _ Ha) as [[P Hvb] Hr]. destruct (rep_clear _ _ _ _ P Hr) as (tz & Hc & Hz).
  unfold deserialize. rewrite Hc. cbn [mbind res_bind]. destruct Hz as (_ & _ & Hk & Hv & Ho & _).
  pose proof (params_byte _ _ P) as Hkb.
  destruct (t_ov tz); cbn in Ho; [|destruct Ho as (_ & [? _]); congruence|destruct Ho as (_ & ? & _); congruence]. cbn [ov_deserialize mbind res_bind].
  unfold read_var, st_read. rewrite !take_nil. cbn [app length]. rewrite !drop_0, !drop_nil.
  rewrite Hk, Hv, !bits_cell_nbits by done. done.
Qed.

(** ** The bytes *)
Definition packed_free : Prop := (match c_key c with KVar _ => False | _ => True end) /\ (match c_val c with KVar _ => False | _ => True end).
End alive.

(** What a bucket without packing writes is determined by the elements. *)
Definition cells_out (kd : bkind) (xs : list N) : bits :=
  match kd with KPlain es | KClass es | KAvx es => concat (map (nbits es) xs) | _ => [] end.
Lemma b_serialize_cells pf kd w cap b xs : (match kd with KVar _ => False | _ => True end) -> brepr pf kd w cap b xs ->
  b_serialize pf kd b (length xs) w = Ok (cells_out kd xs).
Proof.
  intros Hk H. destruct kd; cbn in H; try done.
  1-3: destruct H as (t & [cs|bs] & -> & Ht & H); try done; destruct H as (Hc & Hl & H & Hf);
    cbn [b_serialize cells_out]; unfold cells_prefix; rewrite (proj2 (Nat.leb_le _ _)) by lia;
    cbn [mbind res_bind]; rewrite (take_repr xs cs H), map_map; done.
Qed.

Section bytes.
Context (c : cfg) (kw vw bmin bmax : N).
Hypothesis PF : packed_free c.
Hypothesis OV : c_ov c = OvDummy.

Definition slot_out (b : N) (es : entries) : bits :=
  cells_out (c_key c) (map (fun e => hq c kw b (fst e)) es) ++ cells_out (c_val c) (map snd es).
Definition table_out (b : N) (ess : list entries) : bits :=
  nbits 8 kw ++ nbits 8 vw ++ nbits 8 b ++ nbits 64 (u64 (N.of_nat (length (concat ess)))) ++
  concat (map (fun es => nbits 8 (N.of_nat (length es))) ess) ++ concat (map (slot_out b) ess).

Lemma slot_out_spec pf strict t b s es : qwidth c t = qw c kw b -> vwidth t = N.to_nat vw ->
  slot_repr pf c kw vw strict b s es -> ser_slot pf c t s = Ok (slot_out b es).
Proof.
  intros Hq Hv Hs. destruct PF as [Pk Pv]. unfold ser_slot, slot_out. pose proof Hs as (Hsz & _).
  destruct (decide (es = [])) as [->|Hne].
  - rewrite (proj2 (N.eqb_eq _ _)) by done. cbn. destruct (c_key c), (c_val c); done.
  - rewrite (proj2 (N.eqb_neq _ _)) by (destruct es; [done|cbn in Hsz; lia]).
    destruct (slot_repr_nonnil _ _ _ _ _ _ _ _ Hne Hs) as [Hks Hvs].
    rewrite Hq, Hv, Hsz, Nat2N.id.
    pose proof (b_serialize_cells _ _ _ _ _ _ Pk Hks) as E1. pose proof (b_serialize_cells _ _ _ _ _ _ Pv Hvs) as E2.
    rewrite map_length in E1, E2. rewrite E1. cbn [mbind res_bind]. by rewrite E2.
Qed.
Lemma serialize_out pf strict t sl ess ovl : table_ok0 pf c kw vw bmin bmax -> TableInv.tinv pf c kw vw bmin bmax strict t sl ess ovl ->
  serialize pf c t = Ok (table_out (t_b t) ess).
Proof.
  intros OK H. unfold serialize, table_out. destruct (dummy_nil _ _ _ _ _ _ _ _ _ _ _ H OV) as [-> ->]. cbn [ov_serialize mbind res_bind].
  destruct (tinv_bc _ _ _ _ _ _ _ OK _ _ _ _ H) as [_ ->]. pose proof (ti_len _ _ _ _ _ _ _ _ _ _ _ H) as Hlen.
  rewrite (proj2 (N.eqb_neq _ _)) by (apply N.pow_nonzero; lia).
  rewrite (ti_slots _ _ _ _ _ _ _ _ _ _ _ H). rewrite take_ge by lia.
  pose proof (ti_repr _ _ _ _ _ _ _ _ _ _ _ H) as HF.
  assert (Hr : rmap (ser_slot pf c t) sl = Ok (map (slot_out (t_b t)) ess)
    /\ map (fun s => nbits 8 (s_size s)) sl = map (fun es => nbits 8 (N.of_nat (length es))) ess).
  { pose proof (tinv_qw _ _ _ _ _ _ _ _ _ _ _ H) as Hq. pose proof (tinv_vw _ _ _ _ _ _ _ _ _ _ _ H) as Hv. clear Hlen H.
    induction HF as [|s es sl1 ess1 Hs HF IH]; [done|]. destruct IH as [IH1 IH2]. cbn [rmap map].
    rewrite (slot_out_spec _ _ _ _ _ _ Hq Hv Hs). cbn [mbind res_bind]. rewrite IH1. cbn [mbind res_bind].
    split; [done|]. rewrite IH2. by destruct Hs as (-> & _). }
  destruct Hr as [-> Hr]. cbn [mbind res_bind app]. rewrite Hr.
  rewrite (ti_kw _ _ _ _ _ _ _ _ _ _ _ H), (ti_vw _ _ _ _ _ _ _ _ _ _ _ H), (ti_n _ _ _ _ _ _ _ _ _ _ _ H), app_nil_r.
  by rewrite <-!app_assoc.
Qed.
Lemma out_det b ess : Forall is_Some (table_out b ess).
Proof.
  assert (Hn : forall w x, Forall is_Some (nbits w x)).
  { intros. unfold nbits. apply Forall_fmap, Forall_true. intros; cbn; eauto. }
  assert (Hc : forall kd xs, Forall is_Some (cells_out kd xs)).
  { intros kd xs. destruct kd; cbn; try constructor; induction xs; cbn; [constructor|apply Forall_app_2; done|constructor|apply Forall_app_2; done|constructor|apply Forall_app_2; done]. }
  unfold table_out. repeat apply Forall_app_2; try apply Hn.
  - induction ess; cbn [map concat]; [constructor|by apply Forall_app_2].
  - induction ess; cbn [map concat]; [constructor|apply Forall_app_2; [|done]]. unfold slot_out. by apply Forall_app_2.
Qed.

(** The bucket contents are determined by the order of the entries and the number of buckets. *)
Lemma placed_determined bo ess : forall ess', placed bo ess -> placed bo ess' -> length ess = length ess' ->
  concat ess = concat ess' -> ess = ess'.
Proof.
  intros ess' H H' Hl Hc.
  assert (Hf : forall (e : list entries) i es, placed bo e -> e !! i = Some es -> es = List.filter (fun x => bo (fst x) =? N.of_nat i) (concat e)).
  { clear. intros e i es Hp He. 
    assert (G : forall (e0 : list entries) off, (forall j es0 k v, e0 !! j = Some es0 -> (k, v) ∈ es0 -> bo k = N.of_nat (off + j)) ->
       forall i es, e0 !! i = Some es -> es = List.filter (fun x => bo (fst x) =? N.of_nat (off + i)) (concat e0)).
    { clear. induction e0 as [|a e0 IH]; intros off Hp i es He; [done|]. cbn [concat]. rewrite List.filter_app.
      assert (Hrest : forall n, (n < S off)%nat -> List.filter (fun x => bo (fst x) =? N.of_nat n) (concat e0) = []).
      { intros n Hn. assert (Ha : forall x, x ∈ concat e0 -> (bo (fst x) =? N.of_nat n) = false).
        { intros [k v] Hx. apply elem_of_concat in Hx as (j0 & es0 & Hj0 & Hx).
          apply N.eqb_neq. cbn [fst]. rewrite (Hp (S j0) es0 k v); [lia|done|done]. }
        revert Ha. generalize (concat e0). clear. induction l as [|x l IH]; intros Ha; [done|]. cbn [List.filter].
        rewrite Ha by constructor. apply IH. intros y Hy. apply Ha. by constructor. }
      assert (Hself : forall n, (n <> off)%nat -> List.filter (fun x => bo (fst x) =? N.of_nat n) a = []).
      { intros n Hn. assert (Ha : forall x, x ∈ a -> (bo (fst x) =? N.of_nat n) = false).
        { intros [k v] Hx. apply N.eqb_neq. cbn [fst]. rewrite (Hp 0%nat a k v); [lia|done|done]. }
        revert Ha. clear. induction a as [|x l IH]; intros Ha; [done|]. cbn [List.filter].
        rewrite Ha by constructor. apply IH. intros y Hy. apply Ha. by constructor. }
      destruct i as [|i]; cbn in He.
      - injection He as <-. rewrite Nat.add_0_r, Hrest by lia. rewrite app_nil_r.
        assert (Ha : forall x, x ∈ a -> (bo (fst x) =? N.of_nat off) = true).
        { intros [k v] Hx. apply N.eqb_eq. cbn [fst]. rewrite (Hp 0%nat a k v); [lia|done|done]. }
        revert Ha. clear. induction a as [|x l IH]; intros Ha; [done|]. cbn [List.filter].
        rewrite Ha by constructor. f_equal. apply IH. intros y Hy. apply Ha. by constructor.
      - rewrite Hself by lia. cbn [app]. rewrite (IH (S off)) with (i := i) (es := es).
        + by rewrite Nat.add_succ_comm.
        + intros j es0 k v Hj Hin. rewrite (Hp (S j) es0 k v) by done. lia.
        + done. }
    rewrite (G e 0%nat) with (i := i) (es := es) at 1; [done| |done]. intros j es0 k v Hj Hin. apply (Hp j es0 k v Hj Hin). }
  apply list_eq_same_length with (n := length ess); [done|done|].
  intros i es es' _ He He'. rewrite (Hf _ _ _ H He), (Hf _ _ _ H' He'). by rewrite Hc.
Qed.
End bytes.

Lemma same_bytes pf1 pf2 c kw vw t1 m1 t2 m2 : packed_free c -> c_ov c = OvDummy -> class_ok pf1 c -> class_ok pf2 c ->
  alive pf1 c kw vw t1 m1 -> alive pf2 c kw vw t2 m2 -> bucket_count t1 = bucket_count t2 ->
  (exists f l, forward pf1 c f t1 = Ok l /\ forward pf2 c f t2 = Ok l) ->
  exists bs, serialize pf1 c t1 = Ok (map Some bs) /\ serialize pf2 c t2 = Ok (map Some bs).
Proof.
  intros PF OV C1 C2 H1 H2 Hbc (f & l & F1 & F2).
  destruct (alive_rep _ _ C1 _ _ _ _ H1) as [[P1 _] R1]. destruct (alive_rep _ _ C2 _ _ _ _ H2) as [[P2 _] R2].
  assert (Hdet : forall d : bits, Forall is_Some d -> exists bs, d = map Some bs).
  { induction 1 as [|x d [b Hb] _ IH]; [by exists []|]. destruct IH as (bs & ->). exists (b :: bs). by rewrite Hb. }
  pose proof (params_ok0 _ _ _ _ P1) as O1. pose proof (params_ok0 _ _ _ _ P2) as O2.
  assert (Hzero : forall pf t, table_ok0 pf c kw vw 1 (bits_max c kw) -> tzero pf c kw vw t ->
    serialize pf c t = Ok (nbits 8 kw ++ nbits 8 vw ++ nbits 8 0 ++ nbits 64 0)).
  { intros pf t O (Hb & Hn & Hk & Hv & Ho & _). unfold serialize, bucket_count.
    destruct (t_ov t); cbn in Ho; [|destruct Ho as (_ & [? _]); congruence|destruct Ho as (_ & ? & _); congruence]. cbn [ov_serialize mbind res_bind].
    by rewrite Hb, Hn, Hk, Hv. }
  destruct R1 as [[Z1 _]|(sl1 & ess1 & ovl1 & I1 & _)], R2 as [[Z2 _]|(sl2 & ess2 & ovl2 & I2 & _)].
  - rewrite (Hzero _ _ O1 Z1), (Hzero _ _ O2 Z2).
    exists (bits_of 8 kw ++ bits_of 8 vw ++ bits_of 8 0 ++ bits_of 64 0). unfold nbits. rewrite !map_app. done.
  - exfalso. destruct (tinv_bc _ _ _ _ _ _ _ O2 _ _ _ _ I2) as [_ E]. rewrite E in Hbc. destruct Z1 as (Hb & _).
    unfold bucket_count in Hbc. rewrite Hb in Hbc. cbn [N.eqb] in Hbc. symmetry in Hbc. revert Hbc. apply N.pow_nonzero. lia.
  - exfalso. destruct (tinv_bc _ _ _ _ _ _ _ O1 _ _ _ _ I1) as [_ E]. rewrite E in Hbc. destruct Z2 as (Hb & _).
    unfold bucket_count in Hbc. rewrite Hb in Hbc. cbn [N.eqb] in Hbc. revert Hbc. apply N.pow_nonzero. lia.
  - rewrite (serialize_out c kw vw 1 (bits_max c kw) PF OV _ _ _ _ _ _ O1 I1), (serialize_out c kw vw 1 (bits_max c kw) PF OV _ _ _ _ _ _ O2 I2).
    destruct (dummy_nil _ _ _ _ _ _ _ _ _ _ _ I1 OV) as [_ ->]. destruct (dummy_nil _ _ _ _ _ _ _ _ _ _ _ I2 OV) as [_ ->].
    destruct (tinv_bc _ _ _ _ _ _ _ O1 _ _ _ _ I1) as [_ E1]. destruct (tinv_bc _ _ _ _ _ _ _ O2 _ _ _ _ I2) as [_ E2].
    assert (Hb : t_b t1 = t_b t2). { rewrite E1, E2 in Hbc. by apply N.pow_inj_r in Hbc. }
    assert (Hf : forall pf f t l l' n, forward pf c f t = Ok l -> (forall f, (n <= f)%nat -> forward pf c f t = Ok l') -> l = l').
    { intros pf g t a a' n E H. unfold forward in *. destruct (begin_nav t) as [x| | |]; [|done..]. cbn [mbind res_bind] in *.
      assert (M : forall g t x a, iterate pf c g t x = Ok a -> forall h, (g <= h)%nat -> iterate pf c h t x = Ok a).
      { clear. induction g as [|g IH]; intros t x a E h Hh; cbn [iterate] in E.
        - destruct h; cbn [iterate]; destruct (nav_eq pf t x end_nav) as [[]| | |]; done.
        - destruct h as [|h]; [lia|]. cbn [iterate]. destruct (nav_eq pf t x end_nav) as [[]| | |]; cbn [mbind res_bind] in *; try done.
          destruct (nav_read pf c t x); cbn [mbind res_bind] in *; try done. destruct (nav_next pf t x); cbn [mbind res_bind] in *; try done.
          destruct (iterate pf c g t _) eqn:Ei; cbn [mbind res_bind] in *; try done. by rewrite (IH _ _ _ Ei h) by lia. }
      pose proof (M _ _ _ _ E (g + n)%nat ltac:(lia)) as E'. rewrite H in E' by lia. by injection E'. }
    pose proof (Hf _ _ _ _ _ _ F1 (forward_spec _ _ _ _ _ _ _ O1 _ _ _ I1)) as L1.
    pose proof (Hf _ _ _ _ _ _ F2 (forward_spec _ _ _ _ _ _ _ O2 _ _ _ I2)) as L2.
    assert (ess1 = ess2) as <-.
    { apply (placed_determined (hb c kw (t_b t1))).
      - apply I1.
      - rewrite Hb. apply I2.
      - pose proof (tinv_len _ _ _ _ _ _ _ _ _ _ _ I1). pose proof (tinv_len _ _ _ _ _ _ _ _ _ _ _ I2). rewrite Hb in *. lia.
      - congruence. }
    rewrite <-Hb. destruct (Hdet _ (out_det c kw vw (t_b t1) ess1)) as (bs & ->). by exists bs.
Qed.
