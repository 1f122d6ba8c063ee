(** Facts about moved, swapped and destroyed tables. *)
From Verif Require Export OwnModel OwnProofs SerialFacts.

Section own.
Context (pf : platform) (c : cfg).
Context (mv_nb : N) (mv_els : list (N * N)) (mv_full : list bool).

(** The object o owns blocks of the heap h that hold the table t; no block is owned twice.  An object without buckets
    may still own an array of empty value buckets. *)
Record object_of (h : heap) (o : obj) (t : table) : Prop := {
  ob_load : load c h o = Some t;
  ob_nodup : NoDup (foot c h o);
  ob_caps : o_sizes o = None -> c_arb c = true -> o_caps o = None;
  ob_idle : o_sizes o = None -> c_val c <> KNull -> forall a, o_vals o = Some a -> exists l, h !! a = Some (BArr l) /\ Forall (fun p => p = None) l
}.

(** Every bucket may be released, empty buckets have no storage. *)
Definition good_slot (s : slot) : Prop :=
  b_free pf (c_key c) (s_keys s) = Ok tt /\ b_free pf (c_val c) (s_vals s) = Ok tt
  /\ (s_size s = 0 -> s_keys s = None /\ s_vals s = None).
Definition good_ov (o : overflow) : Prop :=
  match o with
  | OArray k v _ _ => (forall t d, k = Some (t, d) -> t = TMalloc) /\ (forall t d, v = Some (t, d) -> t = TMalloc)
  | _ => True
  end.
Definition good (t : table) : Prop :=
  good_ov (t_ov t) /\ forall sl, t_slots t = Some sl ->
    Forall good_slot sl /\ (if t_b t =? 0 then Forall (fun s => s_size s = 0) sl else N.to_nat (2^(t_b t)) = length sl).

Lemma brepr_free kd w cap b xs : brepr pf kd w cap b xs -> b_free pf kd b = Ok tt.
Proof.
  unfold brepr, b_free. destruct kd; [| | | |intros [-> _]; done]; intros (t & d & -> & -> & _); done.
Qed.
Lemma rep_good kw vw t m : params pf c kw vw -> TableRefine.trep pf c kw vw 1 (bits_max c kw) False t m -> good t.
Proof.
  intros P [[Hz _]|(sl & ess & ovl & H & _)].
  - destruct Hz as (Hb & _ & _ & _ & Ho & Hs). split; [destruct (t_ov t); [done|by destruct Ho as [_ [[]%(noarr _ _ _ _ P) _]]|done]|]. intros sl E. rewrite E in Hs. rewrite Hb. cbn [N.eqb].
    split; (eapply Forall_impl; [exact Hs|]); intros s ->; done.
  - split; [pose proof (ti_ov _ _ _ _ _ _ _ _ _ _ _ H) as Ho; destruct (t_ov t); [done|by destruct Ho as (_ & [[]%(noarr _ _ _ _ P) _] & _)|done]|]. intros sl' E.
    rewrite (ti_slots _ _ _ _ _ _ _ _ _ _ _ H) in E. injection E as <-. split.
    + pose proof (ti_repr _ _ _ _ _ _ _ _ _ _ _ H) as Hr. apply Forall_lookup. intros i s Hs.
      destruct (Forall2_lookup_l _ _ _ _ _ Hr Hs) as (es & _ & He). destruct es as [|e es].
      * destruct He as (_ & _ & -> & _). by repeat split.
      * pose proof (slot_repr_nonnil pf c kw vw False (t_b t) s (e :: es) ltac:(done) He) as [Hk Hv]. destruct He as (Hsz & _).
        split; [by eapply brepr_free|]. split; [by eapply brepr_free|]. intros H0. rewrite H0 in Hsz. cbn in Hsz. lia.
    + pose proof (ti_b _ _ _ _ _ _ _ _ _ _ _ H). rewrite (proj2 (N.eqb_neq _ _)) by lia.
      pose proof (ti_len _ _ _ _ _ _ _ _ _ _ _ H). lia.
Qed.

Lemma is_set_true : is_set c = true <-> c_val c = KNull.
Proof. unfold is_set. by destruct (c_val c). Qed.
Lemma is_set_false : is_set c = false <-> c_val c <> KNull.
Proof. unfold is_set. by destruct (c_val c). Qed.

Lemma zip_slots_spec ks vs ns cs sl : zip_slots ks vs ns cs = Some sl ->
  ks = map s_keys sl /\ vs = map s_vals sl /\ ns = map s_size sl /\ cs = map s_cap sl.
Proof.
  revert vs ns cs sl. induction ks as [|k ks IH]; intros [|v vs] [|n ns] [|a cs] sl; cbn; try done.
  - by intros [= <-].
  - destruct (zip_slots ks vs ns cs) as [l|] eqn:E; [|done]. intros [= <-]. destruct (IH _ _ _ _ E) as (-> & -> & -> & ->). done.
Qed.
Lemma mapM_bucket h l ks : mapM (ld_bucket h) l = Some ks ->
  length l = length ks /\ (forall i p, l !! i = Some (Some p) -> exists t d, ks !! i = Some (Some (t, d)) /\ h !! p = Some (BData t d))
  /\ (forall i, ks !! i = Some None -> l !! i = Some None).
Proof.
  intros H%mapM_Some. split; [by eapply Forall2_length|]. split.
  - intros i p Hi. destruct (Forall2_lookup_l _ _ _ _ _ H Hi) as (b & Hb & E). cbn in E. destruct (h !! p) as [[| | |t d]|]; try done.
    injection E as <-. by exists t, d.
  - intros i Hi. destruct (Forall2_lookup_r _ _ _ _ _ H Hi) as ([p|] & Hb & E); [|done]. cbn in E. by destruct (h !! p) as [[| | |t d]|].
Qed.

Lemma load_inv h o t : load c h o = Some t ->
  ld_slots c h o = Some (t_slots t) /\ ld_ov h (o_ov o) = Some (t_ov t) /\ t_b t = o_b o.
Proof.
  unfold load. destruct (o_hash o =? o_kw o); [|done]. destruct (ld_slots c h o) as [sl|]; [|done]. cbn.
  destruct (ld_ov h (o_ov o)) as [v|]; [|done]. cbn. by intros [= <-].
Qed.

Lemma data_of kd h l ks : mapM (ld_bucket h) l = Some ks -> Forall (fun b => b_free pf kd b = Ok tt) ks -> data_ok pf kd h l.
Proof.
  intros H F p Hp. apply somes_in, elem_of_list_lookup in Hp as [i Hi]. apply mapM_bucket in H as (_ & H & _).
  destruct (H i p Hi) as (t & d & Hk & Hh). exists t, d. split; [done|].
  pose proof (Forall_lookup_1 _ _ _ _ F Hk) as E. cbn in E. by destruct (free_ok pf (kind_tag kd) t).
Qed.

Lemma object_wf h o t : object_of h o t -> good t -> OwnProofs.wf pf c h o.
Proof.
  intros [L Hnd Hc Hi] [Go Gs]. apply load_inv in L as (Ls & Lo & Lb). constructor; [done| | |done|].
  - intros a Ha. destruct (o_ov o) as [|k w e full|]; cbn in *; [by inversion Ha| |by inversion Ha].
    destruct (ld_bucket h k) as [bk|] eqn:Ek; [|done]. destruct (ld_bucket h w) as [bw|] eqn:Ew; [|done]. cbn in Lo. injection Lo as Lo.
    rewrite <- Lo in Go. destruct Go as [G1 G2]. apply elem_of_app in Ha as [Ha|Ha].
    + destruct k as [x|]; [|inversion Ha]. apply elem_of_list_singleton in Ha as ->. cbn in Ek. destruct (h !! x) as [[| | |t' d]|]; try done.
      injection Ek as <-. rewrite (G1 _ _ eq_refl). by exists d.
    + destruct w as [x|]; [|inversion Ha]. apply elem_of_list_singleton in Ha as ->. cbn in Ew. destruct (h !! x) as [[| | |t' d]|]; try done.
      injection Ew as <-. rewrite (G2 _ _ eq_refl). by exists d.
  - intros Es a Ea. destruct (o_sizes o) as [as_|] eqn:Eo.
    + unfold ld_slots in Ls. rewrite Eo, Es in Ls. destruct (ld_sizes h (Some as_)) as [ns|]; [|done]. cbn [mbind option_bind] in Ls.
      destruct (ld_arr h (o_keys o)) as [ks|]; [|done]. cbn [mbind option_bind] in Ls. rewrite Ea in Ls. cbn [ld_arr] in Ls.
      destruct (h !! a) as [[| |l|]|] eqn:El; try done. destruct (mapM (ld_bucket h) l) as [vs|] eqn:Em; [|done]. cbn [mbind option_bind] in Ls.
      destruct (if c_arb c then ld_caps h (o_caps o) else _) as [cs|]; [|done]. cbn [mbind option_bind] in Ls.
      destruct (zip_slots ks vs ns cs) as [sl|] eqn:Ez; [|done]. cbn [mbind option_bind] in Ls. injection Ls as Ls.
      destruct (Gs sl ltac:(congruence)) as [G _]. exists l. split; [done|]. apply data_of with vs; [done|].
      apply zip_slots_spec in Ez as (_ & -> & _). apply Forall_map. eapply Forall_impl; [exact G|]. by intros s (_ & ? & _).
    + destruct (Hi eq_refl (proj1 is_set_false Es) a Ea) as (l & E & F). exists l. split; [done|].
      intros p Hp. apply somes_in in Hp. rewrite Forall_forall in F. by apply F in Hp.
  - intros a Ha. unfold ld_slots in Ls. rewrite Ha in Ls. cbn [ld_sizes] in Ls. destruct (h !! a) as [[ns| | |]|] eqn:Ea; try done.
    cbn [mbind option_bind] in Ls. destruct (o_keys o) as [ak|] eqn:Ek; [|done]. cbn [ld_arr] in Ls.
    destruct (h !! ak) as [[| |lk|]|] eqn:Elk; try done. destruct (mapM (ld_bucket h) lk) as [ks|] eqn:Em; [|done]. cbn [mbind option_bind] in Ls.
    destruct (if is_set c then _ else ld_arr h (o_vals o)) as [vs|] eqn:Ev; [|done]. cbn [mbind option_bind] in Ls.
    destruct (if c_arb c then ld_caps h (o_caps o) else _) as [cs|] eqn:Ec; [|done]. cbn [mbind option_bind] in Ls.
    destruct (zip_slots ks vs ns cs) as [sl|] eqn:Ez; [|done]. cbn [mbind option_bind] in Ls. injection Ls as Ls.
    destruct (Gs sl ltac:(congruence)) as [G Gb]. rewrite Lb in Gb.
    apply zip_slots_spec in Ez as (Ek' & Ev' & En & Ec').
    pose proof (mapM_bucket _ _ _ Em) as (Lk & _ & Zk).
    assert (Hz : forall i, ns !! i = Some 0 -> ks !! i = Some None /\ vs !! i = Some None).
    { intros i Hn. rewrite En, list_lookup_fmap in Hn. rewrite Ek', Ev', !list_lookup_fmap. destruct (sl !! i) as [s|] eqn:Esl; [|done].
      cbn in Hn. injection Hn as Hn. destruct (Forall_lookup_1 _ _ _ _ G Esl) as (_ & _ & Gz). destruct (Gz Hn) as [Gk Gv]. cbn. by rewrite Gk, Gv. }
    exists ns, ak, lk. split; [done|]. split; [done|]. split; [done|].
    split. { apply data_of with ks; [done|]. rewrite Ek'. apply Forall_map. eapply Forall_impl; [exact G|]. by intros s (? & _). }
    split. { rewrite Lk, Ek', En, !map_length. done. }
    split. { intros Es. rewrite Es in Ev. destruct (o_vals o) as [av|]; [|done]. cbn [ld_arr] in Ev. destruct (h !! av) as [[| |lv|]|] eqn:Elv; try done.
      pose proof (mapM_bucket _ _ _ Ev) as (Lv & _ & Zv). exists av, lv. split; [done|]. split; [done|].
      split; [rewrite Lv, Ev', En, !map_length; done|]. intros i Hn. apply Zv, Hz, Hn. }
    split. { intros Ea'. rewrite Ea' in Ec. destruct (o_caps o) as [ac|]; [|done]. cbn [ld_caps] in Ec. destruct (h !! ac) as [[| | |]|] eqn:Eac; try done.
      injection Ec as ->. exists ac, cs. split; [done|]. split; [done|]. rewrite Ec', En, !map_length. done. }
    split. { intros i Hn. apply Zk, Hz, Hn. }
    destruct (o_b o =? 0).
    + rewrite En. apply Forall_map. done.
    + rewrite En, map_length. done.
Qed.

(** ** swap *)
Lemma own_swap_eq h x y : own_swap pf c mv_nb mv_els mv_full h x y = Ok (h, (if is_set c then Obj (o_keys y) (o_vals x) (o_sizes y) (if c_arb c then o_caps y else o_caps x) (o_b y) (o_n y) (o_kw y) (o_vw y) (o_hash y) (o_ov y) else Obj (o_keys y) (o_vals y) (o_sizes y) (if c_arb c then o_caps y else o_caps x) (o_b y) (o_n y) (o_kw y) (o_vw y) (o_hash y) (o_ov y),
  if is_set c then Obj (o_keys x) (o_vals y) (o_sizes x) (if c_arb c then o_caps x else o_caps y) (o_b x) (o_n x) (o_kw x) (o_vw x) (o_hash x) (o_ov x) else Obj (o_keys x) (o_vals x) (o_sizes x) (if c_arb c then o_caps x else o_caps y) (o_b x) (o_n x) (o_kw x) (o_vw x) (o_hash x) (o_ov x))).
Proof.
  unfold own_swap, swap_vals, swap_caps, swap_ov. destruct (is_set c), (c_arb c); cbn [mbind res_bind delete_arr hfree];
  destruct (o_ov x), (o_ov y); reflexivity.
Qed.

Lemma load_ext h o o' : o_keys o = o_keys o' -> (is_set c = false -> o_vals o = o_vals o') -> o_sizes o = o_sizes o' ->
  (c_arb c = true -> o_caps o = o_caps o') -> o_b o = o_b o' -> o_n o = o_n o' -> o_kw o = o_kw o' -> o_vw o = o_vw o' -> o_hash o = o_hash o' -> o_ov o = o_ov o' ->
  load c h o = load c h o' /\ foot c h o = foot c h o'.
Proof.
  destruct o as [k v s ca b n kw vw hs ov], o' as [k' v' s' ca' b' n' kw' vw' hs' ov']; cbn. intros -> Hv -> Hc -> -> -> -> -> ->.
  unfold load, ld_slots, foot; cbn. destruct (is_set c), (c_arb c); rewrite ?Hv, ?Hc by done; done.
Qed.
Lemma object_ext h o o' t : o_keys o = o_keys o' -> (is_set c = false -> o_vals o = o_vals o') -> o_sizes o = o_sizes o' ->
  (c_arb c = true -> o_caps o = o_caps o') -> o_b o = o_b o' -> o_n o = o_n o' -> o_kw o = o_kw o' -> o_vw o = o_vw o' -> o_hash o = o_hash o' -> o_ov o = o_ov o' ->
  object_of h o t -> object_of h o' t.
Proof.
  intros H1 H2 H3 H4 H5 H6 H7 H8 H9 H10 [L N C I]. destruct (load_ext h o o') as [E1 E2]; try done. constructor.
  - by rewrite <- E1.
  - by rewrite <- E2.
  - intros Hs Ha. rewrite <- H4 by done. apply C; [congruence|done].
  - intros Hs Hv a. rewrite <- H2 by (by apply is_set_false). apply I; [congruence|done].
Qed.

Lemma swap_fact h x y t1 t2 : object_of h x t1 -> object_of h y t2 ->
  exists x' y', own_swap pf c mv_nb mv_els mv_full h x y = Ok (h, (x', y')) /\ object_of h x' t2 /\ object_of h y' t1.
Proof.
  intros H1 H2. rewrite own_swap_eq. eexists _, _. split; [done|].
  split; [eapply object_ext; [..|exact H2]|eapply object_ext; [..|exact H1]];
  destruct (is_set c), (c_arb c); cbn; done.
Qed.

(** ** Moves *)
Lemma without_all F (h h' : heap) : without F h h' -> (forall a, is_Some (h !! a) -> a ∈ F) -> h' = ∅.
Proof.
  intros H Hd. apply map_eq. intros a. rewrite H, lookup_empty. destruct (decide (a ∈ F)) as [|Hn]; [done|].
  destruct (h !! a) eqn:E; [|done]. exfalso. apply Hn, Hd. by rewrite E.
Qed.

Definition moved (o : obj) : obj * obj := move_construct c mv_nb mv_els mv_full o.

Lemma move_new h o t : object_of h o t -> object_of h (fst (moved o)) t.
Proof.
  unfold moved, move_construct. destruct (ov_move _ _ _ (o_ov o)) as [v v'] eqn:E.
  assert (v = o_ov o) as -> by (destruct (o_ov o); cbn in E; by injection E as <- <-). cbn [fst]. intros H.
  eapply object_ext; [..|exact H]; done.
Qed.
Lemma move_new_foot h o : foot c h (fst (moved o)) = foot c h o.
Proof.
  unfold moved, move_construct. destruct (ov_move _ _ _ (o_ov o)) as [v v'] eqn:E.
  assert (v = o_ov o) as -> by (destruct (o_ov o); cbn in E; by injection E as <- <-). reflexivity.
Qed.
Lemma ov_move_ptrs o : ov_ptrs (snd (ov_move mv_nb mv_els mv_full o)) = [].
Proof. by destruct o. Qed.

Lemma move_old_foot h o : is_set c = true -> foot c h (snd (moved o)) = [].
Proof.
  intros Es. unfold moved, move_construct. pose proof (ov_move_ptrs (o_ov o)) as Hp. destruct (ov_move _ _ _ (o_ov o)) as [v v'].
  unfold foot. cbn in *. by rewrite Es, Hp.
Qed.
Lemma move_old_wf h o : OwnProofs.wf pf c h o -> OwnProofs.wf pf c h (snd (moved o)).
Proof.
  intros W. unfold moved, move_construct. pose proof (ov_move_ptrs (o_ov o)) as Hp. destruct (ov_move _ _ _ (o_ov o)) as [v v'].
  cbn [snd] in *. constructor; cbn [o_sizes o_ov o_caps o_vals].
  - pose proof (wf_nodup _ _ _ _ W) as Hnd. unfold foot in *. cbn. rewrite Hp, app_nil_r. apply NoDup_app in Hnd as (_ & _ & Hnd).
    by apply NoDup_app in Hnd as (? & _).
  - intros a. rewrite Hp. intros H; inversion H.
  - intros Es. apply (wf_vals _ _ _ _ W Es).
  - by intros _ ->.
  - done.
Qed.

Lemma destroy_empty h o : OwnProofs.wf pf c h o -> foot c h o = [] -> destroy pf c h o = Ok h.
Proof.
  intros W F. destruct (destroy_ok pf c h o W) as (h' & -> & H). rewrite F in H. f_equal. apply map_eq. intros a.
  rewrite H. rewrite decide_False; [done|]. intros Hx; inversion Hx.
Qed.

(** Moving a set out. *)
Lemma move_set h o t : c_val c = KNull -> object_of h o t -> good t -> (forall a, is_Some (h !! a) -> a ∈ foot c h o) ->
  object_of h (fst (moved o)) t
  /\ (h1 ← destroy pf c h (fst (moved o)); destroy pf c h1 (snd (moved o))) = Ok ∅
  /\ (h1 ← destroy pf c h (snd (moved o)); destroy pf c h1 (fst (moved o))) = Ok ∅.
Proof.
  intros Hs Ho G Hd. apply is_set_true in Hs. pose proof (object_wf _ _ _ Ho G) as W.
  pose proof (move_new _ _ _ Ho) as Hn. split; [done|]. pose proof (object_wf _ _ _ Hn G) as Wn. pose proof (move_old_wf _ _ W) as Wo.
  destruct (destroy_ok pf c h _ Wn) as (h1 & E1 & H1). rewrite move_new_foot in H1. pose proof (without_all _ _ _ H1 Hd) as ->.
  split.
  - rewrite E1. cbn [mbind res_bind]. apply destroy_empty; [|by apply move_old_foot].
    destruct Wo as [_ _ _ W4 W5]. unfold moved, move_construct in *. pose proof (ov_move_ptrs (o_ov o)) as Hp. destruct (ov_move _ _ _ (o_ov o)) as [v v'].
    cbn [snd] in *. constructor; cbn in *.
    + unfold foot. cbn. rewrite Hs, Hp. constructor.
    + intros a. rewrite Hp. intros H; inversion H.
    + by rewrite Hs.
    + done.
    + done.
  - rewrite (destroy_empty h _ Wo) by by apply move_old_foot. cbn [mbind res_bind]. done.
Qed.

(** ** Double frees *)
(** Nothing allocates: a dead block stays dead. *)
Definition dead_stays (h h' : heap) : Prop := forall a, h !! a = None -> h' !! a = None.
Lemma dead_refl h : dead_stays h h.
Proof. by intros a Ha. Qed.
Local Hint Resolve dead_refl : core.
Definition okub {A} (r : res A) : Prop := match r with Ok _ | Ub _ => True | _ => False end.

Lemma hfree_dead t h p h' : hfree pf t h p = Ok h' -> dead_stays h h'.
Proof.
  destruct p as [x|]; cbn; [|by intros [= <-]]. destruct (h !! x); [|done]. destruct (free_ok _ _ _); [|done]. intros [= <-] a Ha.
  by apply lookup_delete_None; right.
Qed.
Lemma hfree_okub t h p : okub (hfree pf t h p).
Proof. destruct p as [x|]; cbn; [|done]. destruct (h !! x); [|done]. by destruct (free_ok _ _ _). Qed.
Lemma bind_okub {A B} (r : res A) (f : A -> res B) : okub r -> (forall a, okub (f a)) -> okub (r ≫= f).
Proof. destruct r; cbn; intros Hr H; done || apply H. Qed.
Lemma rfold_okub {A B} (f : A -> B -> res A) l a : (forall a b, okub (f a b)) -> okub (rfold f l a).
Proof. intros H. revert a. induction l as [|x l IH]; intros a; cbn; [done|]. apply bind_okub; [apply H|apply IH]. Qed.
Lemma rfold_dead {B} (f : heap -> B -> res heap) l : (forall h b h', f h b = Ok h' -> dead_stays h h') ->
  forall h h', rfold f l h = Ok h' -> dead_stays h h'.
Proof.
  intros H. induction l as [|x l IH]; intros h h' E; cbn in E; [by injection E as <-|]. rinv E. intros b Hb. eapply IH; [exact E|]. eapply H; [exact E0|done].
Qed.
Lemma clear_elem_dead kd h p i h' : clear_elem pf kd h p i = Ok h' -> dead_stays h h'.
Proof.
  unfold clear_elem. intros E. rinv E. destruct a as [a l]. rinv E. rinv E. injection E as <-.
  assert (is_Some (h !! a)). { unfold harr in E0. destruct p as [y|]; [|done]. destruct (h !! y) as [[| |l'|]|] eqn:Ey; try done. injection E0 as -> ->. by rewrite Ey. }
  intros x Hx. rewrite lookup_insert_ne by (intros ->; rewrite Hx in H; by destruct H). eapply hfree_dead; [exact E2|done].
Qed.
Lemma clear_elem_okub kd h p i : okub (clear_elem pf kd h p i).
Proof.
  unfold clear_elem. apply bind_okub.
  - unfold harr. destruct p; [|done]. by destruct (h !! _) as [[]|].
  - intros [a l]. apply bind_okub; [by destruct (l !! i)|]. intros q. apply bind_okub; [apply hfree_okub|done].
Qed.
Lemma delete_arr_dead kd h p h' : delete_arr pf kd h p = Ok h' -> dead_stays h h'.
Proof.
  unfold delete_arr. destruct p as [a|]; [|by intros [= <-]]. destruct (h !! a) as [[| |l|]|]; try done. intros E. rinv E. injection E as <-.
  intros x Hx. apply lookup_delete_None. right. eapply rfold_dead; [|exact E0|done]. intros. by eapply hfree_dead.
Qed.
Lemma delete_arr_okub kd h p : okub (delete_arr pf kd h p).
Proof.
  unfold delete_arr. destruct p as [a|]; [|done]. destruct (h !! a) as [[| |l|]|]; try done. apply bind_okub; [|done]. apply rfold_okub. intros. apply hfree_okub.
Qed.
Lemma set_size_dead h p i h' : OwnModel.set_size h p i = Ok h' -> dead_stays h h'.
Proof.
  unfold OwnModel.set_size. destruct p as [a|]; [|done]. destruct (h !! a) as [[l| | |]|] eqn:E; try done. destruct (i <? length l)%nat; [|done]. intros [= <-] x Hx.
  rewrite lookup_insert_ne; [done|]. by intros ->; rewrite Hx in E.
Qed.
Lemma set_cap_dead h p i h' : set_cap c h p i = Ok h' -> dead_stays h h'.
Proof.
  unfold set_cap. destruct (c_arb c); [|by intros [= <-]]. destruct p as [a|]; [|done]. destruct (h !! a) as [[|l| |]|] eqn:E; try done.
  destruct (i <? length l)%nat; [|done]. intros [= <-] x Hx. rewrite lookup_insert_ne; [done|]. by intros ->; rewrite Hx in E.
Qed.
Lemma clear_bucket_dead o h i h' : own_clear_bucket pf c o h i = Ok h' -> dead_stays h h'.
Proof.
  unfold own_clear_bucket. intros E. rinv E. destruct (a =? 0); [by injection E as <-|]. rinv E. rinv E. rinv E. intros x Hx.
  eapply set_cap_dead; [exact E|]. eapply set_size_dead; [exact E3|]. eapply clear_elem_dead; [exact E2|].
  destruct (is_set c); [by injection E1 as <-|]. by eapply clear_elem_dead.
Qed.
Lemma clear_bucket_okub o h i : okub (own_clear_bucket pf c o h i).
Proof.
  unfold own_clear_bucket. apply bind_okub.
  { unfold get_size. destruct (o_sizes o); [|done]. destruct (h !! _) as [[l| | |]|]; try done. by destruct (l !! i). }
  intros n. destruct (n =? 0); [done|]. apply bind_okub; [destruct (is_set c); [done|apply clear_elem_okub]|]. intros h1.
  apply bind_okub; [apply clear_elem_okub|]. intros h2. apply bind_okub.
  { unfold OwnModel.set_size. destruct (o_sizes o); [|done]. destruct (h2 !! _) as [[l| | |]|]; try done. by destruct (i <? length l)%nat. }
  intros h3. unfold set_cap. destruct (c_arb c); [|done]. destruct (o_caps o); [|done]. destruct (h3 !! _) as [[|l| |]|]; try done. by destruct (i <? length l)%nat.
Qed.
Lemma ov_clear_dead h v h' v' : own_ov_clear pf h v = Ok (h', v') -> dead_stays h h'.
Proof.
  destruct v; cbn; [by intros [= <- <-]| |by intros [= <- <-]]. intros E. rinv E. rinv E. injection E as <- <-. intros x Hx.
  eapply hfree_dead; [exact E1|]. by eapply hfree_dead.
Qed.
Lemma ov_clear_okub h v : okub (own_ov_clear pf h v).
Proof. destruct v; cbn; try done. apply bind_okub; [apply hfree_okub|]. intros. apply bind_okub; [apply hfree_okub|done]. Qed.
Lemma own_clear_dead h o h' o' : own_clear pf c h o = Ok (h', o') -> dead_stays h h' /\ o_vals o' = o_vals o.
Proof.
  unfold own_clear. destruct (o_sizes o).
  - intros E. rinv E. unfold own_clear_structure in E. rinv E. rinv E. rinv E. rinv E. destruct a3 as [h5 v]. injection E as <- <-. split; [|done].
    intros x Hx. eapply ov_clear_dead; [exact E4|].
    assert (a1 !! x = None).
    { eapply hfree_dead; [exact E2|]. eapply delete_arr_dead; [exact E1|]. eapply rfold_dead; [|exact E0|done]. intros. by eapply clear_bucket_dead. }
    destruct (c_arb c); [by eapply hfree_dead|]. by injection E3 as <-.
  - intros E. rinv E. destruct a as [h1 v]. injection E as <- <-. split; [by eapply ov_clear_dead|done].
Qed.
Lemma own_clear_okub h o : okub (own_clear pf c h o).
Proof.
  unfold own_clear. destruct (o_sizes o).
  - apply bind_okub; [apply rfold_okub; intros; apply clear_bucket_okub|]. intros h1. unfold own_clear_structure.
    apply bind_okub; [apply delete_arr_okub|]. intros h2. apply bind_okub; [apply hfree_okub|]. intros h3.
    apply bind_okub; [destruct (c_arb c); [apply hfree_okub|done]|]. intros h4. apply bind_okub; [apply ov_clear_okub|]. by intros [h5 v].
  - apply bind_okub; [apply ov_clear_okub|]. by intros [h1 v].
Qed.

(** Destroying a map whose array of value buckets is dead. *)
Lemma destroy_dead h o a : is_set c = false -> o_vals o = Some a -> h !! a = None -> is_ub (destroy pf c h o) = true.
Proof.
  intros Es Ev Ha. assert (okub (destroy pf c h o)) as Hok.
  { unfold destroy. apply bind_okub; [apply own_clear_okub|]. intros [h1 o1]. apply bind_okub; [apply ov_clear_okub|]. intros [h2 v].
    apply bind_okub; [destruct (is_set c); [done|apply delete_arr_okub]|]. intros h3. destruct (c_arb c); [apply hfree_okub|done]. }
  destruct (destroy pf c h o) as [h'|u| |] eqn:E; try done. exfalso. unfold destroy in E.
  rinv E. destruct a0 as [h1 o1]. rinv E. destruct a0 as [h2 v]. rewrite Es in E. rinv E.
  apply own_clear_dead in E0 as [D1 Ev1]. rewrite Ev1, Ev in E2. cbn in E2.
  pose proof (ov_clear_dead _ _ _ _ E1 a (D1 a Ha)) as D2. by rewrite D2 in E2.
Qed.

Lemma move_map h o t a : c_val c <> KNull -> object_of h o t -> good t -> o_vals o = Some a ->
  is_ub (h1 ← destroy pf c h (fst (moved o)); destroy pf c h1 (snd (moved o))) = true
  /\ is_ub (h1 ← destroy pf c h (snd (moved o)); destroy pf c h1 (fst (moved o))) = true.
Proof.
  intros Hs Ho G Ev. apply is_set_false in Hs. pose proof (object_wf _ _ _ Ho G) as W.
  pose proof (object_wf _ _ _ (move_new _ _ _ Ho) G) as Wn. pose proof (move_old_wf _ _ W) as Wo.
  assert (V1 : o_vals (fst (moved o)) = Some a) by (unfold moved, move_construct; by destruct (ov_move _ _ _ _)).
  assert (V2 : o_vals (snd (moved o)) = Some a) by (unfold moved, move_construct; by destruct (ov_move _ _ _ _)).
  assert (F : forall o', o_vals o' = Some a -> a ∈ foot c h o').
  { intros o' E. apply foot_split. right. split; [done|]. by left. }
  split.
  - destruct (destroy_ok pf c h _ Wn) as (h1 & -> & H1). cbn [mbind res_bind]. apply destroy_dead with a; [done|done|].
    rewrite H1. by rewrite decide_True by by apply F.
  - destruct (destroy_ok pf c h _ Wo) as (h1 & -> & H1). cbn [mbind res_bind]. apply destroy_dead with a; [done|done|].
    rewrite H1. by rewrite decide_True by by apply F.
Qed.
(** ** Move assignment *)
Lemma ld_bucket_frame h h' l : (forall a, a ∈ somes l -> h' !! a = h !! a) -> mapM (ld_bucket h') l = mapM (ld_bucket h) l.
Proof.
  intros H. induction l as [|p l IH]; [done|]. cbn [mapM].
  assert (ld_bucket h' p = ld_bucket h p) as ->.
  { destruct p as [a|]; [|done]. cbn [ld_bucket]. rewrite H; [done|]. apply somes_in. by left. }
  rewrite IH; [done|]. intros a Ha. apply H. apply somes_in. right. by apply somes_in.
Qed.
Lemma object_frame h h' o t : object_of h o t -> good t -> (forall a, a ∈ foot c h o -> h' !! a = h !! a) ->
  object_of h' o t /\ foot c h' o = foot c h o.
Proof.
  intros Ho G Hf. pose proof (object_wf _ _ _ Ho G) as W. destruct Ho as [L Hnd Hc Hi].
  assert (Fv : is_set c = false -> arr h' (o_vals o) = arr h (o_vals o)).
  { intros Es. destruct (o_vals o) as [av|] eqn:Ev; [|done]. cbn [arr]. rewrite Hf; [done|]. unfold foot. rewrite Es, Ev.
    apply elem_of_app. right. apply elem_of_app. left. by left. }
  assert (Fk : forall a, o_sizes o = Some a -> arr h' (o_keys o) = arr h (o_keys o)).
  { intros a Es. destruct (o_keys o) as [ak|] eqn:Ek; [|done]. cbn [arr]. rewrite Hf; [done|]. unfold foot. rewrite Es, Ek.
    apply elem_of_app. left. right. by left. }
  assert (E : foot c h' o = foot c h o).
  { unfold foot. destruct (is_set c) eqn:Es.
    - destruct (o_sizes o) as [a|] eqn:Eo; [|done]. by rewrite (Fk a eq_refl).
    - rewrite Fv by done. destruct (o_sizes o) as [a|] eqn:Eo; [|done]. by rewrite (Fk a eq_refl). }
  split; [|done]. constructor; [|by rewrite E|done|].
  - rewrite <- L. unfold load. destruct (o_hash o =? o_kw o); [|done].
    assert (ld_slots c h' o = ld_slots c h o) as ->.
    { unfold ld_slots. destruct (o_sizes o) as [a|] eqn:Eo; [|done].
      destruct (wf_some _ _ _ _ W a Eo) as (ns & ak & lk & W1 & W2 & W3 & _ & _ & Wv & Wc & _).
      assert (H1 : h' !! a = h !! a). { apply Hf. unfold foot. rewrite Eo. apply elem_of_app. left. by left. }
      cbn [ld_sizes]. rewrite H1. destruct (match h !! a with Some (BSizes l) => Some l | _ => None end) as [ns'|]; [|done]. cbn [mbind option_bind].
      assert (ld_arr h' (o_keys o) = ld_arr h (o_keys o)) as ->.
      { rewrite W2. cbn [ld_arr]. rewrite Hf. 2:{ unfold foot. rewrite Eo, W2. apply elem_of_app. left. right. by left. }
        rewrite W3. apply ld_bucket_frame. intros x Hx. apply Hf. unfold foot. rewrite Eo, W2. cbn [arr opt app]. rewrite W3.
        cbn [app]. rewrite !elem_of_cons, !elem_of_app. tauto. }
      assert (is_set c = false -> ld_arr h' (o_vals o) = ld_arr h (o_vals o)) as Hv.
      { intros Es. destruct (Wv Es) as (av & lv & V1 & V2 & _). rewrite V1. cbn [ld_arr].
        assert (Hx : forall x, x ∈ av :: somes lv -> h' !! x = h !! x).
        { intros x Hx. apply Hf. unfold foot. rewrite Eo, Es, V1. cbn [arr opt app]. rewrite V2. cbn [app].
          rewrite elem_of_cons in Hx. rewrite ?elem_of_cons, ?elem_of_app, ?elem_of_cons, ?elem_of_app. tauto. }
        rewrite Hx by by left. rewrite V2. apply ld_bucket_frame. intros x Hx'. apply Hx. by right. }
      assert (c_arb c = true -> ld_caps h' (o_caps o) = ld_caps h (o_caps o)) as Hcp.
      { intros Ea. destruct (Wc Ea) as (ac & cs & V1 & V2 & _). rewrite V1. cbn [ld_caps]. rewrite Hf; [done|].
        unfold foot. rewrite Eo, Ea, V1. apply elem_of_app. left. right. rewrite !elem_of_app. right. right. by left. }
      destruct (is_set c), (c_arb c); rewrite ?Hv, ?Hcp by done; done. }
    assert (ld_ov h' (o_ov o) = ld_ov h (o_ov o)) as ->.
    { destruct (o_ov o) as [|k w e full|] eqn:Eo; [done| |done].
      assert (Hx : forall x, x ∈ opt k ++ opt w -> h' !! x = h !! x).
      { intros x Hx. apply Hf. unfold foot. rewrite Eo, !elem_of_app. cbn [ov_ptrs]. rewrite elem_of_app in *. tauto. }
      assert (ld_bucket h' k = ld_bucket h k) as E1.
      { destruct k as [x|]; [|done]. cbn [ld_bucket]. rewrite Hx; [done|]. by left. }
      assert (ld_bucket h' w = ld_bucket h w) as E2.
      { destruct w as [x|]; [|done]. cbn [ld_bucket]. rewrite Hx; [done|]. apply elem_of_app. right. by left. }
      cbn [ld_ov]. by rewrite E1, E2. }
    done.
  - intros Eo Hv a Ea. destruct (Hi Eo Hv a Ea) as (l & Hl & Fl). exists l. split; [|done]. rewrite Hf; [done|].
    unfold foot. rewrite (proj2 is_set_false Hv), Ea, !elem_of_app. right. left. left. by left.
Qed.

Lemma destroy_null h o : o_sizes o = None -> (is_set c = false -> o_vals o = None) -> (c_arb c = true -> o_caps o = None) ->
  ov_ptrs (o_ov o) = [] -> destroy pf c h o = Ok h.
Proof.
  intros H1 H2 H3 H4. unfold destroy, own_clear. rewrite H1. destruct (o_ov o) as [|[k|] [w|] e full|]; cbn in H4; try done; cbn;
  (destruct (is_set c); [|rewrite H2 by done]); cbn; (destruct (c_arb c); [rewrite H3 by done|]); done.
Qed.

Lemma move_assign_fact h dst src td ts : object_of h dst td -> good td -> object_of h src ts -> good ts ->
  (forall a, a ∈ foot c h dst -> a ∉ foot c h src) -> (forall a, is_Some (h !! a) <-> a ∈ foot c h dst \/ a ∈ foot c h src) ->
  exists h1 n s h2, move_assign pf c mv_nb mv_els mv_full h dst src = Ok (h1, (n, s)) /\ object_of h1 n ts
    /\ (h' ← destroy pf c h1 n; destroy pf c h' s) = Ok h2 /\ (h' ← destroy pf c h1 s; destroy pf c h' n) = Ok h2
    /\ (forall a, is_Some (h2 !! a) <-> c_val c <> KNull /\ o_vals dst = Some a).
Proof.
  intros Hd Gd Hs Gs Hdis Hdom. pose proof (object_wf _ _ _ Hd Gd) as Wd. unfold move_assign.
  destruct (own_clear_ok pf c h dst Wd) as (h1 & d1 & -> & S1 & S2 & S3 & S4 & S5 & S6). cbn [mbind res_bind].
  assert (ov_move_assign pf mv_nb mv_els mv_full h1 (o_ov d1) (o_ov src) = Ok (h1, ov_move mv_nb mv_els mv_full (o_ov src))) as ->.
  { unfold ov_move_assign. destruct (o_ov d1) as [|[k|] [w|] e full|]; done. }
  cbn [mbind res_bind]. pose proof (ov_move_ptrs (o_ov src)) as Hp. destruct (ov_move _ _ _ (o_ov src)) as [v v'] eqn:Em.
  assert (v = o_ov src) as -> by (destruct (o_ov src); cbn in Em; by injection Em as <- <-). cbn [snd] in Hp.
  destruct (object_frame h h1 src ts Hs Gs) as [Hs1 Hf1].
  { intros a Ha. rewrite S6.
    - rewrite decide_False; [done|]. intros Hx. eapply Hdis; [|exact Ha]. apply foot_split. by left.
    - intros Es Ev. eapply Hdis; [|exact Ha]. apply foot_split. right. split; [done|]. by left. }
  match goal with |- exists h1' n s h2, Ok (_, (?nn, ?ss)) = _ /\ _ => set (n := nn); set (s := ss) end.
  assert (Hn : object_of h1 n ts) by (eapply object_ext; [..|exact Hs1]; done).
  assert (Hfn : foot c h1 n = foot c h src) by (rewrite <- Hf1; done).
  assert (Ds : forall h, destroy pf c h s = Ok h).
  { intros g. apply destroy_null; unfold s; cbn; [done| | |done].
    - by intros ->.
    - by intros ->. }
  destruct (destroy_ok pf c h1 n (object_wf _ _ _ Hn Gs)) as (h2 & E2 & H2). rewrite Hfn in H2.
  exists h1, n, s, h2. split; [done|]. split; [done|]. split; [by rewrite E2; cbn [mbind res_bind]|]. split; [by rewrite Ds; cbn [mbind res_bind]|].
  intros a. rewrite H2. destruct (decide (a ∈ foot c h src)) as [Ha|Ha].
  - split; [by intros [? ?]|]. intros [Hv Ev]. exfalso. eapply Hdis; [|exact Ha]. apply foot_split. right. split; [by apply is_set_false|]. by left.
  - destruct (decide (is_set c = false /\ o_vals dst = Some a)) as [[Es Ev]|Hv].
    + destruct (S5 Es a Ev) as [n' ->]. split; [intros _; split; [by apply is_set_false|done]|]. intros _.
      destruct (o_sizes dst); [done|]. apply Hdom. left. apply foot_split. right. split; [done|]. by left.
    + rewrite S6 by tauto. split.
      * destruct (decide (a ∈ cfoot c h dst)) as [|Hc]; [by intros [? ?]|]. intros Hx. apply Hdom in Hx as [Hx|]; [|done].
        apply foot_split in Hx as [|(Es & [?|[En Hx]])]; [done|tauto|]. exfalso.
        destruct (o_vals dst) as [av|] eqn:Ev; [|inversion Hx]. destruct (ob_idle _ _ _ Hd En (proj1 is_set_false Es) av Ev) as (l & Hl & Fl).
        cbn [arr] in Hx. rewrite Hl in Hx. apply somes_in in Hx. rewrite Forall_forall in Fl. by apply Fl in Hx.
      * intros [Hk Ev]. exfalso. apply Hv. split; [by apply is_set_false|done].
Qed.
(** ** clear() and new buckets *)
Lemma own_alloc_wf h o bits ac ak av as_ : o_sizes o = None -> ov_ptrs (o_ov o) = [] -> NoDup [ac; ak; av; as_] ->
  (forall a, a ∈ [ac; ak; av; as_] -> h !! a = None) ->
  let '(h', o') := own_alloc pf c h o bits ac ak av as_ in
  OwnProofs.wf pf c h' o' /\ (forall a, is_Some (h' !! a) <-> is_Some (h !! a) \/ a ∈ foot c h' o') /\ (forall a, a ∈ foot c h' o' -> h !! a = None).
Proof.
  intros Hs Hp Hnd Hfr. unfold own_alloc.
  set (n := N.to_nat (2^bits)).
  set (h' := <[as_ := BSizes (replicate n 0)]> _).
  apply NoDup_cons in Hnd as [N1 Hnd]. apply NoDup_cons in Hnd as [N2 Hnd]. apply NoDup_cons in Hnd as [N3 _].
  rewrite !not_elem_of_cons in N1. rewrite !not_elem_of_cons in N2. rewrite not_elem_of_cons in N3.
  assert (Hk : h' !! ak = Some (BArr (replicate n None))).
  { unfold h'. rewrite lookup_insert_ne by (intros ->; tauto). destruct (is_set c); [|rewrite lookup_insert_ne by (intros ->; tauto)]; by rewrite lookup_insert. }
  assert (Hsz : h' !! as_ = Some (BSizes (replicate n 0))) by (unfold h'; by rewrite lookup_insert).
  assert (Hv : is_set c = false -> h' !! av = Some (BArr (replicate n None))).
  { intros Es. unfold h'. rewrite Es. rewrite lookup_insert_ne by (intros ->; tauto). by rewrite lookup_insert. }
  assert (Hc : c_arb c = true -> h' !! ac = Some (BCaps (replicate n 0))).
  { intros Ea. unfold h'. rewrite Ea. rewrite lookup_insert_ne by (intros ->; tauto).
    destruct (is_set c); [|rewrite lookup_insert_ne by (intros ->; tauto)]; rewrite lookup_insert_ne by (intros ->; tauto); by rewrite lookup_insert. }
  set (o' := Obj _ _ _ _ _ _ _ _ _ _).
  assert (Hov : ov_ptrs (o_ov o') = []) by (unfold o'; cbn; destruct (o_ov o); done).
  assert (F : foot c h' o' = [as_; ak] ++ (if c_arb c then [ac] else []) ++ (if is_set c then [] else [av])).
  { unfold foot. rewrite Hov. unfold o'. cbn [o_sizes o_keys o_vals o_caps]. cbn [opt arr]. rewrite Hk, somes_replicate.
    destruct (is_set c), (c_arb c); cbn [opt arr app]; rewrite ?Hv by done; rewrite ?somes_replicate; done. }
  assert (Ho : forall a, a ∈ foot c h' o' -> a ∈ [ac; ak; av; as_]).
  { intros a. rewrite F, !elem_of_app, !elem_of_cons, elem_of_nil.
    destruct (is_set c), (c_arb c); rewrite ?elem_of_list_singleton, ?elem_of_nil; tauto. }
  split; [|split].
  - constructor.
    + rewrite F. destruct (is_set c), (c_arb c); cbn [app]; repeat (apply NoDup_cons; split; [rewrite ?elem_of_cons, elem_of_nil; intuition congruence|]); apply NoDup_nil; done.
    + intros a. rewrite Hov. intros H; inversion H.
    + intros Es a Ea. unfold o' in Ea. cbn in Ea. rewrite Es in Ea. injection Ea as <-. exists (replicate n None). split; [by apply Hv|].
      intros p. rewrite somes_replicate. intros H; inversion H.
    + done.
    + intros a Ea. unfold o' in Ea. cbn in Ea. injection Ea as <-. exists (replicate n 0), ak, (replicate n None).
      split; [done|]. split; [done|]. split; [done|].
      split. { intros p. rewrite somes_replicate. intros H; inversion H. }
      split; [by rewrite !replicate_length|].
      split. { intros Es. exists av, (replicate n None). unfold o'. cbn. rewrite Es. split; [done|]. split; [by apply Hv|]. split; [by rewrite !replicate_length|].
        intros i Hi. apply lookup_replicate in Hi as [_ Hi]. by apply lookup_replicate. }
      split. { intros Ea. exists ac, (replicate n 0). unfold o'. cbn. rewrite Ea. split; [done|]. split; [by apply Hc|]. by rewrite !replicate_length. }
      split. { intros i Hi. apply lookup_replicate in Hi as [_ Hi]. by apply lookup_replicate. }
      unfold o'. cbn [o_b]. destruct (bits =? 0); [by apply Forall_replicate|by rewrite replicate_length].
  - intros a. rewrite F. unfold h'. rewrite !elem_of_app, !elem_of_cons, elem_of_nil.
    destruct (decide (a = as_)) as [->|E1]; [rewrite lookup_insert; split; [tauto|by eexists]|]. rewrite lookup_insert_ne by done.
    destruct (decide (a = ac)) as [->|E2].
    { destruct (c_arb c); rewrite ?elem_of_list_singleton, ?elem_of_nil.
      - split; [tauto|]. intros _. destruct (is_set c); [|rewrite lookup_insert_ne by (intros ->; tauto)]; rewrite lookup_insert_ne by (intros ->; tauto); rewrite lookup_insert; by eexists.
      - destruct (is_set c); [|rewrite lookup_insert_ne by (intros ->; tauto)]; rewrite lookup_insert_ne by (intros ->; tauto);
          rewrite ?elem_of_list_singleton, ?elem_of_nil; split; [tauto| |tauto|]; intros [?|?]; try done; intuition congruence. }
    assert (E3 : (if c_arb c then <[ac:=BCaps (replicate n 0)]> h else h) !! a = h !! a) by (destruct (c_arb c); [by rewrite lookup_insert_ne|done]).
    destruct (decide (a = ak)) as [->|E4].
    { split; [tauto|]. intros _. destruct (is_set c); [|rewrite lookup_insert_ne by (intros ->; tauto)]; rewrite lookup_insert; by eexists. }
    destruct (decide (a = av)) as [->|E5].
    { destruct (is_set c).
      - rewrite lookup_insert_ne, E3 by done. destruct (c_arb c); rewrite ?elem_of_list_singleton, ?elem_of_nil; intuition congruence.
      - rewrite lookup_insert. rewrite elem_of_list_singleton. split; [tauto|by eexists]. }
    destruct (is_set c); [|rewrite lookup_insert_ne by done]; rewrite lookup_insert_ne, E3 by done;
      destruct (c_arb c); rewrite ?elem_of_list_singleton, ?elem_of_nil; tauto.
  - intros a Ha. by apply Hfr, Ho.
Qed.

Lemma clear_reuse h o t bits ac ak av as_ : object_of h o t -> good t -> (forall a, is_Some (h !! a) <-> a ∈ foot c h o) ->
  NoDup [ac; ak; av; as_] -> (forall a, a ∈ [ac; ak; av; as_] -> h !! a = None) ->
  exists h1 o1 h3, own_clear pf c h o = Ok (h1, o1)
    /\ (let '(h2, o2) := own_alloc pf c h1 o1 bits ac ak av as_ in destroy pf c h2 o2 = Ok h3)
    /\ (forall a, is_Some (h3 !! a) <-> c_val c <> KNull /\ o_vals o = Some a).
Proof.
  intros Ho G Hdom Hnd Hfr. pose proof (object_wf _ _ _ Ho G) as W.
  destruct (own_clear_ok pf c h o W) as (h1 & o1 & E1 & S1 & S2 & S3 & S4 & S5 & S6).
  assert (D1 : forall a, is_Some (h1 !! a) <-> c_val c <> KNull /\ o_vals o = Some a).
  { intros a. destruct (decide (is_set c = false /\ o_vals o = Some a)) as [[Es Ev]|Hv].
    - destruct (S5 Es a Ev) as [n ->]. split; [intros _; split; [by apply is_set_false|done]|]. intros _.
      destruct (o_sizes o); [done|]. apply Hdom, foot_split. right. split; [done|]. by left.
    - rewrite S6 by tauto. split.
      + destruct (decide (a ∈ cfoot c h o)) as [|Hc]; [by intros [? ?]|]. intros Hx. apply Hdom in Hx.
        apply foot_split in Hx as [|(Es & [?|[En Hx]])]; [done|tauto|]. exfalso.
        destruct (o_vals o) as [av'|] eqn:Ev; [|inversion Hx]. destruct (ob_idle _ _ _ Ho En (proj1 is_set_false Es) av' Ev) as (l & Hl & Fl).
        cbn [arr] in Hx. rewrite Hl in Hx. apply somes_in in Hx. rewrite Forall_forall in Fl. by apply Fl in Hx.
      + intros [Hk Ev]. exfalso. apply Hv. split; [by apply is_set_false|done]. }
  assert (Hfr1 : forall a, a ∈ [ac; ak; av; as_] -> h1 !! a = None).
  { intros a Ha. destruct (h1 !! a) eqn:E; [|done]. assert (is_Some (h1 !! a)) as Hx by (by rewrite E). apply D1 in Hx as [Hk Ev].
    specialize (Hfr a Ha). assert (is_Some (h !! a)) as Hx.
    { apply Hdom, foot_split. right. split; [by apply is_set_false|]. by left. }
    rewrite Hfr in Hx. by destruct Hx. }
  pose proof (own_alloc_wf h1 o1 bits ac ak av as_ S1 S4 Hnd Hfr1) as H. exists h1, o1.
  destruct (own_alloc pf c h1 o1 bits ac ak av as_) as [h2 o2]. destruct H as (W2 & D2 & F2).
  destruct (destroy_ok pf c h2 o2 W2) as (h3 & E3 & H3). exists h3. split; [done|]. split; [done|].
  intros a. rewrite <- D1, H3. destruct (decide (a ∈ foot c h2 o2)) as [Ha|Ha].
  - rewrite (F2 a Ha). split; by intros [? ?].
  - rewrite D2. tauto.
Qed.
(** ** The moved-from table *)
Lemma moved_from h o t kw vw m k : object_of h o t -> params pf c kw vw -> TableRefine.trep pf c kw vw 1 (bits_max c kw) False t m ->
  t_b t <> 0 -> t_ov t = ODummy -> k < 2^kw ->
  exists ts, load c h (snd (moved o)) = Some ts /\ TableModel.size ts = TableModel.size t /\ bucket_count ts = bucket_count t
    /\ TableModel.find pf c ts k = Ub NullDeref /\ (forall fuel v, find_or_insert pf c (S fuel) ts k v = Ub NullDeref)
    /\ own_clear pf c h (snd (moved o)) = Ok (h, snd (moved o)).
Proof.
  intros Ho P Hr Hb Hov Hk. pose proof (ob_load _ _ _ Ho) as L.
  assert (Ed : o_ov o = PDummy).
  { apply load_inv in L as (_ & L & _). destruct (o_ov o) as [|a b e f|nb els f]; cbn in L; [done| |rewrite Hov in L; done].
    destruct (ld_bucket h a); [|done]. cbn in L. destruct (ld_bucket h b); [|done]. cbn in L. rewrite Hov in L. done. }
  assert (load c h (snd (moved o)) = Some (Table None (t_b t) (t_n t) (t_kw t) (t_vw t) ODummy)) as E.
  { unfold moved, move_construct. rewrite Ed. cbn [ov_move snd]. unfold load in *. cbn [o_hash o_kw o_ov]. destruct (o_hash o =? o_kw o); [|done].
    destruct (ld_slots c h o) as [sl|]; [|done]. cbn [mbind option_bind] in L. destruct (ld_ov h (o_ov o)) as [v|]; [|done]. cbn in L. injection L as <-. done. }
  eexists. split; [exact E|]. split; [done|]. split; [done|].
  destruct Hr as [[(Hz & _) _]|(sl & ess & ovl & H & _)]; [done|].
  pose proof (ti_b _ _ _ _ _ _ _ _ _ _ _ H) as Hbb. pose proof (ti_kw _ _ _ _ _ _ _ _ _ _ _ H) as Hkw.
  destruct (ok_map _ _ _ _ _ _ (params_ok0 pf c _ _ P) (t_b t) k Hbb (kdom_intro _ _ _ (noarr _ _ _ _ P) Hk)) as (Hh & _).
  assert (Hh' : hash_map (hm c (Table None (t_b t) (t_n t) (t_kw t) (t_vw t) ODummy)) k (t_b t) = Ok (hq c kw (t_b t) k, hb c kw (t_b t) k)).
  { rewrite <- Hh. unfold hm. cbn [t_kw]. by rewrite Hkw. }
  split; [|split].
  - unfold TableModel.find. cbn [t_b t_ov ov_size]. rewrite (proj2 (N.eqb_neq _ _) Hb). cbn [N.ltb N.compare mbind res_bind]. by rewrite Hh'.
  - intros fuel v. cbn [find_or_insert t_b]. rewrite (proj2 (N.eqb_neq _ _) Hb). cbn [mbind res_bind t_b]. by rewrite Hh'.
  - unfold own_clear, moved, move_construct. rewrite Ed. done.
Qed.
End own.
