(** The overflows represent a list of entries. *)
From Verif Require Export OverflowModel Chain ArrayProofs.

(** std::unordered_map::reserve(n) provides at least n buckets; bucket_count() is a size_t. *)
Definition um_fair (pf : platform) : Prop :=
  forall cur n, n <= 2^63 -> n <= um_policy pf cur n /\ 1 <= um_policy pf cur n /\ um_policy pf cur n < 2^64.

Section um.
Context (pf : platform).
Implicit Types (els : entries) (nb p k v : N).

Lemma um_chain_elem nb els p e : e ∈ um_chain pf nb els p <-> e ∈ els /\ um_bucket pf nb (fst e) = p.
Proof.
  unfold um_chain. rewrite !elem_of_list_In, filter_In, N.eqb_eq. done.
Qed.

Lemma um_bucket_lt nb k : 1 <= nb -> um_bucket pf nb k < nb.
Proof. intros. apply N.mod_lt. lia. Qed.

Lemma um_nodup_eq nb els e e' : NoDup (map (fun e => um_bucket pf nb (fst e)) els) ->
  e ∈ els -> e' ∈ els -> um_bucket pf nb (fst e) = um_bucket pf nb (fst e') -> e = e'.
Proof.
  intros Hn He He' E. apply elem_of_list_lookup in He as (i & Hi), He' as (j & Hj).
  assert (i = j); [|congruence]. eapply NoDup_lookup; [exact Hn|..]; rewrite list_lookup_fmap; [by rewrite Hi|].
  rewrite Hj. cbn. by rewrite E.
Qed.

Lemma um_chain_single nb els k v : NoDup (map (fun e => um_bucket pf nb (fst e)) els) ->
  (k, v) ∈ els -> um_chain pf nb els (um_bucket pf nb k) = [(k, v)].
Proof.
  intros Hn Hin.
  assert (Hall : forall e, e ∈ um_chain pf nb els (um_bucket pf nb k) -> e = (k, v)).
  { intros e He. apply um_chain_elem in He as [He Hp]. eapply um_nodup_eq; eauto. }
  assert (Hin' : (k, v) ∈ um_chain pf nb els (um_bucket pf nb k)) by (apply um_chain_elem; done).
  assert (Hnd : NoDup (um_chain pf nb els (um_bucket pf nb k))).
  { apply NoDup_ListNoDup. apply List.NoDup_filter. apply NoDup_ListNoDup. by eapply NoDup_fmap_1. }
  destruct (um_chain pf nb els (um_bucket pf nb k)) as [|e1 [|e2 r]].
  - by apply elem_of_nil in Hin'.
  - f_equal. apply Hall. by constructor.
  - assert (e1 = e2) by (rewrite (Hall e1), (Hall e2); [done|by do 2 constructor|by constructor]). subst.
    apply NoDup_cons in Hnd as [Hnd _]. exfalso. apply Hnd. by constructor.
Qed.

(** Scanning for the next used position. *)
Lemma um_scan_spec nb els : forall fuel p, (N.to_nat (nb - p) <= fuel)%nat ->
  let q := um_scan pf fuel nb els p in
  p <= q /\ (forall j, p <= j -> j < q -> um_empty pf nb els j = true) /\
  (q < nb -> um_empty pf nb els q = false).
Proof.
  induction fuel as [|f IH]; intros p Hf; cbn [um_scan].
  - split; [lia|]. split; lia.
  - destruct (N.ltb_spec p nb) as [Hp|Hp]; cbn [andb].
    + destruct (um_empty pf nb els p) eqn:Ee.
      * destruct (IH (p + 1)) as (H1 & H2 & H3); [lia|]. cbv zeta. split; [lia|]. split; [|done].
        intros j Hj Hj2. destruct (N.eq_dec j p) as [->|]; [done|]. apply H2; lia.
      * split; [lia|]. split; [lia|]. done.
    + split; [lia|]. split; lia.
Qed.

Lemma bv_get_ok l i : i < N.of_nat (length l) -> exists x, bv_get l i = Ok x /\ l !! N.to_nat i = Some x.
Proof.
  intros H. unfold bv_get. rewrite (proj2 (N.ltb_lt _ _)) by done.
  destruct (lookup_lt_is_Some_2 l (N.to_nat i)) as [x Hx]; [lia|]. exists x. by rewrite Hx.
Qed.

Lemma bv_resize_length l n : N.of_nat (length (bv_resize l n)) = n.
Proof. unfold bv_resize. rewrite app_length, take_length, replicate_length. lia. Qed.

Lemma filter_key_perm els k v : NoDup (keys_of els) -> (k, v) ∈ els ->
  els ≡ₚ (k, v) :: List.filter (fun e => negb (fst e =? k)) els.
Proof.
  induction els as [|[k' v'] els IH]; [by rewrite elem_of_nil|]. cbn [fmap list_fmap fst]. rewrite NoDup_cons.
  intros [Hk Hn] Hin. cbn [List.filter fst]. apply elem_of_cons in Hin as [E|Hin].
  - injection E as <- <-. rewrite N.eqb_refl. cbn [negb]. f_equiv.
    symmetry. apply Permutation_refl'. clear IH Hn. induction els as [|[k2 v2] els IH]; [done|].
    cbn in Hk. apply not_elem_of_cons in Hk as [Hne Hk]. cbn [List.filter fst].
    rewrite (proj2 (N.eqb_neq _ _)) by congruence. cbn [negb]. f_equal. by apply IH.
  - assert (k' <> k) by (intros ->; apply Hk; apply keys_elem; by exists v).
    rewrite (proj2 (N.eqb_neq _ _)) by done. cbn [negb]. rewrite (IH Hn Hin) at 1. apply Permutation_swap.
Qed.
(** Overflow entries at or after position i. *)
Definition um_rest (nb : N) (els : entries) (i : N) : entries :=
  List.filter (fun e => i <=? um_bucket pf nb (fst e)) els.

Lemma um_rest_skip nb els : forall i q, i <= q -> (forall j, i <= j -> j < q -> um_empty pf nb els j = true) ->
  um_rest nb els i = um_rest nb els q.
Proof.
  intros i q Hiq Hj. unfold um_rest. apply filter_ext_in. intros [k v] Hin. cbn [fst].
  destruct (N.leb_spec i (um_bucket pf nb k)) as [H1|H1], (N.leb_spec q (um_bucket pf nb k)) as [H2|H2]; try done; [|lia].
  specialize (Hj _ H1 H2). unfold um_empty in Hj.
  assert (Hc : (k, v) ∈ um_chain pf nb els (um_bucket pf nb k)) by (apply um_chain_elem; split; [by apply elem_of_list_In|done]).
  destruct (um_chain pf nb els (um_bucket pf nb k)); [by apply elem_of_nil in Hc|done].
Qed.
Lemma um_rest_end nb els i : 1 <= nb -> nb <= i -> um_rest nb els i = [].
Proof.
  intros Hnb Hi. unfold um_rest. induction els as [|[k v] els IH]; [done|]. cbn [List.filter fst].
  pose proof (um_bucket_lt nb k Hnb). rewrite (proj2 (N.leb_gt _ _)) by lia. done.
Qed.
Lemma um_rest_step nb els i k v : NoDup (keys_of els) -> NoDup (map (fun e => um_bucket pf nb (fst e)) els) ->
  (k, v) ∈ els -> um_bucket pf nb k = i -> um_rest nb els i ≡ₚ (k, v) :: um_rest nb els (i + 1).
Proof.
  intros Hk Hnd Hin Hi.
  assert (Hin' : (k, v) ∈ um_rest nb els i).
  { unfold um_rest. apply elem_of_list_In, filter_In. split; [by apply elem_of_list_In|]. cbn. apply N.leb_le. lia. }
  assert (Hnd' : NoDup (keys_of (um_rest nb els i))).
  { unfold um_rest. clear -Hk. induction els as [|[k0 v0] els IH]; [done|]. cbn in Hk. apply NoDup_cons in Hk as [Hk0 Hk].
    cbn [List.filter fst]. destruct (i <=? um_bucket pf nb k0); [|by apply IH]. cbn. apply NoDup_cons. split; [|by apply IH].
    intros Hx. apply Hk0. apply keys_elem in Hx as (v & Hx). apply elem_of_list_In, filter_In in Hx as [Hx _].
    apply keys_elem. exists v. by apply elem_of_list_In. }
  rewrite (filter_key_perm _ _ _ Hnd' Hin'). f_equiv. apply Permutation_refl'.
  unfold um_rest. 
  assert (Hall : forall e, e ∈ els -> um_bucket pf nb (fst e) = i -> e = (k, v)).
  { intros e He Ee. eapply um_nodup_eq; eauto. cbn. lia. }
  clear -Hall Hi. induction els as [|[k0 v0] els IH]; [done|]. cbn [List.filter fst].
  rewrite <-IH by (intros e He; apply Hall; by constructor).
  destruct (N.leb_spec i (um_bucket pf nb k0)) as [H1|H1], (N.leb_spec (i + 1) (um_bucket pf nb k0)) as [H2|H2];
    cbn [List.filter fst]; try lia; try done.
  - destruct (N.eqb_spec k0 k) as [->|]; cbn [negb]; [lia|done].
  - assert (E : (k0, v0) = (k, v)) by (apply Hall; [by constructor|cbn; lia]). injection E as -> ->.
    rewrite N.eqb_refl. done.
Qed.
End um.

Section ov.
Context (pf : platform) (kb vb : nat).
Context (fair : ovkind -> Prop).   (* side condition of using an overflow: that of OvMap implies [um_fair], that of OvArray [zero_fresh] *)
Context (bo : N -> N) (nbk : N).   (* bucket of a key and number of buckets of the table *)

Implicit Types (els ovl : entries) (nb p k v : N) (o : overflow).

Definition ovrel (o : overflow) (ovl : entries) : Prop :=
  match o with
  | ODummy => ovl = [] /\ fair OvDummy
  | OArray _ _ _ full =>
      o = arr_state pf ovl full /\ fair OvArray /\ (length ovl <= 256)%nat /\ N.of_nat (length full) = nbk
      /\ (forall k v, (k, v) ∈ ovl -> full !! N.to_nat (bo k) = Some true)
  | OUmap nb els full =>
      ovl = els /\ (1 <= nb /\ nb < 2^64 /\ fair OvMap) /\ NoDup (map (fun e => um_bucket pf nb (fst e)) els)
      /\ N.of_nat (length full) = nbk
      /\ (forall k v, (k, v) ∈ els -> full !! N.to_nat (bo k) = Some true)
  end.
(** An overflow without elements, of a table without buckets. *)
Definition ovzero (o : overflow) : Prop :=
  match o with ODummy => fair OvDummy | OArray _ _ _ full => o = arr_state pf [] full /\ fair OvArray | OUmap _ els _ => els = [] /\ fair OvMap end.
(** Entry at a position. *)
Definition ov_entry (o : overflow) (p : N) : option (N * N) :=
  match o with
  | OUmap nb els _ => if p <? nb then head (um_chain pf nb els p) else None
  | o => arr_entry o p
  end.

Lemma ov_size_spec o ovl : ovrel o ovl -> ov_size o = N.of_nat (length ovl).
Proof.
  destruct o as [|ks vs e full|]; [by intros [-> _]| |by intros (-> & _)].
  intros (E & _). unfold arr_state in E. by injection E.
Qed.

Lemma ov_entry_spec o ovl p k v : ovrel o ovl -> ov_entry o p = Some (k, v) ->
  (k, v) ∈ ovl /\ ov_valid pf o p = true /\ ov_key pf kb o p = Ok k /\ ov_get pf vb o p = Ok v.
Proof.
  destruct o as [|ks vs e full|nb els full]; [done| |].
  { intros (E & _) H. rewrite E in *. change (arr_entry (arr_state pf ovl full) p = Some (k, v)) in H.
    rewrite arr_entry_lookup in H. destruct (arr_at pf kb vb ovl full _ _ _ H) as (H1 & H2 & H3). rewrite N2Nat.id in *.
    split; [by eapply elem_of_list_lookup_2|]. done. }
  cbn. intros (-> & Hnb & Hnd & _) H.
  destruct (N.ltb_spec p nb); [|done]. unfold um_empty.
  destruct (um_chain pf nb els p) as [|[k' v'] r] eqn:E; [done|]. cbn in H. injection H as -> ->.
  split; [|done]. eapply (um_chain_elem pf nb els p). rewrite E. by constructor.
Qed.
Lemma ov_valid_entry o ovl p : ovrel o ovl -> ov_valid pf o p = true -> exists e, ov_entry o p = Some e.
Proof.
  destruct o as [|ks vs e full|nb els full]; [done| |].
  { intros (E & _) H. rewrite E in H |- *. change (exists e, arr_entry (arr_state pf ovl full) p = Some e).
    rewrite arr_entry_lookup. apply lookup_lt_is_Some_2. cbn in H. apply N.ltb_lt in H. lia. }
  cbn. intros (-> & Hnb & Hnd & _) H.
  apply andb_prop in H as [-> H]. unfold um_empty in H. destruct (um_chain pf nb els p); [done|]. cbn. eauto.
Qed.

Lemma ov_entry_pos nb els full k v : ovrel (OUmap nb els full) els -> (k, v) ∈ els ->
  ov_entry (OUmap nb els full) (um_bucket pf nb k) = Some (k, v).
Proof.
  intros (_ & Hnb & Hnd & _) Hin. cbn. rewrite (proj2 (N.ltb_lt _ _)) by (apply um_bucket_lt, Hnb).
  by rewrite (um_chain_single pf _ _ _ _ Hnd Hin).
Qed.

(** What find and insert need to know about the key if the overflow is an array. *)
Definition key_ok (k : N) : Prop := fair OvArray -> zero_fresh pf = true /\ k <> 0 /\ k < 2^N.of_nat kb.
Lemma ov_find_spec o ovl k : NoDup (keys_of ovl) -> ovrel o ovl -> key_ok k ->
  (exists p v, ov_find pf kb o k = Ok (Some p) /\ (k, v) ∈ ovl /\ ov_entry o p = Some (k, v))
  \/ ov_find pf kb o k = Ok None /\ k ∉ keys_of ovl.
Proof.
  intros Hnodup Ho Hkey. pose proof Ho as Ho'. destruct o as [|ks vs e full|nb els full].
  2: { destruct Ho as (E & Hfair & Hl & _). destruct (Hkey Hfair) as (Hz & Hk0 & Hkb). rewrite E.
    rewrite arr_find by done. destruct (decide (k ∈ keys_of ovl)) as [Hk|Hk].
    - left. apply keys_elem in Hk as (v & Hk). apply elem_of_list_lookup in Hk as (i & Hi).
      assert (Hf : first_index k (map fst ovl) = Some i).
      { apply first_index_nodup; [done|]. change (keys_of ovl !! i = Some k). by rewrite list_lookup_fmap, Hi. }
      exists (N.of_nat i), v. rewrite Hf. split; [done|]. split; [by eapply elem_of_list_lookup_2|].
      change (arr_entry (arr_state pf ovl full) (N.of_nat i) = Some (k, v)). by rewrite arr_entry_lookup, Nat2N.id.
    - right. split; [|done]. rewrite first_index_none by done. rewrite Hz.
      rewrite (proj2 (N.eqb_neq 0 k)) by done. by destruct (length ovl =? 256)%nat. }
  all: cbn in Ho.
  - right. destruct Ho as [-> _]. split; [done|]. apply not_elem_of_nil.
  - destruct Ho as (-> & Hnb & Hnd & _). destruct (decide (k ∈ keys_of els)) as [Hk|Hk].
    + left. apply keys_elem in Hk as (v & Hk). exists (um_bucket pf nb k), v.
      split; [|split; [done|by apply ov_entry_pos]]. cbn. rewrite (um_chain_single pf _ _ _ _ Hnd Hk).
      by rewrite N.eqb_refl.
    + right. split; [|done]. cbn. destruct (um_chain pf nb els (um_bucket pf nb k)) as [|[k' v'] r] eqn:E; [done|].
      destruct (N.eqb_spec k' k) as [->|]; [|done]. exfalso. apply Hk. apply keys_elem. exists v'.
      eapply (um_chain_elem pf nb els). rewrite E. by constructor.
Qed.

Lemma ov_need_consult_spec o ovl bk : ovrel o ovl -> bk < nbk ->
  exists x, ov_need_consult o bk = Ok x /\ (forall k v, (k, v) ∈ ovl -> bo k = bk -> x = true).
Proof.
  destruct o as [|ks vs e full|nb els full].
  2: { intros (_ & _ & _ & Hl & Hf) Hbk. cbn. destruct (bv_get_ok full bk ltac:(lia)) as (x & -> & Hx).
    exists x. split; [done|]. intros k v Hin Hk. specialize (Hf _ _ Hin). rewrite Hk in Hf. congruence. }
  all: cbn.
  - intros [-> _] _. exists false. split; [done|]. intros k v H. by apply elem_of_nil in H.
  - intros (-> & Hnb & Hnd & Hl & Hf) Hbk. destruct (bv_get_ok full bk ltac:(lia)) as (x & -> & Hx).
    exists x. split; [done|]. intros k v Hin Hk. specialize (Hf _ _ Hin). rewrite Hk in Hf. congruence.
Qed.

Lemma ov_insert_spec o ovl k v : ovrel o ovl -> bo k < nbk -> k ∉ keys_of ovl -> ov_size o < ov_capacity o ->
  key_ok k -> (fair OvArray -> v < 2^N.of_nat vb) ->
  exists o' r, ov_insert pf kb vb o (bo k) k v = Ok (o', r) /\
    match r with
    | Some p => ovrel o' (ovl ++ [(k, v)]) /\ ov_entry o' p = Some (k, v)
    | None => ovrel o' ovl
    end.
Proof.
  destruct o as [|ks vs e full|nb els full]; [cbn; lia| |].
  { intros Ho Hbk Hk Hsz Hkey Hval. rewrite (ov_size_spec _ _ Ho) in Hsz. destruct Ho as (E & Hfair & Hl & Hlf & Hf).
    destruct (Hkey Hfair) as (Hz & Hk0 & Hkb). change (N.of_nat (length ovl) < 256) in Hsz. rewrite E.
    rewrite arr_insert by first [done|lia|by apply Hval]. eexists _, _. split; [done|]. split.
    - split; [done|]. split; [done|]. split; [rewrite app_length; cbn [length]; lia|]. split; [by rewrite insert_length|].
      intros k' v' Hin. apply elem_of_app in Hin as [Hin|Hin].
      + specialize (Hf _ _ Hin). destruct (decide (N.to_nat (bo k) = N.to_nat (bo k'))) as [->|]; [|by rewrite list_lookup_insert_ne].
        apply list_lookup_insert. by apply lookup_lt_Some in Hf.
      + apply elem_of_list_singleton in Hin. injection Hin as -> ->. apply list_lookup_insert. lia.
    - change (arr_entry (arr_state pf (ovl ++ [(k, v)]) (<[N.to_nat (bo k):=true]> full)) (N.of_nat (length ovl)) = Some (k, v)).
      rewrite arr_entry_lookup, Nat2N.id. by apply list_lookup_middle. }
  cbn. intros (-> & Hnb & Hnd & Hl & Hf) Hbk Hk Hsz _ _. unfold bv_set.
  rewrite (proj2 (N.ltb_lt _ _)) by lia. cbn [mbind res_bind].
  set (full' := <[N.to_nat (bo k):=true]> full).
  assert (Hl' : N.of_nat (length full') = nbk) by (unfold full'; by rewrite insert_length).
  assert (Hf' : forall k' v', (k', v') ∈ els -> full' !! N.to_nat (bo k') = Some true).
  { intros k' v' Hin. unfold full'. specialize (Hf _ _ Hin).
    destruct (decide (N.to_nat (bo k) = N.to_nat (bo k'))) as [->|]; [|by rewrite list_lookup_insert_ne].
    apply list_lookup_insert. by apply lookup_lt_Some in Hf. }
  destruct (um_empty pf nb els (um_bucket pf nb k)) eqn:Ee; cbn [negb].
  - unfold um_assign.
    assert (Hex : existsb (fun e => fst e =? k) els = false).
    { apply not_true_is_false. intros E. apply existsb_exists in E as ([k' v'] & Hin & E).
      apply N.eqb_eq in E. cbn in E. subst. apply Hk. apply keys_elem. exists v'. by apply elem_of_list_In. }
    rewrite Hex. rewrite (proj2 (N.ltb_ge _ _)) by lia.
    eexists _, _; split; [done|].
    assert (Hrel : ovrel (OUmap nb (els ++ [(k, v)]) full') (els ++ [(k, v)])).
    { cbn. split; [done|]. split; [done|]. split.
      - rewrite map_app. apply NoDup_app. split; [done|]. split; [|apply NoDup_singleton].
        intros p Hp Hp'. apply elem_of_list_singleton in Hp'. cbn in Hp'. subst p.
        apply elem_of_list_fmap in Hp as ([k' v'] & Ep & Hin). cbn in Ep.
        unfold um_empty in Ee.
        assert (Hc : (k', v') ∈ um_chain pf nb els (um_bucket pf nb k)) by (apply um_chain_elem; done).
        destruct (um_chain pf nb els (um_bucket pf nb k)); [by apply elem_of_nil in Hc|done].
      - split; [done|]. intros k' v' Hin. apply elem_of_app in Hin as [Hin|Hin]; [by eapply Hf'|].
        apply elem_of_list_singleton in Hin. injection Hin as -> ->. unfold full'. apply list_lookup_insert. lia. }
    split; [done|]. apply ov_entry_pos; [done|]. apply elem_of_app. right. by constructor.
  - eexists _, _; split; [done|]. cbn. done.
Qed.

Lemma ov_erase_spec o ovl p k v : ~ fair OvArray -> NoDup (keys_of ovl) -> ovrel o ovl -> ov_entry o p = Some (k, v) ->
  exists o' ovl', ov_erase pf o p = Ok o' /\ ovrel o' ovl' /\ ovl ≡ₚ (k, v) :: ovl'.
Proof.
  intros Harr Hn Ho He. pose proof (ov_entry_spec _ _ _ _ _ Ho He) as (Hin & _).
  destruct o as [|ks vs e full|nb els full]; cbn in *; [done|by destruct Ho as (_ & ? & _)|]. destruct Ho as (-> & Hnb & Hnd & Hl & Hf).
  destruct (N.ltb_spec p nb); [|done].
  destruct (um_chain pf nb els p) as [|[k' v'] r] eqn:E; [done|]. cbn in He. injection He as -> ->.
  eexists _, _; split; [done|]. split; [|by apply filter_key_perm].
  cbn. split; [done|]. split; [done|]. split.
  - pose proof (filter_key_perm _ _ _ Hn Hin) as Hp.
    assert (HP : map (fun e => um_bucket pf nb (fst e)) els ≡ₚ
      map (fun e => um_bucket pf nb (fst e)) ((k, v) :: List.filter (fun e => negb (fst e =? k)) els)) by by apply Permutation_map.
    rewrite HP in Hnd. cbn in Hnd. by apply NoDup_cons in Hnd as [_ ?].
  - split; [done|]. intros k' v' Hin'. apply (Hf k' v'). apply elem_of_list_In in Hin'.
    apply filter_In in Hin' as [Hin' _]. by apply elem_of_list_In.
Qed.

Lemma ov_set_spec o ovl p k v v' : NoDup (keys_of ovl) -> ovrel o ovl -> ov_entry o p = Some (k, v) ->
  exists o' ovl' R, ov_set pf vb o p v' = Ok o' /\ ovrel o' ovl' /\ ovl ≡ₚ (k, v) :: R
    /\ ovl' ≡ₚ (k, v' mod 2^N.of_nat vb) :: R /\ ov_entry o' p = Some (k, v' mod 2^N.of_nat vb).
Proof.
  intros Hn Ho He. pose proof (ov_entry_spec _ _ _ _ _ Ho He) as (Hin & _).
  destruct o as [|ks vs e full|nb els full]; [done| |].
  { destruct Ho as (E & Hfair & Hl & Hlf & Hf). rewrite E in He |- *.
    change (arr_entry (arr_state pf ovl full) p = Some (k, v)) in He. rewrite arr_entry_lookup in He.
    pose proof (lookup_lt_Some _ _ _ He) as Hp. set (i := N.to_nat p) in *.
    assert (Ep : p = N.of_nat i) by (unfold i; lia). rewrite Ep, arr_set by done.
    set (g := fun e : N * N => (fst e, v' mod 2^N.of_nat vb)).
    exists (arr_state pf (alter g i ovl) full), (alter g i ovl), (take i ovl ++ drop (S i) ovl).
    assert (Hal : alter g i ovl = <[i := (k, v' mod 2^N.of_nat vb)]> ovl).
    { apply list_eq. intros j. destruct (decide (i = j)) as [<-|Hne].
      - by rewrite list_lookup_alter, list_lookup_insert, He by done.
      - by rewrite list_lookup_alter_ne, list_lookup_insert_ne by done. }
    assert (Hperm : ovl ≡ₚ (k, v) :: take i ovl ++ drop (S i) ovl).
    { rewrite <-(take_drop_middle ovl i (k, v) He) at 1. symmetry. apply Permutation_middle. }
    assert (Hperm' : alter g i ovl ≡ₚ (k, v' mod 2^N.of_nat vb) :: take i ovl ++ drop (S i) ovl).
    { rewrite Hal, insert_take_drop by done. symmetry. apply Permutation_middle. }
    split; [done|]. split; [|split; [done|split; [done|]]].
    - split; [done|]. split; [done|]. split; [by rewrite alter_length|]. split; [done|].
      intros k1 v1 H1. rewrite Hperm' in H1. apply elem_of_cons in H1 as [H1|H1].
      + injection H1 as -> ->. by apply (Hf k v).
      + apply (Hf k1 v1). rewrite Hperm. by constructor.
    - change (arr_entry (arr_state pf (alter g i ovl) full) (N.of_nat i) = Some (k, v' mod 2^N.of_nat vb)).
      rewrite arr_entry_lookup, Nat2N.id, Hal. by apply list_lookup_insert. }
  cbn in *. destruct Ho as (-> & Hnb & Hnd & Hl & Hf).
  destruct (N.ltb_spec p nb) as [Hp|]; [|done].
  destruct (um_chain pf nb els p) as [|[k' v2] r] eqn:E; [done|]. cbn in He. injection He as -> ->.
  set (nv := v' mod 2^N.of_nat vb). set (els' := map (fun e => if fst e =? k then (k, nv) else e) els).
  exists (OUmap nb els' full), els', (List.filter (fun e => negb (fst e =? k)) els).
  assert (Hperm : els' ≡ₚ (k, nv) :: List.filter (fun e => negb (fst e =? k)) els).
  { unfold els'. clear -Hn Hin. induction els as [|[k1 v1] els IH]; [by apply elem_of_nil in Hin|].
    cbn [fmap list_fmap fst] in Hn. apply NoDup_cons in Hn as [Hk Hn]. cbn [map List.filter fst].
    apply elem_of_cons in Hin as [E|Hin].
    - injection E as <- <-. rewrite N.eqb_refl. cbn [negb]. f_equiv. apply Permutation_refl'.
      clear IH Hn. induction els as [|[k2 v2] els IH]; [done|].
      cbn in Hk. apply not_elem_of_cons in Hk as [Hne Hk]. cbn [map List.filter fst].
      rewrite (proj2 (N.eqb_neq _ _)) by congruence. cbn [negb]. f_equal. by apply IH.
    - assert (k1 <> k) by (intros ->; apply Hk; apply keys_elem; by exists v).
      rewrite (proj2 (N.eqb_neq _ _)) by done. cbn [negb]. rewrite (IH Hn Hin) at 1. apply Permutation_swap. }
  assert (Hpos : um_bucket pf nb k = p).
  { eapply (um_chain_elem pf nb els p (k, v)). rewrite E. by constructor. }
  assert (Hin' : (k, nv) ∈ els') by (rewrite Hperm; by constructor).
  assert (Hrel : ovrel (OUmap nb els' full) els').
  { cbn. split; [done|]. split; [done|]. 
    assert (Hfst : keys_of els' = keys_of els).
    { unfold els'. clear. induction els as [|[k1 v1] els IH]; [done|]. cbn [map fmap list_fmap fst].
      destruct (N.eqb_spec k1 k) as [->|]; cbn; f_equal; exact IH. }
    split.
    - replace (map (fun e => um_bucket pf nb (fst e)) els') with (map (um_bucket pf nb) (keys_of els')).
      + rewrite Hfst. rewrite <-list_fmap_compose. exact Hnd.
      + by rewrite <-list_fmap_compose.
    - split; [done|]. intros k1 v1 H1.
      assert (Hk1 : k1 ∈ keys_of els) by (rewrite <-Hfst; apply keys_elem; by exists v1).
      apply keys_elem in Hk1 as (v3 & Hk1). by eapply Hf. }
  split; [done|]. split; [done|]. split; [by apply filter_key_perm|]. split; [done|].
  pose proof (ov_entry_pos nb els' full k nv Hrel Hin') as He2. rewrite Hpos in He2. exact He2.
Qed.

Lemma ov_clear_ok o ovl : ovrel o ovl -> exists o', ov_clear pf kb vb o = Ok o' /\ (~ fair OvArray -> ovzero o').
Proof.
  destruct o as [|ks vs e full|nb els full].
  - intros [_ ?]. by exists ODummy.
  - intros (E & Hfair & _). rewrite E. destruct (arr_clear pf kb vb ovl full) as (o' & Eo). exists o'. done.
  - intros (_ & (_ & _ & Hnb) & _). cbn. eexists; split; [done|]. done.
Qed.
Lemma ov_clear_spec o ovl : ~ fair OvArray -> ovrel o ovl -> exists o', ov_clear pf kb vb o = Ok o' /\ ovzero o'.
Proof. intros Harr Ho. destruct (ov_clear_ok _ _ Ho) as (o' & ? & ?). eauto. Qed.
Lemma ov_clear_zero_ok o : ovzero o -> exists o', ov_clear pf kb vb o = Ok o' /\ (~ fair OvArray -> ovzero o').
Proof.
  destruct o as [|ks vs e full|nb els full].
  - by exists ODummy.
  - intros (E & Hfair). rewrite E. destruct (arr_clear pf kb vb [] full) as (o' & Eo). exists o'. done.
  - intros (_ & Hnb). cbn. eexists; split; [done|]. done.
Qed.
Lemma ov_clear_zero o : ~ fair OvArray -> ovzero o -> exists o', ov_clear pf kb vb o = Ok o' /\ ovzero o'.
Proof. intros Harr Ho. destruct (ov_clear_zero_ok _ Ho) as (o' & ? & ?). eauto. Qed.
Lemma ov_zero_size o : ovzero o -> ov_size o = 0.
Proof. destruct o as [|ks vs e full|]; cbn; [done| |by intros [-> _]]. unfold arr_state. intros [E _]. injection E. done. Qed.

Lemma ovzero_resize o n : ovzero o -> ovzero (ov_resize_buckets pf o n).
Proof.
  destruct o as [|ks vs e full|nb els full]; [done| |done]. intros (E & Ha). cbn [ov_resize_buckets].
  split; [|done]. unfold arr_state in *. by injection E as -> -> ->.
Qed.
Lemma ov_resize_spec o : (fair OvMap -> um_fair pf) -> nbk <= 2^63 -> ovzero o -> ovrel (ov_resize_buckets pf o nbk) [].
Proof.
  intros Hfair Hn. destruct o as [|ks vs e full|nb els full]; [done| |].
  - intros (E & Ha). cbn [ov_resize_buckets]. split; [unfold arr_state in *; by injection E as -> -> ->|]. split; [done|].
    split; [cbn; lia|]. split; [apply bv_resize_length|]. intros k v H. by apply elem_of_nil in H.
  - cbn. intros (-> & Hum). destruct (Hfair Hum nb nbk Hn) as (H1 & H2 & H3).
    split; [done|]. split; [done|]. split; [constructor|]. split; [apply bv_resize_length|].
    intros k v H. by apply elem_of_nil in H.
Qed.

End ov.
