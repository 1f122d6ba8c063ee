(** What insertions and erasures do to the positions of the other elements, and when an insertion adds buckets. *)
From Verif Require Export TableReach.

Section stable.
Context (pf : platform) (c : cfg) (kw vw : N).
Hypothesis P : params pf c kw vw.
Notation bmax := (bits_max c kw).
Notation trep := (trep pf c kw vw 1 bmax True).
Notation tinv := (tinv pf c kw vw 1 bmax True).
Notation nv := (nv c vw).
Notation ok0 := (reach_ok0 _ _ _ _ P).

(** The element a position refers to. *)
Definition refers (t : table) (x : nav) (k v : N) : Prop :=
  nav_invalid pf t x = Ok false /\ nav_key pf c t x = Ok k /\ nav_value pf c t x = Ok v.

Lemma refers_entry t sl ess ovl x k v : tinv t sl ess ovl -> refers t x k v <-> nav_entry pf t ess x = Some (k, v).
Proof.
  intros H. split.
  - intros (Hx & Hk & Hv). destruct (nav_valid_entry _ _ _ _ _ _ _ ok0 _ _ _ _ _ H Hx) as ([k1 v1] & He).
    destruct (nav_entry_read _ _ _ _ _ _ _ ok0 _ _ _ _ _ _ _ H He) as (_ & Hk1 & Hv1). congruence.
  - intros He. exact (nav_entry_read _ _ _ _ _ _ _ ok0 _ _ _ _ _ _ _ H He).
Qed.
Lemma entry_in_bucket t sl ess ovl x : tinv t sl ess ovl -> fst x < bucket_count t ->
  nav_entry pf t ess x = ess !! N.to_nat (fst x) ≫= fun es => es !! N.to_nat (snd x).
Proof.
  intros H Hx. destruct (tinv_bc _ _ _ _ _ _ _ ok0 _ _ _ _ H) as [_ Hb]. rewrite Hb in Hx. unfold nav_entry.
  rewrite (proj2 (N.eqb_neq _ _)) by lia. done.
Qed.
Lemma zero_no_entry t x k v : tzero pf c kw vw t -> ~ refers t x k v.
Proof.
  intros Hz (Hx & _ & _). destruct x as [bk p]. unfold nav_invalid, bucket_count in Hx. destruct Hz as (Hb & _ & _ & _ & Ho & _).
  rewrite Hb, (ov_zero_size _ _ _ Ho) in Hx. cbn [N.eqb N.ltb andb] in Hx. rewrite (proj2 (N.leb_le 0 bk)) in Hx by lia. done.
Qed.

Lemma insert_stable t m fuel k v : reachable pf c kw vw t m -> (64 <= fuel)%nat -> k < 2^kw -> v < 2^vw \/ c_val c = KNull ->
  exists t' x, find_or_insert pf c fuel t k v = Ok (t', x) /\ bucket_count t <= bucket_count t'
    /\ (bucket_count t' = bucket_count t -> forall y k0 v0, fst y < bucket_count t -> refers t y k0 v0 -> refers t' y k0 v0)
    /\ (0 < bucket_count t < bucket_count t' -> m !! k = None
          /\ exists q bk, hash_map (hm c t) k (t_b t) = Ok (q, bk) /\ bucket_size t bk = Ok (c_maxb c))
    /\ (c_ov c = OvDummy -> 0 < bucket_count t -> m !! k = None -> forall q bk, hash_map (hm c t) k (t_b t) = Ok (q, bk) ->
          bucket_size t bk = Ok (c_maxb c) -> 2 * bucket_count t <= bucket_count t').
Proof.
  intros Hr Hf Hk Hv. apply (reachable_rep _ _ _ _ P) in Hr.
  assert (Hnv : nv v = v \/ c_val c = KNull).
  { destruct Hv as [Hv|]; [|by right]. destruct (c_val c) eqn:Ec; try (by right); left; (eapply cfg_values; [apply P|by rewrite Ec|done]). }
  pose proof (kdom_intro c kw k (noarr _ _ _ _ P) Hk) as Hd.
  destruct Hr as [[Hz ->]|(sl & ess & ovl & H & Em)].
  { destruct (insert_zero pf c kw vw 1 bmax True fuel (reach_ok _ _ _ _ P) Hf t k v Hz (params_init _ _ _ _ P) Hd Hnv) as (t' & x & E & sl & ess & ovl & H & _).
    exists t', x. split; [done|]. assert (Hb : bucket_count t = 0) by (unfold bucket_count; by rewrite (proj1 Hz)).
    rewrite Hb. split; [lia|]. split; [|split; lia]. intros _ y k0 v0 Hy _. lia. }
  destruct (find_or_insert_spec pf c kw vw 1 bmax True ok0 (ok_spread _ _ _ _ _ _ (reach_ok _ _ _ _ P)) fuel t sl ess ovl k v H) as (t' & x & sl' & ess' & ovl' & Ef & H' & Hg & Hres);
    [apply (fuel_enough pf c kw vw 1 bmax fuel (reach_ok _ _ _ _ P) Hf), H|done|done|].
  exists t', x. split; [done|].
  destruct (tinv_bc _ _ _ _ _ _ _ ok0 _ _ _ _ H) as [_ Hb]. destruct (tinv_bc _ _ _ _ _ _ _ ok0 _ _ _ _ H') as [_ Hb'].
  assert (Hin : forall v0, m !! k = Some v0 -> t' = t).
  { intros v0 Hv0. rewrite Em, Hv0 in Hres. apply Hres. }
  destruct (tinv_hash _ _ _ _ _ _ _ ok0 _ _ _ _ _ H Hd) as (Hh & Hlt & _).
  assert (Hle : t_b t <= t_b t') by (by eapply grown_le).
  assert (Hpow : 2^t_b t <= 2^t_b t') by (apply N.pow_le_mono_r; lia).
  split; [by rewrite Hb, Hb'|]. split; [|split].
  - rewrite Hb, Hb'. intros Heq y k0 v0 Hy Hy0. destruct Hg as [(Hbb & Happ & _)|(Hbb & _)].
    + apply (refers_entry _ _ _ _ _ _ _ H'). apply (refers_entry _ _ _ _ _ _ _ H) in Hy0.
      rewrite (entry_in_bucket _ _ _ _ _ H) in Hy0 by (by rewrite Hb).
      rewrite (entry_in_bucket _ _ _ _ _ H') by (rewrite Hb', Hbb; done).
      destruct (ess !! N.to_nat (fst y)) as [es|] eqn:Ees; [|done]. cbn in Hy0. destruct (Happ _ _ Ees) as (tl & ->). cbn.
      by apply lookup_app_l_Some.
    + apply N.pow_inj_r in Heq; lia.
  - rewrite Hb, Hb'. intros [_ Hltb]. destruct Hg as [(Hbb & _)|(Hbb & _ & es & He & Hmax)]; [rewrite Hbb in Hltb; lia|].
    split; [|eexists _, _; split; [exact Hh|]; destruct (bucket_size_spec _ _ _ _ _ _ _ ok0 _ _ _ _ _ _ H He) as (_ & -> & _); by rewrite Hmax].
    destruct (m !! k) as [v0|] eqn:Ek; [|done]. rewrite (Hin v0 eq_refl) in Hltb. lia.
  - intros Hd0 _ Hm q bk Hq Hsz. rewrite Hh in Hq. injection Hq as <- <-. rewrite Hb, Hb'.
    destruct Hg as [(Hbb & _ & Hfull)|(Hbb & _)].
    + exfalso. destruct (Hfull Hd0) as (es & He & Hmax).
      { rewrite <-Em in Hm. apply emap_None in Hm. rewrite fmap_app in Hm. by apply not_elem_of_app in Hm as [? _]. }
      destruct (bucket_size_spec _ _ _ _ _ _ _ ok0 _ _ _ _ _ _ H He) as (_ & Hs & _). rewrite Hs in Hsz. injection Hsz as Hsz. lia.
    + rewrite <-N.pow_succ_r'. apply N.pow_le_mono_r; lia.
Qed.

(** erase(nav): the later elements of its bucket move down by one, nothing else moves. *)
Lemma erase_stable t m x : reachable pf c kw vw t m -> nav_invalid pf t x = Ok false -> fst x < bucket_count t ->
  exists t', erase_at pf c t x = Ok (t', 1) /\ bucket_count t' = bucket_count t
    /\ (forall y k v, fst y < bucket_count t -> fst y <> fst x \/ snd y < snd x -> refers t' y k v <-> refers t y k v)
    /\ (forall p k v, snd x <= p -> refers t' (fst x, p) k v <-> refers t (fst x, p + 1) k v).
Proof.
  intros Hr Hx Hlt. apply (reachable_rep _ _ _ _ P) in Hr.
  destruct Hr as [[Hz ->]|(sl & ess & ovl & H & Em)].
  { unfold bucket_count in Hlt. rewrite (proj1 Hz) in Hlt. cbn [N.eqb] in Hlt. lia. }
  destruct (nav_valid_entry _ _ _ _ _ _ _ ok0 _ _ _ _ _ H Hx) as ([k1 v1] & He).
  destruct (erase_at_spec _ _ _ _ _ _ _ ok0 _ _ _ _ _ _ _ (fun _ => noarr _ _ _ _ P) H He) as (t' & sl' & ess' & ovl' & E & H' & Hbb & _ & Hsp).
  exists t'. split; [done|]. destruct (tinv_bc _ _ _ _ _ _ _ ok0 _ _ _ _ H) as [_ Hb].
  destruct (tinv_bc _ _ _ _ _ _ _ ok0 _ _ _ _ H') as [_ Hb']. rewrite Hbb, <-Hb in Hb'. split; [done|].
  rewrite Hb in Hlt. destruct (Hsp Hlt) as (es & Hes & -> & _). rewrite <-Hb in Hlt.
  assert (Hlen : (N.to_nat (fst x) < length ess)%nat) by (by eapply lookup_lt_Some).
  split.
  - intros y k v Hy Hd. rewrite (refers_entry _ _ _ _ _ _ _ H), (refers_entry _ _ _ _ _ _ _ H').
    rewrite (entry_in_bucket _ _ _ _ _ H), (entry_in_bucket _ _ _ _ _ H') by (by rewrite ?Hb').
    destruct (decide (fst y = fst x)) as [Hq|Hq].
    + rewrite Hq, list_lookup_insert, Hes by done. cbn. rewrite lookup_delete_lt by lia. done.
    + rewrite list_lookup_insert_ne by lia. done.
  - intros p k v Hp. rewrite (refers_entry _ _ _ _ _ _ _ H), (refers_entry _ _ _ _ _ _ _ H').
    rewrite (entry_in_bucket _ _ _ _ _ H), (entry_in_bucket _ _ _ _ _ H') by (by rewrite ?Hb'). cbn [fst snd].
    rewrite list_lookup_insert, Hes by done. cbn. rewrite lookup_delete_ge by lia.
    replace (N.to_nat (p + 1)) with (S (N.to_nat p)) by lia. done.
Qed.
End stable.
