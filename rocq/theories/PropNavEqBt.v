(** C124: operator== of the navigators and iterators of bucket_table. *)
From Verif Require Import PropBt BtProofs PropMallocBt PropNavEq.

Theorem C124_bucket_table : forall pf c es t m, bt_reach pf c es t m ->
  compares (fun p => Ok (bn_invalid t p)) (bt_find pf c t) (fun p q => Ok (bn_eq t p q)) m.
Proof.
  intros pf c es t m (OK & E & HR & Hm)%bt_reach_rep p q. exists (bn_invalid t p), (bn_invalid t q). split; [done|]. split; [done|].
  unfold bn_eq. destruct (bn_invalid t p) eqn:Hp, (bn_invalid t q) eqn:Hq; cbn [orb andb negb eqb]; try done.
  pose proof (brep_nodup _ _ _ _ _ HR) as Hnd. destruct HR as [[(_ & _ & Hn) _]|H].
  { unfold bn_invalid in Hp. rewrite Hn in Hp. apply N.leb_gt in Hp. lia. }
  assert (HX : forall p, bn_invalid t p = false -> exists k, is_Some (m !! k) /\ E.*1 !! N.to_nat p = Some k /\ bt_find pf c t k = Ok p).
  { intros r Hv. unfold bn_invalid in Hv. apply N.leb_gt in Hv. rewrite (bf_n _ _ _ _ _ H) in Hv.
    destruct (lookup_lt_is_Some_2 E (N.to_nat r)) as [[k v] Hkv]; [lia|]. exists k.
    assert (Hin : (k, v) ∈ E) by (by eapply elem_of_list_lookup_2).
    assert (Hk : k < 2^N.of_nat (bc_width c)). { pose proof (bf_ok _ _ _ _ _ H) as Ho. rewrite Forall_forall in Ho. by apply Ho in Hin as [? _]. }
    split; [exists v; rewrite <- Hm; by apply emap_Some|]. split; [by rewrite list_lookup_fmap, Hkv|].
    unfold bt_find. rewrite (bfull_init pf c es OK _ _ H), (locate_spec pf c es OK _ _ _ H Hk).
    destruct (first_index k (keys_of E)) as [i|] eqn:Ef.
    - destruct (index_entry _ _ _ Ef) as (v' & Hi). assert (i = N.to_nat r); [|f_equal; lia].
      eapply NoDup_lookup; [exact Hnd|rewrite list_lookup_fmap, Hi; done|rewrite list_lookup_fmap, Hkv; done].
    - apply fi_None in Ef. destruct Ef. apply elem_of_list_fmap. by exists (k, v). }
  destruct (HX p Hp) as (k & Hk & Ep & Fp), (HX q Hq) as (k' & Hk' & Eq & Fq). exists k, k'. do 4 (split; [done|]). f_equal.
  destruct (decide (k = k')) as [<-|Hne].
  - rewrite bool_decide_true by done. apply N.eqb_eq. congruence.
  - rewrite bool_decide_false by done. apply N.eqb_neq. intros ->. congruence.
Qed.
Print Assumptions C124_bucket_table.
Example C124_bt_case : bt_reach lax_pf ex_mb 32 ex_mb_t (fst (spec_run ∅ ex_mb_ops)) /\ bt_find lax_pf ex_mb ex_mb_t 1000 = Ok 1
  /\ bn_eq ex_mb_t 1 1 = true /\ bn_eq ex_mb_t 1 2 = false /\ bn_eq ex_mb_t 1 bt_end = false /\ bn_eq ex_mb_t 4 bt_end = true.
Proof. split; [exact ex_mb_reach|]. vm_compute. repeat split. Qed.
