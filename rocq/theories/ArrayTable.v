(** Tables with an array_overflow, as long as nothing is erased from the array. *)
From Verif Require Export SerialFacts IterOv.

(** Parameters for which such a table is expected to work: in particular fresh memory is zero. *)
Definition arr_params (pf : platform) (c : cfg) (kw vw : N) : Prop := arr_ok0 pf c kw vw 1 /\ cfg_grows c kw /\ 3 <= kw.

(** t is reached from a new table by histories that neither remove elements of the array nor use key 0. *)
Inductive arr_reach (pf : platform) (c : cfg) (kw vw : N) : table -> gmap N N -> Prop :=
| ar_new : arr_reach pf c kw vw (new_table pf c kw vw) ∅
| ar_run t m fuel ops t' outs : arr_reach pf c kw vw t m -> (64 <= fuel)%nat -> valid_ops kw vw 1 (bits_max c kw) ops ->
    Forall grow_op ops -> run_ops pf c fuel t ops = Ok (t', outs) -> arr_reach pf c kw vw t' (fst (spec_run m ops))
| ar_erase t m k x t' n : arr_reach pf c kw vw t m -> k < 2^kw -> k <> 0 -> TableModel.find pf c t k = Ok x ->
    fst x <> bucket_count t -> erase pf c t k = Ok (t', n) -> arr_reach pf c kw vw t' (delete k m).

Section arr.
Context (pf : platform) (c : cfg) (kw vw : N).
Hypothesis P : arr_params pf c kw vw.
Notation bmax := (bits_max c kw).
Notation trep := (trep pf c kw vw 1 bmax True).
Notation tinv := (tinv pf c kw vw 1 bmax True).

Lemma arr_ok : table_ok pf c kw vw 1 bmax.
Proof. apply arr_table_ok; apply P. Qed.
Lemma arr_ov : c_ov c = OvArray.
Proof. apply (ca_ov _ _ _ _ _ (proj1 P)). Qed.
Lemma arr_val : c_val c <> KNull.
Proof. apply (ca_ov _ _ _ _ _ (proj1 P)). Qed.
Lemma arr_init : init_ok kw 1 bmax.
Proof.
  destruct P as (H & _ & Hkw). split; [done|]. pose proof (co_kw _ _ _ _ _ (ca_core _ _ _ _ _ H)) as Hk. split.
  - apply (N.log2_up_le_mono 2). lia.
  - unfold bits_max. assert (N.log2_up (N.min (kw - 1) 16) <= N.log2_up (kw - 1)) by (apply N.log2_up_le_mono; lia).
    destruct (c_hash c).
    + pose proof (N.log2_up_lt_lin (kw - 1)). lia.
    + assert (N.log2_up (kw - 1) <= N.log2_up 64) by (apply N.log2_up_le_mono; lia). change (N.log2_up 64) with 6 in *. lia.
Qed.
Lemma arr_kdom k : k < 2^kw -> k <> 0 -> kdom c kw k.
Proof. by split. Qed.

Lemma arr_step fuel ops t m : trep t m -> (64 <= fuel)%nat -> valid_ops kw vw 1 bmax ops -> Forall grow_op ops ->
  exists t', run_ops pf c fuel t ops = Ok (t', snd (spec_run m ops)) /\ trep t' (fst (spec_run m ops)).
Proof.
  intros Hr Hf Hv Hg. apply (run_rep pf c kw vw 1 bmax True fuel arr_ok Hf ops _ m Hr arr_init arr_val); [|done|done].
  intros v Hlt. eapply cfg_values; [apply P|apply arr_val|done].
Qed.
Lemma arr_erase t m k x : trep t m -> k < 2^kw -> k <> 0 -> TableModel.find pf c t k = Ok x -> fst x <> bucket_count t ->
  exists t', erase pf c t k = Ok (t', match m !! k with Some _ => 1 | None => 0 end) /\ trep t' (delete k m).
Proof.
  intros [[Hz ->]|(sl & ess & ovl & H & Hm)] Hk H0 Hx Hb.
  - rewrite (erase_zero pf c kw vw) by done. exists t. rewrite lookup_empty. split; [done|]. left. split; [done|apply delete_empty].
  - destruct (tinv_bc _ _ _ _ _ _ _ arr_ok _ _ _ _ H) as [_ Hbc]. rewrite Hbc in Hb.
    assert (Hni : k ∉ keys_of ovl).
    { pose proof (find_spec _ _ _ _ _ _ _ arr_ok _ _ _ _ k H (arr_kdom _ Hk H0)) as Hs.
      pose proof (ti_nodup _ _ _ _ _ _ _ _ _ _ _ H) as Hnd. destruct (emap (concat ess ++ ovl) !! k) as [v|] eqn:Ek.
      - destruct Hs as (x' & Ef & He). rewrite Hx in Ef. injection Ef as <-. unfold nav_entry in He. rewrite (proj2 (N.eqb_neq _ _) Hb) in He.
        destruct (ess !! N.to_nat (fst x)) as [es|] eqn:Hes; [|done]. cbn in He. rewrite fmap_app in Hnd. apply NoDup_app in Hnd as (_ & Hd & _).
        apply Hd. apply elem_of_list_fmap. exists (k, v). split; [done|]. apply elem_of_concat. exists (N.to_nat (fst x)), es.
        split; [done|]. by eapply elem_of_list_lookup_2.
      - intros Hin. apply elem_of_list_fmap in Hin as ([k' v] & E & Hin). cbn in E. subst k'.
        assert (E : emap (concat ess ++ ovl) !! k = Some v) by (apply emap_Some; [done|apply elem_of_app; by right]). congruence. }
    pose proof (erase_spec _ _ _ _ _ _ _ arr_ok _ _ _ _ k (fun Hin => match Hni Hin with end) H (arr_kdom _ Hk H0)) as He. rewrite Hm in He. destruct (m !! k) as [v|] eqn:Ek.
    + destruct He as (t' & sl' & ess' & ovl' & E & H' & _ & HP). exists t'. split; [done|]. right. exists sl', ess', ovl'.
      split; [done|]. rewrite <-Hm. eapply emap_delete; [apply H|exact HP].
    + exists t. split; [done|]. rewrite delete_notin by done. right. by exists sl, ess, ovl.
Qed.
Lemma arr_reach_rep t m : arr_reach pf c kw vw t m -> trep t m.
Proof.
  induction 1 as [|t m fuel ops t' outs _ IH Hf Hv Hg Hrun|t m k x t' n _ IH Hk H0 Hx Hb He].
  - left. split; [|done]. apply (new_table_zero _ _ _ _ _ _ arr_ok).
  - destruct (arr_step fuel ops t m IH Hf Hv Hg) as (t2 & E & Hr). rewrite Hrun in E. by injection E as -> _.
  - destruct (arr_erase t m k x IH Hk H0 Hx Hb) as (t2 & E & Hr). rewrite He in E. by injection E as -> _.
Qed.
Lemma arr_forward t m : trep t m ->
  exists l, NoDup (map fst l) /\ list_to_map l = m /\ forall f, (length l <= f)%nat -> forward pf c f t = Ok l.
Proof.
  intros [[Hz ->]|(sl & ess & ovl & H & Hm)].
  - exists []. split; [constructor|]. split; [done|]. intros f _. by apply (forward_zero pf c kw vw).
  - exists (concat ess ++ ovl). split; [apply H|]. split; [done|]. destruct (decide (ovl = [])) as [->|Hne].
    + rewrite app_nil_r in *. intros f Hf. by apply (forward_spec _ _ _ _ _ _ _ arr_ok _ _ _ H).
    + exact (forward_arr _ _ _ _ _ _ _ arr_ok _ _ _ _ arr_ov H Hne).
Qed.
Lemma arr_backward t m f : trep t m -> 0 < ov_size (t_ov t) -> backward pf c f t = Ok [].
Proof.
  intros [[Hz ->]|(sl & ess & ovl & H & Hm)] Ho.
  - destruct Hz as (_ & _ & _ & _ & Hz & _). rewrite (ov_zero_size _ _ _ Hz) in Ho. lia.
  - rewrite (ov_size_spec _ _ _ _ _ _ (ti_ov _ _ _ _ _ _ _ _ _ _ _ H)) in Ho.
    apply (backward_arr _ _ _ _ _ _ _ arr_ok _ _ _ _ _ arr_ov H). intros ->. cbn in Ho. lia.
Qed.
Lemma arr_keys t m k v : trep t m -> m !! k = Some v -> k <> 0 /\ k < 2^kw.
Proof.
  intros [[_ ->]|(sl & ess & ovl & H & <-)] Hk; [by rewrite lookup_empty in Hk|].
  apply emap_Some in Hk; [|apply H]. apply (ti_range _ _ _ _ _ _ _ _ _ _ _ H) in Hk as [[? Hz] _]. split; [|done]. apply Hz, arr_ov.
Qed.
End arr.
