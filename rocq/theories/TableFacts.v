(** Observable consequences of the table invariant, in the form used by the property theorems. *)
From Verif Require Export TableRefine TableConf.

(** What a table tells about key k: the value read through the iterator returned by find. *)
Definition lookup_of (pf : platform) (c : cfg) (t : table) (k : N) : res (option N) :=
  x ← TableModel.find pf c t k; e ← iter_at pf c t x; Ok (option_map snd (e : option (N * N))).
(** The table answers every lookup of a key of kw bits, and size(), as the finite map m does. *)
Definition shows (pf : platform) (c : cfg) (kw : N) (t : table) (m : gmap N N) : Prop :=
  (forall k, k < 2^kw -> lookup_of pf c t k = Ok (m !! k)) /\ TableModel.size t = N.of_nat (size m) mod 2^64.

Section facts.
Context (pf : platform) (c : cfg) (kw vw bmin bmax : N) (strict : Prop).
Notation nv := (nv c vw).
Notation tinv := (tinv pf c kw vw bmin bmax strict).
Notation tzero := (tzero pf c kw vw).
Notation nav_entry := (nav_entry pf).
Notation trep := (trep pf c kw vw bmin bmax strict).
Notation trep_full := (trep_full pf c kw vw bmin bmax strict).
Hypothesis OK : table_ok0 pf c kw vw bmin bmax.
Implicit Types (t : table) (ess : list entries) (ovl E : entries) (sl : list slot).

Lemma trep_shows0 t m : trep t m ->
  (forall k, kdom c kw k -> lookup_of pf c t k = Ok (m !! k)) /\ TableModel.size t = N.of_nat (size m) mod 2^64.
Proof.
  intros [[Hz ->]|(sl & ess & ovl & H & Hm)].
  - split; [|unfold TableModel.size; by destruct Hz as (_ & -> & _)]. intros k Hk. unfold lookup_of.
    rewrite (find_zero pf c kw vw) by done. cbn [mbind res_bind]. unfold iter_at.
    rewrite (end_nav_invalid_zero pf c kw vw) by done. by rewrite lookup_empty.
  - split.
    + intros k Hk. unfold lookup_of. pose proof (find_spec pf c kw vw bmin bmax strict OK _ _ _ _ k H Hk) as Hf.
      rewrite Hm in Hf. destruct (m !! k) as [v|].
      * destruct Hf as (x & -> & He). cbn [mbind res_bind].
        by rewrite (iter_at_entry pf c kw vw bmin bmax strict OK _ _ _ _ _ _ H He).
      * rewrite Hf. cbn [mbind res_bind]. unfold iter_at.
        by rewrite (end_nav_invalid pf c kw vw bmin bmax strict OK _ _ _ _ H).
    + unfold TableModel.size. rewrite (ti_n _ _ _ _ _ _ _ _ _ _ _ H), <-Hm. rewrite emap_size by apply H. done.
Qed.

Lemma trep_shows t m : c_ov c <> OvArray -> trep t m -> shows pf c kw t m.
Proof. intros Harr H. destruct (trep_shows0 t m H) as [H1 H2]. split; [|done]. intros k Hk. by apply H1, kdom_intro. Qed.

(** A valid navigator refers to an entry, and to only one. *)
Lemma nav_valid_entry t sl ess ovl x : tinv t sl ess ovl -> nav_invalid pf t x = Ok false -> exists e, nav_entry t ess x = Some e.
Proof.
  intros H. destruct x as [bk p]. unfold nav_invalid, TableInv.nav_entry. cbn [fst snd].
  destruct (tinv_bc pf c kw vw bmin bmax strict OK _ _ _ _ H) as [_ ->].
  destruct (N.eqb_spec bk (2^(t_b t))) as [->|Hne].
  - destruct (ov_valid pf (t_ov t) p) eqn:Hv.
    + intros _. by apply (ov_valid_entry _ _ _ _ _ _ _ (ti_ov _ _ _ _ _ _ _ _ _ _ _ H)).
    + rewrite andb_false_r. rewrite N.leb_refl. done.
  - rewrite andb_false_r. cbn [andb]. destruct (N.leb_spec (2^(t_b t)) bk); [done|].
    destruct (tinv_slot pf c kw vw bmin bmax strict t sl ess ovl bk H) as (s & es & -> & Hs & He & Hr); [lia|].
    cbn [mbind res_bind]. intros [= Hp]. apply N.leb_gt in Hp. rewrite He. cbn [mbind option_bind].
    destruct Hr as [Hsz _]. apply lookup_lt_is_Some_2. lia.
Qed.
Lemma nav_entry_inj t sl ess ovl x y k v v' : tinv t sl ess ovl -> nav_entry t ess x = Some (k, v) ->
  nav_entry t ess y = Some (k, v') -> x = y.
Proof.
  intros H. destruct x as [bk p], y as [bk' p']. unfold TableInv.nav_entry. cbn [fst snd].
  assert (Hcross : forall p bk es q, ov_entry pf (t_ov t) p = Some (k, v) \/ ov_entry pf (t_ov t) p = Some (k, v') ->
    ess !! N.to_nat bk = Some es -> es !! N.to_nat q = Some (k, v) \/ es !! N.to_nat q = Some (k, v') -> False).
  { intros q b es r Ho He Hr.
    assert (H1 : k ∈ keys_of (concat ess)).
    { destruct Hr as [Hr|Hr]; apply keys_elem; eexists; apply elem_of_concat; eexists _, _; (split; [exact He|]); by eapply elem_of_list_lookup_2. }
    assert (H2 : k ∈ keys_of ovl).
    { destruct Ho as [Ho|Ho]; apply (ov_entry_spec _ 0 0 _ _ _ _ _ _ _ _ (ti_ov _ _ _ _ _ _ _ _ _ _ _ H)) in Ho as [Hin _];
        apply keys_elem; by eexists. }
    pose proof (ti_nodup _ _ _ _ _ _ _ _ _ _ _ H) as Hn. rewrite fmap_app in Hn. apply NoDup_app in Hn as (_ & Hn & _).
    by apply (Hn k). }
  destruct (N.eqb_spec bk (2^(t_b t))) as [->|Hne], (N.eqb_spec bk' (2^(t_b t))) as [->|Hne'].
  - intros H1 H2. f_equal. pose proof (ti_ov _ _ _ _ _ _ _ _ _ _ _ H) as Ho. unfold ov_entry in *.
    destruct (t_ov t) as [|ks vs e full|nb els full]; [done| |].
    { destruct Ho as (Eo & _). rewrite Eo, arr_entry_lookup in H1. rewrite Eo, arr_entry_lookup in H2.
      assert (N.to_nat p = N.to_nat p'); [|lia].
      eapply NoDup_lookup; [exact (tinv_nodup_ov _ _ _ _ _ _ _ _ _ _ _ H)|rewrite list_lookup_fmap, H1; done|rewrite list_lookup_fmap, H2; done]. }
    assert (Hpos : forall q w, (if q <? nb then head (um_chain pf nb els q) else None) = Some (k, w) -> um_bucket pf nb k = q).
    { intros q w Hq. destruct (q <? nb); [|done]. destruct (um_chain pf nb els q) as [|e r] eqn:Ec; [done|]. injection Hq as ->.
      assert (Hin : (k, w) ∈ um_chain pf nb els q) by (rewrite Ec; by constructor).
      by apply um_chain_elem in Hin as [_ ?]. }
    rewrite <-(Hpos _ _ H1). by apply Hpos in H2.
  - intros H1 H2. destruct (ess !! N.to_nat bk') as [es|] eqn:He; [|done]. cbn in H2. destruct (Hcross p bk' es p'); auto.
  - intros H1 H2. destruct (ess !! N.to_nat bk) as [es|] eqn:He; [|done]. cbn in H1. destruct (Hcross p' bk es p); auto.
  - intros H1 H2. destruct (ess !! N.to_nat bk) as [es|] eqn:He; [|done]. destruct (ess !! N.to_nat bk') as [es'|] eqn:He'; [|done].
    cbn in H1, H2.
    destruct (tinv_in_bucket _ _ _ _ _ _ _ _ _ _ _ _ _ k v H He) as [_ Hb]; [by eapply elem_of_list_lookup_2|].
    destruct (tinv_in_bucket _ _ _ _ _ _ _ _ _ _ _ _ _ k v' H He') as [_ Hb']; [by eapply elem_of_list_lookup_2|].
    assert (bk = bk') by lia. subst bk'. rewrite He in He'. injection He' as <-. f_equal.
    pose proof (tinv_nodup_bucket _ _ _ _ _ _ _ _ _ _ _ _ _ H He) as Hn.
    assert (N.to_nat p = N.to_nat p'); [|lia].
    eapply NoDup_lookup; [exact Hn|rewrite list_lookup_fmap, H1; done|rewrite list_lookup_fmap, H2; done].
Qed.

(** No key is stored twice, and every stored key is found. *)
Lemma trep_unique t m x y k : trep t m -> nav_invalid pf t x = Ok false -> nav_invalid pf t y = Ok false ->
  nav_key pf c t x = Ok k -> nav_key pf c t y = Ok k -> x = y.
Proof.
  intros [[Hz ->]|(sl & ess & ovl & H & Hm)] Hx Hy Hkx Hky.
  - exfalso. destruct x as [bk p]. unfold nav_invalid, bucket_count in Hx. destruct Hz as (Hb & _ & _ & _ & Ho & _).
    rewrite Hb in Hx. cbn [N.eqb] in Hx. rewrite (ov_zero_size _ _ _ Ho) in Hx. cbn [andb N.ltb N.compare] in Hx.
    by destruct bk.
  - destruct (nav_valid_entry _ _ _ _ _ H Hx) as ([k1 v1] & H1). destruct (nav_valid_entry _ _ _ _ _ H Hy) as ([k2 v2] & H2).
    destruct (nav_entry_read pf c kw vw bmin bmax strict OK _ _ _ _ _ _ _ H H1) as (_ & Hk1 & _).
    destruct (nav_entry_read pf c kw vw bmin bmax strict OK _ _ _ _ _ _ _ H H2) as (_ & Hk2 & _).
    rewrite Hk1 in Hkx. rewrite Hk2 in Hky. injection Hkx as ->. injection Hky as ->. by eapply nav_entry_inj.
Qed.
Lemma trep_valid_nav t m x : trep t m -> nav_invalid pf t x = Ok false ->
  exists k v, nav_key pf c t x = Ok k /\ nav_value pf c t x = Ok v /\ m !! k = Some v.
Proof.
  intros [[Hz ->]|(sl & ess & ovl & H & Hm)] Hx.
  - exfalso. destruct x as [bk p]. unfold nav_invalid, bucket_count in Hx. destruct Hz as (Hb & _ & _ & _ & Ho & _).
    rewrite Hb in Hx. cbn [N.eqb] in Hx. rewrite (ov_zero_size _ _ _ Ho) in Hx. cbn [andb N.ltb N.compare] in Hx.
    by destruct bk.
  - destruct (nav_valid_entry _ _ _ _ _ H Hx) as ([k1 v1] & H1).
    destruct (nav_entry_read pf c kw vw bmin bmax strict OK _ _ _ _ _ _ _ H H1) as (_ & Hk1 & Hv1).
    exists k1, v1. split; [done|]. split; [done|]. rewrite <-Hm. by eapply entry_map.
Qed.

(** Room for elements of w bits in a block. *)
Definition block_room (kd : bkind) (w : nat) (b : bucket) : nat :=
  match kd, b with
  | KNull, _ => 255
  | _, None => 0
  | _, Some (_, Cells cs) => length cs
  | _, Some (_, Bits bs) => length bs / w
  end%nat.
Lemma brepr_room kd w cap b xs : (1 <= w)%nat -> (length xs <= 255)%nat -> brepr pf kd w cap b xs ->
  (length xs <= block_room kd w b)%nat.
Proof.
  intros Hw H255 H. destruct kd as [es|es|es|iw|]; cbn [brepr] in H.
  5: done.
  all: destruct H as (tg & d & -> & _ & Hd); destruct d as [cs|bs]; cbn [drepr] in Hd; try done; cbn [block_room].
  1-3: destruct Hd as (_ & ? & _); done.
  destruct Hd as (_ & Hl & _). apply Nat.div_le_lower_bound; lia.
Qed.

Lemma bucket_limits t m bk s : trep_full t m -> get_slot t bk = Ok s ->
  s_size s <= c_maxb c /\ s_size s <= 255
  /\ (N.to_nat (s_size s) <= block_room (c_key c) (qwidth c t) (s_keys s))%nat
  /\ ((1 <= N.to_nat vw)%nat -> N.to_nat (s_size s) <= block_room (c_val c) (vwidth t) (s_vals s))%nat.
Proof.
  intros (sl & ess & ovl & H & Hm) Hg.
  assert (Hlt : bk < 2^(t_b t)).
  { unfold get_slot in Hg. rewrite (ti_slots _ _ _ _ _ _ _ _ _ _ _ H), (ti_len _ _ _ _ _ _ _ _ _ _ _ H) in Hg.
    destruct (N.ltb_spec bk (2^(t_b t))); [done|discriminate]. }
  destruct (tinv_slot pf c kw vw bmin bmax strict t sl ess ovl bk H Hlt) as (s' & es & Hg' & Hs & He & Hr).
  rewrite Hg in Hg'. injection Hg' as <-. pose proof (ok_maxb _ _ _ _ _ _ OK) as Hmb.
  pose proof Hr as (Hsz & Hle & _). split; [lia|]. split; [lia|].
  destruct es as [|e es].
  - cbn in Hsz. rewrite Hsz. cbn. split; intros; lia.
  - pose proof (slot_repr_nonnil pf c kw vw strict (t_b t) s (e :: es) ltac:(done) Hr) as [Hk Hv].
    rewrite Hsz, Nat2N.id. rewrite (tinv_qw _ _ _ _ _ _ _ _ _ _ _ H), (tinv_vw _ _ _ _ _ _ _ _ _ _ _ H).
    destruct (ok_kind _ _ _ _ _ _ OK (t_b t) (ti_b _ _ _ _ _ _ _ _ _ _ _ H)) as [Hkd _]. split.
    + destruct (decide (1 <= qw c kw (t_b t))%nat).
      * apply brepr_room in Hk; [|done|rewrite map_length; lia]. by rewrite map_length in Hk.
      * destruct (c_key c) as [?|?|?|?|] eqn:Ek; [| | |cbn in Hkd; lia|by destruct (ok_key _ _ _ _ _ _ OK)];
          cbn [brepr] in Hk; destruct Hk as (tg & d & -> & _ & Hd); destruct d; cbn [drepr] in Hd; try done; cbn [block_room];
          destruct Hd as (_ & Hd & _); rewrite map_length in Hd; done.
    + intros Hw. apply brepr_room in Hv; [|done|rewrite map_length; lia]. by rewrite map_length in Hv.
Qed.

Lemma concat_bound (ess : list entries) n : Forall (fun es => N.of_nat (length es) <= n) ess ->
  N.of_nat (length (concat ess)) <= n * N.of_nat (length ess).
Proof. induction 1 as [|es ess Hes _ IH]; cbn [concat length]; [lia|]. rewrite app_length. lia. Qed.

Lemma dummy_nil t sl ess ovl : tinv t sl ess ovl -> c_ov c = OvDummy -> t_ov t = ODummy /\ ovl = [].
Proof.
  intros H Hd. pose proof (ti_ov _ _ _ _ _ _ _ _ _ _ _ H) as Hov. destruct (t_ov t); cbn in Hov; [tauto| |].
  { destruct Hov as (_ & (Hf & _) & _). congruence. }
  destruct Hov as (_ & (_ & _ & Hf & _) & _). congruence.
Qed.
Lemma size_limit t m : trep_full t m -> c_ov c = OvDummy -> N.of_nat (size m) <= c_maxb c * bucket_count t.
Proof.
  intros (sl & ess & ovl & H & <-) Hd. destruct (dummy_nil _ _ _ _ H Hd) as [_ ->].
  rewrite emap_size by apply H. rewrite app_nil_r.
  destruct (tinv_bc pf c kw vw bmin bmax strict OK _ _ _ _ H) as [_ ->].
  rewrite <-(tinv_len _ _ _ _ _ _ _ _ _ _ _ H). apply concat_bound.
  apply Forall_lookup. intros i es Hi. destruct (Forall2_lookup_r _ _ _ _ _ (ti_repr _ _ _ _ _ _ _ _ _ _ _ H) Hi) as (s & _ & Hr).
  by destruct Hr as (_ & ? & _).
Qed.
End facts.
