(** The representation invariant of separate_chaining_table and the effect of its operations on it. *)
From Verif Require Export TableProofs.

Lemma lookup_bucket_lt {A} (l : list A) i n : N.of_nat (length l) = n -> i < n -> exists x, l !! N.to_nat i = Some x.
Proof. intros Hl Hi. apply lookup_lt_is_Some_2. lia. Qed.
Lemma N_of_nat_len {A} (l l' : list A) : l ≡ₚ l' -> N.of_nat (length l) = N.of_nat (length l').
Proof. intros H. by rewrite (Permutation_length H). Qed.

Section inv.
Context (pf : platform) (c : cfg) (kw vw bmin bmax : N) (strict : Prop).
Notation hq := (hq c kw). Notation hb := (hb c kw). Notation qw := (qw c kw). Notation nv := (nv c vw).
Notation fair := (ov_side pf c kw).
Notation srepr := (slot_repr pf c kw vw strict).
Hypothesis OK : table_ok0 pf c kw vw bmin bmax.

Implicit Types (t tmp : table) (ess : list entries) (ovl E : entries) (sl : list slot).

(** t stores the bucket contents ess and the overflow contents ovl. *)
Record tinv t sl ess ovl : Prop := {
  ti_slots : t_slots t = Some sl;
  ti_len : N.of_nat (length sl) = 2^(t_b t);
  ti_repr : Forall2 (srepr (t_b t)) sl ess;
  ti_b : bmin <= t_b t <= bmax;
  ti_kw : t_kw t = kw;
  ti_vw : t_vw t = vw;
  ti_placed : placed (hb (t_b t)) ess;
  ti_range : forall k v, (k, v) ∈ concat ess ++ ovl -> kdom c kw k /\ nv v = v;
  ti_nodup : NoDup (keys_of (concat ess ++ ovl));
  ti_n : t_n t = u64 (N.of_nat (length (concat ess ++ ovl)));
  ti_ov : ovrel pf fair (hb (t_b t)) (2^(t_b t)) (t_ov t) ovl
}.
(** t stores the entries E (in some order) and has at least B bucket bits. *)
Definition tcon (B : N) t E : Prop := exists sl ess ovl, tinv t sl ess ovl /\ B <= t_b t /\ concat ess ++ ovl ≡ₚ E.
(** t has no buckets. *)
Definition tzero t : Prop :=
  t_b t = 0 /\ t_n t = 0 /\ t_kw t = kw /\ t_vw t = vw /\ ovzero pf fair (t_ov t)
  /\ match t_slots t with None => True | Some sl => Forall (fun s => s = empty_slot) sl end.
(** The entry a navigator refers to. *)
Definition nav_entry t ess (x : nav) : option (N * N) :=
  if fst x =? 2^(t_b t) then ov_entry pf (t_ov t) (snd x)
  else es ← ess !! N.to_nat (fst x); es !! N.to_nat (snd x).

Lemma ok_bounds b : bmin <= b <= bmax -> 1 <= b <= 63.
Proof. pose proof (ok_b _ _ _ _ _ _ OK). lia. Qed.
Lemma tinv_b t sl ess ovl : tinv t sl ess ovl -> 1 <= t_b t <= 63.
Proof. intros H. apply ok_bounds, (ti_b _ _ _ _ H). Qed.
Lemma tinv_bc t sl ess ovl : tinv t sl ess ovl -> (t_b t =? 0) = false /\ bucket_count t = 2^(t_b t).
Proof.
  intros H. pose proof (tinv_b _ _ _ _ H). unfold bucket_count.
  rewrite (proj2 (N.eqb_neq (t_b t) 0)) by lia. done.
Qed.
Lemma tinv_len t sl ess ovl : tinv t sl ess ovl -> N.of_nat (length ess) = 2^(t_b t).
Proof. intros H. rewrite <-(ti_len _ _ _ _ H). by rewrite (Forall2_length _ _ _ (ti_repr _ _ _ _ H)). Qed.
Lemma tinv_hm t sl ess ovl : tinv t sl ess ovl -> hm c t = hmk c kw.
Proof. intros H. unfold hm, hmk. by rewrite (ti_kw _ _ _ _ H). Qed.
Lemma tinv_qw t sl ess ovl : tinv t sl ess ovl -> qwidth c t = qw (t_b t).
Proof. intros H. unfold qwidth, TableProofs.qw. by rewrite (tinv_hm _ _ _ _ H). Qed.
Lemma tinv_vw t sl ess ovl : tinv t sl ess ovl -> vwidth t = N.to_nat vw.
Proof. intros H. unfold vwidth. by rewrite (ti_vw _ _ _ _ H). Qed.
Lemma tinv_hash t sl ess ovl k : tinv t sl ess ovl -> kdom c kw k ->
  hash_map (hm c t) k (t_b t) = Ok (hq (t_b t) k, hb (t_b t) k) /\ hb (t_b t) k < 2^(t_b t)
  /\ hash_inv_map (hm c t) (hq (t_b t) k) (hb (t_b t) k) (t_b t) = Ok k.
Proof.
  intros H Hk. rewrite (tinv_hm _ _ _ _ H).
  destruct (ok_map _ _ _ _ _ _ OK (t_b t) k (ti_b _ _ _ _ H) Hk) as (? & ? & _ & ?). done.
Qed.
Lemma tinv_slot t sl ess ovl bk : tinv t sl ess ovl -> bk < 2^(t_b t) ->
  exists s es, get_slot t bk = Ok s /\ sl !! N.to_nat bk = Some s /\ ess !! N.to_nat bk = Some es /\ srepr (t_b t) s es.
Proof.
  intros H Hbk. destruct (lookup_bucket_lt sl bk _ (ti_len _ _ _ _ H) Hbk) as (s & Hs).
  destruct (Forall2_lookup_l _ _ _ _ _ (ti_repr _ _ _ _ H) Hs) as (es & He & Hr).
  exists s, es. split; [|done]. unfold get_slot. rewrite (ti_slots _ _ _ _ H), (ti_len _ _ _ _ H).
  rewrite (proj2 (N.ltb_lt _ _)) by done. by rewrite Hs.
Qed.
Lemma tinv_in_bucket t sl ess ovl i es k v : tinv t sl ess ovl -> ess !! i = Some es -> (k, v) ∈ es ->
  kdom c kw k /\ hb (t_b t) k = N.of_nat i.
Proof.
  intros H Hi Hin. split; [|by apply (ti_placed _ _ _ _ H i es k v)].
  apply (ti_range _ _ _ _ H k v). apply elem_of_app. left. apply elem_of_concat. eauto.
Qed.
Lemma tinv_nodup_bucket t sl ess ovl i es : tinv t sl ess ovl -> ess !! i = Some es -> NoDup (keys_of es).
Proof.
  intros H Hi. pose proof (ti_nodup _ _ _ _ H) as Hn. rewrite (concat_split _ _ _ Hi) in Hn.
  rewrite <-!app_assoc in Hn. rewrite fmap_app in Hn. apply NoDup_app in Hn as (_ & _ & Hn).
  rewrite fmap_app in Hn. by apply NoDup_app in Hn as (? & _ & _).
Qed.
Lemma tinv_nodup_ov t sl ess ovl : tinv t sl ess ovl -> NoDup (keys_of ovl).
Proof. intros H. pose proof (ti_nodup _ _ _ _ H) as Hn. rewrite fmap_app in Hn. by apply NoDup_app in Hn as (_ & _ & ?). Qed.

(** The quotient search in the bucket of k. *)
Lemma locate_q_spec t sl ess ovl k : tinv t sl ess ovl -> kdom c kw k ->
  exists s es, get_slot t (hb (t_b t) k) = Ok s /\ sl !! N.to_nat (hb (t_b t) k) = Some s
    /\ ess !! N.to_nat (hb (t_b t) k) = Some es /\ srepr (t_b t) s es
    /\ ((exists p v, locate_q pf c t (hb (t_b t) k) (hq (t_b t) k) = Ok (Some p) /\ es !! N.to_nat p = Some (k, v))
        \/ locate_q pf c t (hb (t_b t) k) (hq (t_b t) k) = Ok None /\ k ∉ keys_of (concat ess)).
Proof.
  intros H Hk. destruct (tinv_hash _ _ _ _ _ H Hk) as (_ & Hlt & _).
  destruct (tinv_slot _ _ _ _ _ H Hlt) as (s & es & Hg & Hs & He & Hr).
  exists s, es. do 4 (split; [done|]).
  unfold locate_q. rewrite Hg. cbn [mbind res_bind]. rewrite (tinv_qw _ _ _ _ H).
  erewrite (slot_find pf c kw vw bmin bmax strict OK (t_b t) s es k); [|apply (ti_b _ _ _ _ H)|done..|].
  - cbn [mbind res_bind]. destruct (first_index k (keys_of es)) as [p|] eqn:Ef.
    + left. apply fi_Some in Ef. rewrite list_lookup_fmap in Ef.
      destruct (es !! p) as [[k' v]|] eqn:Ep; [|done]. cbn in Ef. injection Ef as ->.
      exists (N.of_nat p), v. split; [done|]. by rewrite Nat2N.id.
    + right. split; [done|]. apply fi_None in Ef. intros Hin. apply Ef.
      by apply (own_bucket_key (hb (t_b t)) ess (ti_placed _ _ _ _ H) k es He).
  - intros k' v Hin. destruct (tinv_in_bucket _ _ _ _ _ _ _ _ H He Hin). split; [done|]. lia.
Qed.

(** ** Navigators *)
Lemma nav_entry_bucket t ess bk p es e : bk < 2^(t_b t) -> ess !! N.to_nat bk = Some es -> es !! N.to_nat p = Some e ->
  nav_entry t ess (bk, p) = Some e.
Proof.
  intros Hlt He Hp. unfold nav_entry. cbn [fst snd]. rewrite (proj2 (N.eqb_neq _ _)) by lia. by rewrite He.
Qed.
Lemma nav_entry_ov t ess p : nav_entry t ess (2^(t_b t), p) = ov_entry pf (t_ov t) p.
Proof. unfold nav_entry. cbn [fst snd]. by rewrite N.eqb_refl. Qed.

Lemma nav_entry_elem t sl ess ovl x e : tinv t sl ess ovl -> nav_entry t ess x = Some e -> e ∈ concat ess ++ ovl.
Proof.
  intros H. unfold nav_entry. destruct e as [k v]. destruct (N.eqb_spec (fst x) (2^(t_b t))).
  - intros He. apply (ov_entry_spec _ 0 0 _ _ _ _ _ _ _ _ (ti_ov _ _ _ _ H)) in He as [Hin _].
    apply elem_of_app. by right.
  - destruct (ess !! N.to_nat (fst x)) as [es|] eqn:He; [|done]. cbn. intros Hp.
    apply elem_of_app. left. apply elem_of_concat. exists (N.to_nat (fst x)), es. split; [done|].
    by eapply elem_of_list_lookup_2.
Qed.

(** Reading through a navigator that refers to an entry. *)
Lemma nav_entry_read t sl ess ovl x k v : tinv t sl ess ovl -> nav_entry t ess x = Some (k, v) ->
  nav_invalid pf t x = Ok false /\ nav_key pf c t x = Ok k /\ nav_value pf c t x = Ok v.
Proof.
  intros H He. destruct x as [bk p]. unfold nav_entry in He. cbn [fst snd] in He.
  unfold nav_invalid, nav_key, nav_value, quotient_at, value_at. destruct (tinv_bc _ _ _ _ H) as [_ ->].
  destruct (N.eqb_spec bk (2^(t_b t))) as [->|Hne].
  - pose proof (ov_entry_spec _ (kbn c) (vbn c) _ _ _ _ _ _ _ _ (ti_ov _ _ _ _ H) He) as (Hin & Hval & Hk & Hv).
    assert (Hpos : (0 <? ov_size (t_ov t)) = true).
    { rewrite (ov_size_spec _ _ _ _ _ _ (ti_ov _ _ _ _ H)). apply N.ltb_lt. destruct ovl; [by apply elem_of_nil in Hin|cbn; lia]. }
    rewrite Hpos, Hval, Hk, Hv. done.
  - rewrite !andb_false_r. cbn [andb].
    destruct (ess !! N.to_nat bk) as [es|] eqn:Hes; [|done]. cbn in He.
    assert (Hlt : bk < 2^(t_b t)).
    { pose proof (lookup_lt_Some _ _ _ Hes). pose proof (tinv_len _ _ _ _ H). lia. }
    rewrite (proj2 (N.leb_gt _ _)) by done.
    destruct (tinv_slot _ _ _ _ _ H Hlt) as (s & es' & -> & Hs & Hes' & Hr).
    rewrite Hes in Hes'. injection Hes' as <-. cbn [mbind res_bind].
    rewrite (tinv_qw _ _ _ _ H), (tinv_vw _ _ _ _ H).
    rewrite (slot_read_key pf c kw vw bmin bmax strict OK _ _ _ _ _ _ (ti_b _ _ _ _ H) Hr He). cbn [mbind res_bind].
    rewrite (slot_read_val pf c kw vw bmin bmax strict OK _ _ _ _ _ _ Hr He).
    destruct (tinv_in_bucket _ _ _ _ _ _ k v H Hes) as [Hk Hhb]; [by eapply elem_of_list_lookup_2|].
    rewrite N2Nat.id in Hhb. destruct (tinv_hash _ _ _ _ _ H Hk) as (_ & _ & Hinv). rewrite Hhb in Hinv. rewrite Hinv.
    split; [|done]. f_equal. apply N.leb_gt. destruct Hr as [-> _]. apply lookup_lt_Some in He. lia.
Qed.

Lemma end_nav_invalid t sl ess ovl : tinv t sl ess ovl -> nav_invalid pf t end_nav = Ok true.
Proof.
  intros H. unfold nav_invalid, end_nav. destruct (tinv_bc _ _ _ _ H) as [_ ->].
  pose proof (tinv_b _ _ _ _ H) as Hb. pose proof (pow2_le_63 (t_b t) ltac:(lia)).
  assert (2^63 < ones64) by done.
  rewrite (proj2 (N.eqb_neq _ _)) by lia. rewrite andb_false_r. cbn [andb]. rewrite (proj2 (N.leb_le _ _)) by lia. done.
Qed.
Lemma end_nav_invalid_zero t : tzero t -> nav_invalid pf t end_nav = Ok true.
Proof.
  intros (Hb & _ & _ & _ & Ho & _). unfold nav_invalid, end_nav, bucket_count. rewrite Hb. cbn [N.eqb].
  rewrite (ov_zero_size _ _ _ Ho). done.
Qed.

Lemma iter_at_entry t sl ess ovl x e : tinv t sl ess ovl -> nav_entry t ess x = Some e -> iter_at pf c t x = Ok (Some e).
Proof.
  intros H He. destruct e as [k v]. destruct (nav_entry_read _ _ _ _ _ _ _ H He) as (Hi & Hk & Hv).
  unfold iter_at. rewrite Hi. cbn [mbind res_bind]. rewrite Hk. cbn [mbind res_bind]. rewrite Hv. done.
Qed.

Lemma nav_eq_end t sl ess ovl x e : tinv t sl ess ovl -> nav_entry t ess x = Some e -> nav_eq pf t x end_nav = Ok false.
Proof.
  intros H He. destruct e as [k v]. destruct (nav_entry_read _ _ _ _ _ _ _ H He) as (Hi & _ & _).
  unfold nav_eq. rewrite Hi, (end_nav_invalid _ _ _ _ H). done.
Qed.

(** ** find *)
Lemma find_spec t sl ess ovl k : tinv t sl ess ovl -> kdom c kw k ->
  match emap (concat ess ++ ovl) !! k with
  | Some v => exists x, TableModel.find pf c t k = Ok x /\ nav_entry t ess x = Some (k, v)
  | None => TableModel.find pf c t k = Ok end_nav
  end.
Proof.
  intros H Hk. unfold TableModel.find. destruct (tinv_bc _ _ _ _ H) as [Hb0 Hbc]. rewrite Hb0, Hbc.
  pose proof (ti_nodup _ _ _ _ H) as Hnd.
  destruct (ov_find_spec pf (kbn c) _ _ _ _ _ k (tinv_nodup_ov _ _ _ _ H) (ti_ov _ _ _ _ H) (kdom_key_ok _ _ _ _ Hk)) as [(p & v & Hf & Hin & He)|[Hf Hni]].
  - assert (Hpos : (0 <? ov_size (t_ov t)) = true).
    { rewrite (ov_size_spec _ _ _ _ _ _ (ti_ov _ _ _ _ H)). apply N.ltb_lt. destruct ovl; [by apply elem_of_nil in Hin|cbn; lia]. }
    rewrite Hpos, Hf. cbn [mbind res_bind].
    rewrite (proj2 (emap_Some _ k v Hnd)) by (apply elem_of_app; by right).
    exists (2^(t_b t), p). split; [done|]. by rewrite nav_entry_ov.
  - assert (E : (if 0 <? ov_size (t_ov t) then ov_find pf (kbn c) (t_ov t) k else Ok None) = Ok None)
      by (by destruct (0 <? ov_size (t_ov t))).
    rewrite E. cbn [mbind res_bind]. destruct (tinv_hash _ _ _ _ _ H Hk) as (-> & Hlt & _). cbn [mbind res_bind].
    destruct (locate_q_spec _ _ _ _ _ H Hk) as (s & es & Hg & Hs & He & Hr & [(p & v & -> & Hp)|[-> Hn]]).
    + cbn [mbind res_bind]. rewrite (proj2 (emap_Some _ k v Hnd)).
      * exists (hb (t_b t) k, p). split; [done|]. by eapply nav_entry_bucket.
      * apply elem_of_app. left. apply elem_of_concat. eexists _, _. split; [exact He|]. by eapply elem_of_list_lookup_2.
    + rewrite (proj2 (emap_None _ k)); [done|]. rewrite fmap_app. apply not_elem_of_app. done.
Qed.
Lemma find_zero t k : tzero t -> TableModel.find pf c t k = Ok end_nav.
Proof. intros (Hb & _). unfold TableModel.find. by rewrite Hb. Qed.

Lemma count_spec t sl ess ovl k : tinv t sl ess ovl -> kdom c kw k ->
  count pf c t k = Ok (match emap (concat ess ++ ovl) !! k with Some _ => 1 | None => 0 end).
Proof.
  intros H Hk. unfold count. pose proof (find_spec _ _ _ _ _ H Hk) as Hf.
  destruct (emap _ !! k) as [v|].
  - destruct Hf as (x & -> & He). cbn [mbind res_bind]. by rewrite (nav_eq_end _ _ _ _ _ _ H He).
  - rewrite Hf. cbn [mbind res_bind]. unfold nav_eq. by rewrite (end_nav_invalid _ _ _ _ H).
Qed.
Lemma count_zero t k : tzero t -> count pf c t k = Ok 0.
Proof. intros H. unfold count. rewrite (find_zero _ _ H). cbn [mbind res_bind]. unfold nav_eq. by rewrite (end_nav_invalid_zero _ H). Qed.

(** ** Changing one bucket *)
Lemma tinv_upd t sl ess ovl bk s es es' s' E' n' : tinv t sl ess ovl -> bk < 2^(t_b t) ->
  ess !! N.to_nat bk = Some es -> srepr (t_b t) s' es' -> placed (hb (t_b t)) (<[N.to_nat bk := es']> ess) ->
  concat (<[N.to_nat bk := es']> ess) ++ ovl ≡ₚ E' ->
  NoDup (keys_of E') -> (forall k v, (k, v) ∈ E' -> kdom c kw k /\ nv v = v) -> n' = u64 (N.of_nat (length E')) ->
  sl !! N.to_nat bk = Some s ->
  tinv (set_slot (set_n t n') bk s') (<[N.to_nat bk := s']> sl) (<[N.to_nat bk := es']> ess) ovl.
Proof.
  intros H Hbk He Hr Hpl Hperm Hnd Hrange Hn Hs.
  constructor; cbn [set_slot set_n t_slots t_b t_n t_kw t_vw t_ov]; try apply H.
  - by rewrite (ti_slots _ _ _ _ H).
  - rewrite insert_length. apply H.
  - apply Forall2_insert; [apply H|done].
  - done.
  - intros k v. rewrite Hperm. apply Hrange.
  - by rewrite Hperm.
  - by rewrite Hperm.
Qed.
Lemma tinv_set_ov t sl ess ovl o ovl' E' n' : tinv t sl ess ovl -> ovrel pf fair (hb (t_b t)) (2^(t_b t)) o ovl' ->
  concat ess ++ ovl' ≡ₚ E' -> NoDup (keys_of E') -> (forall k v, (k, v) ∈ E' -> kdom c kw k /\ nv v = v) ->
  n' = u64 (N.of_nat (length E')) -> tinv (set_n (set_ov t o) n') sl ess ovl'.
Proof.
  intros H Ho Hperm Hnd Hrange Hn.
  constructor; cbn [set_ov set_n t_slots t_b t_n t_kw t_vw t_ov]; try apply H; try done.
  - intros k v. rewrite Hperm. apply Hrange.
  - by rewrite Hperm.
  - by rewrite Hperm.
Qed.
Lemma set_n_id t : set_n t (t_n t) = t.
Proof. by destruct t. Qed.

(** ** Allocation *)
Lemma alloc_spec t n : tzero t -> 1 <= n <= 2^63 -> bmin <= N.log2_up n <= bmax ->
  exists t', alloc_table pf t n = Ok t' /\ t_b t' = N.log2_up n /\
    exists sl ess, tinv t' sl ess [] /\ concat ess = [].
Proof.
  intros (Hb & Hn0 & Hk & Hv & Ho & _) Hn Hbits. unfold alloc_table. rewrite reserve_bits_spec by done.
  cbn [mbind res_bind]. set (b := N.log2_up n) in *. eexists; split; [done|]. split; [done|].
  exists (replicate (N.to_nat (2^b)) empty_slot), (replicate (N.to_nat (2^b)) []).
  assert (Hc : concat (replicate (N.to_nat (2^b)) (@nil (N * N))) = []) by apply concat_replicate_nil.
  split; [|done]. constructor; cbn [t_slots t_b t_n t_kw t_vw t_ov]; rewrite ?Hc; cbn [app length fmap list_fmap]; try done.
  - rewrite replicate_length. lia.
  - apply Forall2_replicate, slot_repr_empty.
  - apply placed_nil.
  - intros k v Hin. by apply elem_of_nil in Hin.
  - constructor.
  - apply ov_resize_spec; [by intros (_ & _ & ?)|apply pow2_le_63; pose proof (ok_bounds b Hbits); lia|done].
Qed.

Lemma new_table_zero : tzero (new_table pf c kw vw).
Proof.
  unfold new_table, tzero. cbn [t_slots t_b t_n t_kw t_vw t_ov]. do 4 (split; [done|]). split; [|done].
  pose proof (ok_ov _ _ _ _ _ _ OK) as Hov. destruct (c_ov c); [done| |done].
  split; [|done]. cbn [ov_new b_initialize]. unfold arr_state. done.
Qed.

(** Values that fit are not changed by the truncations of the overflow. *)
Lemma nv_mod v : c_val c <> KNull -> nv v = v -> v mod 2^N.of_nat (vbn c) = v.
Proof.
  intros Hk. unfold TableProofs.nv, vbn. pose proof (ok_val _ _ _ _ _ _ OK) as Hv.
  destruct (c_val c); cbn [norm kind_bits kind_ok] in *; try done.
  intros E. rewrite N.mod_small; [done|]. destruct Hv as (_ & _ & Hv).
  assert (v < 2^N.of_nat (N.to_nat vw)) by (rewrite <-E; apply N.mod_lt, N.pow_nonzero; lia).
  eapply N.lt_le_trans; [done|]. apply N.pow_le_mono_r; lia.
Qed.
End inv.
