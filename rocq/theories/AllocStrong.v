(** Tables whose buckets use malloc keep their content if a request fails. *)
From Verif Require Export AllocInv.

(** Keys that agree in the bucket of a larger table agree in the bucket of a smaller one. *)
Lemma bucket_refines pf c kw vw bmin b b' k k' : cfg_core pf c kw vw bmin -> bmin <= b -> b <= b' -> b' <= bits_max c kw ->
  hb c kw b' k = hb c kw b' k' -> hb c kw b k = hb c kw b k'.
Proof.
  intros [Hkw Hbmin _ _ _ _] Hb Hbb Hb'. unfold hb, hmk, bits_max in *.
  assert (Hmod : forall x, x mod 2^b = (x mod 2^b') mod 2^b).
  { intros x. replace (2^b') with (2^b * 2^(b' - b)) by (rewrite <-N.pow_add_r; f_equal; lia).
    rewrite N.mod_mul_r by (apply N.pow_nonzero; lia). rewrite N.mul_comm, N.mod_add by (apply N.pow_nonzero; lia).
    rewrite N.mod_mod by (apply N.pow_nonzero; lia). done. }
  destruct (c_hash c).
  - rewrite !hash_map_bij by lia. intros E. rewrite (Hmod (bij_hash _ _ k)), (Hmod (bij_hash _ _ k')). by rewrite E.
  - rewrite !hash_map_adapter by lia. intros E. rewrite (Hmod (u64 (_ k))), (Hmod (u64 (_ k'))). by rewrite E.
Qed.

Section strong.
Context (pf : platform) (c : cfg) (kw vw bmin bmax : N) (strict : Prop).
Notation hq := (hq c kw). Notation hb := (hb c kw). Notation qw := (qw c kw). Notation nv := (nv c vw).
Notation srepr := (slot_repr pf c kw vw strict).
Notation tinv := (tinv pf c kw vw bmin bmax strict).
Notation tcon := (tcon pf c kw vw bmin bmax strict).
Notation tzero := (tzero pf c kw vw).
Hypothesis OK : table_ok0 pf c kw vw bmin bmax.
Hypothesis SP : table_spread c kw bmin bmax.
Hypothesis DUM : c_ov c = OvDummy.
Hypothesis NK : kind_new (c_key c) = false.
Hypothesis NV : kind_new (c_val c) = false.
Hypothesis REF : forall b b' k k', bmin <= b -> b <= b' -> b' <= bmax -> hb b' k = hb b' k' -> hb b k = hb b k'.

Implicit Types (t tmp : table) (ess : list entries) (ovl E : entries) (sl : list slot).

Lemma a_push_malloc t s q v h s' : push_slot pf c t s q v = Ok s' -> a_push_slot pf c t s q v h = Ok (Done s' h).
Proof.
  unfold a_push_slot, push_slot. rewrite NK, NV. cbn [request]. cbn zeta. destruct (s_size s =? 0).
  - cbn [mbind res_bind]. intros H. rgo H. rgo H. by injection H as <-.
  - destruct (rs_needs_resize _ _ _).
    + intros H. destruct (b_resize pf (c_key c) _ _ _ _); cbn [mbind res_bind] in *; [|done..].
      destruct (b_resize pf (c_val c) _ _ _ _); cbn [mbind res_bind] in *; [|done..]. rgo H. rgo H. by injection H as <-.
    + cbn [mbind res_bind]. intros H. rgo H. rgo H. by injection H as <-.
Qed.

(** Where the bucket has room no request is made. *)
Lemma a_insert_room f t sl ess ovl k v h : tinv t sl ess ovl -> kdom c kw k ->
  (forall es, ess !! N.to_nat (hb (t_b t) k) = Some es -> N.of_nat (length es) < c_maxb c) ->
  exists r, a_find_or_insert pf c (S f) t k v h = Ok (Done r h) /\ t_b (fst r) = t_b t.
Proof.
  intros H Hk Hroom. pose proof (tinv_dummy _ _ _ _ _ _ _ DUM _ _ _ _ H) as [Hdum ->].
  cbn [a_find_or_insert]. destruct (tinv_bc _ _ _ _ _ _ _ OK _ _ _ _ H) as [Hb0 Hbc]. rewrite Hb0. cbn [mbind res_bind].
  destruct (tinv_hash _ _ _ _ _ _ _ OK _ _ _ _ _ H Hk) as (Eh & Hlt & _). rewrite Eh. cbn [mbind res_bind].
  destruct (locate_q_spec _ _ _ _ _ _ _ OK _ _ _ _ _ H Hk) as (s & es & Hg & Hs & He & Hr & Hloc).
  rewrite Hg. cbn [mbind res_bind].
  destruct Hloc as [(p & v0 & El & Hp)|[El Hn]]; rewrite El; cbn [mbind res_bind]; [eexists; split; [done|]; done|].
  rewrite Hdum. cbn [ov_need_consult mbind res_bind]. specialize (Hroom es He). pose proof Hr as (Hsz & _).
  rewrite (proj2 (N.eqb_neq _ _)) by lia.
  destruct (push_slot_spec pf c kw vw bmin bmax strict OK t (t_b t) s es k v (ti_b _ _ _ _ _ _ _ _ _ _ _ H) eq_refl (ti_kw _ _ _ _ _ _ _ _ _ _ _ H) (ti_vw _ _ _ _ _ _ _ _ _ _ _ H) Hr Hroom Hk) as (s' & Ep & _).
  rewrite (a_push_malloc _ _ _ _ h _ Ep). cbn [mbind res_bind]. eexists; split; [done|]. done.
Qed.

(** The temporary map of reserve never grows. *)
Definition held B t E : Prop := exists sl ess, tinv t sl ess [] /\ t_b t = B /\ concat ess ≡ₚ E.
Lemma a_reserve_strong f t sl ess n h : tinv t sl ess [] -> 1 <= n <= 2^63 -> t_b t <= N.log2_up n <= bmax -> (N.to_nat (bmax - N.log2_up n) < f)%nat ->
  (exists t' h', a_reserve_with pf c (a_find_or_insert pf c f) t n h = Ok (Done t' h') /\ held (N.log2_up n) t' (concat ess))
  \/ a_reserve_with pf c (a_find_or_insert pf c f) t n h = Ok (Bad t).
Proof.
  intros H Hn Hbits Hf. pose proof (ti_b _ _ _ _ _ _ _ _ _ _ _ H) as Hb. set (B := N.log2_up n) in *.
  assert (H63 : B <= 63) by (pose proof (ok_bounds _ _ _ _ _ _ OK B ltac:(lia)); lia).
  assert (Hl2 : N.log2_up (2^B) = B) by (apply N.log2_up_pow2; lia).
  destruct (alloc_spec pf c kw vw bmin bmax strict OK (new_table pf c kw vw) (2^B)) as (tmp & Ea & Hb' & sl0 & ess0 & Hi0 & Hc0).
  { by apply (new_table_zero pf c kw vw bmin bmax). }
  { split; [|by apply pow2_le_63]. pose proof (N.pow_nonzero 2 B ltac:(done)). lia. }
  { rewrite Hl2. lia. }
  destruct (a_reserve_with_safe pf c kw vw bmin bmax strict OK DUM (a_find_or_insert pf c f) (held B) (fun _ => False) (concat ess)) with (t := t) (sl := sl) (ess := ess) (n := n) (tmp0 := tmp) (h := h)
    as [(t1 & h1 & Et1 & Ht1)|[->|(tmp1 & i & _ & [] & _)]]; [..|left; eauto|by right].
  - intros t1 E E' HP (sl1 & ess1 & H1 & Hb1 & HE1). exists sl1, ess1. split; [done|]. split; [done|]. by rewrite HE1.
  - intros tmp1 E1 k v h1 (sl1 & ess1 & H1 & HB1 & HE1) Hin Hni HEE Hnd.
    destruct (ti_range _ _ _ _ _ _ _ _ _ _ _ H k v ltac:(apply elem_of_app; by left)) as [Hk Hv].
    destruct f as [|f]; [lia|].
    destruct (a_insert_room f tmp1 sl1 ess1 [] k v h1 H1 Hk) as (r & Er & Hbr).
    { (* all keys of that bucket come from one bucket of t *)
      intros es1 He1. apply elem_of_concat in Hin as (i & es & Hi & Hin).
      destruct (tinv_in_bucket _ _ _ _ _ _ _ _ _ _ _ _ _ _ _ H Hi Hin) as [_ Hki].
      assert (Hincl : forall k1, k1 ∈ k :: keys_of es1 -> k1 ∈ keys_of es).
      { intros k1 Hk1. apply elem_of_cons in Hk1 as [->|Hk1]; [apply keys_elem; eauto|].
        apply keys_elem in Hk1 as (v1 & Hv1).
        assert (Hin1 : (k1, v1) ∈ concat ess).
        { apply HEE. rewrite <-HE1. apply elem_of_concat. eauto. }
        apply elem_of_concat in Hin1 as (i1 & es2 & Hi1 & Hin1).
        destruct (tinv_in_bucket _ _ _ _ _ _ _ _ _ _ _ _ _ _ _ H Hi1 Hin1) as [Hk1d Hki1].
        destruct (tinv_in_bucket _ _ _ _ _ _ _ _ _ _ _ _ _ _ _ H1 He1 Hv1) as [_ Hk1b]. rewrite N2Nat.id, HB1 in Hk1b.
        assert (Hsame : hb (t_b t) k1 = hb (t_b t) k) by (apply (REF (t_b t) B); [lia|lia|lia|exact Hk1b]).
        assert (i1 = i) as -> by lia. rewrite Hi in Hi1. injection Hi1 as <-. apply keys_elem. eauto. }
      assert (Hnd1 : NoDup (k :: keys_of es1)).
      { apply NoDup_cons. split; [|by eapply tinv_nodup_bucket]. intros Hx. apply Hni. apply keys_elem in Hx as (v1 & Hx).
        apply keys_elem. exists v1. rewrite <-HE1. apply elem_of_concat. eauto. }
      assert (Hle : (length (k :: keys_of es1) <= length (keys_of es))%nat).
      { apply NoDup_incl_length; [by apply NoDup_ListNoDup|]. intros x Hx. apply elem_of_list_In, Hincl, elem_of_list_In, Hx. }
      cbn [length] in Hle. rewrite !fmap_length in Hle.
      destruct (Forall2_lookup_r _ _ _ _ _ (ti_repr _ _ _ _ _ _ _ _ _ _ _ H) Hi) as (s & _ & _ & Hmx & _). lia. }
    left. exists r, h1. split; [done|]. apply a_insert_done in Er.
    destruct (find_or_insert_spec pf c kw vw bmin bmax strict OK SP (S f) tmp1 sl1 ess1 [] k v H1 ltac:(lia) Hk ltac:(by left)) as (t2 & x2 & sl2 & ess2 & ovl2 & Er2 & H2 & _ & Hres).
    rewrite Er in Er2. injection Er2 as ->. cbn [fst] in *. rewrite (proj2 (emap_None _ k)) in Hres by (rewrite app_nil_r, HE1; done). destruct Hres as [Hres _].
    pose proof (tinv_dummy _ _ _ _ _ _ _ DUM _ _ _ _ H2) as [_ ->]. rewrite !app_nil_r in Hres.
    exists sl2, ess2. split; [done|]. split; [congruence|]. by rewrite Hres, HE1, Hv.
  - done.
  - done.
  - done.
  - exact Ea.
  - exists sl0, ess0. split; [done|]. split; [by rewrite Hb', Hl2|]. by rewrite Hc0.
  - done.
Qed.

(** Insertion completes or leaves a table with the same content. *)
Lemma a_insert_strong : forall fuel t sl ess k v h, tinv t sl ess [] -> (N.to_nat (bmax - t_b t) < fuel)%nat ->
  kdom c kw k -> nv v = v \/ c_val c = KNull ->
  (exists r h', a_find_or_insert pf c fuel t k v h = Ok (Done r h'))
  \/ (exists t' sl' ess', a_find_or_insert pf c fuel t k v h = Ok (Bad t') /\ tinv t' sl' ess' [] /\ concat ess' ≡ₚ concat ess /\ t_b t <= t_b t' /\ k ∉ keys_of (concat ess)).
Proof.
  induction fuel as [|f IH]; intros t sl ess k v h H Hf Hk Hv; [lia|].
  destruct (locate_q_spec _ _ _ _ _ _ _ OK _ _ _ _ _ H Hk) as (s & es & Hg & Hs & He & Hr & Hloc).
  destruct (decide (N.of_nat (length es) < c_maxb c)) as [Hroom|Hfull].
  { left. destruct (a_insert_room f t sl ess [] k v h H Hk) as (r & Er & _); [|eauto]. intros es' He'. rewrite He in He'. by injection He' as <-. }
  destruct (find_or_insert_spec pf c kw vw bmin bmax strict OK SP (S f) t sl ess [] k v H Hf Hk Hv) as (t' & x & sl' & ess' & ovl' & Er & H' & Hgrown & _).
  pose proof (tinv_dummy _ _ _ _ _ _ _ DUM _ _ _ _ H) as [Hdum _].
  cbn [a_find_or_insert]. destruct (tinv_bc _ _ _ _ _ _ _ OK _ _ _ _ H) as [Hb0 Hbc]. rewrite Hb0. cbn [mbind res_bind].
  destruct (tinv_hash _ _ _ _ _ _ _ OK _ _ _ _ _ H Hk) as (Eh & Hlt & _). rewrite Eh. cbn [mbind res_bind].
  rewrite Hg. cbn [mbind res_bind].
  destruct Hloc as [(p & v0 & El & Hp)|[El Hn]]; rewrite El; cbn [mbind res_bind]; [left; eauto|].
  rewrite Hdum. cbn [ov_need_consult mbind res_bind]. pose proof Hr as (Hsz & Hmx & _).
  assert (Emax : (s_size s =? c_maxb c) = true) by (apply N.eqb_eq; lia). rewrite Emax.
  cbn [ov_size ov_capacity]. change (0 <? 0) with false. cbn [mbind res_bind].
  assert (Hso : set_ov t ODummy = t) by (destruct t; cbn in *; by subst). rewrite Hso.
  assert (Hlt2 : t_b t < bmax).
  { destruct Hgrown as [(Ht' & _ & Hr')|[Hlt' _]].
    - destruct (Hr' DUM Hn) as (es' & He' & Hl'). rewrite He in He'. by injection He' as <-.
    - pose proof (ti_b _ _ _ _ _ _ _ _ _ _ _ H'). lia. }
  pose proof (ok_b _ _ _ _ _ _ OK) as Hob. rewrite shl64_1 by lia. cbn [mbind res_bind].
  assert (Hl2 : N.log2_up (2^(t_b t + 1)) = t_b t + 1) by (apply N.log2_up_pow2; lia).
  destruct (a_reserve_strong f t sl ess (2^(t_b t + 1)) h H) as [(t1 & h1 & -> & Ht1)| ->]; cbn [mbind res_bind].
  - split; [|apply pow2_le_63; lia]. pose proof (N.pow_nonzero 2 (t_b t + 1) ltac:(done)). lia.
  - rewrite Hl2. lia.
  - rewrite Hl2. lia.
  - rewrite Hl2 in Ht1. destruct Ht1 as (sl1 & ess1 & H1 & HB1 & HE1).
    destruct (IH t1 sl1 ess1 k v h1 H1 ltac:(lia) Hk Hv) as [Hd|(t2 & sl2 & ess2 & E2 & H2 & HE2 & Hle & _)]; [by left|].
    right. exists t2, sl2, ess2. split; [done|]. split; [done|]. split; [by rewrite HE2|]. split; [lia|done].
  - right. exists t, sl, ess. split; [done|]. split; [done|]. split; [done|]. split; [lia|done].
Qed.
Lemma a_shrink_malloc t h t' : shrink_to_fit pf c t = Ok t' -> a_shrink_to_fit pf c t h = Ok (Done t' h).
Proof.
  unfold a_shrink_to_fit, shrink_to_fit. destruct (t_b t =? 0); [by intros [= ->]|]. destruct (t_slots t) as [sl|]; [|done].
  intros H. rinv H. injection H as <-.
  assert (Es : forall sl sl', rmap (shrink_slot pf c t) sl = Ok sl' -> a_shrink_slots pf c t sl h = Ok (Done sl' h)).
  { clear -NK NV. induction sl as [|s sl IH]; intros sl'; cbn [rmap a_shrink_slots]; [by intros [= <-]|]. intros H.
    destruct (shrink_slot pf c t s) as [a| | |] eqn:E; cbn [mbind res_bind] in H; [|done..].
    destruct (rmap (shrink_slot pf c t) sl) as [a0| | |] eqn:E0 in H; cbn [mbind res_bind] in H; [|done..]. injection H as <-.
    assert (E1 : a_shrink_slot pf c t s h = Ok (Done a h)).
    { unfold a_shrink_slot, shrink_slot in *. rewrite NK, NV. cbn [request]. destruct (s_size s =? 0); [by injection E as ->|]. destruct (rs_can_shrink _ _ _); [|by injection E as ->].
      cbn zeta in *. rgo E. rgo E. by injection E as <-. }
    rewrite E1. cbn [mbind res_bind]. rewrite (IH _ E0). done. }
  rewrite (Es _ _ E). done.
Qed.
End strong.
