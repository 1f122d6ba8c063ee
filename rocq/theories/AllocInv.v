(** What separate_chaining_table guarantees if a request fails: it never runs into undefined behaviour itself, the table left behind can be
    destroyed, and tables whose buckets do not use operator new keep their content. *)
From Verif Require Export AllocProofs.

Section inv.
Context (pf : platform) (c : cfg) (kw vw bmin bmax : N) (strict : Prop).
Notation hq := (hq c kw). Notation hb := (hb c kw). Notation qw := (qw c kw). Notation nv := (nv c vw).
Notation fair := (ov_side pf c kw).
Notation srepr := (slot_repr pf c kw vw strict).
Notation tinv := (tinv pf c kw vw bmin bmax strict).
Notation tcon := (tcon pf c kw vw bmin bmax strict).
Notation tzero := (tzero pf c kw vw).
Notation nav_entry := (nav_entry pf).
Hypothesis OK : table_ok0 pf c kw vw bmin bmax.
Hypothesis SP : table_spread c kw bmin bmax.
Hypothesis DUM : c_ov c = OvDummy.

Implicit Types (t tmp : table) (ess : list entries) (ovl E : entries) (sl : list slot).

(** ** Destruction *)
Definition sfree (s : slot) : Prop := b_free pf (c_key c) (s_keys s) = Ok () /\ b_free pf (c_val c) (s_vals s) = Ok ().
Definition tfree t : Prop := match t_slots t with None => True | Some sl => Forall sfree sl end /\ exists o, ov_clear pf (kbn c) (vbn c) (t_ov t) = Ok o.

Lemma clear_free t : tfree t -> exists t', clear pf c t = Ok t'.
Proof.
  intros [Hs [o Ho]]. unfold clear. destruct (t_slots t) as [sl|] eqn:Esl; [|rewrite Ho; cbn; eauto].
  set (nb := N.to_nat (bucket_count t)).
  assert (Hr : exists sl', rmap (fun s => if s_size s =? 0 then Ok s else clear_slot pf c s) (take nb sl) = Ok sl' /\ Forall sfree sl').
  { assert (Hf : Forall sfree (take nb sl)) by (by apply Forall_take). revert Hf. generalize (take nb sl). induction l as [|s l IH]; [by exists []|].
    rewrite Forall_cons. intros [[H1 H2] Hl]. cbn [rmap].
    assert (E : exists s', (if s_size s =? 0 then Ok s else clear_slot pf c s) = Ok s' /\ sfree s').
    { destruct (s_size s =? 0); [by exists s|]. unfold clear_slot, b_clear. rewrite H2. cbn [mbind res_bind]. rewrite H1. cbn [mbind res_bind]. eexists; split; [done|]. done. }
    destruct E as (s' & -> & Hs'). cbn [mbind res_bind]. destruct (IH Hl) as (l' & -> & Hl'). cbn [mbind res_bind]. exists (s' :: l'). split; [done|]. by constructor. }
  destruct Hr as (sl' & -> & Hf). cbn [mbind res_bind]. unfold clear_structure. cbn [t_slots t_ov t_kw t_vw].
  assert (Hf2 : Forall sfree (sl' ++ drop nb sl)) by (apply Forall_app; split; [done|by apply Forall_drop]).
  assert (Hfold : rfold (fun _ s => _ ← b_free pf (c_key c) (s_keys s); b_free pf (c_val c) (s_vals s)) (sl' ++ drop nb sl) () = Ok ()).
  { revert Hf2. generalize (sl' ++ drop nb sl). induction l as [|s l IH]; [done|]. rewrite Forall_cons. intros [[H1 H2] Hl]. cbn [rfold].
    rewrite H1. cbn [mbind res_bind]. rewrite H2. cbn [mbind res_bind]. by apply IH. }
  rewrite Hfold. cbn [mbind res_bind]. rewrite Ho. cbn. eauto.
Qed.
Lemma srepr_free b s es : srepr b s es -> sfree s.
Proof. apply slot_free. Qed.
Lemma tinv_free t sl ess ovl : tinv t sl ess ovl -> tfree t.
Proof.
  intros H. split.
  - rewrite (ti_slots _ _ _ _ _ _ _ _ _ _ _ H). eapply Forall2_Forall_l; [apply (ti_repr _ _ _ _ _ _ _ _ _ _ _ H)|].
    apply Forall_true. intros es s. apply srepr_free.
  - destruct (ov_clear_ok pf (kbn c) (vbn c) _ _ _ _ _ (ti_ov _ _ _ _ _ _ _ _ _ _ _ H)) as (o & -> & _). eauto.
Qed.
Lemma empty_slot_free : sfree empty_slot.
Proof. done. Qed.
Lemma tinv_dummy t sl ess ovl : tinv t sl ess ovl -> t_ov t = ODummy /\ ovl = [].
Proof.
  intros H. pose proof (ti_ov _ _ _ _ _ _ _ _ _ _ _ H) as Ho. destruct (t_ov t); [by destruct Ho| |].
  - destruct Ho as (_ & [Ho _] & _). congruence.
  - destruct Ho as (_ & (_ & _ & [Ho _]) & _). congruence.
Qed.
Lemma new_free : tfree (new_table pf c kw vw).
Proof. split; [done|]. cbn [new_table t_ov]. rewrite DUM. by exists ODummy. Qed.

(** ** Rehashing *)
Section rehash.
(** The temporary map holds entries as R says; if an insertion fails it is left as Q says. *)
Context (ains : table -> N -> N -> heap -> res inserted) (R : table -> entries -> Prop) (Q : table -> Prop) (EE : entries).
Hypothesis R_perm : forall t E E', E ≡ₚ E' -> R t E -> R t E'.
Hypothesis Hins : forall tmp E k v h, R tmp E -> (k, v) ∈ EE -> k ∉ keys_of E -> (forall e, e ∈ E -> e ∈ EE) -> NoDup (keys_of E) ->
  (exists r h', ains tmp k v h = Ok (Done r h') /\ R (fst r) ((k, v) :: E)) \/ (exists tmp', ains tmp k v h = Ok (Bad tmp') /\ Q tmp').

Lemma a_rehash_bucket_safe t s es i : bmin <= t_b t <= bmax -> t_kw t = kw -> t_vw t = vw -> srepr (t_b t) s es ->
  (forall k v, (k, v) ∈ es -> hb (t_b t) k = N.of_nat i /\ kdom c kw k /\ nv v = v) ->
  forall n j tmp E h, (j + n = length es)%nat -> R tmp E -> NoDup (keys_of (drop j es ++ E)) -> (forall e, e ∈ drop j es ++ E -> e ∈ EE) ->
  (exists tmp' h', a_rehash_bucket pf c ains t i s n j tmp h = Ok (Done tmp' h') /\ R tmp' (drop j es ++ E))
  \/ (exists tmp', a_rehash_bucket pf c ains t i s n j tmp h = Ok (Bad tmp') /\ Q tmp').
Proof.
  intros Hb Hk Hv Hr Hes.
  assert (Hhm : hm c t = hmk c kw) by (unfold hm, hmk; by rewrite Hk).
  assert (Hq : qwidth c t = qw (t_b t)) by (unfold qwidth, TableProofs.qw; by rewrite Hhm).
  assert (Hvw : vwidth t = N.to_nat vw) by (unfold vwidth; by rewrite Hv).
  induction n as [|n IH]; intros j tmp E h Hj Htmp Hnd HE; cbn [a_rehash_bucket].
  - left. exists tmp, h. split; [done|]. by rewrite drop_ge by lia.
  - destruct (lookup_lt_is_Some_2 es j ltac:(lia)) as [[k v] Hp].
    destruct (Hes k v ltac:(by eapply elem_of_list_lookup_2)) as (Hhb & Hkr & Hvr).
    rewrite (drop_S _ _ _ Hp) in Hnd, HE |- *.
    rewrite Hq, Hvw, Hhm.
    rewrite (slot_read_key pf c kw vw bmin bmax strict OK _ _ _ _ _ _ Hb Hr Hp). cbn [mbind res_bind].
    destruct (ok_map _ _ _ _ _ _ OK (t_b t) k Hb Hkr) as (_ & _ & _ & Hinv). rewrite Hhb in Hinv. rewrite Hinv.
    cbn [mbind res_bind].
    rewrite (slot_read_val pf c kw vw bmin bmax strict OK _ _ _ _ _ _ Hr Hp). cbn [mbind res_bind].
    cbn [app] in Hnd, HE |- *. cbn [fmap list_fmap fst] in Hnd. apply NoDup_cons in Hnd as [Hk1 Hnd].
    rewrite fmap_app in Hk1. apply not_elem_of_app in Hk1 as [Hk0 Hk1].
    assert (HndE : NoDup (keys_of E)) by (rewrite fmap_app in Hnd; by apply NoDup_app in Hnd as (_ & _ & ?)).
    destruct (Hins tmp E k v h Htmp (HE _ ltac:(by constructor)) Hk1 ltac:(intros e He; apply HE; constructor; apply elem_of_app; by right) HndE)
      as [([tmp1 x] & h1 & -> & Hr')|(tmp1 & -> & HQ)]; cbn [mbind res_bind fst] in *; [|right; eauto].
    assert (HP : drop (S j) es ++ (k, v) :: E ≡ₚ (k, v) :: drop (S j) es ++ E) by solve_Permutation.
    destruct (IH (S j) tmp1 ((k, v) :: E) h1) as [(tmp2 & h2 & E2 & R2)|HQ].
    + lia.
    + done.
    + rewrite HP. cbn. apply NoDup_cons. rewrite fmap_app. split; [by apply not_elem_of_app|]. by rewrite <-fmap_app.
    + intros e. rewrite HP. apply HE.
    + left. exists tmp2, h2. rewrite Hq, Hvw, Hhm in E2 || idtac. split; [exact E2|]. eapply R_perm; [|exact R2]. solve_Permutation.
    + by right.
Qed.

Lemma a_rehash_safe t : bmin <= t_b t <= bmax -> t_kw t = kw -> t_vw t = vw ->
  forall sl ess i tmp E h, Forall2 (srepr (t_b t)) sl ess ->
  (forall j es k v, ess !! j = Some es -> (k, v) ∈ es -> hb (t_b t) k = N.of_nat (i + j) /\ kdom c kw k /\ nv v = v) ->
  R tmp E -> NoDup (keys_of (concat ess ++ E)) -> (forall e, e ∈ concat ess ++ E -> e ∈ EE) ->
  (exists tmp' h', a_rehash pf c ains t i sl tmp h = Ok (Done tmp' h') /\ R tmp' (concat ess ++ E))
  \/ (exists tmp' n, a_rehash pf c ains t i sl tmp h = Ok (Bad (tmp', replicate n empty_slot ++ drop n sl)) /\ Q tmp' /\ (n < length sl)%nat).
Proof.
  intros Hb Hk Hv. induction sl as [|s sl IH]; intros ess i tmp E h HF Hpl Htmp Hnd HE; cbn [a_rehash].
  - apply Forall2_nil_inv_l in HF as ->. cbn. left. by exists tmp, h.
  - apply Forall2_cons_inv_l in HF as (es & ess' & Hs & HF & ->). cbn [concat] in Hnd, HE |- *.
    assert (HP : (es ++ concat ess') ++ E ≡ₚ concat ess' ++ es ++ E) by solve_Permutation.
    assert (Hnd2 : NoDup (keys_of (es ++ E))) by (rewrite HP, fmap_app in Hnd; by apply NoDup_app in Hnd as (_ & _ & ?)).
    rewrite HP in Hnd. setoid_rewrite HP in HE.
    assert (Hstep : (exists tmp1 h1, (if s_size s =? 0 then _ ← b_free pf (c_key c) (s_keys s); _ ← b_free pf (c_val c) (s_vals s); Ok (Done tmp h)
                                     else a_rehash_bucket pf c ains t i s (N.to_nat (s_size s)) 0 tmp h) = Ok (Done tmp1 h1) /\ R tmp1 (es ++ E))
       \/ (exists tmp1, (if s_size s =? 0 then _ ← b_free pf (c_key c) (s_keys s); _ ← b_free pf (c_val c) (s_vals s); Ok (Done tmp h)
                                     else a_rehash_bucket pf c ains t i s (N.to_nat (s_size s)) 0 tmp h) = Ok (Bad tmp1) /\ Q tmp1)).
    { pose proof Hs as (Hsz & _). destruct (N.eqb_spec (s_size s) 0) as [E0|E0].
      - left. destruct (slot_free _ _ _ _ _ _ _ _ Hs) as [-> H2]. cbn [mbind res_bind]. rewrite H2. cbn [mbind res_bind].
        exists tmp, h. split; [done|]. destruct es; [done|cbn in Hsz; lia].
      - rewrite Hsz, Nat2N.id.
        apply (a_rehash_bucket_safe t s es i Hb Hk Hv Hs) with (j := 0%nat); [|done|done|done|].
        + intros k v Hin. pose proof (Hpl 0%nat es k v eq_refl Hin) as Hx. by rewrite Nat.add_0_r in Hx.
        + intros e He. apply HE. apply elem_of_app. by right. }
    destruct Hstep as [(tmp1 & h1 & -> & R1)|(tmp1 & -> & Q1)]; cbn [mbind res_bind].
    + assert (Ec : (if s_size s =? 0 then Ok s else clear_slot pf c s) = Ok empty_slot).
      { destruct (N.eqb_spec (s_size s) 0) as [E0|E0]; [|by eapply slot_clear].
        destruct Hs as (Hsz & _ & Hs & _). destruct es; [by rewrite Hs|cbn in Hsz; lia]. }
      rewrite Ec. cbn [mbind res_bind].
      destruct (IH ess' (S i) tmp1 (es ++ E) h1 HF) as [(tmp2 & h2 & -> & R2)|(tmp2 & n & -> & Q2 & Hn)]; cbn [mbind res_bind]; [|done|done|done|..].
      * intros j es' k v Hj Hin. replace (S i + j)%nat with (i + S j)%nat by lia. by apply (Hpl (S j) es').
      * left. exists tmp2, h2. split; [done|]. eapply R_perm; [|exact R2]. solve_Permutation.
      * right. exists tmp2, (S n). split; [done|]. split; [done|]. cbn. lia.
    + right. exists tmp1, 0%nat. split; [done|]. split; [done|]. cbn. lia.
Qed.

(** What a failed reserve leaves behind if some buckets were already moved: they are empty, everything else is untouched. *)
Lemma a_reserve_with_safe t sl ess n tmp0 h : tinv t sl ess [] -> (forall e, e ∈ concat ess -> e ∈ EE) -> 1 <= n <= 2^63 ->
  alloc_table pf (new_table pf c kw vw) (2^N.log2_up n) = Ok tmp0 -> R tmp0 [] -> (forall tmp, Q tmp -> tfree tmp) ->
  (exists t' h', a_reserve_with pf c ains t n h = Ok (Done t' h') /\ R t' (concat ess))
  \/ a_reserve_with pf c ains t n h = Ok (Bad t)
  \/ (exists tmp i, a_reserve_with pf c ains t n h = Ok (Bad (with_slots t (replicate i empty_slot ++ drop i sl))) /\ Q tmp /\ (i < length sl)%nat).
Proof.
  intros H HE Hn Ea Htmp HQ. unfold a_reserve_with. destruct (tinv_bc _ _ _ _ _ _ _ OK _ _ _ _ H) as [-> Hbc].
  rewrite reserve_bits_spec by done. cbn [mbind res_bind].
  pose proof (ti_kw _ _ _ _ _ _ _ _ _ _ _ H) as Hk. pose proof (ti_vw _ _ _ _ _ _ _ _ _ _ _ H) as Hv. rewrite Hk, Hv.
  unfold a_alloc_table. rewrite Ea. cbn [mbind res_bind]. destruct (clear_free _ new_free) as (t0 & Et0).
  assert (Hnew : (_ ← clear pf c (new_table pf c kw vw); Ok (Bad t)) = (Ok (Bad t) : res (tried table table))) by (by rewrite Et0).
  destruct (request true h) as [h1|]; cbn [mbind res_bind]; [|right; left; exact Hnew].
  destruct (request (has_values (c_val c)) h1) as [h2|]; cbn [mbind res_bind]; [|right; left; exact Hnew].
  pose proof (ti_slots _ _ _ _ _ _ _ _ _ _ _ H) as Hsl. rewrite Hsl. rewrite Hbc.
  rewrite take_ge, drop_ge by (pose proof (ti_len _ _ _ _ _ _ _ _ _ _ _ H); lia).
  pose proof (ti_nodup _ _ _ _ _ _ _ _ _ _ _ H) as Hnd. rewrite app_nil_r in Hnd.
  destruct (a_rehash_safe t (ti_b _ _ _ _ _ _ _ _ _ _ _ H) Hk Hv sl ess 0 tmp0 [] h2 (ti_repr _ _ _ _ _ _ _ _ _ _ _ H))
    as [(tmp1 & h3 & -> & R1)|(tmp1 & i & -> & Q1 & Hi)]; cbn [mbind res_bind].
  - intros j es k v Hj Hin. split; [by apply (ti_placed _ _ _ _ _ _ _ _ _ _ _ H j es k v)|].
    apply (ti_range _ _ _ _ _ _ _ _ _ _ _ H) . apply elem_of_app. left. apply elem_of_concat. eauto.
  - done.
  - by rewrite app_nil_r.
  - by rewrite app_nil_r.
  - left. destruct (tinv_dummy _ _ _ _ H) as [-> _]. cbn. rewrite app_nil_r in R1. by exists tmp1, h3.
  - right. right. exists tmp1, i. destruct (clear_free tmp1 (HQ _ Q1)) as (t1 & ->). cbn [mbind res_bind]. by rewrite app_nil_r.
Qed.
End rehash.

(** ** Insertion never fails in another way, and leaves a table that can be destroyed *)
Lemma a_push_safe t b s es k v h : bmin <= b <= bmax -> t_b t = b -> t_kw t = kw -> t_vw t = vw ->
  srepr b s es -> N.of_nat (length es) < c_maxb c -> kdom c kw k ->
  (exists s' h', a_push_slot pf c t s (hq b k) v h = Ok (Done s' h'))
  \/ (exists s', a_push_slot pf c t s (hq b k) v h = Ok (Bad s') /\ sfree s' /\ s_size s' = N.of_nat (length es) + 1).
Proof.
  intros Hb Etb Etk Etv Hs Hlt Hk. pose proof (ok_maxb _ _ _ _ _ _ OK) as Hmax.
  destruct (push_slot_spec pf c kw vw bmin bmax strict OK t b s es k v Hb Etb Etk Etv Hs Hlt Hk) as (s' & Ep & _).
  destruct (ok_kind _ _ _ _ _ _ OK b Hb) as [Hkd Hqw].
  assert (Hq : qwidth c t = qw b) by (unfold qwidth, hm, TableProofs.qw, hmk; by rewrite Etb, Etk).
  pose proof (srepr_free _ _ _ Hs) as [Hf1 Hf2]. pose proof Hs as (Hsz & _).
  unfold a_push_slot, push_slot in *. cbv zeta in *. destruct (N.eqb_spec (s_size s) 0) as [E0|E0].
  - cbn [mbind res_bind] in Ep. destruct (request (kind_new (c_key c)) h) as [h1|]; cbn [mbind res_bind].
    2: { right. eexists. split; [done|]. split; [done|]. cbn. lia. }
    destruct (request (kind_new (c_val c)) h1) as [h2|]; cbn [mbind res_bind].
    2: { right. eexists. split; [done|]. split; [|cbn; lia]. split; [|done]. cbn [s_keys].
         destruct (c_key c); cbn [b_initialize b_free kind_tag]; try done; by rewrite free_ok_refl. }
    left. rgo Ep. rgo Ep. eauto.
  - assert (Hu : u8 (s_size s + 1) = N.of_nat (length es) + 1) by (rewrite Hsz; apply u8_small; lia).
    destruct (rs_needs_resize c (s_cap s) (u8 (s_size s + 1))) eqn:Hres.
    + rinv Ep. rinv E. destruct (request (kind_new (c_key c)) h) as [h1|]; cbn [mbind res_bind].
      2: { right. eexists. split; [done|]. split; [done|]. by cbn. }
      cbn [mbind res_bind]. rinv E. destruct (request (kind_new (c_val c)) h1) as [h2|]; cbn [mbind res_bind].
      2: { right. eexists. split; [done|]. split; [|by cbn]. split; [|done]. cbn [s_keys].
           assert (Hne : es <> []) by (intros ->; cbn in Hsz; lia).
           pose proof (slot_repr_nonnil _ _ _ _ _ _ _ _ Hne Hs) as [Hks _].
           assert (Hnew : (length es <= N.to_nat (rs_size_after c (u8 (s_size s + 1))))%nat).
           { rewrite Hu. unfold rs_size_after. destruct (c_arb c); [|unfold inc_size_after_increment; lia].
             pose proof (arb_size_after_increment_bounds (N.of_nat (length es) + 1)). lia. }
           pose proof (b_resize_spec pf (c_key c) (qw b) _ _ _ (N.to_nat (rs_size_after c (u8 (s_size s + 1)))) Hkd Hks) as HK.
           rewrite map_length in HK. destruct (HK Hnew) as (ks & EK & HK').
           rewrite Hq, Hu in E1. rewrite sub64_small in E1 by (assert (255 < 2^64) by done; lia).
           replace (N.to_nat (N.of_nat (length es) + 1 - 1)) with (length es) in E1 by lia. rewrite Hu in EK. rewrite EK in E1. injection E1 as <-.
           pose proof (b_clear_spec _ _ _ _ _ _ HK') as Hc. unfold b_clear in Hc. by destruct (b_free pf (c_key c) ks) as [[]| | |]. }
      cbn [mbind res_bind]. injection E as <-. rgo Ep. rgo Ep. left. eauto.
    + cbn [mbind res_bind] in *. rgo Ep. rgo Ep. left. eauto.
Qed.

Lemma set_slot_free t sl bk s n : t_slots t = Some sl -> tfree t -> sfree s -> tfree (set_slot (set_n t n) bk s).
Proof.
  intros Hsl [Hf Ho] Hs. split; [|done]. cbn [set_slot set_n t_slots]. rewrite Hsl in *. cbn. by apply Forall_insert.
Qed.
Lemma with_slots_free t sl i : t_slots t = Some sl -> tfree t -> tfree (with_slots t (replicate i empty_slot ++ drop i sl)).
Proof.
  intros Hsl [Hf Ho]. split; [|done]. cbn [with_slots t_slots]. rewrite Hsl in Hf. apply Forall_app. split; [|by apply Forall_drop].
  apply Forall_replicate, empty_slot_free.
Qed.

Lemma a_insert_safe : forall fuel t sl ess ovl k v h, tinv t sl ess ovl -> (N.to_nat (bmax - t_b t) < fuel)%nat ->
  kdom c kw k -> nv v = v \/ c_val c = KNull ->
  (exists r h', a_find_or_insert pf c fuel t k v h = Ok (Done r h')) \/ (exists t', a_find_or_insert pf c fuel t k v h = Ok (Bad t') /\ tfree t').
Proof.
  induction fuel as [|f IH]; intros t sl ess ovl k v h H Hf Hk Hv; [lia|].
  destruct (find_or_insert_spec pf c kw vw bmin bmax strict OK SP (S f) t sl ess ovl k v H Hf Hk Hv) as (t' & x & sl' & ess' & ovl' & Er & _ & Hgrown & _).
  pose proof (tinv_dummy _ _ _ _ H) as [Hdum ->].
  cbn [a_find_or_insert find_or_insert] in *.
  destruct (tinv_bc _ _ _ _ _ _ _ OK _ _ _ _ H) as [Hb0 Hbc]. rewrite Hb0 in *. cbn [mbind res_bind] in *.
  destruct (tinv_hash _ _ _ _ _ _ _ OK _ _ _ _ _ H Hk) as (Eh & Hlt & _). rewrite Eh in *. cbn [mbind res_bind] in *.
  destruct (locate_q_spec _ _ _ _ _ _ _ OK _ _ _ _ _ H Hk) as (s & es & Hg & Hs & He & Hr & Hloc).
  rewrite Hg in *. cbn [mbind res_bind] in *.
  destruct Hloc as [(p & v0 & El & Hp)|[El Hn]]; rewrite El in *; cbn [mbind res_bind] in *; [left; eauto|].
  rewrite Hdum in *. cbn [ov_need_consult mbind res_bind] in *.
  pose proof (ti_b _ _ _ _ _ _ _ _ _ _ _ H) as Hb. pose proof (ti_slots _ _ _ _ _ _ _ _ _ _ _ H) as Hsl.
  destruct (s_size s =? c_maxb c) eqn:Emax.
  - cbn [ov_size ov_capacity] in *. change (0 <? 0) with false in *. cbn [mbind res_bind] in *.
    assert (Hso : set_ov t ODummy = t) by (destruct t; cbn in *; by subst). rewrite Hso in *.
    rinv Er. rinv Er. cbn [mbind res_bind].
    assert (Hlt2 : t_b t < bmax).
    { destruct Hgrown as [(Ht' & _ & Hroom)|[Hlt' _]].
      - destruct (Hroom DUM Hn) as (es' & He' & Hl'). rewrite He in He'. injection He' as <-. pose proof Hr as (Hsz & _). apply N.eqb_eq in Emax. lia.
      - destruct (find_or_insert_spec pf c kw vw bmin bmax strict OK SP (S f) t sl ess [] k v H Hf Hk Hv) as (t2 & x2 & sl2 & ess2 & ovl2 & Er2 & H2 & _).
        cbn [find_or_insert] in Er2. rewrite Hb0 in Er2. cbn [mbind res_bind] in Er2. rewrite Eh in Er2. cbn [mbind res_bind] in Er2. rewrite Hg in Er2.
        cbn [mbind res_bind] in Er2. rewrite El in Er2. cbn [mbind res_bind] in Er2. rewrite Hdum in Er2. cbn [ov_need_consult mbind res_bind] in Er2.
        rewrite Emax in Er2. cbn [ov_size ov_capacity] in Er2. change (0 <? 0) with false in Er2. cbn [mbind res_bind] in Er2.
        rewrite Hso, E in Er2. cbn [mbind res_bind] in Er2. rewrite E0 in Er2. cbn [mbind res_bind] in Er2. rewrite Er in Er2. injection Er2 as <- <-.
        pose proof (ti_b _ _ _ _ _ _ _ _ _ _ _ H2). lia. }
    pose proof (ok_b _ _ _ _ _ _ OK) as Hob. rewrite shl64_1 in E by lia. injection E as <-.
    assert (Hl2 : N.log2_up (2^(t_b t + 1)) = t_b t + 1) by (apply N.log2_up_pow2; lia).
    destruct (alloc_spec pf c kw vw bmin bmax strict OK (new_table pf c kw vw) (2^N.log2_up (2^(t_b t + 1)))) as (tmp & Ea & Hb' & sl0 & ess0 & Hi0 & Hc0).
    { by apply (new_table_zero pf c kw vw bmin bmax). }
    { rewrite Hl2. split; [|apply pow2_le_63; lia]. pose proof (N.pow_nonzero 2 (t_b t + 1) ltac:(done)). lia. }
    { rewrite Hl2, Hl2. lia. }
    destruct (a_reserve_with_safe (a_find_or_insert pf c f) (tcon (t_b t + 1)) tfree (concat ess) (tcon_perm _ _ _ _ _ _ _ _)) with (t := t) (sl := sl) (ess := ess) (n := 2^(t_b t + 1)) (tmp0 := tmp) (h := h)
      as [(t1 & h1 & Et1 & Ht1)|[->|(tmp1 & i & -> & _ & _)]].
    { intros tmp1 E1 k1 v1 h1 (sl1 & ess1 & ovl1 & H1 & HB1 & HE1) Hin Hni _ _.
      destruct (ti_range _ _ _ _ _ _ _ _ _ _ _ H k1 v1 ltac:(apply elem_of_app; by left)) as [Hk1 Hv1].
      destruct (IH tmp1 sl1 ess1 ovl1 k1 v1 h1 H1 ltac:(lia) Hk1 ltac:(by left)) as [(r & h2 & Er1)|Hbad]; [|by right]. left. exists r, h2. split; [done|].
      apply a_insert_done in Er1.
      destruct (find_or_insert_spec pf c kw vw bmin bmax strict OK SP f tmp1 sl1 ess1 ovl1 k1 v1 H1 ltac:(lia) Hk1 ltac:(by left)) as (t2 & x2 & sl2 & ess2 & ovl2 & Er2 & H2 & Hle%grown_le & Hres).
      rewrite Er1 in Er2. injection Er2 as ->. cbn [fst]. rewrite (proj2 (emap_None _ k1)) in Hres by (rewrite HE1; done). destruct Hres as [Hres _].
      exists sl2, ess2, ovl2. split; [done|]. split; [lia|]. by rewrite Hres, HE1, Hv1. }
    { done. } { done. } { split; [|apply pow2_le_63; lia]. pose proof (N.pow_nonzero 2 (t_b t + 1) ltac:(done)). lia. } { done. }
    { exists sl0, ess0, []. split; [done|]. split; [rewrite Hb', Hl2, Hl2; lia|]. by rewrite Hc0. }
    { done. }
    + rewrite Et1. cbn [mbind res_bind]. destruct Ht1 as (sl1 & ess1 & ovl1 & H1 & HB1 & HE1). eapply IH; [exact H1|lia|done|done].
    + cbn [mbind res_bind]. right. exists t. split; [done|]. by eapply tinv_free.
    + cbn [mbind res_bind]. right. eexists. split; [done|]. apply with_slots_free; [done|by eapply tinv_free].
  - assert (Hlt2 : N.of_nat (length es) < c_maxb c).
    { apply N.eqb_neq in Emax. pose proof Hr as (Hsz & Hmx & _). lia. }
    destruct (a_push_safe t (t_b t) s es k v h Hb eq_refl (ti_kw _ _ _ _ _ _ _ _ _ _ _ H) (ti_vw _ _ _ _ _ _ _ _ _ _ _ H) Hr Hlt2 Hk) as [(s1 & h1 & ->)|(s1 & -> & Hf1 & _)]; cbn [mbind res_bind].
    + left. eauto.
    + right. eexists. split; [done|]. eapply set_slot_free; [done|by eapply tinv_free|done].
Qed.
(** ** shrink_to_fit *)
Lemma a_shrink_slot_safe t b s es h : bmin <= b <= bmax -> t_b t = b -> t_kw t = kw -> t_vw t = vw -> srepr b s es ->
  (exists s' h', a_shrink_slot pf c t s h = Ok (Done s' h') /\ srepr b s' es)
  \/ (exists s', a_shrink_slot pf c t s h = Ok (Bad s') /\ sfree s' /\ (kind_new (c_val c) = false \/ c_arb c = false -> srepr b s' es)).
Proof.
  intros Hb Etb Etk Etv Hs. destruct (shrink_slot_spec pf c kw vw bmin bmax strict OK t b s es Hb Etb Etk Etv Hs) as (s1 & E1 & Hs1 & _).
  unfold a_shrink_slot, shrink_slot in *. destruct (N.eqb_spec (s_size s) 0) as [E0|E0]; [left; eauto|].
  destruct (rs_can_shrink c (s_cap s) (s_size s)) eqn:Hsh; [|left; eauto]. cbn zeta in *.
  destruct (request (kind_new (c_key c)) h) as [h1|]; [|right; exists s; split; [done|]; split; [by eapply srepr_free|done]].
  assert (Hne : es <> []) by (intros ->; by destruct Hs as (? & _)).
  pose proof (slot_repr_nonnil _ _ _ _ _ _ _ _ Hne Hs) as [Hks Hvs].
  destruct (ok_kind _ _ _ _ _ _ OK b Hb) as [Hkd _].
  assert (Hq : qwidth c t = qw b) by (unfold qwidth, hm, TableProofs.qw, hmk; by rewrite Etb, Etk).
  pose proof Hs as (Hsz & Hle & _ & Hcap & Hinc & Hst).
  pose proof (b_resize_spec pf (c_key c) (qw b) _ _ _ (length es) Hkd Hks) as HK.
  rewrite map_length in HK. destruct HK as (ks & EK & HK); [lia|].
  assert (Hn : N.to_nat (s_size s) = length es) by lia. rewrite Hq, Hn, EK in *. cbn [mbind res_bind] in *.
  rinv E1. injection E1 as <-.
  destruct (request (kind_new (c_val c)) h1) as [h2|] eqn:E2; cbn [mbind res_bind]; [left; eauto|]. right. eexists. split; [done|].
  assert (Hnew : kind_new (c_val c) = true) by (destruct (kind_new (c_val c)); [done|done]).
  split.
  - split; cbn [s_keys s_vals]; [pose proof (b_clear_spec _ _ _ _ _ _ HK) as Hc; unfold b_clear in Hc; by destruct (b_free pf (c_key c) ks) as [[]| | |]|apply (srepr_free b s es Hs)].
  - intros [?|Harb]; [congruence|]. unfold slot_repr. cbn [s_size s_cap s_keys s_vals]. split; [done|]. split; [done|]. split; [|done].
    rewrite (Hinc Harb) in *. destruct es as [|e es]; [done|]. cbn zeta. cbn [N.to_nat] in *. rewrite Nat.max_l in * by lia. done.
Qed.
Lemma a_shrink_slots_safe t b : bmin <= b <= bmax -> t_b t = b -> t_kw t = kw -> t_vw t = vw -> forall sl ess h, Forall2 (srepr b) sl ess ->
  (exists sl' h', a_shrink_slots pf c t sl h = Ok (Done sl' h') /\ Forall2 (srepr b) sl' ess)
  \/ (exists sl', a_shrink_slots pf c t sl h = Ok (Bad sl') /\ Forall sfree sl' /\ (kind_new (c_val c) = false \/ c_arb c = false -> Forall2 (srepr b) sl' ess)).
Proof.
  intros Hb Etb Etk Etv. induction sl as [|s sl IH]; intros ess h HF.
  - apply Forall2_nil_inv_l in HF as ->. left. exists [], h. split; [done|constructor].
  - apply Forall2_cons_inv_l in HF as (es & ess' & Hs & HF & ->). cbn [a_shrink_slots].
    assert (Hfr : forall sl ess, Forall2 (srepr b) sl ess -> Forall sfree sl).
    { intros sl0 ess0 H0. eapply Forall2_Forall_l; [exact H0|]. apply Forall_true. intros es0 s0. apply srepr_free. }
    destruct (a_shrink_slot_safe t b s es h Hb Etb Etk Etv Hs) as [(s1 & h1 & -> & Hs1)|(s1 & -> & Hs1 & Hk)]; cbn [mbind res_bind].
    + destruct (IH ess' h1 HF) as [(sl1 & h2 & -> & H1)|(sl1 & -> & H1 & H2)]; cbn [mbind res_bind].
      * left. eexists _, _. split; [done|]. by constructor.
      * right. eexists. split; [done|]. split; [constructor; [by eapply srepr_free|done]|]. intros Hx. constructor; [done|by apply H2].
    + right. eexists. split; [done|]. split; [constructor; [done|by eapply Hfr]|]. intros Hx. constructor; [by apply Hk|done].
Qed.
Lemma a_shrink_safe t sl ess ovl h : tinv t sl ess ovl ->
  (exists t' h', a_shrink_to_fit pf c t h = Ok (Done t' h'))
  \/ (exists t', a_shrink_to_fit pf c t h = Ok (Bad t') /\ tfree t' /\ (kind_new (c_val c) = false \/ c_arb c = false -> exists sl', tinv t' sl' ess ovl)).
Proof.
  intros H. unfold a_shrink_to_fit. destruct (tinv_bc _ _ _ _ _ _ _ OK _ _ _ _ H) as [-> ->].
  pose proof (ti_slots _ _ _ _ _ _ _ _ _ _ _ H) as Hsl. rewrite Hsl.
  pose proof (ti_len _ _ _ _ _ _ _ _ _ _ _ H) as Hlen. rewrite take_ge, drop_ge by lia.
  destruct (a_shrink_slots_safe t (t_b t) (ti_b _ _ _ _ _ _ _ _ _ _ _ H) eq_refl (ti_kw _ _ _ _ _ _ _ _ _ _ _ H) (ti_vw _ _ _ _ _ _ _ _ _ _ _ H) sl ess h (ti_repr _ _ _ _ _ _ _ _ _ _ _ H))
    as [(sl1 & h1 & -> & H1)|(sl1 & -> & H1 & H2)]; cbn [mbind res_bind]; [left; eauto|].
  right. eexists. split; [done|]. rewrite app_nil_r. split; [split; [done|by apply (tinv_free _ _ _ _ H)]|].
  intros Hx. specialize (H2 Hx). exists sl1. constructor; cbn [with_slots t_slots t_b t_n t_kw t_vw t_ov]; try apply H; try done.
  rewrite (Forall2_length _ _ _ H2), <-(Forall2_length _ _ _ (ti_repr _ _ _ _ _ _ _ _ _ _ _ H)). done.
Qed.
End inv.
