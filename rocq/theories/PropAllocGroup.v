(** C125: group_chaining_table when operator new fails. *)
From Verif Require Import AllocGroup GroupTable GroupHist GroupSerial PropGroup PropSerial MapProofs.

(** The buckets of a table after its first j groups of n buckets were cleared *)
Definition drop_groups (j n : nat) (ess : list entries) : list entries := imap (fun i es => if (i <? j * n)%nat then [] else es) ess.
Lemma drop_groups_nthb j n ess i : nthb (drop_groups j n ess) i = if (i <? j * n)%nat then [] else nthb ess i.
Proof.
  unfold nthb, drop_groups. rewrite list_lookup_imap. destruct (i <? j * n)%nat; by destruct (ess !! i).
Qed.
Lemma drop_groups_before j n ess i : (i < j)%nat -> chunk n (drop_groups j n ess) i = replicate n [].
Proof.
  intros Hi. apply list_eq. intros r. destruct (decide (r < n)%nat) as [Hr|Hr].
  - rewrite chunk_lookup by done. rewrite drop_groups_nthb, (lookup_replicate_2 n [] r Hr). rewrite (proj2 (Nat.ltb_lt _ _)); [done|]. nia.
  - rewrite !lookup_ge_None_2; [done|rewrite replicate_length; lia|rewrite chunk_length; lia].
Qed.
Lemma drop_groups_after j n ess i : (j <= i)%nat -> chunk n (drop_groups j n ess) i = chunk n ess i.
Proof.
  intros Hi. unfold chunk. apply map_ext_in. intros r Hr%in_seq. rewrite drop_groups_nthb. rewrite (proj2 (Nat.ltb_ge _ _)); [done|]. nia.
Qed.
Lemma drop_groups_sub j n ess : sublist (concat (drop_groups j n ess)) (concat ess).
Proof.
  unfold drop_groups. generalize (j * n)%nat. clear. intros m.
  cut (forall o, sublist (concat (imap (fun i (es : entries) => if (o + i <? m)%nat then [] else es) ess)) (concat ess)); [intros H; apply (H 0%nat)|].
  induction ess as [|es ess IH]; intros o; [done|]. cbn [imap concat]. apply sublist_app.
  - destruct (_ <? _)%nat; [apply sublist_nil_l|done].
  - specialize (IH (S o)). erewrite imap_ext; [exact IH|]. intros i x _. cbn. by replace (o + S i)%nat with (S (o + i)) by lia.
Qed.
Lemma drop_groups_lookup j n ess i es : drop_groups j n ess !! i = Some es -> exists es0, ess !! i = Some es0 /\ (es = [] \/ es = es0).
Proof.
  unfold drop_groups. rewrite list_lookup_imap. destruct (ess !! i) as [es0|]; [|done]. cbn [fmap option_fmap option_map]. intros [= <-]. exists es0. split; [done|].
  destruct (i <? j * n)%nat; [by left|by right].
Qed.

Lemma sublist_nodup {A} (l k : list A) : sublist l k -> NoDup k -> NoDup l.
Proof.
  induction 1 as [|x l k HS IH|x l k HS IH]; intros Hnd; [done|apply NoDup_cons in Hnd as [Hx Hnd]|apply NoDup_cons in Hnd as [Hx Hnd]; auto].
  apply NoDup_cons. split; [|auto]. intros Hin. apply Hx. eapply elem_of_submseteq; [exact Hin|by apply sublist_submseteq].
Qed.

(** Inserting entries one by one *)
Fixpoint afold (ains : gtable -> N -> N -> heap -> res (tried (gtable * nav) gtable)) (E : entries) (tmp : gtable) (h : heap) : res (tried gtable gtable) :=
  match E with
  | [] => Ok (Done tmp h)
  | (k, v) :: E =>
      x ← ains tmp k v h;
      match (x : tried (gtable * nav) gtable) with
      | Done (tmp, _) h => afold ains E tmp h
      | Bad tmp => Ok (Bad tmp)
      end
  end.
Lemma afold_app ains E1 E2 tmp h : afold ains (E1 ++ E2) tmp h =
  (x ← afold ains E1 tmp h; match (x : tried gtable gtable) with Done tmp h => afold ains E2 tmp h | Bad tmp => Ok (Bad tmp) end).
Proof.
  revert tmp h. induction E1 as [|[k v] E1 IH]; intros tmp h; [done|]. cbn [afold app].
  destruct (ains tmp k v h) as [[[t x] h1|t]| | |]; cbn [mbind res_bind]; done.
Qed.

Section group.
Context (pf : platform) (c : gcfg) (kw vw bmin : N).
Hypothesis OK : group_ok c kw vw bmin.
Notation bmax := (zbmax (gc_hash c) kw).
Notation bb := (zb (gc_hash c) (gc_keybits c) 64 kw).
Notation grep := (grep True pf c kw vw bmin).
Notation grepr := (grepr True pf c kw vw).
Notation gchain := (group_chain True pf c kw vw bmin OK 64 I (le_n 64)).
Notation post := (foi_post gt_b grep).

Definition lossy (t : gtable) (ess : list entries) (t' : gtable) : Prop :=
  gt_n t' = gt_n t /\ exists ess', grep (g_set_n t' (N.of_nat (length (concat ess')) mod 2^64)) ess' /\ concat ess' ⊆+ concat ess.
Lemma set_n_self t ess : grep t ess -> g_set_n t (N.of_nat (length (concat ess)) mod 2^64) = t.
Proof. intros H. rewrite <-(gr_n _ _ _ _ _ _ _ _ H). by destruct t. Qed.
Lemma lossy_refl t ess : grep t ess -> lossy t ess t.
Proof. intros H. split; [done|]. exists ess. split; [|done]. by rewrite (set_n_self _ _ H). Qed.
Lemma lossy_perm t ess t1 ess1 t' : gt_n t1 = gt_n t -> concat ess1 ⊆+ concat ess -> lossy t1 ess1 t' -> lossy t ess t'.
Proof. intros En HP (E & ess' & H & HS). split; [congruence|]. exists ess'. split; [done|]. by etrans. Qed.
Lemma lossy_clear t ess t' : lossy t ess t' -> exists t0, g_clear t' = Ok t0 /\ gzero kw vw t0.
Proof.
  intros (_ & ess' & H & _). destruct (gclear _ _ _ _ _ _ OK _ _ H) as (t0 & E & Hz). exists t0. split; [|done]. rewrite <-E. by destruct t'.
Qed.

(** The loops of reserve are afold *)
Lemma arehash_entries ains t gi g bss r es : gt_kw t = kw -> gt_vw t = vw -> bmin <= gt_b t <= bmax -> grepr (gt_b t) g bss -> bss !! r = Some es ->
  (forall k v, (k, v) ∈ es -> k < 2^kw /\ bb (gt_b t) k = N.of_nat (r + gi * gbpg t)) -> forall n i tmp h, (i + n = length es)%nat ->
  ag_rehash_entries pf c ains t gi g r (seq i n) tmp h = afold ains (drop i es) tmp h.
Proof.
  intros E1 E2 Hb Hr Hrk Hbk. induction n as [|n IH]; intros i tmp h Hi; cbn [seq ag_rehash_entries].
  { by rewrite drop_ge by lia. }
  destruct (lookup_lt_is_Some_2 es i) as ([k v] & Hx); [lia|]. rewrite (drop_S _ _ _ Hx). cbn [afold].
  rewrite (gqw_eq _ _ _ E1), (gvw_eq _ _ E2), E1. unfold ghm. fold (zm (gc_hash c) (gc_keybits c) 64 kw).
  unfold kv_read. rewrite (grepr_key True pf c kw vw bmin OK _ g bss r es i k v) by done. cbn [mbind res_bind].
  rewrite (grepr_value True pf c kw vw bmin OK _ g bss r es i k v) by done. cbn [mbind res_bind fst snd].
  destruct (Hbk k v) as [Hk <-]; [by eapply elem_of_list_lookup_2|].
  destruct (z_map _ _ _ _ _ (go_hash _ _ _ _ OK) (gt_b t) k Hb Hk) as (_ & _ & _ & Hinv).
  rewrite Hinv. cbn [mbind res_bind].
  destruct (ains tmp k v h) as [[[t1 x] h1|t1]| | |]; cbn [mbind res_bind]; try done. apply IH. lia.
Qed.
Lemma arehash_buckets ains t gi g bss : gt_kw t = kw -> gt_vw t = vw -> bmin <= gt_b t <= bmax -> grepr (gt_b t) g bss ->
  (forall r es k v, bss !! r = Some es -> (k, v) ∈ es -> k < 2^kw /\ bb (gt_b t) k = N.of_nat (r + gi * gbpg t)) ->
  forall n i tmp h, (i + n = length bss)%nat -> ag_rehash_buckets pf c ains t gi g (seq i n) tmp h = afold ains (concat (drop i bss)) tmp h.
Proof.
  intros E1 E2 Hb Hr Hpl. induction n as [|n IH]; intros i tmp h Hi; cbn [seq ag_rehash_buckets].
  { by rewrite drop_ge by lia. }
  destruct (lookup_lt_is_Some_2 bss i) as (es & He); [lia|]. rewrite (drop_S _ _ _ He). cbn [concat]. rewrite afold_app.
  destruct (grepr_bucketsize _ _ _ _ _ _ _ _ _ _ Hr He) as [-> _]. cbn [mbind res_bind].
  rewrite (arehash_entries ains t gi g bss i es) by (try done; intros; by eapply Hpl). rewrite drop_0.
  destruct (afold ains es tmp h) as [[tmp' h'|tmp']| | |]; cbn [mbind res_bind]; try done. apply IH. lia.
Qed.
Definition cleared (j : nat) (gs : list kvgroup) : list kvgroup := imap (fun i g => if (i <? j)%nat then (if kv_empty g then g else kv_clear g) else g) gs.
Lemma cleared_0 gs : cleared 0 gs = gs.
Proof. unfold cleared. induction gs as [|g gs IH]; [done|]. cbn. f_equal. exact IH. Qed.
Lemma cleared_S j g gs : cleared (S j) (g :: gs) = (if kv_empty g then g else kv_clear g) :: cleared j gs.
Proof. done. Qed.
Lemma arehash ains t ess : grep t ess -> forall gs i tmp h, (forall j g, gs !! j = Some g -> grepr (gt_b t) g (chunk (gbpg t) ess (i + j))) ->
  match afold ains (concat (map (fun j => concat (chunk (gbpg t) ess j)) (seq i (length gs)))) tmp h with
  | Ok (Done tmp' h') => ag_rehash pf c ains t i gs tmp h = Ok (Done tmp' h')
  | Ok (Bad tmp') => exists j tmp1 h1, ag_rehash pf c ains t i gs tmp h = Ok (Bad (tmp', cleared j gs)) /\ (j < length gs)%nat
      /\ afold ains (concat (map (fun j => concat (chunk (gbpg t) ess j)) (seq i j))) tmp h = Ok (Done tmp1 h1)
      /\ afold ains (concat (chunk (gbpg t) ess (i + j))) tmp1 h1 = Ok (Bad tmp')
  | _ => True
  end.
Proof.
  intros H. induction gs as [|g gs IH]; intros i tmp h Hg; [done|].
  cbn [length seq map concat ag_rehash]. rewrite afold_app.
  pose proof (Hg 0%nat g eq_refl) as Hr. rewrite Nat.add_0_r in Hr.
  assert (Es : (if kv_empty g then Ok (Done tmp h) else ag_rehash_buckets pf c ains t i g (seq 0 (gbpg t)) tmp h)
    = afold ains (concat (chunk (gbpg t) ess i)) tmp h).
  { destruct (kv_empty g) eqn:Ee.
    - unfold kv_empty in Ee. rewrite (grepr_size _ _ _ _ _ _ _ _ Hr) in Ee. apply N.eqb_eq in Ee.
      assert (concat (chunk (gbpg t) ess i) = []) as -> by (apply nil_length_inv; lia). done.
    - rewrite (arehash_buckets ains t i g (chunk (gbpg t) ess i)); try apply H; try done; [|by rewrite chunk_length].
      intros r es k v Hr' Hin. pose proof (lookup_lt_Some _ _ _ Hr') as Hlt. rewrite chunk_length in Hlt.
      rewrite chunk_lookup in Hr' by done. injection Hr' as <-. unfold nthb in Hin.
      destruct (ess !! (i * gbpg t + r)%nat) as [es|] eqn:Ei; [|by apply elem_of_nil in Hin]. cbn in Hin. split.
      + eapply (gr_range _ _ _ _ _ _ _ _ H). apply elem_of_concat. eauto.
      + rewrite (gr_placed _ _ _ _ _ _ _ _ H _ _ _ _ Ei Hin). f_equal. lia. }
  rewrite Es. destruct (afold ains (concat (chunk (gbpg t) ess i)) tmp h) as [[tmp1 h1|tmp1]| | |] eqn:E1; cbn [mbind res_bind]; try done.
  - specialize (IH (S i) tmp1 h1). destruct (afold _ _ tmp1 h1) as [[tmp2 h2|tmp2]| | |]; try done.
    + rewrite IH; [done|]. intros j g' Hj. replace (S i + j)%nat with (i + S j)%nat by lia. by apply Hg.
    + destruct IH as (j & tmp3 & h3 & -> & Hj & E2 & E3).
      { intros j g' Hj. replace (S i + j)%nat with (i + S j)%nat by lia. by apply Hg. }
      cbn [mbind res_bind]. exists (S j), tmp3, h3. rewrite cleared_S. split; [done|]. split; [lia|]. replace (i + S j)%nat with (S i + j)%nat by lia. split; [|done].
      cbn [seq map concat]. rewrite afold_app, E1. cbn [mbind res_bind]. exact E2.
  - exists 0%nat, tmp, h. rewrite cleared_0, Nat.add_0_r. split; [done|]. split; [lia|]. done.
Qed.
(** Clearing the first groups *)
Lemma cleared_rep t ess gs j n : grep t ess -> gt_groups t = Some gs -> n = N.of_nat (length (concat (drop_groups j (gbpg t) ess))) mod 2^64 ->
  grep (GTable (Some (cleared j gs)) (gt_b t) n (gt_kw t) (gt_vw t) (gt_bpg t)) (drop_groups j (gbpg t) ess).
Proof.
  intros H Hgs ->. pose proof (drop_groups_sub j (gbpg t) ess) as HS. destruct (gr_groups _ _ _ _ _ _ _ _ H) as (gs' & Hgs' & Hl & Hg). rewrite Hgs in Hgs'. injection Hgs' as <-.
  pose proof (gbpg_pos _ _ _ _ _ _ _ _ H) as Hbp.
  constructor; cbn [gt_groups gt_b gt_n gt_kw gt_vw gt_bpg]; try apply H.
  - unfold drop_groups. rewrite imap_length. apply H.
  - eexists. split; [done|]. unfold cleared at 1. rewrite imap_length. split; [done|]. unfold gbpg at 1. cbn [gt_bpg]. fold (gbpg t).
    intros i g Hi. unfold cleared in Hi. rewrite list_lookup_imap in Hi. destruct (gs !! i) as [g0|] eqn:Ei; [|done]. cbn [fmap option_fmap option_map] in Hi. injection Hi as <-.
    pose proof (Hg _ _ Ei) as Hr. destruct (i <? j)%nat eqn:Eij.
    + apply Nat.ltb_lt in Eij. rewrite drop_groups_before by done.
      assert (Hn : grepr (gt_b t) kv_new (replicate (gbpg t) [])).
      { split; [rewrite concat_replicate_nil; cbn; lia|]. split; [rewrite replicate_length; lia|]. left. split; [done|]. apply concat_replicate_nil. }
      destruct (kv_empty g0) eqn:Ee; [|exact Hn].
      unfold kv_empty in Ee. apply N.eqb_eq in Ee. rewrite (grepr_size _ _ _ _ _ _ _ _ Hr) in Ee.
      assert (Ec : chunk (gbpg t) ess i = replicate (gbpg t) []).
      { apply list_eq. intros r. destruct (decide (r < gbpg t)%nat) as [Hlt|Hge].
        - rewrite chunk_lookup by done. rewrite (lookup_replicate_2 _ _ _ Hlt). f_equal. apply (chunk_empty_nth (gbpg t)); [|done]. apply nil_length_inv. lia.
        - rewrite !lookup_ge_None_2; [done|rewrite replicate_length; lia|rewrite chunk_length; lia]. }
      rewrite <-Ec. exact Hr.
    + apply Nat.ltb_ge in Eij. rewrite drop_groups_after by done. exact Hr.
  - intros i es k v Hi Hin. apply drop_groups_lookup in Hi as (es0 & Hi & [->| ->]); [by apply elem_of_nil in Hin|].
    by eapply (gr_placed _ _ _ _ _ _ _ _ H).
  - eapply sublist_nodup; [|apply (gr_nodup _ _ _ _ _ _ _ _ H)]. by apply fmap_sublist.
  - intros k v Hin. eapply (gr_range _ _ _ _ _ _ _ _ H). eapply elem_of_submseteq; [exact Hin|by apply sublist_submseteq].
  - done.
Qed.
Lemma cleared_lossy t ess gs j : grep t ess -> gt_groups t = Some gs ->
  lossy t ess (GTable (Some (cleared j gs)) (gt_b t) (gt_n t) (gt_kw t) (gt_vw t) (gt_bpg t)).
Proof.
  intros H Hgs. split; [done|]. exists (drop_groups j (gbpg t) ess). split; [|apply sublist_submseteq, drop_groups_sub].
  exact (cleared_rep t ess gs j _ H Hgs eq_refl).
Qed.

(** A call on the heap h that completes does what the model without failures does; the first request of a heap without memory fails and changes
    nothing, and without a failing request every call completes. *)
Definition tries {A} (t : gtable) (ess : list entries) (h : heap) (r : res (tried A gtable)) (p : res A) : Prop :=
  (exists a h', r = Ok (Done a h') /\ p = Ok a /\ (h = None -> h' = None))
  \/ (exists t', r = Ok (Bad t') /\ lossy t ess t' /\ (h = Some O -> t' = t) /\ h <> None).
Lemma request_cases h : (h = Some O /\ request true h = None) \/ (h <> Some O /\ exists h', request true h = Some h' /\ (h = None -> h' = None)).
Proof. destruct h as [[|n]|]; cbn; [by left|right; split; [done|]; by eexists|right; split; [done|]; by exists None]. Qed.

Lemma afold_spec ains ins (b0 : N) :
  (forall t ess k v, grep t ess -> b0 <= gt_b t -> k < 2^kw -> v < 2^vw -> post t ess k v (ins t k v)) ->
  (forall t ess k v h, grep t ess -> b0 <= gt_b t -> k < 2^kw -> v < 2^vw -> tries t ess h (ains t k v h) (ins t k v)) ->
  forall E tmp ess0 h, grep tmp ess0 -> b0 <= gt_b tmp -> NoDup (keys_of (E ++ concat ess0)) ->
  (forall k v, (k, v) ∈ E -> k < 2^kw /\ v < 2^vw) ->
  (exists tmp' h', afold ains E tmp h = Ok (Done tmp' h') /\ ins_fold ins E tmp = Ok tmp' /\ (h = None -> h' = None))
  \/ (exists tmp', afold ains E tmp h = Ok (Bad tmp') /\ (exists t0, g_clear tmp' = Ok t0) /\ h <> None).
Proof.
  intros Hins Ha. induction E as [|[k v] E IH]; intros tmp ess0 h HR Hb Hnd Hr.
  - left. exists tmp, h. done.
  - unfold ins_fold. cbn [rfold fst snd afold]. destruct (Hr k v) as [Hk Hv]; [by constructor|].
    destruct (Ha tmp ess0 k v h HR Hb Hk Hv) as [(a & h' & -> & Ei & Hh)|(t' & -> & HL & _ & Hh)].
    + destruct (Hins tmp ess0 k v HR Hb Hk Hv) as (t1 & x & ess1 & Ei' & HR1 & Hb1 & Hpost). rewrite Ei in Ei'. injection Ei' as ->.
      rewrite Ei. cbn [mbind res_bind fst].
      change (NoDup (k :: keys_of (E ++ concat ess0))) in Hnd. apply NoDup_cons in Hnd as [Hnk Hnd].
      assert (Hnone : emap (concat ess0) !! k = None).
      { apply emap_None. intros Hin. apply Hnk. rewrite fmap_app. apply elem_of_app. by right. }
      rewrite Hnone in Hpost. destruct Hpost as [HP _].
      destruct (IH t1 ess1 h' HR1) as [(tmp' & h2 & E2 & Ep & Hh2)|(tmp' & E2 & Hc & Hh2)]; [lia| |intros; apply Hr; by constructor|..].
      * assert (Hq : E ++ concat ess1 ≡ₚ (k, v) :: E ++ concat ess0) by (rewrite HP; solve_Permutation).
        rewrite (keys_perm _ _ Hq). cbn. apply NoDup_cons. done.
      * left. exists tmp', h2. split; [done|]. split; [exact Ep|]. intros ->. apply Hh2, Hh. done.
      * right. exists tmp'. split; [done|]. split; [done|]. intros ->. apply Hh2, Hh. done.
    + right. exists t'. split; [done|]. split; [|done]. destruct (lossy_clear _ _ _ HL) as (t0 & E0 & _). by exists t0.
Qed.
Lemma areserve_spec ains ins t ess n h : grep t ess -> 1 <= n <= 2^63 -> bmin <= N.log2_up n <= bmax ->
  (forall t ess k v, grep t ess -> N.log2_up n <= gt_b t -> k < 2^kw -> v < 2^vw -> post t ess k v (ins t k v)) ->
  (forall t ess k v h, grep t ess -> N.log2_up n <= gt_b t -> k < 2^kw -> v < 2^vw -> tries t ess h (ains t k v h) (ins t k v)) ->
  tries t ess h (ag_reserve_with pf c ains t n 0 h) (g_reserve_with pf c ins t n 0)
  /\ (h = Some O -> ag_reserve_with pf c ains t n 0 h = Ok (Bad t)).
Proof.
  intros H Hn Hb Hins Ha. pose proof (zbmax_le _ _ _ _ _ (go_hash _ _ _ _ OK)) as H63. pose proof (ho_kw _ _ _ _ _ (go_hash _ _ _ _ OK)) as Hkw.
  assert (Hlog : N.log2_up (2^N.log2_up n) = N.log2_up n) by (apply N.log2_up_pow2; lia).
  destruct (galloc True pf c kw vw bmin (GTable None 0 0 kw vw 64) (2^N.log2_up n)) as (tmp & ess0 & Ea & HR & Hc & Hbt); try done.
  { split; [pose proof (pow2_pos (N.log2_up n)); lia|]. apply pow2_le_63. lia. }
  { by rewrite Hlog. }
  rewrite Hlog in Hbt. rewrite (greserve_gen True pf c kw vw bmin OK t ess n 0 H Hn ins).
  pose proof (b_range _ _ _ _ _ _ OK _ _ H) as Hbr. unfold ag_reserve_with. rewrite (proj2 (N.eqb_neq (gt_b t) _)) by lia.
  rewrite reserve_bits_spec by done. cbn [mbind res_bind]. rewrite (gr_kw _ _ _ _ _ _ _ _ H), (gr_vw _ _ _ _ _ _ _ _ H).
  cbn [N.eqb]. rewrite !u8_small by lia. unfold ag_alloc. rewrite Ea. cbn [mbind res_bind].
  destruct (request_cases h) as [[-> ->]|(Hh0 & h1 & -> & Hh1)]; cbn [mbind res_bind].
  { cbn [g_clear g_group_count gt_groups mbind res_bind]. split; [|done]. right. exists t. split; [done|]. split; [by apply lossy_refl|done]. }
  split; [|done].
  destruct (gr_groups _ _ _ _ _ _ _ _ H) as (gs & Hgs & Hl & Hg). rewrite (ggroup_count _ _ _ _ _ _ OK _ _ _ H Hgs Hl). cbn [mbind res_bind].
  rewrite Hgs, N.ltb_irrefl. rewrite Nat2N.id, take_ge by lia.
  pose proof (arehash ains t ess H gs 0 tmp h1 Hg) as Hre. rewrite chunks_concat in Hre by (by eapply ggroups_enough).
  destruct (afold_spec ains ins (N.log2_up n) Hins Ha (concat ess) tmp ess0 h1 HR) as [(tmp' & h2 & E2 & Ep & Hh2)|(tmp' & E2 & (t0 & Hcl) & Hh2)].
  - lia.
  - rewrite Hc, app_nil_r. apply H.
  - intros k v Hin. by eapply (gr_range _ _ _ _ _ _ _ _ H).
  - rewrite E2 in Hre. rewrite Hre. left. cbn [mbind res_bind]. exists tmp', h2. split; [done|]. split; [done|]. intros ->. apply Hh2, Hh1. done.
  - rewrite E2 in Hre. destruct Hre as (j & tmp1 & h2 & -> & _). cbn [mbind res_bind]. rewrite Hcl. cbn [mbind res_bind]. right.
    eexists. split; [done|]. rewrite drop_ge, app_nil_r by lia. split; [|split; [done|intros ->; apply Hh2, Hh1; done]].
    pose proof (cleared_lossy t ess gs j H Hgs) as HL. by rewrite (gr_kw _ _ _ _ _ _ _ _ H), (gr_vw _ _ _ _ _ _ _ _ H) in HL.
Qed.
(** One level of find_or_insert *)
Lemma astep f t ess es k v h : grep t ess -> k < 2^kw -> v < 2^vw -> ess !! N.to_nat (bb (gt_b t) k) = Some es ->
  ag_find_or_insert pf c (S f) t k v h =
    if first_index k (keys_of es) then r ← g_find_or_insert pf c (S f) t k v; Ok (Done r h)
    else if gfullb t ess (bb (gt_b t) k) then
      m ← shl64 1 (gt_b t + 1);
      x ← ag_reserve_with pf c (ag_find_or_insert pf c f) t m 0 h;
      match (x : tried gtable gtable) with
      | Bad t => Ok (Bad t)
      | Done t h => ag_find_or_insert pf c f t k v h
      end
    else r ← g_find_or_insert pf c (S f) t k v; Ok (Done r h).
Proof.
  intros HR Hk Hv He. pose proof (b_range _ _ _ _ _ _ OK _ _ HR) as Hbr.
  destruct (ggroup_at _ _ _ _ _ _ _ _ _ _ HR He) as (gs & g & Hgs & Hg & Eg & Hr & Hc).
  destruct (grepr_bucketsize _ _ _ _ _ _ _ _ _ _ Hr Hc) as [En _].
  cbn [ag_find_or_insert g_find_or_insert]. rewrite !(proj2 (N.eqb_neq (gt_b t) 0)) by lia. cbn [mbind res_bind].
  rewrite (gmap_hash _ _ _ _ _ _ OK _ _ _ HR Hk). cbn [mbind res_bind]. rewrite Eg. cbn [mbind res_bind]. rewrite En. cbn [mbind res_bind].
  rewrite (glocate _ _ _ _ _ _ OK _ _ _ _ HR Hk He). cbn [mbind res_bind fmap option_fmap option_map].
  destruct (first_index k (keys_of es)) as [p|] eqn:Ep; [done|].
  destruct (gfullb t ess (bb (gt_b t) k)) eqn:Efull.
  - unfold gfullb in Efull. apply Nat.eqb_eq in Efull. rewrite (grepr_size _ _ _ _ _ _ _ _ Hr), Efull. done.
  - destruct (gpush_slot _ _ _ _ _ _ OK _ _ _ _ v HR Hk Hv He Ep Efull) as (g0 & g' & Eg0 & Hmax & Epush & _). rewrite Eg in Eg0. injection Eg0 as <-.
    rewrite Hmax, Epush. done.
Qed.
Lemma pushed_bpg f t ess es k v t' x : grep t ess -> k < 2^kw -> v < 2^vw -> ess !! N.to_nat (bb (gt_b t) k) = Some es ->
  first_index k (keys_of es) = None -> gfullb t ess (bb (gt_b t) k) = false -> g_find_or_insert pf c (S f) t k v = Ok (t', x) -> gt_bpg t' = gt_bpg t.
Proof.
  intros HR Hk Hv He Ep Efull. pose proof (b_range _ _ _ _ _ _ OK _ _ HR) as Hbr.
  destruct (ggroup_at _ _ _ _ _ _ _ _ _ _ HR He) as (gs & g & Hgs & Hg & Eg & Hr & Hc).
  destruct (grepr_bucketsize _ _ _ _ _ _ _ _ _ _ Hr Hc) as [En _].
  cbn [g_find_or_insert]. rewrite !(proj2 (N.eqb_neq (gt_b t) 0)) by lia. cbn [mbind res_bind].
  rewrite (gmap_hash _ _ _ _ _ _ OK _ _ _ HR Hk). cbn [mbind res_bind]. rewrite Eg. cbn [mbind res_bind]. rewrite En. cbn [mbind res_bind].
  rewrite (glocate _ _ _ _ _ _ OK _ _ _ _ HR Hk He), Ep. cbn [mbind res_bind fmap option_fmap option_map].
  destruct (gpush_slot _ _ _ _ _ _ OK _ _ _ _ v HR Hk Hv He Ep Efull) as (g0 & g' & Eg0 & Hmax & Epush & _). rewrite Eg in Eg0. injection Eg0 as <-.
  rewrite Hmax, Epush. cbn [mbind res_bind]. by intros [= <- _].
Qed.
Lemma ainsert_spec : forall f t ess k v h, grep t ess -> (N.to_nat (bmax - gt_b t) < f)%nat -> k < 2^kw -> v < 2^vw ->
  tries t ess h (ag_find_or_insert pf c f t k v h) (g_find_or_insert pf c f t k v)
  /\ (k ∈ keys_of (concat ess) -> exists x, ag_find_or_insert pf c f t k v h = Ok (Done (t, x) h)).
Proof.
  induction f as [|f IH]; intros t ess k v h HR Hf Hk Hv; [lia|].
  destruct (ch_bucket _ _ _ _ _ _ _ _ _ _ _ _ _ _ gchain _ _ _ HR Hk) as (es & He). pose proof (ch_lookup _ _ _ _ _ _ _ _ _ _ _ _ _ _ gchain _ _ _ _ HR He) as Hl0.
  pose proof (gr_b _ _ _ _ _ _ _ _ HR) as Hb. pose proof (zbmax_le _ _ _ _ _ (go_hash _ _ _ _ OK)) as H63. pose proof (ho_bmin _ _ _ _ _ (go_hash _ _ _ _ OK)) as Hbm.
  pose proof (b_range _ _ _ _ _ _ OK _ _ HR) as Hbr.
  rewrite (astep f t ess es k v h HR Hk Hv He).
  destruct (first_index k (keys_of es)) as [p|] eqn:Ep.
  { rewrite (gfound _ _ _ _ _ _ OK f t ess es k v p HR Hk He Ep). cbn [mbind res_bind]. split; [|intros _; by eexists]. left. by eexists _, h. }
  assert (Hnk : k ∉ keys_of (concat ess)) by (by apply emap_None).
  split; [|intros Hin; by destruct Hnk].
  destruct (gfullb t ess (bb (gt_b t) k)) eqn:Efull.
  - pose proof (ggrow _ _ _ _ _ _ OK t ess k HR Hk Hnk Efull) as Hlt.
    rewrite (gfull _ _ _ _ _ _ OK f t ess es k v HR Hk Hv He Ep Efull).
    rewrite shl64_1 by lia. cbn [mbind res_bind].
    assert (Hlog : N.log2_up (2^(gt_b t + 1)) = gt_b t + 1) by (apply N.log2_up_pow2; lia).
    assert (Hpost : forall t2 ess2 k2 v2, grep t2 ess2 -> gt_b t + 1 <= gt_b t2 -> k2 < 2^kw -> v2 < 2^vw -> post t2 ess2 k2 v2 (g_find_or_insert pf c f t2 k2 v2)).
    { intros t2 ess2 k2 v2 HR2 Hb2 Hk2 Hv2. apply (foi_spec _ _ _ _ _ _ _ _ _ _ _ _ _ _ gchain); [done| |done|done]. pose proof (gr_b _ _ _ _ _ _ _ _ HR2). lia. }
    assert (Hn : 1 <= 2^(gt_b t + 1) <= 2^63) by (split; [pose proof (pow2_pos (gt_b t + 1)); lia|]; apply pow2_le_63; lia).
    destruct (areserve_spec (ag_find_or_insert pf c f) (g_find_or_insert pf c f) t ess (2^(gt_b t + 1)) h HR Hn) as [HT H0].
    { rewrite Hlog. lia. }
    { rewrite Hlog. exact Hpost. }
    { rewrite Hlog. intros t2 ess2 k2 v2 h2 HR2 Hb2 Hk2 Hv2. apply IH; [done| |done|done]. pose proof (gr_b _ _ _ _ _ _ _ _ HR2). lia. }
    destruct HT as [(t1 & h1 & E1 & E2 & Hh1)|(t' & -> & HL & Ht & Hh)].
    + destruct (greserve _ _ _ _ _ _ OK t ess (2^(gt_b t + 1)) HR Hn) as (tmp & ess0 & HR0 & Hc0 & Hb0 & Eres); [rewrite Hlog; lia|].
      rewrite Hlog in Hb0. rewrite Eres in E2.
      destruct (ins_fold_spec kw vw gt_b grep (g_find_or_insert pf c f) (gt_b t + 1) Hpost (concat ess) tmp ess0 HR0) as (t2 & ess2 & E2' & HR2 & Hb2 & HP2).
      { lia. } { rewrite Hc0, app_nil_r. apply HR. } { intros k2 v2 Hin. by eapply (gr_range _ _ _ _ _ _ _ _ HR). }
      rewrite E2 in E2'. injection E2' as <-. rewrite Hc0, app_nil_r in HP2.
      rewrite E1, Eres, E2. cbn [mbind res_bind].
      destruct (IH t1 ess2 k v h1 HR2) as [HT _]; [pose proof (gr_b _ _ _ _ _ _ _ _ HR2); lia|done|done|].
      destruct HT as [(a & h2 & -> & -> & Hh2)|(t' & -> & HL & Ht & Hh)].
      * left. exists a, h2. split; [done|]. split; [done|]. intros ->. apply Hh2, Hh1. done.
      * right. exists t'. split; [done|]. split; [|split; [intros ->; rewrite (H0 eq_refl) in E1; done|intros ->; apply Hh, Hh1; done]].
        eapply lossy_perm; [|by rewrite HP2|exact HL].
        rewrite (gr_n _ _ _ _ _ _ _ _ HR), (gr_n _ _ _ _ _ _ _ _ HR2). by rewrite HP2.
    + cbn [mbind res_bind]. right. exists t'. done.
  - destruct (gpush _ _ _ _ _ _ OK f t ess es k v HR Hk Hv He Ep Efull) as (t' & -> & _). cbn [mbind res_bind]. left. by eexists _, h.
Qed.

(** A table of at most 64 buckets, 64 in a group, holds 255 elements without another request *)
Lemma gfull_one t ess k : grep t ess -> gt_b t <= 6 -> gt_bpg t = 64 -> k < 2^kw -> gfullb t ess (bb (gt_b t) k) = (length (concat ess) =? 255)%nat.
Proof.
  intros H Hb Hp Hk. unfold gfullb. assert (Eg : gbpg t = 64%nat) by (unfold gbpg; by rewrite Hp). rewrite Eg.
  pose proof (gr_len _ _ _ _ _ _ _ _ H) as Hlen. assert (2^gt_b t <= 2^6) by (by apply N.pow_le_mono_r). change (2^6) with 64 in *.
  assert (Hbk : bb (gt_b t) k < 2^gt_b t) by (by destruct (z_map _ _ _ _ _ (go_hash _ _ _ _ OK) (gt_b t) k (gr_b _ _ _ _ _ _ _ _ H) Hk) as (_ & ? & _)).
  rewrite Nat.div_small by lia. unfold chunk. cbn [Nat.mul Nat.add]. change (map (fun r => nthb ess r) (seq 0 64)) with (map (nthb ess) (seq 0 64)).
  rewrite concat_nthb by lia. done.
Qed.
Lemma afold_one f : forall E tmp ess0, grep tmp ess0 -> gt_b tmp <= 6 -> gt_bpg tmp = 64 -> (N.to_nat (bmax - gt_b tmp) < S f)%nat ->
  NoDup (keys_of (E ++ concat ess0)) -> (forall k v, (k, v) ∈ E -> k < 2^kw /\ v < 2^vw) -> (length (concat ess0) <= 255)%nat ->
  if (length E + length (concat ess0) <=? 255)%nat then exists tmp', afold (ag_find_or_insert pf c (S f)) E tmp (Some O) = Ok (Done tmp' (Some O))
  else exists tmp', afold (ag_find_or_insert pf c (S f)) E tmp (Some O) = Ok (Bad tmp').
Proof.
  induction E as [|[k v] E IH]; intros tmp ess0 HR Hb Hp Hf Hnd Hr Hle.
  { cbn [length Nat.add]. rewrite (proj2 (Nat.leb_le _ _)) by done. by exists tmp. }
  destruct (Hr k v) as [Hk Hv]; [by constructor|].
  destruct (ch_bucket _ _ _ _ _ _ _ _ _ _ _ _ _ _ gchain _ _ _ HR Hk) as (es & He). pose proof (ch_lookup _ _ _ _ _ _ _ _ _ _ _ _ _ _ gchain _ _ _ _ HR He) as Hl0.
  change (NoDup (k :: keys_of (E ++ concat ess0))) in Hnd. apply NoDup_cons in Hnd as [Hnk Hnd].
  assert (Hni : k ∉ keys_of (concat ess0)) by (intros Hin; apply Hnk; rewrite fmap_app; apply elem_of_app; by right).
  assert (Hnone : emap (concat ess0) !! k = None) by (by apply emap_None).
  destruct (first_index k (keys_of es)) as [p|] eqn:Ep; [destruct Hl0 as (v0 & Hm & _); congruence|].
  cbn [afold]. rewrite (astep f tmp ess0 es k v (Some O) HR Hk Hv He), Ep. pose proof (gfull_one _ _ _ HR Hb Hp Hk) as Efull.
  destruct (Nat.eq_dec (length (concat ess0)) 255) as [E255|E255].
  - rewrite (proj2 (Nat.eqb_eq _ _) E255) in Efull. rewrite Efull, (proj2 (Nat.leb_gt _ _)) by (cbn [length]; lia).
    pose proof (gr_b _ _ _ _ _ _ _ _ HR) as Hbb. pose proof (zbmax_le _ _ _ _ _ (go_hash _ _ _ _ OK)) as H63.
    pose proof (ggrow _ _ _ _ _ _ OK tmp ess0 k HR Hk Hni Efull) as Hlt.
    rewrite shl64_1 by lia. cbn [mbind res_bind].
    assert (Hlog : N.log2_up (2^(gt_b tmp + 1)) = gt_b tmp + 1) by (apply N.log2_up_pow2; lia).
    assert (Hn : 1 <= 2^(gt_b tmp + 1) <= 2^63) by (split; [pose proof (pow2_pos (gt_b tmp + 1)); lia|]; apply pow2_le_63; lia).
    destruct (areserve_spec (ag_find_or_insert pf c f) (g_find_or_insert pf c f) tmp ess0 (2^(gt_b tmp + 1)) (Some O) HR Hn) as [_ H0]; [rewrite Hlog; lia|..].
    + rewrite Hlog. intros t2 ess2 k2 v2 HR2 Hb2 Hk2 Hv2. apply (foi_spec _ _ _ _ _ _ _ _ _ _ _ _ _ _ gchain); [done| |done|done].
      pose proof (gr_b _ _ _ _ _ _ _ _ HR2). lia.
    + rewrite Hlog. intros t2 ess2 k2 v2 h2 HR2 Hb2 Hk2 Hv2. apply ainsert_spec; [done| |done|done]. pose proof (gr_b _ _ _ _ _ _ _ _ HR2). lia.
    + rewrite (H0 eq_refl). by exists tmp.
  - rewrite (proj2 (Nat.eqb_neq _ _) E255) in Efull. rewrite Efull.
    destruct (gpush _ _ _ _ _ _ OK f tmp ess0 es k v HR Hk Hv He Ep Efull) as (t' & Ei & Hb' & HR').
    pose proof (pushed_bpg f _ _ _ _ _ _ _ HR Hk Hv He Ep Efull Ei) as Hp'.
    pose proof (concat_upd_push ess0 _ es (k, v) He) as HP.
    rewrite Ei. cbn [mbind res_bind].
    specialize (IH t' _ HR' ltac:(lia) ltac:(congruence) ltac:(lia)). rewrite (Permutation_length HP) in IH. cbn [length] in IH |- *.
    replace (S (length E) + length (concat ess0))%nat with (length E + S (length (concat ess0)))%nat by lia. apply IH.
    + assert (Hq : E ++ concat (<[N.to_nat (bb (gt_b tmp) k) := es ++ [(k, v)]]> ess0) ≡ₚ (k, v) :: E ++ concat ess0) by (rewrite HP; solve_Permutation).
      rewrite (keys_perm _ _ Hq). cbn. by apply NoDup_cons.
    + intros k2 v2 Hin. apply Hr. by constructor.
    + lia.
Qed.
(** reserve of at most 64 buckets for more than 255 elements: the second request is made when 255 elements were moved *)
Lemma areserve_lost f t ess n : grep t ess -> 1 <= n <= 64 -> bmin <= N.log2_up n <= bmax -> (N.to_nat (bmax - N.log2_up n) < S f)%nat -> (256 <= length (concat ess))%nat ->
  exists t' j k v, ag_reserve_with pf c (ag_find_or_insert pf c (S f)) t n 0 (Some 1%nat) = Ok (Bad t') /\ (k, v) ∈ concat ess /\ gt_n t' = gt_n t
    /\ k ∉ keys_of (concat (drop_groups j (gbpg t) ess))
    /\ grep (g_set_n t' (N.of_nat (length (concat (drop_groups j (gbpg t) ess))) mod 2^64)) (drop_groups j (gbpg t) ess).
Proof.
  intros H Hn64 Hb Hf H256. assert (Hn : 1 <= n <= 2^63) by (split; [lia|]; etrans; [apply Hn64|done]).
  pose proof (zbmax_le _ _ _ _ _ (go_hash _ _ _ _ OK)) as H63. pose proof (ho_kw _ _ _ _ _ (go_hash _ _ _ _ OK)) as Hkw.
  assert (Hl6 : N.log2_up n <= 6) by (apply (N.log2_up_le_mono _ 64); lia).
  assert (Hlog : N.log2_up (2^N.log2_up n) = N.log2_up n) by (apply N.log2_up_pow2; lia).
  destruct (galloc True pf c kw vw bmin (GTable None 0 0 kw vw 64) (2^N.log2_up n)) as (tmp & ess0 & Ea & HR & Hc & Hbt); try done.
  { split; [pose proof (pow2_pos (N.log2_up n)); lia|]. apply pow2_le_63. lia. }
  { by rewrite Hlog. }
  assert (Hp : gt_bpg tmp = 64).
  { unfold g_alloc in Ea. rinv Ea. injection Ea as <-. done. }
  rewrite Hlog in Hbt.
  pose proof (b_range _ _ _ _ _ _ OK _ _ H) as Hbr. unfold ag_reserve_with. rewrite (proj2 (N.eqb_neq (gt_b t) _)) by lia.
  rewrite reserve_bits_spec by done. cbn [mbind res_bind]. rewrite (gr_kw _ _ _ _ _ _ _ _ H), (gr_vw _ _ _ _ _ _ _ _ H).
  cbn [N.eqb]. rewrite !u8_small by lia. unfold ag_alloc. rewrite Ea. cbn [mbind res_bind request].
  destruct (gr_groups _ _ _ _ _ _ _ _ H) as (gs & Hgs & Hl & Hg). rewrite (ggroup_count _ _ _ _ _ _ OK _ _ _ H Hgs Hl). cbn [mbind res_bind].
  rewrite Hgs, N.ltb_irrefl. rewrite Nat2N.id, take_ge by lia.
  pose proof (arehash (ag_find_or_insert pf c (S f)) t ess H gs 0 tmp (Some O) Hg) as Hre. pose proof (ggroups_enough _ _ _ _ _ _ _ _ _ H Hl) as Hen.
  rewrite chunks_concat in Hre by done.
  assert (Hno : NoDup (keys_of (concat ess ++ concat ess0))) by (rewrite Hc, app_nil_r; apply H).
  pose proof (afold_one f (concat ess) tmp ess0 HR ltac:(lia) Hp ltac:(lia) Hno (gr_range _ _ _ _ _ _ _ _ H) ltac:(rewrite Hc; cbn; lia)) as HA.
  rewrite Hc in HA. cbn [length] in HA. rewrite Nat.add_0_r, (proj2 (Nat.leb_gt _ _)) in HA by lia. destruct HA as (tmp' & EA).
  rewrite EA in Hre. destruct Hre as (j & tmp1 & h1 & -> & Hj & EA1 & EA2). cbn [mbind res_bind].
  assert (Hcl : exists t0, g_clear tmp' = Ok t0).
  { destruct (afold_spec (ag_find_or_insert pf c (S f)) (g_find_or_insert pf c (S f)) (N.log2_up n)) with (E := concat ess) (tmp := tmp) (ess0 := ess0) (h := Some O)
      as [(? & ? & EA' & _)|(tmp2 & EA' & (t0 & Hc0) & _)]; try done.
    - intros t2 ess2 k2 v2 HR2 Hb2 Hk2 Hv2. apply (foi_spec _ _ _ _ _ _ _ _ _ _ _ _ _ _ gchain); [done| |done|done]. pose proof (gr_b _ _ _ _ _ _ _ _ HR2). lia.
    - intros t2 ess2 k2 v2 h2 HR2 Hb2 Hk2 Hv2. apply ainsert_spec; [done| |done|done]. pose proof (gr_b _ _ _ _ _ _ _ _ HR2). lia.
    - lia.
    - apply (gr_range _ _ _ _ _ _ _ _ H).
    - congruence.
    - rewrite EA in EA'. injection EA' as <-. by exists t0. }
  destruct Hcl as (t0 & ->). cbn [mbind res_bind].
  set (A := concat (map (fun j => concat (chunk (gbpg t) ess j)) (seq 0 j))) in *.
  (* the elements moved *)
  assert (Hsplit : exists B, concat ess = (A ++ concat (chunk (gbpg t) ess j)) ++ B).
  { exists (concat (map (fun j => concat (chunk (gbpg t) ess j)) (seq (S j) (length gs - S j)))).
    rewrite <-(chunks_concat (gbpg t) ess (length gs) Hen). replace (length gs) with (j + (1 + (length gs - S j)))%nat at 1 by lia.
    rewrite !seq_app, !map_app, !concat_app. cbn [Nat.add seq map concat]. rewrite app_nil_r, Nat.add_1_r. unfold A. by rewrite app_assoc. }
  destruct Hsplit as (B & Hsplit).
  assert (HnAB : NoDup (keys_of ((A ++ concat (chunk (gbpg t) ess j)) ++ concat ess0))).
  { rewrite Hc, app_nil_r. pose proof (gr_nodup _ _ _ _ _ _ _ _ H) as Hnd. rewrite Hsplit in Hnd. rewrite fmap_app in Hnd. by apply NoDup_app in Hnd as (? & _). }
  pose proof (afold_one f (A ++ concat (chunk (gbpg t) ess j)) tmp ess0 HR ltac:(lia) Hp ltac:(lia) HnAB) as HB.
  rewrite afold_app, EA1 in HB. cbn [mbind res_bind] in HB. cbn [Nat.add] in EA2. rewrite EA2 in HB.
  destruct (lookup_lt_is_Some_2 gs j Hj) as (gj & Hgj). destruct (Hg _ _ Hgj) as (H255 & _).
  assert (HlenA : A <> []).
  { intros EAn. rewrite EAn, Hc in HB. cbn [app length] in HB. rewrite Nat.add_0_r, (proj2 (Nat.leb_le _ _)) in HB by lia.
    destruct HB as (? & HB); [|lia|done]. intros k v Hin. eapply (gr_range _ _ _ _ _ _ _ _ H). rewrite Hsplit, EAn. cbn [app]. apply elem_of_app. by left. }
  destruct A as [|[k v] A'] eqn:EqA; [done|]. fold A in EqA.
  assert (Hin : exists i, (i < j)%nat /\ (k, v) ∈ concat (chunk (gbpg t) ess i)).
  { assert (Hin : (k, v) ∈ A) by (rewrite EqA; by left). unfold A in Hin. apply elem_of_concat in Hin as (i & es & Hi & Hin).
    rewrite list_lookup_fmap in Hi. destruct (seq 0 j !! i) as [i'|] eqn:Ei; [|done]. apply lookup_seq in Ei as [-> Hij]. cbn in Hi. injection Hi as <-.
    exists i. done. }
  destruct Hin as (i & Hij & Hin). destruct (chunk_elem _ _ _ _ Hin) as (bk & es & Hbk & Hines & Hrange).
  eexists _, j, k, v. split; [done|]. split; [rewrite Hsplit; by left|]. split; [done|].
  rewrite drop_ge, app_nil_r by lia.
  pose proof (cleared_rep t ess gs j _ H Hgs eq_refl) as HR'. rewrite (gr_kw _ _ _ _ _ _ _ _ H), (gr_vw _ _ _ _ _ _ _ _ H) in HR'.
  split; [|exact HR'].
  intros Hk. apply elem_of_list_fmap in Hk as ([k' v'] & Ek & Hk). cbn in Ek. subst k'. apply elem_of_concat in Hk as (bk' & es' & Hbk' & Hk).
  pose proof (gr_placed _ _ _ _ _ _ _ _ H _ _ _ _ Hbk Hines) as P1. pose proof (gr_placed _ _ _ _ _ _ _ _ HR' _ _ _ _ Hbk' Hk) as P2. cbn [gt_b] in P2.
  assert (bk' = bk) as -> by lia.
  assert (En : nthb (drop_groups j (gbpg t) ess) bk = es') by (by apply nthb_Some). rewrite drop_groups_nthb, (proj2 (Nat.ltb_lt _ _)) in En by nia. subst es'.
  by apply elem_of_nil in Hk.
Qed.
End group.

(** The search functions of t' see the map m' *)
Definition sees (pf : platform) (c : gcfg) (kw : N) (fuel : nat) (t' : gtable) (m' : gmap N N) : Prop :=
  forall k, k < 2^kw -> m_run_op (g_impl pf c fuel) t' (OpFind k) = Ok (t', OutEntry ((fun v => (k, v)) <$> m' !! k)).
(** clear() and the destructor work, and after clear() the table is as good as new *)
Definition restarts (pf : platform) (c : gcfg) (kw vw bmin : N) (t' : gtable) : Prop :=
  exists t0, g_clear t' = Ok t0 /\ forall fuel ops, (64 <= fuel)%nat -> valid_ops kw vw bmin (zbmax (gc_hash c) kw) ops ->
    exists t1, m_run_ops (g_impl pf c fuel) t0 ops = Ok (t1, snd (spec_run ∅ ops)).
(** What std::bad_alloc may leave of the table t with the content m *)
Definition left_behind (pf : platform) (c : gcfg) (kw vw bmin : N) (t : gtable) (m : gmap N N) (t' : gtable) (m' : gmap N N) : Prop :=
  m' ⊆ m /\ (forall fuel, (64 <= fuel)%nat -> sees pf c kw fuel t' m') /\ restarts pf c kw vw bmin t' /\ g_size_of t' = g_size_of t.

Lemma find_set_n pf c fuel t n k r : m_run_op (g_impl pf c fuel) (g_set_n t n) (OpFind k) = Ok (g_set_n t n, r) -> m_run_op (g_impl pf c fuel) t (OpFind k) = Ok (t, r).
Proof.
  cbn [m_run_op g_impl i_find i_view]. change (g_find pf c (g_set_n t n) k) with (g_find pf c t k). change (g_view pf c (g_set_n t n)) with (g_view pf c t).
  destruct (g_find pf c t k) as [x| | |]; cbn [mbind res_bind]; try done.
  destruct (v_iter_at (g_view pf c t) x) as [a| | |]; cbn [mbind res_bind]; try done. by intros [= <-].
Qed.
Lemma rep_sees pf c kw vw bmin t' ess' n : group_ok c kw vw bmin -> grep True pf c kw vw bmin (g_set_n t' n) ess' ->
  forall fuel, (64 <= fuel)%nat -> sees pf c kw fuel t' (emap (concat ess')).
Proof.
  intros OK H fuel Hf k Hk. apply (find_set_n pf c fuel t' n).
  destruct (group_run pf c kw vw bmin OK True fuel [OpFind k] (g_set_n t' n) (emap (concat ess')) Hf) as (t1 & E & _); [right; by exists ess'| |by left|].
  { apply List.Forall_cons; [exact Hk|apply List.Forall_nil]. }
  rewrite m_run_cons in E. rinv E. destruct a as [t2 r]. cbn [m_run_ops mbind res_bind] in E. injection E as -> ->.
  cbn [m_run_op g_impl i_find i_view] in E0. destruct (g_find pf c (g_set_n t' n) k) as [x| | |]; cbn [mbind res_bind] in E0; try done.
  destruct (v_iter_at (g_view pf c (g_set_n t' n)) x) as [a| | |]; cbn [mbind res_bind] in E0; try done. by injection E0 as <- _.
Qed.
Lemma lossy_left pf c kw vw bmin t ess t' : group_ok c kw vw bmin -> grep True pf c kw vw bmin t ess -> lossy pf c kw vw bmin t ess t' ->
  exists m', left_behind pf c kw vw bmin t (emap (concat ess)) t' m'.
Proof.
  intros OK H HL. pose proof HL as (En & ess' & H' & HS). exists (emap (concat ess')). split; [|split; [|split]].
  - apply map_subseteq_spec. intros k v Hk. apply emap_Some in Hk; [|apply H']. apply emap_Some; [apply H|]. by eapply elem_of_submseteq.
  - by eapply rep_sees.
  - destruct (lossy_clear _ _ _ _ _ OK _ _ _ HL) as (t0 & E & Hz). exists t0. split; [done|]. intros fuel ops Hf Hv.
    destruct (group_run pf c kw vw bmin OK True fuel ops t0 ∅ Hf) as (t1 & E1 & _); [by left|done|by left|]. by exists t1.
  - done.
Qed.
Lemma zero_left pf c kw vw bmin t : group_ok c kw vw bmin -> gzero kw vw t -> left_behind pf c kw vw bmin t ∅ t ∅.
Proof.
  intros OK Hz. assert (HM : gmrep pf c kw vw bmin True t ∅) by (by left). split; [done|]. split; [|split; [|done]].
  - intros fuel Hf k Hk. rewrite lookup_empty. cbn [m_run_op g_impl i_find i_view]. destruct Hz as (_ & _ & Hb & _).
    unfold g_find. rewrite Hb. cbn [N.eqb mbind res_bind]. unfold v_iter_at, vn_invalid, g_view, end_nav. cbn [v_count fst snd]. unfold g_bucket_count. rewrite Hb. done.
  - exists t. split; [by eapply gclear0|]. intros fuel ops Hf Hv.
    destruct (group_run pf c kw vw bmin OK True fuel ops t ∅ Hf HM Hv) as (t1 & E1 & _); [by left|]. by exists t1.
Qed.
Lemma fuel_enough c kw vw bmin fuel b : group_ok c kw vw bmin -> (64 <= fuel)%nat -> (N.to_nat (zbmax (gc_hash c) kw - b) < fuel)%nat.
Proof. intros OK Hf. pose proof (zbmax_le _ _ _ _ _ (go_hash _ _ _ _ OK)). lia. Qed.
Lemma range_log c kw vw bmin n : group_ok c kw vw bmin -> 2^bmin / 2 < n -> n <= 2^zbmax (gc_hash c) kw ->
  1 <= n <= 2^63 /\ bmin <= N.log2_up n <= zbmax (gc_hash c) kw.
Proof.
  intros OK Hlo Hhi. pose proof (zbmax_le _ _ _ _ _ (go_hash _ _ _ _ OK)) as H63. pose proof (ho_bmin _ _ _ _ _ (go_hash _ _ _ _ OK)) as Hbm.
  pose proof (pow2_le_63 (zbmax (gc_hash c) kw) ltac:(lia)). split; [lia|]. split; [|apply N.log2_up_le_pow2; lia].
  replace bmin with (N.succ (bmin - 1)) in Hlo |- * by lia. apply N.le_succ_l.
  rewrite N.pow_succ_r' in Hlo. rewrite N.mul_comm, N.div_mul in Hlo by done. apply N.log2_up_lt_pow2; lia.
Qed.

(** ** C125: what an insertion into a group_chaining_table leaves behind when operator new fails at any of its requests.
    It completes and does what the call without failures does, or it is left by std::bad_alloc.  Then the key was new, the table holds some of the
    elements it had and no others, searches work, clear() and the destructor work, and size() is what it was.  If already the first request fails
    the table is unchanged.  The search for a key that is present makes no request. *)
Theorem C125_insert : forall pf c kw vw bmin fuel t m k v h, g_reached pf c kw vw bmin t m -> (64 <= fuel)%nat -> k < 2^kw -> v < 2^vw ->
  (exists t' x h', ag_find_or_insert pf c fuel t k v h = Ok (Done (t', x) h') /\ g_find_or_insert pf c fuel t k v = Ok (t', x)
    /\ (is_Some (m !! k) -> t' = t /\ h' = h))
  \/ (exists t' m', ag_find_or_insert pf c fuel t k v h = Ok (Bad t') /\ m !! k = None /\ h <> None
    /\ left_behind pf c kw vw bmin t m t' m' /\ (h = Some O -> t' = t /\ m' = m)).
Proof.
  intros pf c kw vw bmin fuel t m k v h HR Hf Hk Hv. destruct (g_reached_rep _ _ _ _ _ _ _ HR) as [OK [[Hz ->]|(ess & H & <-)]].
  - destruct fuel as [|f]; [lia|]. destruct (go_init _ _ _ _ OK) as [Hkw3 Hini]. pose proof (ho_kw _ _ _ _ _ (go_hash _ _ _ _ OK)) as Hkw.
    pose proof Hz as (E1 & E2 & Hb & Hn0 & _ & Hbp).
    destruct (galloc True pf c kw vw bmin t (N.min (kw - 1) 8)) as (t1 & ess0 & Ea & HR1 & Hc & Hbt); try done.
    { split; [lia|]. etrans; [apply N.le_min_r|done]. }
    pose proof (b_range _ _ _ _ _ _ OK _ _ HR1) as Hbr.
    assert (Eg : g_find_or_insert pf c (S f) t k v = g_find_or_insert pf c (S f) t1 k v).
    { cbn [g_find_or_insert]. rewrite Hb, E1. cbn [N.eqb]. rewrite sub64_small, Ea by lia. cbn [mbind res_bind]. rewrite (proj2 (N.eqb_neq (gt_b t1) 0)) by lia. done. }
    destruct (request_cases h) as [[-> Hreq]|(Hh0 & h1 & Hreq & Hh1)].
    + right. exists t, ∅. split.
      { cbn [ag_find_or_insert]. rewrite Hb, E1. cbn [N.eqb]. unfold ag_alloc. rewrite sub64_small, Ea by lia. cbn [mbind res_bind]. by rewrite Hreq. }
      split; [done|]. split; [done|]. split; [by apply zero_left|done].
    + assert (Ega : ag_find_or_insert pf c (S f) t k v h = ag_find_or_insert pf c (S f) t1 k v h1).
      { cbn [ag_find_or_insert]. rewrite Hb, E1. cbn [N.eqb]. unfold ag_alloc. rewrite sub64_small, Ea by lia. cbn [mbind res_bind]. rewrite Hreq. cbn [mbind res_bind].
        rewrite (proj2 (N.eqb_neq (gt_b t1) 0)) by lia. done. }
      rewrite Ega, Eg. destruct (ainsert_spec pf c kw vw bmin OK (S f) t1 ess0 k v h1 HR1 (fuel_enough _ _ _ _ _ _ OK Hf) Hk Hv) as [HT _].
      destruct HT as [([t' x] & h' & Ed & Ep & _)|(t' & -> & HL & _ & Hh)].
      * left. exists t', x, h'. split; [done|]. split; [done|]. rewrite lookup_empty. by intros [? ?].
      * right. destruct (lossy_left _ _ _ _ _ _ _ _ OK HR1 HL) as (m' & Hm' & HX & HY & HZ). rewrite Hc in Hm'. exists t', m'. split; [done|]. split; [done|].
        split; [intros ->; apply Hh, Hh1; done|]. split; [|intros ->; done]. split; [done|]. split; [done|]. split; [done|].
        rewrite HZ. unfold g_size_of. rewrite Hn0, (gr_n _ _ _ _ _ _ _ _ HR1), Hc. done.
  - destruct (ainsert_spec pf c kw vw bmin OK fuel t ess k v h H (fuel_enough _ _ _ _ _ _ OK Hf) Hk Hv) as [HT Hin].
    assert (Hpres : is_Some (emap (concat ess) !! k) -> k ∈ keys_of (concat ess)).
    { intros [v0 Hv0]. apply emap_Some in Hv0; [|apply H]. apply elem_of_list_fmap. by exists (k, v0). }
    destruct HT as [([t' x] & h' & Ed & Ep & _)|(t' & Eb & HL & H0 & Hh)].
    + left. exists t', x, h'. split; [done|]. split; [done|]. intros Hs. destruct (Hin (Hpres Hs)) as (x' & Ex). rewrite Ed in Ex. by injection Ex as -> _ ->.
    + right. assert (Hnone : emap (concat ess) !! k = None).
      { apply eq_None_not_Some. intros Hs. destruct (Hin (Hpres Hs)) as (x' & Ex). rewrite Eb in Ex. done. }
      destruct (decide (h = Some O)) as [->|Hne].
      * rewrite (H0 eq_refl) in *. exists t, (emap (concat ess)). split; [done|]. split; [done|]. split; [done|]. split; [|done].
        destruct HL as (_ & _). split; [done|]. split; [|split; [|done]].
        -- eapply (rep_sees pf c kw vw bmin t ess (gt_n t)); [done|]. by destruct t.
        -- destruct (lossy_left _ _ _ _ _ _ _ _ OK H (lossy_refl _ _ _ _ _ _ _ H)) as (m' & _ & _ & HY & _). done.
      * destruct (lossy_left _ _ _ _ _ _ _ _ OK H HL) as (m' & Hm'). exists t', m'. split; [done|]. split; [done|]. split; [done|]. split; [done|]. done.
Qed.
Print Assumptions C125_insert.
(** The same for reserve. *)
Theorem C125_reserve : forall pf c kw vw bmin fuel t m n h, g_reached pf c kw vw bmin t m -> (64 <= fuel)%nat ->
  2^bmin / 2 < n -> n <= 2^zbmax (gc_hash c) kw ->
  (exists t' h', ag_reserve pf c fuel t n 0 h = Ok (Done t' h') /\ g_reserve pf c fuel t n 0 = Ok t' /\ h <> Some O)
  \/ (exists t' m', ag_reserve pf c fuel t n 0 h = Ok (Bad t') /\ h <> None
    /\ left_behind pf c kw vw bmin t m t' m' /\ (h = Some O -> t' = t /\ m' = m)).
Proof.
  intros pf c kw vw bmin fuel t m n h HR Hf Hlo Hhi. destruct (g_reached_rep _ _ _ _ _ _ _ HR) as [OK HM].
  destruct (range_log _ _ _ _ _ OK Hlo Hhi) as [Hn Hlog]. destruct HM as [[Hz ->]|(ess & H & <-)].
  - pose proof Hz as (E1 & E2 & Hb & Hn0 & _ & Hbp). destruct (galloc True pf c kw vw bmin t n) as (t1 & ess0 & Ea & _); try done.
    unfold ag_reserve, ag_reserve_with, g_reserve, g_reserve_with. rewrite Hb. cbn [N.eqb]. unfold ag_alloc. rewrite Ea. cbn [mbind res_bind].
    destruct (request_cases h) as [[-> Hreq]|(Hh0 & h1 & Hreq & Hh1)]; rewrite Hreq.
    + right. exists t, ∅. split; [done|]. split; [done|]. split; [by apply zero_left|done].
    + left. by exists t1, h1.
  - unfold ag_reserve, g_reserve.
    destruct (areserve_spec pf c kw vw bmin OK (ag_find_or_insert pf c fuel) (g_find_or_insert pf c fuel) t ess n h H Hn Hlog) as [HT H0].
    { intros t2 ess2 k2 v2 HR2 Hb2 Hk2 Hv2. apply (foi_spec _ _ _ _ _ _ _ _ _ _ _ _ _ _ (group_chain True pf c kw vw bmin OK 64 I (le_n 64))); [done| |done|done].
      by eapply fuel_enough. }
    { intros t2 ess2 k2 v2 h2 HR2 Hb2 Hk2 Hv2. apply ainsert_spec; [done|done| |done|done]. by eapply fuel_enough. }
    destruct HT as [(t' & h' & Ed & Ep & _)|(t' & Eb & HL & Ht & Hh)].
    + left. exists t', h'. split; [done|]. split; [done|]. intros ->. rewrite (H0 eq_refl) in Ed. done.
    + right. destruct (decide (h = Some O)) as [->|Hne].
      * rewrite (Ht eq_refl) in *. exists t, (emap (concat ess)). split; [done|]. split; [done|]. split; [|done].
        split; [done|]. split; [|split; [|done]].
        -- eapply (rep_sees pf c kw vw bmin t ess (gt_n t)); [done|]. by destruct t.
        -- destruct (lossy_left _ _ _ _ _ _ _ _ OK H (lossy_refl _ _ _ _ _ _ _ H)) as (m' & _ & _ & HY & _). done.
      * destruct (lossy_left _ _ _ _ _ _ _ _ OK H HL) as (m' & Hm'). exists t', m'. by split.
Qed.
Print Assumptions C125_reserve.
(** Refuted: the strong guarantee.  In every table of more than 255 elements, reserve of at most 64 buckets loses elements if the first request is
    granted and the second, made by the insertion of the 256th element into tmp_map, fails; size() still counts them. *)
Theorem C125_lost_refuted : forall pf c kw vw bmin fuel t m n, g_reached pf c kw vw bmin t m -> (64 <= fuel)%nat ->
  2^bmin / 2 < n -> n <= 2^zbmax (gc_hash c) kw -> n <= 64 -> (256 <= size m)%nat ->
  exists t' k v, ag_reserve pf c fuel t n 0 (Some 1%nat) = Ok (Bad t') /\ m !! k = Some v
    /\ m_run_op (g_impl pf c fuel) t' (OpFind k) = Ok (t', OutEntry None) /\ g_size_of t' = N.of_nat (size m) mod 2^64.
Proof.
  intros pf c kw vw bmin fuel t m n HR Hf Hlo Hhi H64 H256. destruct (g_reached_rep _ _ _ _ _ _ _ HR) as [OK HM].
  destruct (range_log _ _ _ _ _ OK Hlo Hhi) as [Hn Hlog]. destruct HM as [[Hz ->]|(ess & H & <-)]; [rewrite map_size_empty in H256; lia|].
  rewrite emap_size in * by apply H. destruct fuel as [|f]; [lia|].
  destruct (areserve_lost pf c kw vw bmin OK f t ess n H ltac:(lia) Hlog) as (t' & j & k & v & E & Hin & En & Hno & H'); [|done|].
  { pose proof (zbmax_le _ _ _ _ _ (go_hash _ _ _ _ OK)). lia. }
  exists t', k, v. split; [done|]. split; [apply emap_Some; [apply H|done]|]. split.
  - pose proof (rep_sees pf c kw vw bmin t' _ _ OK H' (S f) Hf k (proj1 (gr_range _ _ _ _ _ _ _ _ H _ _ Hin))) as Hs.
    rewrite (proj2 (emap_None _ _) Hno) in Hs. exact Hs.
  - unfold g_size_of. rewrite En. apply H.
Qed.
Print Assumptions C125_lost_refuted.
(** The same for an insertion that needs memory into such a table of at most 32 buckets. *)
Theorem C125_insert_lost_refuted : forall pf c kw vw bmin fuel t m k v, g_reached pf c kw vw bmin t m -> (64 <= fuel)%nat -> k < 2^kw -> v < 2^vw ->
  gt_b t <= 5 -> (256 <= size m)%nat -> ag_find_or_insert pf c fuel t k v (Some O) = Ok (Bad t) ->
  exists t' k' v', ag_find_or_insert pf c fuel t k v (Some 1%nat) = Ok (Bad t') /\ m !! k' = Some v'
    /\ m_run_op (g_impl pf c fuel) t' (OpFind k') = Ok (t', OutEntry None) /\ g_size_of t' = N.of_nat (size m) mod 2^64.
Proof.
  intros pf c kw vw bmin fuel t m k v HR Hf Hk Hv Hb5 H256 Hbad. destruct (g_reached_rep _ _ _ _ _ _ _ HR) as [OK HM].
  destruct HM as [[Hz ->]|(ess & H & <-)]; [rewrite map_size_empty in H256; lia|]. rewrite emap_size in * by apply H.
  destruct fuel as [|[|f]]; [lia|lia|].
  destruct (ch_bucket _ _ _ _ _ _ _ _ _ _ _ _ _ _ (group_chain True pf c kw vw bmin OK 64 I (le_n 64)) _ _ _ H Hk) as (es & He).
  pose proof (ch_lookup _ _ _ _ _ _ _ _ _ _ _ _ _ _ (group_chain True pf c kw vw bmin OK 64 I (le_n 64)) _ _ _ _ H He) as Hl0.
  rewrite (astep pf c kw vw bmin OK (S f) t ess es k v (Some O) H Hk Hv He) in Hbad. rewrite (astep pf c kw vw bmin OK (S f) t ess es k v (Some 1%nat) H Hk Hv He).
  destruct (first_index k (keys_of es)) as [p|] eqn:Ep; [by rinv Hbad|].
  destruct (gfullb t ess _) eqn:Efull; [|by rinv Hbad]. clear Hbad.
  assert (Hnk : k ∉ keys_of (concat ess)) by (by apply emap_None).
  pose proof (ggrow _ _ _ _ _ _ OK t ess k H Hk Hnk Efull) as Hlt. pose proof (gr_b _ _ _ _ _ _ _ _ H) as Hbb.
  rewrite shl64_1 by lia. cbn [mbind res_bind].
  assert (Hlog : N.log2_up (2^(gt_b t + 1)) = gt_b t + 1) by (apply N.log2_up_pow2; lia).
  assert (2^(gt_b t + 1) <= 2^6) by (apply N.pow_le_mono_r; lia). change (2^6) with 64 in *. pose proof (pow2_pos (gt_b t + 1)).
  destruct (areserve_lost pf c kw vw bmin OK f t ess (2^(gt_b t + 1)) H ltac:(lia)) as (t' & j & k' & v' & E & Hin & En & Hno & H'); [rewrite Hlog; lia| |done|].
  { rewrite Hlog. pose proof (zbmax_le _ _ _ _ _ (go_hash _ _ _ _ OK)). lia. }
  exists t', k', v'. split; [by rewrite E|]. split; [apply emap_Some; [apply H|done]|]. split.
  - pose proof (rep_sees pf c kw vw bmin t' _ _ OK H' (S (S f)) Hf k' (proj1 (gr_range _ _ _ _ _ _ _ _ H _ _ Hin))) as Hs.
    rewrite (proj2 (emap_None _ _) Hno) in Hs. exact Hs.
  - unfold g_size_of. rewrite En. apply H.
Qed.
Print Assumptions C125_insert_lost_refuted.
(** A table with 300 elements *)
Definition ex_ag_ops : list op := map (fun k => OpInsert (N.of_nat k) 1) (seq 0 300).
Example C125_case : exists t, g_reached loose_pf ex_gx 20 9 1 t (fst (spec_run ∅ ex_ag_ops)) /\ size (fst (spec_run ∅ ex_ag_ops)) = 300%nat
  /\ 2^1 / 2 < 64 /\ 64 <= 2^zbmax (gc_hash ex_gx) 20.
Proof.
  assert (Hv : valid_ops 20 9 1 (zbmax (gc_hash ex_gx) 20) ex_ag_ops).
  { apply List.Forall_map, List.Forall_forall. intros k Hk%in_seq. split; [|done]. change (2^20) with 1048576. lia. }
  destruct (group_run loose_pf ex_gx 20 9 1 ex_gx_ok True 64 ex_ag_ops (g_new 20 9) ∅ ltac:(lia)) as (t & E & _); [apply gmrep_new|done|by left|].
  exists t. split; [|split; [vm_compute; reflexivity|split; [done|by vm_compute]]].
  exists 64%nat, ex_ag_ops. eexists. split; [exact ex_gx_ok|]. split; [lia|]. split; [exact Hv|]. split; [exact E|reflexivity].
Qed.
(** The first request of a new table fails, and is granted *)
Example C125_first_case : ag_find_or_insert strict_pf ex_gx 64 (g_new 20 9) 5 7 (Some O) = Ok (Bad (g_new 20 9))
  /\ match ag_find_or_insert strict_pf ex_gx 64 (g_new 20 9) 5 7 (Some 1%nat) with Ok (Done (t, _) h) => gt_n t = 1 /\ h = Some O | _ => False end.
Proof. vm_compute. done. Qed.
(** A table of 8 buckets, three in a group, with 255 keys of the first group and one of the second; the next key of the first group needs memory. *)
Notation ex_ag_first :=
  (List.filter (fun k => match hash_map (ghm ex_gx 10) k 3 with Ok (_, bk) => bk <? 3 | _ => false end) (map N.of_nat (seq 0 700))).
Notation ex_ag_full := (map (fun k => OpInsert k 1) (7 :: take 255 ex_ag_first)).
Definition ex_ag_of (r : res (gtable * list out)) : gtable := match r with Ok (t, _) => t | _ => g_new 10 1 end.
Notation ex_ag_tab := (ex_ag_of (m_run_ops (g_impl loose_pf ex_gx 64) (g_new 10 1) ex_ag_full)).
Definition fails_first (t : gtable) (k : N) : N * N * bool :=
  (gt_b t, gt_n t, match ag_find_or_insert loose_pf ex_gx 64 t k 1 (Some O) with Ok (Bad _) => true | _ => false end).
Lemma fails_first_inv t k : fails_first t k = (3, 256, true) -> gt_b t = 3 /\ forall a h, ag_find_or_insert loose_pf ex_gx 64 t k 1 (Some O) <> Ok (Done a h).
Proof.
  unfold fails_first. intros E. apply pair_equal_spec in E as [Hb E]. apply pair_equal_spec in Hb as [Hb _]. split; [exact Hb|]. intros a h Ea. rewrite Ea in E. discriminate E.
Qed.
Lemma fails_first_bad t m k : g_reached loose_pf ex_gx 10 1 1 t m -> k < 2^10 -> fails_first t k = (3, 256, true) ->
  gt_b t <= 5 /\ ag_find_or_insert loose_pf ex_gx 64 t k 1 (Some O) = Ok (Bad t).
Proof.
  intros HR Hk HF. apply fails_first_inv in HF as [Hb HF]. split; [rewrite Hb; done|].
  destruct (C125_insert _ _ _ _ _ 64%nat _ _ k 1 (Some O) HR (le_n 64) Hk eq_refl) as [(t' & x & h' & E & _)|(t' & m' & E & _ & _ & _ & H0)].
  - exfalso. exact (HF (t', x) h' E).
  - destruct (H0 eq_refl) as [-> _]. exact E.
Qed.
Lemma ex_ag_reached : g_reached loose_pf ex_gx 10 1 1 ex_ag_tab (fst (spec_run ∅ ex_ag_full)).
Proof.
  pose proof (gx_ok Xorshift 10 1 ltac:(lia) ltac:(lia)) as OK.
  assert (Hv : valid_ops 10 1 1 (zbmax (gc_hash ex_gx) 10) ex_ag_full).
  { apply List.Forall_map. assert (Hk : Forall (fun k => k < 1024) (7 :: take 255 ex_ag_first)).
    { apply List.Forall_cons; [done|]. apply Forall_take, List.Forall_forall. intros k Hk. apply List.filter_In in Hk as [Hk _]. apply in_map_iff in Hk as (n & <- & Hn). apply in_seq in Hn. lia. }
    eapply List.Forall_impl; [|exact Hk]. intros k Hlt. split; [exact Hlt|]. done. }
  destruct (group_run loose_pf ex_gx 10 1 1 OK True 64 ex_ag_full (g_new 10 1) ∅ ltac:(lia)) as (t' & E & _); [apply gmrep_new|done|by left|].
  exists 64%nat, ex_ag_full. eexists. split; [exact OK|]. split; [lia|]. split; [exact Hv|]. split; [|reflexivity].
  rewrite E. reflexivity.
Qed.
Lemma ex_ag_fails : fails_first ex_ag_tab 690 = (3, 256, true).
Proof. vm_compute. reflexivity. Qed.
Example C125_insert_case : g_reached loose_pf ex_gx 10 1 1 ex_ag_tab (fst (spec_run ∅ ex_ag_full)) /\ size (fst (spec_run ∅ ex_ag_full)) = 256%nat
  /\ gt_b ex_ag_tab <= 5 /\ ag_find_or_insert loose_pf ex_gx 64 ex_ag_tab 690 1 (Some O) = Ok (Bad ex_ag_tab).
Proof.
  split; [exact ex_ag_reached|]. split; [vm_compute; reflexivity|].
  apply (fails_first_bad ex_ag_tab _ 690 ex_ag_reached); [reflexivity|exact ex_ag_fails].
Qed.
