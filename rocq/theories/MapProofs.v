(** Histories of a map made of 2^b chains of entries, for any implementation of the single calls.
    The hypotheses of this file are theorems about compact_chaining_map (CompactProofs.v) and
    group_chaining_table (GroupTable.v). *)
From Verif Require Export NavProofs TableRefine.

(** What a client sees of two entries / outputs that agree up to [okey]. *)
Definition oout (okey : N -> N -> Prop) (a e : out) : Prop :=
  match a, e with
  | OutEntry (Some x), OutEntry (Some y) => oent okey x y
  | _, _ => a = e
  end.
Lemma oout_refl okey a : (match a with OutEntry (Some _) => False | _ => True end) -> oout okey a a.
Proof. by destruct a as [|[]| |]. Qed.
Lemma oout_eq l l' : Forall2 (oout eq) l l' -> l = l'.
Proof.
  induction 1 as [|a e l l' H1 _ IH]; [done|]. rewrite IH. f_equal.
  destruct a as [|[[]|]| |], e as [|[[]|]| |]; cbn in H1; try done. destruct H1 as [H1 H2]. cbn in *. by subst.
Qed.

(** reserve(n) as a fold of insertions into a fresh map, which is examined at the end (fin) *)
Definition ins_fold {T} (ins : T -> N -> N -> res (T * nav)) (E : entries) (t : T) : res T :=
  rfold (fun t e => r ← ins t (fst e) (snd e); Ok (fst r)) E t.

Record chain_ok {T : Type} (I : mapimpl T) (kw vw bmin bmax : N) (okey : N -> N -> Prop)
    (bits : T -> N) (hb : N -> N -> N) (Rep : T -> list entries -> Prop) (Zero : T -> Prop)
    (full : T -> list entries -> N -> bool)
    (foi : nat -> T -> N -> N -> res (T * nav)) (resv : (T -> N -> N -> res (T * nav)) -> T -> N -> res T)
    (fuel : nat) : Prop := {
  ch_b : 1 <= bmin /\ bmin <= bmax /\ bmax <= 63;
  ch_fuel : (64 <= fuel)%nat;
  ch_hb : forall b k, bmin <= b <= bmax -> k < 2^kw -> hb b k < 2^b;
  ch_bits : forall t ess, Rep t ess -> bmin <= bits t <= bmax;
  ch_placed : forall t ess, Rep t ess -> placed (hb (bits t)) ess;
  ch_nodup : forall t ess, Rep t ess -> NoDup (keys_of (concat ess));
  ch_range : forall t ess k v, Rep t ess -> (k, v) ∈ concat ess -> k < 2^kw /\ v < 2^vw;
  ch_shows : forall t ess, Rep t ess -> shows okey (i_view I t) (bits t) ess;
  ch_shows0 : forall t, Zero t -> v_count (i_view I t) = 0;
  ch_find : forall t ess es k, Rep t ess -> k < 2^kw -> ess !! N.to_nat (hb (bits t) k) = Some es ->
    i_find I t k = Ok (match first_index k (keys_of es) with Some p => (hb (bits t) k, N.of_nat p) | None => end_nav end);
  ch_find0 : forall t k, Zero t -> i_find I t k = Ok end_nav;
  ch_insert : forall t k v, i_insert I t k v = foi fuel t k v;
  ch_found : forall f t ess es k v p, Rep t ess -> k < 2^kw -> ess !! N.to_nat (hb (bits t) k) = Some es ->
    first_index k (keys_of es) = Some p -> foi (S f) t k v = Ok (t, (hb (bits t) k, N.of_nat p));
  ch_push : forall f t ess es k v, Rep t ess -> k < 2^kw -> v < 2^vw -> ess !! N.to_nat (hb (bits t) k) = Some es ->
    first_index k (keys_of es) = None -> full t ess (hb (bits t) k) = false ->
    exists t', foi (S f) t k v = Ok (t', (hb (bits t) k, N.of_nat (length es)))
      /\ bits t' = bits t /\ Rep t' (<[N.to_nat (hb (bits t) k) := es ++ [(k, v)]]> ess);
  ch_full : forall f t ess es k v, Rep t ess -> k < 2^kw -> v < 2^vw -> ess !! N.to_nat (hb (bits t) k) = Some es ->
    first_index k (keys_of es) = None -> full t ess (hb (bits t) k) = true ->
    foi (S f) t k v = (n ← shl64 1 (bits t + 1); t ← resv (foi f) t n; foi f t k v);
  ch_grow : forall t ess k, Rep t ess -> k < 2^kw -> k ∉ keys_of (concat ess) -> full t ess (hb (bits t) k) = true -> bits t < bmax;
  ch_resv : forall t ess n, Rep t ess -> 1 <= n <= 2^63 -> bmin <= N.log2_up n <= bmax ->
    exists tmp ess0 fin, Rep tmp ess0 /\ concat ess0 = [] /\ bits tmp = N.log2_up n
      /\ (forall t' ess', Rep t' ess' -> concat ess' ≡ₚ concat ess -> fin t' = Ok t')
      /\ forall ins, resv ins t n = (t' ← ins_fold ins (concat ess) tmp; fin t');
  ch_reserve : forall t n, i_reserve I t n = resv (foi fuel) t n;
  ch_reserve0 : forall t n, Zero t -> 1 <= n <= 2^63 -> bmin <= N.log2_up n <= bmax ->
    exists t' ess0, i_reserve I t n = Ok t' /\ Rep t' ess0 /\ concat ess0 = [] /\ bits t' = N.log2_up n;
  ch_first : forall f t, Zero t -> exists t' ess0, Rep t' ess0 /\ concat ess0 = [] /\ forall k v, foi (S f) t k v = foi (S f) t' k v;
  ch_erase_at : forall t ess x k v, Rep t ess -> nav_at ess x = Some (k, v) ->
    exists t' es, ess !! N.to_nat (fst x) = Some es /\ i_erase_at I t x = Ok (t', 1) /\ bits t' = bits t
      /\ Rep t' (<[N.to_nat (fst x) := delete (N.to_nat (snd x)) es]> ess);
  ch_erase_end : forall t, i_erase_at I t end_nav = Ok (t, 0);
  ch_erase : forall t ess es k, Rep t ess -> k < 2^kw -> ess !! N.to_nat (hb (bits t) k) = Some es ->
    i_erase I t k = match first_index k (keys_of es) with Some p => i_erase_at I t (hb (bits t) k, N.of_nat p) | None => Ok (t, 0) end;
  ch_erase0 : forall t k, Zero t -> i_erase I t k = Ok (t, 0);
  ch_write : forall t ess x k v v', Rep t ess -> nav_at ess x = Some (k, v) -> v' < 2^vw ->
    exists t' es, ess !! N.to_nat (fst x) = Some es /\ i_write I t x v' = Ok t' /\ bits t' = bits t
      /\ Rep t' (<[N.to_nat (fst x) := <[N.to_nat (snd x) := (k, v')]> es]> ess);
  ch_size : forall t ess, Rep t ess -> i_size I t = N.of_nat (length (concat ess)) mod 2^64;
  ch_size0 : forall t, Zero t -> i_size I t = 0;
  ch_clear : forall t ess, Rep t ess -> exists t', i_clear I t = Ok t' /\ Zero t';
  ch_clear0 : forall t, Zero t -> exists t', i_clear I t = Ok t' /\ Zero t'
}.

Section chain.
Context {T : Type} (I : mapimpl T) (kw vw bmin bmax : N) (okey : N -> N -> Prop)
    (bits : T -> N) (hb : N -> N -> N) (Rep : T -> list entries -> Prop) (Zero : T -> Prop)
    (full : T -> list entries -> N -> bool)
    (foi : nat -> T -> N -> N -> res (T * nav)) (resv : (T -> N -> N -> res (T * nav)) -> T -> N -> res T)
    (fuel : nat).
Hypothesis C : chain_ok I kw vw bmin bmax okey bits hb Rep Zero full foi resv fuel.
Implicit Types (t : T) (ess : list entries) (E : entries).

Lemma ch_bucket t ess k : Rep t ess -> k < 2^kw -> exists es, ess !! N.to_nat (hb (bits t) k) = Some es.
Proof.
  intros HR Hk. eapply sh_lookup; [eapply ch_shows; eauto|]. apply (ch_hb _ _ _ _ _ _ _ _ _ _ _ _ _ _ C); [by eapply (ch_bits _ _ _ _ _ _ _ _ _ _ _ _ _ _ C)|done].
Qed.
(** Looking a key up in its own bucket is looking it up in the map. *)
Lemma ch_lookup t ess es k : Rep t ess -> ess !! N.to_nat (hb (bits t) k) = Some es ->
  match first_index k (keys_of es) with
  | Some p => exists v, emap (concat ess) !! k = Some v /\ nav_at ess (hb (bits t) k, N.of_nat p) = Some (k, v)
  | None => emap (concat ess) !! k = None
  end.
Proof.
  intros HR He. pose proof (ch_placed _ _ _ _ _ _ _ _ _ _ _ _ _ _ C _ _ HR) as Hpl. pose proof (ch_nodup _ _ _ _ _ _ _ _ _ _ _ _ _ _ C _ _ HR) as Hnd.
  destruct (first_index k (keys_of es)) as [p|] eqn:Ep.
  - apply fi_Some in Ep. rewrite list_lookup_fmap in Ep. destruct (es !! p) as [[k' v]|] eqn:Ex; [|done].
    cbn in Ep. injection Ep as ->. exists v. split.
    + apply emap_Some; [done|]. apply elem_of_concat. exists (N.to_nat (hb (bits t) k)), es. split; [done|].
      by eapply elem_of_list_lookup_2.
    + unfold nav_at. cbn [fst snd]. rewrite He, Nat2N.id. done.
  - apply fi_None in Ep. apply emap_None. rewrite (own_bucket_key (hb (bits t)) ess Hpl k es He). done.
Qed.
Lemma nav_at_map t ess x k v : Rep t ess -> nav_at ess x = Some (k, v) -> emap (concat ess) !! k = Some v.
Proof.
  intros HR Hx. apply emap_Some; [by eapply (ch_nodup _ _ _ _ _ _ _ _ _ _ _ _ _ _ C)|]. unfold nav_at in Hx.
  destruct (ess !! N.to_nat (fst x)) as [es|] eqn:E; [|done]. cbn in Hx.
  apply elem_of_concat. exists (N.to_nat (fst x)), es. split; [done|]. by eapply elem_of_list_lookup_2.
Qed.

Definition foi_post (t : T) (ess : list entries) (k v : N) (r : res (T * nav)) : Prop :=
  exists t' x ess', r = Ok (t', x) /\ Rep t' ess' /\ bits t <= bits t' /\
    match emap (concat ess) !! k with
    | Some v0 => t' = t /\ ess' = ess /\ nav_at ess x = Some (k, v0)
    | None => concat ess' ≡ₚ (k, v) :: concat ess /\ nav_at ess' x = Some (k, v)
    end.

(** Inserting new entries one by one. *)
Lemma ins_fold_spec (ins : T -> N -> N -> res (T * nav)) (b0 : N) :
  (forall t ess k v, Rep t ess -> b0 <= bits t -> k < 2^kw -> v < 2^vw -> foi_post t ess k v (ins t k v)) ->
  forall E tmp ess0, Rep tmp ess0 -> b0 <= bits tmp -> NoDup (keys_of (E ++ concat ess0)) ->
  (forall k v, (k, v) ∈ E -> k < 2^kw /\ v < 2^vw) ->
  exists t' ess', ins_fold ins E tmp = Ok t' /\ Rep t' ess' /\ bits tmp <= bits t' /\ concat ess' ≡ₚ E ++ concat ess0.
Proof.
  intros Hins. induction E as [|[k v] E IH]; intros tmp ess0 HR Hb Hnd Hr.
  - exists tmp, ess0. split; [done|]. split; [done|]. split; [lia|]. done.
  - unfold ins_fold. cbn [rfold fst snd]. destruct (Hr k v) as [Hk Hv]; [by constructor|].
    destruct (Hins tmp ess0 k v HR Hb Hk Hv) as (t1 & x & ess1 & -> & HR1 & Hb1 & Hpost). cbn [mbind res_bind fst].
    change (NoDup (k :: keys_of (E ++ concat ess0))) in Hnd. apply NoDup_cons in Hnd as [Hnk Hnd].
    assert (Hnone : emap (concat ess0) !! k = None).
    { apply emap_None. intros Hin. apply Hnk. rewrite fmap_app. apply elem_of_app. by right. }
    rewrite Hnone in Hpost. destruct Hpost as [HP _].
    destruct (IH t1 ess1 HR1) as (t' & ess' & E' & HR' & Hb' & HP'); [lia| |intros; apply Hr; by constructor|].
    + assert (Hq : E ++ concat ess1 ≡ₚ (k, v) :: E ++ concat ess0) by (rewrite HP; solve_Permutation).
      rewrite (keys_perm _ _ Hq). cbn. apply NoDup_cons. done.
    + exists t', ess'. split; [exact E'|]. split; [done|]. split; [lia|]. rewrite HP', HP. solve_Permutation.
Qed.

Lemma foi_spec : forall f t ess k v, Rep t ess -> (N.to_nat (bmax - bits t) < f)%nat -> k < 2^kw -> v < 2^vw ->
  foi_post t ess k v (foi f t k v).
Proof.
  induction f as [|f IH]; intros t ess k v HR Hf Hk Hv; [lia|].
  destruct (ch_bucket _ _ _ HR Hk) as (es & He). pose proof (ch_lookup _ _ _ _ HR He) as Hl.
  pose proof (ch_bits _ _ _ _ _ _ _ _ _ _ _ _ _ _ C _ _ HR) as Hb. pose proof (ch_b _ _ _ _ _ _ _ _ _ _ _ _ _ _ C) as Hbb.
  destruct (first_index k (keys_of es)) as [p|] eqn:Ep.
  - destruct Hl as (v0 & Hm & Hx). rewrite (ch_found _ _ _ _ _ _ _ _ _ _ _ _ _ _ C f t ess es k v p HR Hk He Ep). unfold foi_post.
    eexists t, _, ess. split; [done|]. split; [done|]. split; [lia|]. rewrite Hm. done.
  - destruct (full t ess (hb (bits t) k)) eqn:Efull.
    + assert (Hnk : k ∉ keys_of (concat ess)) by (by apply emap_None).
      pose proof (ch_grow _ _ _ _ _ _ _ _ _ _ _ _ _ _ C t ess k HR Hk Hnk Efull) as Hlt.
      rewrite (ch_full _ _ _ _ _ _ _ _ _ _ _ _ _ _ C f t ess es k v HR Hk Hv He Ep Efull).
      rewrite shl64_1 by lia. cbn [mbind res_bind].
      assert (Hlog : N.log2_up (2^(bits t + 1)) = bits t + 1) by (apply N.log2_up_pow2; lia).
      destruct (ch_resv _ _ _ _ _ _ _ _ _ _ _ _ _ _ C t ess (2^(bits t + 1)) HR) as (tmp & ess0 & fin & HR0 & Hc0 & Hb0 & Hfin & ->).
      { split; [pose proof (pow2_pos (bits t + 1)); lia|]. apply pow2_le_63. lia. }
      { rewrite Hlog. lia. }
      rewrite Hlog in Hb0.
      destruct (ins_fold_spec (foi f) (bits t + 1)) with (E := concat ess) (tmp := tmp) (ess0 := ess0)
        as (t1 & ess1 & -> & HR1 & Hb1 & HP1); [|done|lia| |intros; eapply (ch_range _ _ _ _ _ _ _ _ _ _ _ _ _ _ C); [exact HR|done]|].
      { intros t2 ess2 k2 v2 HR2 Hb2 Hk2 Hv2. apply IH; [done| |done|done]. pose proof (ch_bits _ _ _ _ _ _ _ _ _ _ _ _ _ _ C _ _ HR2). lia. }
      { rewrite Hc0, app_nil_r. by eapply (ch_nodup _ _ _ _ _ _ _ _ _ _ _ _ _ _ C). }
      cbn [mbind res_bind]. rewrite Hc0, app_nil_r in HP1. rewrite (Hfin _ _ HR1 HP1). cbn [mbind res_bind].
      destruct (IH t1 ess1 k v HR1) as (t' & x & ess' & -> & HR' & Hb' & Hpost); [pose proof (ch_bits _ _ _ _ _ _ _ _ _ _ _ _ _ _ C _ _ HR1); lia|done|done|].
      assert (Em : emap (concat ess1) = emap (concat ess)).
      { apply emap_perm; [by eapply (ch_nodup _ _ _ _ _ _ _ _ _ _ _ _ _ _ C)|done]. }
      rewrite Em, Hl in Hpost. destruct Hpost as [HP Hx].
      exists t', x, ess'. split; [done|]. split; [done|]. split; [lia|]. rewrite Hl. split; [|done]. by rewrite HP, HP1.
    + destruct (ch_push _ _ _ _ _ _ _ _ _ _ _ _ _ _ C f t ess es k v HR Hk Hv He Ep Efull) as (t' & -> & Hb' & HR').
      eexists t', _, _. split; [done|]. split; [exact HR'|]. split; [lia|]. rewrite Hl. split.
      * by apply concat_upd_push.
      * unfold nav_at. cbn [fst snd]. rewrite list_lookup_insert by (by eapply lookup_lt_Some). cbn.
        rewrite Nat2N.id, lookup_app_r, Nat.sub_diag by done. done.
Qed.

Lemma ch_fuel_enough t ess : Rep t ess -> (N.to_nat (bmax - bits t) < fuel)%nat.
Proof. intros HR. pose proof (ch_bits _ _ _ _ _ _ _ _ _ _ _ _ _ _ C _ _ HR). pose proof (ch_b _ _ _ _ _ _ _ _ _ _ _ _ _ _ C). pose proof (ch_fuel _ _ _ _ _ _ _ _ _ _ _ _ _ _ C). lia. Qed.

(** t represents the finite map m. *)
Definition mrep_full t (m : gmap N N) : Prop := exists ess, Rep t ess /\ emap (concat ess) = m.
Definition mrep t (m : gmap N N) : Prop := (Zero t /\ m = ∅) \/ mrep_full t m.

Lemma insert_rep_gen t m k v : mrep t m -> k < 2^kw -> v < 2^vw ->
  exists t' x ess, i_insert I t k v = Ok (t', x) /\ Rep t' ess /\
    match m !! k with
    | Some v0 => emap (concat ess) = m /\ nav_at ess x = Some (k, v0)
    | None => emap (concat ess) = <[k := v]> m /\ nav_at ess x = Some (k, v)
    end.
Proof.
  intros HR Hk Hv. rewrite (ch_insert _ _ _ _ _ _ _ _ _ _ _ _ _ _ C).
  assert (Hgo : forall t ess, Rep t ess -> emap (concat ess) = m -> exists t' x ess, foi fuel t k v = Ok (t', x) /\ Rep t' ess /\
    match m !! k with
    | Some v0 => emap (concat ess) = m /\ nav_at ess x = Some (k, v0)
    | None => emap (concat ess) = <[k := v]> m /\ nav_at ess x = Some (k, v)
    end).
  { clear t HR. intros t ess HR Hm.
    destruct (foi_spec fuel t ess k v HR (ch_fuel_enough _ _ HR) Hk Hv) as (t' & x & ess' & -> & HR' & _ & Hpost).
    rewrite Hm in Hpost. exists t', x, ess'. split; [done|]. split; [done|]. destruct (m !! k) as [v0|] eqn:Ek.
    - destruct Hpost as (-> & -> & Hx). done.
    - destruct Hpost as [HP Hx]. split; [|done]. rewrite <-Hm. eapply emap_perm_cons; [by eapply (ch_nodup _ _ _ _ _ _ _ _ _ _ _ _ _ _ C)|done|].
      apply emap_None. by rewrite Hm. }
  destruct HR as [[Hz ->]|(ess & HR & Hm)]; [|by eapply Hgo].
  destruct fuel as [|f] eqn:Ef; [pose proof (ch_fuel _ _ _ _ _ _ _ _ _ _ _ _ _ _ C); lia|].
  destruct (ch_first _ _ _ _ _ _ _ _ _ _ _ _ _ _ C f t Hz) as (t1 & ess1 & HR1 & Hc1 & ->).
  eapply Hgo; [exact HR1|]. by rewrite Hc1.
Qed.

Lemma reserve_rep_gen t m n : mrep t m -> 2^bmin / 2 < n -> n <= 2^bmax ->
  exists t', i_reserve I t n = Ok t' /\ mrep_full t' m.
Proof.
  intros HR Hlo Hhi.
  assert (Hn : 1 <= n <= 2^63 /\ bmin <= N.log2_up n <= bmax).
  { pose proof (ch_b _ _ _ _ _ _ _ _ _ _ _ _ _ _ C) as (H1 & H2 & H3).
    pose proof (pow2_le_63 bmax ltac:(lia)). split; [lia|].
    split; [|apply N.log2_up_le_pow2; lia].
    replace bmin with (N.succ (bmin - 1)) in Hlo |- * by lia. apply N.le_succ_l.
    rewrite N.pow_succ_r' in Hlo. rewrite N.mul_comm, N.div_mul in Hlo by done.
    apply N.log2_up_lt_pow2; lia. }
  destruct Hn as [Hn Hb]. destruct HR as [[Hz ->]|(ess & HR & Hm)].
  - destruct (ch_reserve0 _ _ _ _ _ _ _ _ _ _ _ _ _ _ C t n Hz Hn Hb) as (t' & ess0 & -> & HR' & Hc & _). exists t'. split; [done|]. exists ess0.
    split; [done|]. by rewrite Hc.
  - rewrite (ch_reserve _ _ _ _ _ _ _ _ _ _ _ _ _ _ C). destruct (ch_resv _ _ _ _ _ _ _ _ _ _ _ _ _ _ C t ess n HR Hn Hb) as (tmp & ess0 & fin & HR0 & Hc0 & Hb0 & Hfin & ->).
    destruct (ins_fold_spec (foi fuel) bmin) with (E := concat ess) (tmp := tmp) (ess0 := ess0)
        as (t1 & ess1 & -> & HR1 & Hb1 & HP1); [|done|lia| |intros; eapply (ch_range _ _ _ _ _ _ _ _ _ _ _ _ _ _ C); [exact HR|done]|].
    { intros t2 ess2 k2 v2 HR2 Hb2 Hk2 Hv2. apply foi_spec; [done|by eapply ch_fuel_enough|done|done]. }
    { rewrite Hc0, app_nil_r. by eapply (ch_nodup _ _ _ _ _ _ _ _ _ _ _ _ _ _ C). }
    rewrite Hc0, app_nil_r in HP1. cbn [mbind res_bind]. exists t1. split; [by eapply Hfin|]. exists ess1. split; [done|]. rewrite <-Hm.
    apply emap_perm; [by eapply (ch_nodup _ _ _ _ _ _ _ _ _ _ _ _ _ _ C)|done].
Qed.

Lemma erase_at_rep t ess x k v : Rep t ess -> nav_at ess x = Some (k, v) ->
  exists t', i_erase_at I t x = Ok (t', 1) /\ mrep_full t' (delete k (emap (concat ess))).
Proof.
  intros HR Hx. destruct (ch_erase_at _ _ _ _ _ _ _ _ _ _ _ _ _ _ C t ess x k v HR Hx) as (t' & es & He & -> & _ & HR').
  exists t'. split; [done|]. eexists. split; [exact HR'|]. unfold nav_at in Hx. rewrite He in Hx. cbn in Hx.
  eapply emap_delete; [by eapply (ch_nodup _ _ _ _ _ _ _ _ _ _ _ _ _ _ C)|]. eapply concat_upd_delete; eauto.
Qed.
Lemma find_rep t m k : mrep t m -> k < 2^kw -> exists x, i_find I t k = Ok x /\
  match m !! k with
  | Some v => exists ess, Rep t ess /\ emap (concat ess) = m /\ nav_at ess x = Some (k, v)
  | None => x = end_nav
  end.
Proof.
  intros [[Hz ->]|(ess & HR & Hm)] Hk.
  - rewrite (ch_find0 _ _ _ _ _ _ _ _ _ _ _ _ _ _ C) by done. eexists. split; [done|]. done.
  - destruct (ch_bucket _ _ _ HR Hk) as (es & He). rewrite (ch_find _ _ _ _ _ _ _ _ _ _ _ _ _ _ C _ _ _ _ HR Hk He). eexists. split; [done|].
    pose proof (ch_lookup _ _ _ _ HR He) as Hl. rewrite Hm in Hl. destruct (first_index k (keys_of es)) as [p|].
    + destruct Hl as (v & -> & Hx). by exists ess.
    + by rewrite Hl.
Qed.
Lemma mrep_end t m : mrep t m -> vn_invalid (i_view I t) end_nav = Ok true.
Proof.
  intros [[Hz ->]|(ess & HR & Hm)].
  - unfold vn_invalid, end_nav. rewrite (ch_shows0 _ _ _ _ _ _ _ _ _ _ _ _ _ _ C) by done. done.
  - eapply vn_invalid_end. by apply (ch_shows _ _ _ _ _ _ _ _ _ _ _ _ _ _ C).
Qed.

Lemma m_step_rep t m o : mrep t m -> valid_op kw vw bmin bmax o -> 0 < 2^vw ->
  exists t' r, m_run_op I t o = Ok (t', r) /\ oout okey r (snd (spec_step m o)) /\ mrep t' (fst (spec_step m o)).
Proof.
  intros HR Hvalid Hv0. pose proof (mrep_end _ _ HR) as Hend.
  assert (Hsize : i_size I t = N.of_nat (size m) mod 2^64).
  { destruct HR as [[Hz ->]|(ess & HR & <-)]; [by rewrite (ch_size0 _ _ _ _ _ _ _ _ _ _ _ _ _ _ C)|].
    rewrite (ch_size _ _ _ _ _ _ _ _ _ _ _ _ _ _ C _ _ HR), emap_size by (by eapply (ch_nodup _ _ _ _ _ _ _ _ _ _ _ _ _ _ C)). done. }
  destruct o as [k|k|k v|k|k v|k|k| | |n| |]; cbn [m_run_op valid_op] in *.
  - (* find *) destruct (find_rep t m k HR Hvalid) as (x & -> & Hx). cbn [mbind res_bind spec_step fst snd].
    destruct (m !! k) as [v|].
    + destruct Hx as (ess & HRe & _ & Hx).
      destruct (v_iter_at_at okey _ _ _ (ch_shows _ _ _ _ _ _ _ _ _ _ _ _ _ _ C _ _ HRe) _ _ Hx) as (a & -> & Ha). cbn [mbind res_bind].
      eexists _, _. split; [done|]. split; [exact Ha|done].
    + subst x. unfold v_iter_at. rewrite Hend. cbn [mbind res_bind]. eexists _, _. split; [done|]. done.
  - (* count *) destruct (find_rep t m k HR Hvalid) as (x & -> & Hx). cbn [mbind res_bind spec_step fst snd].
    destruct (m !! k) as [v|].
    + destruct Hx as (ess & HRe & _ & Hx). rewrite (vn_eq_end_at okey _ _ _ (ch_shows _ _ _ _ _ _ _ _ _ _ _ _ _ _ C _ _ HRe) _ _ Hx). cbn [mbind res_bind].
      eexists _, _. split; [done|]. done.
    + subst x. unfold vn_eq. rewrite Hend. cbn [mbind res_bind]. eexists _, _. split; [done|]. done.
  - (* insert *) destruct (insert_rep_gen t m k v HR) as (t' & x & ess & -> & HR' & Hx); [apply Hvalid|apply Hvalid|].
    cbn [mbind res_bind spec_step]. destruct (m !! k) as [v0|].
    + destruct Hx as [Hm Hx]. destruct (v_iter_at_at okey _ _ _ (ch_shows _ _ _ _ _ _ _ _ _ _ _ _ _ _ C _ _ HR') _ _ Hx) as (a & -> & Ha).
      cbn [mbind res_bind fst snd]. eexists _, _. split; [done|]. split; [exact Ha|]. right. by exists ess.
    + destruct Hx as [Hm Hx]. destruct (v_iter_at_at okey _ _ _ (ch_shows _ _ _ _ _ _ _ _ _ _ _ _ _ _ C _ _ HR') _ _ Hx) as (a & -> & Ha).
      cbn [mbind res_bind fst snd]. eexists _, _. split; [done|]. split; [exact Ha|]. right. by exists ess.
  - (* read *) destruct (insert_rep_gen t m k 0 HR) as (t' & x & ess & -> & HR' & Hx); [done|done|].
    cbn [mbind res_bind spec_step]. destruct (m !! k) as [v0|].
    + destruct Hx as [Hm Hx]. rewrite (sh_value _ _ _ _ (ch_shows _ _ _ _ _ _ _ _ _ _ _ _ _ _ C _ _ HR') _ _ _ Hx).
      cbn [mbind res_bind fst snd]. eexists _, _. split; [done|]. split; [done|]. right. by exists ess.
    + destruct Hx as [Hm Hx]. rewrite (sh_value _ _ _ _ (ch_shows _ _ _ _ _ _ _ _ _ _ _ _ _ _ C _ _ HR') _ _ _ Hx).
      cbn [mbind res_bind fst snd]. eexists _, _. split; [done|]. split; [done|]. right. by exists ess.
  - (* write *) destruct (insert_rep_gen t m k 0 HR) as (t' & x & ess & -> & HR' & Hx); [apply Hvalid|done|].
    cbn [mbind res_bind spec_step fst snd].
    assert (He : exists v0, nav_at ess x = Some (k, v0) /\ <[k := v]> (emap (concat ess)) = <[k := v]> m).
    { destruct (m !! k) as [v0|].
      - destruct Hx as (Hm & He). exists v0. split; [done|]. by rewrite Hm.
      - destruct Hx as (Hm & He). exists 0. split; [done|]. by rewrite Hm, insert_insert. }
    destruct He as (v0 & He & Em).
    destruct (ch_write _ _ _ _ _ _ _ _ _ _ _ _ _ _ C t' ess x k v0 v HR' He) as (t2 & es & Hes & -> & _ & HR2); [apply Hvalid|]. cbn [mbind res_bind].
    eexists _, _. split; [done|]. split; [done|]. right. eexists. split; [exact HR2|]. rewrite <-Em.
    unfold nav_at in He. rewrite Hes in He. cbn in He.
    destruct (concat_upd_set ess (N.to_nat (fst x)) es (N.to_nat (snd x)) k v0 v Hes He) as (R & HP1 & HP2).
    rewrite (emap_perm _ _ (ch_nodup _ _ _ _ _ _ _ _ _ _ _ _ _ _ C _ _ HR2) HP2), (emap_perm _ _ (ch_nodup _ _ _ _ _ _ _ _ _ _ _ _ _ _ C _ _ HR') HP1), !emap_cons.
    by rewrite insert_insert.
  - (* erase *) cbn [spec_step]. destruct HR as [[Hz ->]|(ess & HR & Hm)].
    + rewrite (ch_erase0 _ _ _ _ _ _ _ _ _ _ _ _ _ _ C) by done. cbn [mbind res_bind]. rewrite lookup_empty. eexists _, _. split; [done|]. split; [done|]. by left.
    + destruct (ch_bucket _ _ _ HR Hvalid) as (es & He). rewrite (ch_erase _ _ _ _ _ _ _ _ _ _ _ _ _ _ C _ _ _ _ HR Hvalid He).
      pose proof (ch_lookup _ _ _ _ HR He) as Hl. rewrite Hm in Hl. destruct (first_index k (keys_of es)) as [p|].
      * destruct Hl as (v & -> & Hx). destruct (erase_at_rep _ _ _ _ _ HR Hx) as (t' & -> & Hm').
        cbn [mbind res_bind fst snd]. rewrite Hm in Hm'. eexists _, _. split; [done|]. split; [done|]. by right.
      * rewrite Hl. cbn [mbind res_bind fst snd]. eexists _, _. split; [done|]. split; [done|]. right. by exists ess.
  - (* erase(find) *) cbn [spec_step]. destruct (find_rep t m k HR Hvalid) as (x & -> & Hx). cbn [mbind res_bind].
    destruct (m !! k) as [v|].
    + destruct Hx as (ess & HRe & Hm & Hx). destruct (erase_at_rep _ _ _ _ _ HRe Hx) as (t' & -> & Hm').
      cbn [mbind res_bind fst snd]. rewrite Hm in Hm'. eexists _, _. split; [done|]. split; [done|]. by right.
    + subst x. rewrite (ch_erase_end _ _ _ _ _ _ _ _ _ _ _ _ _ _ C). cbn [mbind res_bind fst snd]. eexists _, _. split; [done|]. done.
  - (* size *) eexists _, _. split; [done|]. cbn [spec_step fst snd]. by rewrite Hsize.
  - (* empty *) eexists _, _. split; [done|]. cbn [spec_step fst snd]. by rewrite Hsize.
  - (* reserve *) destruct (reserve_rep_gen t m n HR) as (t' & -> & Hm'); [apply Hvalid|apply Hvalid|].
    cbn [mbind res_bind spec_step fst snd]. eexists _, _. split; [done|]. split; [done|]. by right.
  - (* shrink *) eexists _, _. split; [done|]. done.
  - (* clear *) assert (Hc : exists t', i_clear I t = Ok t' /\ Zero t').
    { destruct HR as [[Hz ->]|(ess & HR & Hm)]; [by apply (ch_clear0 _ _ _ _ _ _ _ _ _ _ _ _ _ _ C)|by eapply (ch_clear _ _ _ _ _ _ _ _ _ _ _ _ _ _ C)]. }
    destruct Hc as (t' & -> & Hz). cbn [mbind res_bind spec_step fst snd]. eexists _, _. split; [done|]. split; [done|]. by left.
Qed.

Lemma m_run_rep : forall ops t m, mrep t m -> valid_ops kw vw bmin bmax ops ->
  exists t' rs, m_run_ops I t ops = Ok (t', rs) /\ Forall2 (oout okey) rs (snd (spec_run m ops)) /\ mrep t' (fst (spec_run m ops)).
Proof.
  induction ops as [|o ops IH]; intros t m HR Hv.
  { exists t, []. split; [done|]. split; [constructor|done]. }
  apply Forall_cons in Hv as [Ho Hv]. cbn [m_run_ops spec_run].
  destruct (m_step_rep t m o HR Ho (pow2_pos vw)) as (t1 & r1 & -> & Hr1 & HR1). cbn [mbind res_bind].
  destruct (IH t1 _ HR1 Hv) as (t2 & rs & -> & Hrs & HR2). cbn [mbind res_bind].
  exists t2, (r1 :: rs). destruct (spec_step m o) as [m1 s1]. cbn [fst snd] in *. destruct (spec_run m1 ops) as [m2 ss].
  split; [done|]. split; [by constructor|done].
Qed.
End chain.
