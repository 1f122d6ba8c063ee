(** Further consequences: growth with colliding hash values, shrink_to_fit, capacity, clear, first allocation. *)
From Verif Require Export TableIter.

Section more.
Context (pf : platform) (c : cfg) (kw vw bmin bmax : N) (strict : Prop).
Notation hb := (hb c kw). Notation nv := (nv c vw).
Notation tinv := (tinv pf c kw vw bmin bmax strict).
Notation tcon := (tcon pf c kw vw bmin bmax strict).
Notation tzero := (tzero pf c kw vw).
Notation nav_entry := (nav_entry pf).
Hypothesis OK : table_ok0 pf c kw vw bmin bmax.
Implicit Types (t : table) (ess : list entries) (ovl E : entries) (sl : list slot).

(** ** Colliding keys *)
(** A new key whose bucket is not full is stored without growing. *)
Lemma push_small f t sl ess ovl k v : tinv t sl ess ovl -> (N.of_nat (length (concat ess)) < c_maxb c) ->
  kdom c kw k -> k ∉ keys_of (concat ess ++ ovl) ->
  exists t' x sl' ess', find_or_insert pf c (S f) t k v = Ok (t', x) /\ tinv t' sl' ess' ovl /\ t_b t' = t_b t
    /\ concat ess' ++ ovl ≡ₚ (k, nv v) :: concat ess ++ ovl.
Proof.
  intros H Hsmall Hk Hnk. cbn [find_or_insert].
  destruct (tinv_bc _ _ _ _ _ _ _ OK _ _ _ _ H) as [Hb0 Hbc]. rewrite Hb0. cbn [mbind res_bind].
  destruct (tinv_hash _ _ _ _ _ _ _ OK _ _ _ _ _ H Hk) as (-> & Hlt & _). cbn [mbind res_bind].
  destruct (locate_q_spec _ _ _ _ _ _ _ OK _ _ _ _ _ H Hk) as (s & es & Hg & Hs & He & Hr & Hloc).
  rewrite Hg. cbn [mbind res_bind]. pose proof (ti_nodup _ _ _ _ _ _ _ _ _ _ _ H) as Hnd.
  pose proof (ti_b _ _ _ _ _ _ _ _ _ _ _ H) as Hb. pose proof (ti_ov _ _ _ _ _ _ _ _ _ _ _ H) as Hov.
  destruct Hloc as [(p & v0 & _ & Hp)|[-> Hn]]; cbn [mbind res_bind].
  { exfalso. apply Hnk. apply keys_elem. exists v0. apply elem_of_app. left. apply elem_of_concat. eexists _, _.
    split; [exact He|]. by eapply elem_of_list_lookup_2. }
  destruct (ov_need_consult_spec _ _ _ _ _ _ (hb (t_b t) k) Hov Hlt) as (cons & -> & Hcons). cbn [mbind res_bind].
  destruct (ov_find_spec pf (kbn c) _ _ _ _ _ k (tinv_nodup_ov _ _ _ _ _ _ _ _ _ _ _ H) Hov (kdom_key_ok _ _ _ _ Hk)) as [(p & v0 & Hof & Hin & Hent)|[Hof Hni]].
  { exfalso. apply Hnk. apply keys_elem. exists v0. apply elem_of_app. by right. }
  assert (E : (if cons then ov_find pf (kbn c) (t_ov t) k else Ok None) = Ok None) by (by destruct cons).
  rewrite E. clear E. cbn [mbind res_bind].
  pose proof Hr as (Hsz & Hmx & _). rewrite Hsz.
  assert (Hlt2 : N.of_nat (length es) < c_maxb c).
  { pose proof (concat_length_pos _ _ _ He). lia. }
  rewrite (proj2 (N.eqb_neq _ _)) by lia.
  destruct (push_slot_spec pf c kw vw bmin bmax strict OK t (t_b t) s es k v Hb eq_refl (ti_kw _ _ _ _ _ _ _ _ _ _ _ H) (ti_vw _ _ _ _ _ _ _ _ _ _ _ H) Hr Hlt2 Hk)
    as (s' & -> & Hr' & Hsz'). cbn [mbind res_bind].
  assert (HP : concat (<[N.to_nat (hb (t_b t) k) := es ++ [(k, nv v)]]> ess) ++ ovl ≡ₚ (k, nv v) :: concat ess ++ ovl)
    by (rewrite (concat_upd_push _ _ _ _ He); done).
  eexists _, _, _, (<[N.to_nat (hb (t_b t) k) := es ++ [(k, nv v)]]> ess).
  split; [reflexivity|]. split; [|split; [done|exact HP]].
  eapply tinv_upd; [exact H|done|exact He|exact Hr'| |exact HP| | |..|exact Hs].
  - apply placed_push; [apply H|done|lia].
  - cbn. by apply NoDup_cons.
  - intros k' v' Hin. apply elem_of_cons in Hin as [E|Hin]; [injection E as -> ->; split; [done|apply nv_idem]|].
    by apply (ti_range _ _ _ _ _ _ _ _ _ _ _ H).
  - rewrite (ti_n _ _ _ _ _ _ _ _ _ _ _ H), u64_add. f_equal. cbn [length]. lia.
Qed.

(** When a full bucket's keys and a new key agree in their bucket for every number of bucket bits, inserting
    the new key never succeeds. *)
Lemma stuck : bmax = 63 -> c_ov c = OvDummy -> forall fuel t E k v, tcon 0 t E -> N.of_nat (length E) = c_maxb c ->
  kdom c kw k -> k ∉ keys_of E -> (forall b k', bmin <= b <= bmax -> k' ∈ keys_of E -> hb b k' = hb b k) ->
  forall r, find_or_insert pf c fuel t k v <> Ok r.
Proof.
  intros Hbmax Hd. induction fuel as [|f IH]; intros t E k v (sl & ess & ovl & H & _ & HE) Hlen Hk Hnk Hall r; [done|].
  destruct (dummy_nil _ _ _ _ _ _ _ _ _ _ _ H Hd) as [Hod ->]. rewrite app_nil_r in HE.
  assert (Hnk' : k ∉ keys_of (concat ess)) by (by rewrite HE).
  cbn [find_or_insert].
  destruct (tinv_bc _ _ _ _ _ _ _ OK _ _ _ _ H) as [Hb0 Hbc]. rewrite Hb0. cbn [mbind res_bind].
  destruct (tinv_hash _ _ _ _ _ _ _ OK _ _ _ _ _ H Hk) as (-> & Hlt & _). cbn [mbind res_bind].
  destruct (locate_q_spec _ _ _ _ _ _ _ OK _ _ _ _ _ H Hk) as (s & es & Hg & Hs & He & Hr & Hloc).
  rewrite Hg. cbn [mbind res_bind]. pose proof (ti_b _ _ _ _ _ _ _ _ _ _ _ H) as Hb.
  destruct Hloc as [(p & v0 & _ & Hp)|[-> _]]; cbn [mbind res_bind].
  { exfalso. apply Hnk'. apply keys_elem. exists v0. apply elem_of_concat. eexists _, _.
    split; [exact He|]. by eapply elem_of_list_lookup_2. }
  rewrite Hod. cbn [ov_need_consult mbind res_bind].
  (* all entries are in the bucket of k *)
  assert (Hes : length es = length E).
  { rewrite <-HE. apply Nat.le_antisymm; [by eapply concat_length_pos|].
    rewrite (concat_split _ _ _ He), !app_length.
    assert (Hoth : forall l : list entries, (forall e : N * N, e ∈ concat l -> False) -> length (concat l) = 0%nat).
    { intros l Hl. destruct (concat l) as [|e l'] eqn:El; [done|]. exfalso. apply (Hl e). try rewrite El. by constructor. }
    rewrite (Hoth (take _ ess)), (Hoth (drop _ ess)); [lia|..].
    - intros [k' v'] Hin. apply elem_of_concat in Hin as (i & es' & Hi & Hin). rewrite lookup_drop in Hi.
      destruct (tinv_in_bucket _ _ _ _ _ _ _ _ _ _ _ _ _ _ _ H Hi Hin) as [_ Hh].
      rewrite (Hall (t_b t) k') in Hh; [lia|done|]. rewrite <-HE. apply keys_elem. exists v'. apply elem_of_concat. by eexists _, _.
    - intros [k' v'] Hin. apply elem_of_concat in Hin as (i & es' & Hi & Hin).
      assert (Hilt : (i < N.to_nat (hb (t_b t) k))%nat).
      { pose proof (lookup_lt_Some _ _ _ Hi) as Hl. rewrite take_length in Hl. lia. }
      rewrite lookup_take in Hi by done.
      destruct (tinv_in_bucket _ _ _ _ _ _ _ _ _ _ _ _ _ _ _ H Hi Hin) as [_ Hh].
      rewrite (Hall (t_b t) k') in Hh; [lia|done|]. rewrite <-HE. apply keys_elem. exists v'. apply elem_of_concat. by eexists _, _. }
  pose proof Hr as (Hsz & _). rewrite Hsz, Hes, Hlen, N.eqb_refl. cbn [ov_size ov_capacity]. cbn [N.ltb N.compare mbind res_bind].
  cbn [set_ov t_b]. pose proof (ok_b _ _ _ _ _ _ OK) as Hob.
  destruct (decide (t_b t = 63)) as [E63|Hne].
  { rewrite E63. done. }
  rewrite shl64_1 by lia. cbn [mbind res_bind]. destruct f as [|f].
  { cbn [find_or_insert]. destruct (reserve_with _ _ _ _ _); done. }
  assert (Hset : set_ov t ODummy = t) by (rewrite <-Hod; by destruct t). rewrite Hset.
  destruct (reserve_with_spec pf c kw vw bmin bmax strict OK (find_or_insert pf c (S f)) (t_b t + 1) (length E)) with (t := t) (E := E) (B0 := 0) (n := 2^(t_b t + 1)) as (t1 & -> & Ht1).
  - intros tmp E1 k1 v1 (sl1 & ess1 & ovl1 & H1 & HB1 & HE1) Hl1 Hk1 Hv1 Hni1.
    destruct (dummy_nil _ _ _ _ _ _ _ _ _ _ _ H1 Hd) as [_ ->].
    destruct (push_small f tmp sl1 ess1 [] k1 v1 H1) as (t' & x & sl' & ess' & Ef & H' & Hb' & HP).
    + rewrite app_nil_r in HE1. rewrite (N_of_nat_len _ _ HE1). lia.
    + done.
    + by rewrite HE1.
    + exists (t', x). split; [done|]. exists sl', ess', []. split; [done|]. split; [cbn [fst]; lia|]. by rewrite HP, HE1, Hv1.
  - exists sl, ess, []. split; [done|]. split; [lia|]. by rewrite app_nil_r.
  - done.
  - split; [|apply pow2_le_63; lia]. pose proof (N.pow_nonzero 2 (t_b t + 1) ltac:(done)). lia.
  - rewrite N.log2_up_pow2; lia.
  - rewrite N.log2_up_pow2; lia.
  - cbn [mbind res_bind]. apply (IH t1 E); try done. destruct Ht1 as (sl1 & ess1 & ovl1 & H1 & _ & HE1).
    exists sl1, ess1, ovl1. split; [done|]. split; [lia|done].
Qed.

(** Inserting as many keys as fit into one bucket. *)
Lemma push_many f : c_ov c = OvDummy -> forall ks t E, tcon 0 t E -> NoDup (ks ++ keys_of E) -> (forall k, k ∈ ks -> kdom c kw k) ->
  N.of_nat (length ks + length E) <= c_maxb c ->
  exists t' E', rfold (fun t k => r ← find_or_insert pf c (S f) t k 0; Ok (fst (r : table * nav))) ks t = Ok t'
    /\ tcon 0 t' E' /\ keys_of E' ≡ₚ ks ++ keys_of E.
Proof.
  intros Hd. induction ks as [|k ks IH]; intros t E Ht Hnd Hks Hlen; [by exists t, E|].
  destruct Ht as (sl & ess & ovl & H & _ & HE). destruct (dummy_nil _ _ _ _ _ _ _ _ _ _ _ H Hd) as [_ ->].
  cbn [rfold length app] in *. apply NoDup_cons in Hnd as [Hni Hnd]. apply not_elem_of_app in Hni as [Hni1 Hni2].
  destruct (push_small f t sl ess [] k 0 H) as (t' & x & sl' & ess' & -> & H' & _ & HP).
  - rewrite app_nil_r in HE. rewrite (N_of_nat_len _ _ HE). lia.
  - apply Hks. by constructor.
  - by rewrite HE.
  - cbn [mbind res_bind fst]. destruct (IH t' ((k, nv 0) :: E)) as (t2 & E2 & E3 & Ht2 & HE2).
    + exists sl', ess', []. split; [done|]. split; [lia|]. by rewrite HP, HE.
    + cbn. apply NoDup_app in Hnd as (Hn1 & Hn2 & Hn3). apply NoDup_app. split; [done|]. split.
      * intros y Hy Hin. apply elem_of_cons in Hin as [->|Hin]; [done|]. by apply (Hn2 y).
      * apply NoDup_cons. done.
    + intros k' Hk'. apply Hks. by constructor.
    + cbn [length]. lia.
    + exists t2, E2. split; [done|]. split; [done|]. rewrite HE2. cbn. by rewrite Permutation_middle.
Qed.

(** ** shrink_to_fit and capacity *)
Lemma capacity_sum t sl ess ovl : tinv t sl ess ovl ->
  capacity c t = Ok (u64 (foldr (fun s a => rs_capacity c (s_cap s) (s_size s) + a) 0 sl)).
Proof.
  intros H. unfold capacity. destruct (tinv_bc _ _ _ _ _ _ _ OK _ _ _ _ H) as [Hb0 Hbc]. rewrite Hb0, (ti_slots _ _ _ _ _ _ _ _ _ _ _ H), Hbc.
  rewrite take_ge by (pose proof (ti_len _ _ _ _ _ _ _ _ _ _ _ H); lia). f_equal.
  assert (Hg : forall sl a, a < 2^64 -> foldl (fun a s => u64 (a + rs_capacity c (s_cap s) (s_size s))) a sl
      = u64 (a + foldr (fun s a => rs_capacity c (s_cap s) (s_size s) + a) 0 sl)).
  { clear. induction sl as [|s sl IH]; intros a Ha; cbn [foldl foldr].
    - by rewrite N.add_0_r, u64_small.
    - rewrite IH by (apply N.mod_lt; done). unfold u64. rewrite N.add_mod_idemp_l by done. f_equal. lia. }
  rewrite Hg by done. by rewrite N.add_0_l.
Qed.
Lemma sizes_sum sl ess b : Forall2 (slot_repr pf c kw vw strict b) sl ess ->
  foldr (fun s a => s_size s + a) 0 sl = N.of_nat (length (concat ess)).
Proof.
  induction 1 as [|s es sl ess Hr _ IH]; cbn [foldr concat]; [done|].
  rewrite IH, app_length. destruct Hr as [-> _]. lia.
Qed.

Lemma shrink_capacity t sl ess ovl t' sl' : strict -> c_ov c = OvDummy -> tinv t sl ess ovl -> tinv t' sl' ess ovl ->
  Forall2 (fun s s' => s_size s' = s_size s /\ (c_arb c = true -> s_size s <= s_cap s -> s_cap s' = s_size s)) sl sl' ->
  capacity c t' = Ok (TableModel.size t').
Proof.
  intros Hst Hd H H' HF. rewrite (capacity_sum _ _ _ _ H'). f_equal. unfold TableModel.size.
  rewrite (ti_n _ _ _ _ _ _ _ _ _ _ _ H'). destruct (dummy_nil _ _ _ _ _ _ _ _ _ _ _ H Hd) as [_ ->]. rewrite app_nil_r.
  f_equal. rewrite <-(sizes_sum _ _ _ (ti_repr _ _ _ _ _ _ _ _ _ _ _ H')).
  assert (HF' : Forall (fun s => rs_capacity c (s_cap s) (s_size s) = s_size s) sl').
  { apply Forall_lookup. intros i s' Hi. destruct (Forall2_lookup_r _ _ _ _ _ HF Hi) as (s & Hs & Hsz & Hcap).
    unfold rs_capacity. destruct (c_arb c) eqn:Ea; [|done].
    destruct (Forall2_lookup_l _ _ _ _ _ (ti_repr _ _ _ _ _ _ _ _ _ _ _ H) Hs) as (es & _ & Hr).
    destruct Hr as (_ & _ & _ & _ & _ & Hsc). rewrite Hcap; [done|done|by apply Hsc]. }
  clear -HF'. induction HF' as [|s sl E _ IH]; cbn [foldr]; [done|]. by rewrite E, IH.
Qed.

Lemma capacity_ge t sl ess ovl : strict -> c_ov c = OvDummy -> tinv t sl ess ovl -> t_b t <= 56 ->
  exists cap, capacity c t = Ok cap /\ TableModel.size t <= cap.
Proof.
  intros Hst Hd H Hb. rewrite (capacity_sum _ _ _ _ H). eexists. split; [done|].
  unfold TableModel.size. rewrite (ti_n _ _ _ _ _ _ _ _ _ _ _ H).
  destruct (dummy_nil _ _ _ _ _ _ _ _ _ _ _ H Hd) as [_ ->]. rewrite app_nil_r.
  rewrite <-(sizes_sum _ _ _ (ti_repr _ _ _ _ _ _ _ _ _ _ _ H)).
  assert (Hle : foldr (fun s a => s_size s + a) 0 sl <= foldr (fun s a => rs_capacity c (s_cap s) (s_size s) + a) 0 sl
    /\ foldr (fun s a => rs_capacity c (s_cap s) (s_size s) + a) 0 sl <= 255 * N.of_nat (length sl)).
  { pose proof (ti_repr _ _ _ _ _ _ _ _ _ _ _ H) as HF. pose proof (ok_maxb _ _ _ _ _ _ OK) as Hmb. clear -HF Hst Hmb.
    induction HF as [|s es sl ess Hr _ IH]; cbn [foldr length]; [lia|].
    destruct Hr as (Hsz & Hmx & _ & H255 & _ & Hsc).
    assert (s_size s <= rs_capacity c (s_cap s) (s_size s) <= 255); [|lia].
    unfold rs_capacity. destruct (c_arb c); [|lia]. specialize (Hsc Hst eq_refl). lia. }
  rewrite (ti_len _ _ _ _ _ _ _ _ _ _ _ H) in Hle.
  assert (2^(t_b t) <= 2^56) by (by apply N.pow_le_mono_r).
  assert (255 * 2^56 < 2^64) by done. rewrite !u64_small by lia. lia.
Qed.

(** shrink_to_fit changes nothing that navigators see. *)
Lemma same_navs t sl ess ovl t' sl' : tinv t sl ess ovl -> tinv t' sl' ess ovl -> t_b t' = t_b t -> t_ov t' = t_ov t ->
  Forall2 (fun s s' => s_size s' = s_size s) sl sl' ->
  (forall x, nav_invalid pf t' x = nav_invalid pf t x) /\ (forall x, iter_at pf c t' x = iter_at pf c t x)
  /\ (forall f, (length (concat ess) <= f)%nat -> ovl = [] -> forward pf c f t' = forward pf c f t).
Proof.
  intros H H' Hb Ho HF.
  destruct (tinv_bc _ _ _ _ _ _ _ OK _ _ _ _ H) as [_ Hbc]. destruct (tinv_bc _ _ _ _ _ _ _ OK _ _ _ _ H') as [_ Hbc'].
  assert (Hinv : forall x, nav_invalid pf t' x = nav_invalid pf t x).
  { intros [bk p]. unfold nav_invalid. rewrite Hbc, Hbc', Hb, Ho.
    destruct ((0 <? ov_size (t_ov t)) && (bk =? 2 ^ t_b t) && ov_valid pf (t_ov t) p); [done|].
    destruct (N.leb_spec (2^t_b t) bk); [done|].
    destruct (tinv_slot _ _ _ _ _ _ _ _ _ _ _ bk H) as (s & es & -> & Hs & He & _); [lia|].
    destruct (tinv_slot _ _ _ _ _ _ _ _ _ _ _ bk H') as (s' & es' & -> & Hs' & _ & _); [rewrite Hb; lia|].
    cbn [mbind res_bind]. destruct (Forall2_lookup_l _ _ _ _ _ HF Hs) as (s2 & Hs2 & E).
    rewrite Hs' in Hs2. injection Hs2 as <-. by rewrite E. }
  split; [done|]. split.
  - intros x. destruct (nav_invalid pf t x) as [[]| | |] eqn:Ei; try (unfold iter_at; rewrite Hinv, Ei; done).
    destruct (nav_valid_entry _ _ _ _ _ _ _ OK _ _ _ _ _ H Ei) as (e & He).
    rewrite (iter_at_entry _ _ _ _ _ _ _ OK _ _ _ _ _ _ H He). eapply (iter_at_entry _ _ _ _ _ _ _ OK); [exact H'|].
    unfold TableInv.nav_entry in *. by rewrite Hb, Ho.
  - intros f Hf ->. rewrite (forward_spec _ _ _ _ _ _ _ OK _ _ _ H f Hf). by rewrite (forward_spec _ _ _ _ _ _ _ OK _ _ _ H' f Hf).
Qed.
End more.
