(** Calls on a heap where malloc can fail: a call makes a fixed number of requests; if they all succeed it does what TableModel.v says,
    otherwise it ends in a null dereference. *)
From Verif Require Export MallocModel.

Definition all_given (n : nat) (h : answers) : bool := forallb id (take n h).

(** f makes n requests and otherwise is r. *)
Definition asks {A} (n : nat) (f : answers -> res (A * answers)) (r : res A) : Prop :=
  forall h, (all_given n h = true -> f h = (a ← r; Ok (a, drop n h))) /\ (all_given n h = false -> forall a, r = Ok a -> f h = Ub NullDeref).
Definition asksx {A} (f : answers -> res (A * answers)) (r : res A) : Prop := exists n, asks n f r.

Lemma all_given_app n n' h : all_given (n + n') h = all_given n h && all_given n' (drop n h).
Proof.
  unfold all_given. revert n. induction h as [|a h IH]; intros [|n]; cbn [Nat.add take drop forallb]; try done.
  - by rewrite !take_nil.
  - rewrite IH. by rewrite andb_assoc.
Qed.
Lemma all_given_0 h : all_given 0 h = true.
Proof. done. Qed.

Lemma asks_ext {A} n (f f' : answers -> res (A * answers)) r : (forall h, f h = f' h) -> asks n f r -> asks n f' r.
Proof. intros E H h. rewrite <- E. apply H. Qed.
Lemma asks_pure {A} (r : res A) : asks 0 (fun h => a ← r; Ok (a, h)) r.
Proof. intros h. split; [intros _; by rewrite drop_0|done]. Qed.
Lemma asks_ret {A} (a : A) : asks 0 (fun h => Ok (a, h)) (Ok a).
Proof. apply (asks_pure (Ok a)). Qed.
Lemma asks_bind {A B} n n' (f : answers -> res (A * answers)) r (g : A * answers -> res (B * answers)) r' :
  asks n f r -> (forall a, r = Ok a -> asks n' (fun h => g (a, h)) (r' a)) -> asks (n + n') (fun h => x ← f h; g x) (a ← r; r' a).
Proof.
  intros Hf Hg h. specialize (Hf h). rewrite all_given_app. destruct r as [a|u| |]; cbn [mbind res_bind].
  - specialize (Hg a eq_refl (drop n h)). destruct (all_given n h) eqn:E; cbn [andb].
    + destruct Hf as [Ef _]. rewrite (Ef eq_refl). cbn [mbind res_bind]. destruct Hg as [G1 G2]. cbn beta in G1, G2. split; [|exact G2].
      intros G. rewrite (G1 G). by rewrite drop_drop.
    + split; [done|]. intros _ b Hb. destruct Hf as [_ Hf]. by rewrite (Hf eq_refl a eq_refl).
  - split; [|done]. intros [E _]%andb_prop. destruct Hf as [-> _]; done.
  - split; [|done]. intros [E _]%andb_prop. destruct Hf as [-> _]; done.
  - split; [|done]. intros [E _]%andb_prop. destruct Hf as [-> _]; done.
Qed.
Lemma asks_let {A B} n (r : res A) (g : A -> answers -> res (B * answers)) r' :
  (forall a, r = Ok a -> asks n (g a) (r' a)) -> asks n (fun h => a ← r; g a h) (a ← r; r' a).
Proof. intros Hg h. destruct r as [a|u| |]; cbn [mbind res_bind]; [exact (Hg a eq_refl h)|by split..]. Qed.

Lemma asksx_ret {A} (a : A) : asksx (fun h => Ok (a, h)) (Ok a).
Proof. exists O. apply asks_ret. Qed.
Lemma asksx_bind {A B} (f : answers -> res (A * answers)) r (g : A * answers -> res (B * answers)) r' :
  asksx f r -> (forall a, asksx (fun h => g (a, h)) (r' a)) -> asksx (fun h => x ← f h; g x) (a ← r; r' a).
Proof.
  intros [n Hf] Hg. destruct r as [a|u| |] eqn:Er.
  - destruct (Hg a) as [n' Hn']. exists (n + n')%nat. apply (asks_bind n n' f (Ok a) g r' Hf). by intros ? [= <-].
  - exists (n + 0)%nat. by apply (asks_bind n 0 f (Ub u) g r' Hf).
  - exists (n + 0)%nat. by apply (asks_bind n 0 f Throw g r' Hf).
  - exists (n + 0)%nat. by apply (asks_bind n 0 f Timeout g r' Hf).
Qed.
Lemma asksx_let {A B} (r : res A) (g : A -> answers -> res (B * answers)) r' :
  (forall a, asksx (g a) (r' a)) -> asksx (fun h => a ← r; g a h) (a ← r; r' a).
Proof.
  intros Hg. destruct r as [a|u| |] eqn:Er; cbn [mbind res_bind]; [exact (Hg a)|exists O; intros h; by split..].
Qed.
Lemma asksx_rfold {A B} (f : A * answers -> B -> res (A * answers)) (g : A -> B -> res A) l :
  (forall a x, asksx (fun h => f (a, h) x) (g a x)) -> forall a, asksx (fun h => rfold f l (a, h)) (rfold g l a).
Proof.
  intros H. induction l as [|x l IH]; intros a; cbn [rfold]; [apply asksx_ret|].
  apply (asksx_bind (fun h => f (a, h) x) (g a x) (rfold f l) (rfold g l) (H a x)). exact IH.
Qed.

Section malloc.
Context (pf : platform) (c : cfg).

Lemma asks_alloc t n : asks (if c_arb c then 2 else 1)%nat (m_alloc_table pf c t n) (alloc_table pf t n).
Proof.
  unfold m_alloc_table. destruct (alloc_table pf t n) as [t'|u| |]; cbn [mbind res_bind]; [|intros h; by split..].
  intros h. destruct (c_arb c); cbn [ask].
  - destruct h as [|[|] [|[|] h]]; cbn; split; try done; by rewrite ?drop_0.
  - destruct h as [|[|] h]; cbn; split; try done; by rewrite ?drop_0.
Qed.

Definition init_requests (kd : bkind) : nat := (if kind_asks kd then 1 else 0)%nat.
Definition resize_requests (kd : bkind) (old new w : nat) : nat := (if resize_asks kd old new w then 1 else 0)%nat.
(** The requests of an insertion into a bucket. *)
Definition push_requests (t : table) (s : slot) : nat :=
  if s_size s =? 0 then (init_requests (c_key c) + init_requests (c_val c))%nat
  else
    let size := u8 (s_size s + 1) in
    if rs_needs_resize c (s_cap s) size then
      let new := N.to_nat (rs_size_after c size) in
      let old := N.to_nat (sub64 size 1) in
      (resize_requests (c_key c) old new (qwidth c t) + resize_requests (c_val c) old new (vwidth t))%nat
    else 0%nat.

Lemma write_null kd i v w : kind_asks kd = true -> b_write pf kd None i v w = Ub NullDeref.
Proof. by destruct kd. Qed.
Lemma resize_asks_kind kd old new w : resize_asks kd old new w = true -> kind_asks kd = true.
Proof. by destruct kd. Qed.

(** Both blocks are asked for, then both elements are written. *)
Lemma ask_cases b h : (ask b h = (true, drop (if b then 1 else 0)%nat h) /\ all_given (if b then 1 else 0)%nat h = true)
  \/ (ask b h = (false, drop (if b then 1 else 0)%nat h) /\ all_given (if b then 1 else 0)%nat h = false /\ b = true).
Proof.
  destruct b; cbn [ask]; [|left; by rewrite drop_0].
  destruct h as [|[|] h]; cbn; [by left|left; by rewrite drop_0|right; by rewrite drop_0].
Qed.

Lemma asks_push t s q v : asks (push_requests t s) (m_push_slot pf c t s q v) (push_slot pf c t s q v).
Proof.
  intros h. unfold m_push_slot, push_slot, push_requests, init_requests, resize_requests, m_initialize, m_resize. destruct (s_size s =? 0).
  - rewrite all_given_app.
    destruct (ask_cases (kind_asks (c_key c)) h) as [[-> ->]|(-> & -> & HK)];
    destruct (ask_cases (kind_asks (c_val c)) (drop (if kind_asks (c_key c) then 1 else 0)%nat h)) as [[-> ->]|(-> & -> & HV)];
      cbn [andb mbind res_bind s_keys s_vals s_size s_cap]; split; try done.
    + intros _. rewrite drop_drop. destruct (b_write _ _ _ _ q _); cbn [mbind res_bind]; [|done..]. by destruct (b_write _ _ _ _ v _).
    + intros _ a. destruct (b_write _ _ _ _ q _); cbn [mbind res_bind]; [|done..]. intros _. by rewrite write_null.
    + intros _ a _. rewrite (write_null (c_key c)) by done. reflexivity.
    + intros _ a _. rewrite (write_null (c_key c)) by done. reflexivity.
  - set (z := u8 (s_size s + 1)). destruct (rs_needs_resize c (s_cap s) z).
    2:{ cbn [mbind res_bind s_keys s_vals s_size s_cap]. split; [|done]. intros _. rewrite drop_0.
        destruct (b_write _ _ _ _ q _); cbn [mbind res_bind]; [|done..]. by destruct (b_write _ _ _ _ v _). }
    set (new := N.to_nat (rs_size_after c z)). set (old := N.to_nat (sub64 z 1)).
    rewrite all_given_app.
    destruct (b_resize pf (c_key c) (s_keys s) old new (qwidth c t)) as [k|u| |]; cbn [mbind res_bind]; [|by split..].
    destruct (ask_cases (resize_asks (c_key c) old new (qwidth c t)) h) as [[-> ->]|(-> & -> & HK)];
      set (h' := drop (if resize_asks (c_key c) old new (qwidth c t) then 1 else 0)%nat h); cbn [mbind res_bind andb].
    + destruct (b_resize pf (c_val c) (s_vals s) old new (vwidth t)) as [w|u| |]; cbn [mbind res_bind]; [|by split..].
      destruct (ask_cases (resize_asks (c_val c) old new (vwidth t)) h') as [[-> ->]|(-> & -> & HV)]; cbn [mbind res_bind s_keys s_vals s_size s_cap].
      * split; [|done]. intros _. unfold h'. rewrite drop_drop. destruct (b_write _ _ _ _ q _); cbn [mbind res_bind]; [|done..]. by destruct (b_write _ _ _ _ v _).
      * split; [done|]. intros _ a. destruct (b_write _ _ _ _ q _) eqn:Eq; cbn [mbind res_bind]; [|done..]. intros _.
        pose proof (resize_asks_kind _ _ _ _ HV) as HV'.
        destruct (c_val c); try done; cbn [mbind res_bind s_keys s_vals s_size s_cap]; try (rewrite Eq; cbn [mbind res_bind]; done).
        destruct (old =? 0)%nat; cbn [mbind res_bind s_keys s_vals s_size s_cap]; [|done]. rewrite Eq. done.
    + split; [done|]. intros _ a.
      pose proof (resize_asks_kind _ _ _ _ HK) as HK'.
      destruct (b_resize pf (c_val c) (s_vals s) old new (vwidth t)) as [w|u| |] eqn:Ew; cbn [mbind res_bind]; [|done..]. intros _.
      clearbody h'. destruct (c_key c); try done; try (destruct (old =? 0)%nat eqn:E0; [|done]); cbn [mbind res_bind];
        (destruct (ask (resize_asks (c_val c) old new (vwidth t)) h') as [[|] h0]; [reflexivity|]);
        (destruct (c_val c); try reflexivity); try (rewrite E0; reflexivity); by destruct (old =? 0)%nat.
Qed.

Lemma asksx_rehash_slot mins ins t tmp ib : (forall t k v, asksx (mins t k v) (ins t k v)) ->
  asksx (fun h => m_rehash_slot pf c mins t (tmp, h) ib) (rehash_slot pf c ins t tmp ib).
Proof.
  intros H. destruct ib as [i s]. unfold m_rehash_slot, rehash_slot. destruct (s_size s =? 0).
  - apply (asksx_let (b_free pf (c_key c) (s_keys s))). intros _. apply (asksx_let (b_free pf (c_val c) (s_vals s))). intros _. apply asksx_ret.
  - eapply asksx_bind.
    + apply asksx_rfold. intros a j.
      apply (asksx_let (b_read pf (c_key c) (s_keys s) j (qwidth c t))). intros q.
      apply (asksx_let (hash_inv_map (hm c t) q (N.of_nat i) (t_b t))). intros k.
      apply (asksx_let (b_read pf (c_val c) (s_vals s) j (vwidth t))). intros v.
      eapply asksx_bind; [apply H|]. intros [t' x]. cbn [fst snd]. apply asksx_ret.
    + intros a. apply (asksx_let (clear_slot pf c s)). intros _. apply asksx_ret.
Qed.
Lemma asksx_rehash_overflow mins ins o : (forall t k v, asksx (mins t k v) (ins t k v)) ->
  forall f i tmp, asksx (m_rehash_overflow pf c f mins o i tmp) (rehash_overflow pf c f ins o i tmp).
Proof.
  intros H. induction f as [|f IH]; intros i tmp; cbn [m_rehash_overflow rehash_overflow]; (destruct (ov_valid pf o i); [|apply asksx_ret]).
  - exists O. intros h. by split.
  - apply (asksx_let (ov_key pf (kbn c) o i)). intros k. apply (asksx_let (ov_get pf (vbn c) o i)). intros v.
    eapply asksx_bind; [apply H|]. intros [t' x]. cbn [fst snd]. apply IH.
Qed.
Lemma asksx_reserve mins ins t n : (forall t k v, asksx (mins t k v) (ins t k v)) ->
  asksx (m_reserve_with pf c mins t n) (reserve_with pf c ins t n).
Proof.
  intros H. unfold m_reserve_with, reserve_with. destruct (t_b t =? 0); [eexists; apply asks_alloc|].
  apply (asksx_let (reserve_bits n)). intros bits.
  eapply asksx_bind; [eexists; apply asks_alloc|]. intros tmp.
  destruct (t_slots t) as [sl|]; [|exists O; intros h; by split].
  eapply asksx_bind; [apply asksx_rfold; intros a x; by apply asksx_rehash_slot|]. intros tmp'.
  eapply asksx_bind; [by apply asksx_rehash_overflow|]. intros tmp''.
  apply (asksx_let (ov_clear pf (kbn c) (vbn c) (t_ov t))). intros _. apply asksx_ret.
Qed.

Lemma asksx_insert f : forall t k v, asksx (m_find_or_insert pf c f t k v) (find_or_insert pf c f t k v).
Proof.
  induction f as [|f IH]; intros t k v; cbn [m_find_or_insert find_or_insert]; [exists O; intros h; by split|].
  eapply asksx_bind.
  { destruct (t_b t =? 0); [eexists; apply asks_alloc|apply asksx_ret]. }
  clear t. intros t.
  apply (asksx_let (hash_map (hm c t) k (t_b t))). intros [q bk].
  apply (asksx_let (get_slot t bk)). intros s.
  apply (asksx_let (locate_q pf c t bk q)). intros [p|]; [apply asksx_ret|].
  apply (asksx_let (ov_need_consult (t_ov t) bk)). intros consult.
  apply (asksx_let (if consult then ov_find pf (kbn c) (t_ov t) k else Ok None)). intros [p|]; [apply asksx_ret|].
  destruct (s_size s =? c_maxb c).
  - apply (asksx_let (if ov_size (t_ov t) <? ov_capacity (t_ov t)
       then ov_insert pf (kbn c) (vbn c) (t_ov t) bk k (v mod 2^N.of_nat (vbn c)) else Ok (t_ov t, None))).
    intros [o [p|]]; cbv zeta; [apply asksx_ret|].
    apply (asksx_let (shl64 1 (t_b (set_ov t o) + 1))). intros n.
    eapply asksx_bind; [by apply asksx_reserve|]. intros t'. apply IH.
  - eapply asksx_bind; [eexists; apply asks_push|]. intros s'. apply asksx_ret.
Qed.

(** A bucket that is not full in a table that has buckets. *)
Lemma asks_insert f t k v q bk s : t_b t <> 0 -> hash_map (hm c t) k (t_b t) = Ok (q, bk) -> get_slot t bk = Ok s -> locate_q pf c t bk q = Ok None ->
  c_ov c = OvDummy -> ov_need_consult (t_ov t) bk = Ok false -> s_size s <> c_maxb c ->
  asks (push_requests t s) (m_find_or_insert pf c (S f) t k v) (find_or_insert pf c (S f) t k v).
Proof.
  intros Hb Eh Es El _ Ec Hs. cbn [m_find_or_insert find_or_insert]. apply N.eqb_neq in Hb, Hs. rewrite Hb. cbn [mbind res_bind].
  rewrite Eh. cbn [mbind res_bind]. rewrite Es. cbn [mbind res_bind]. rewrite El. cbn [mbind res_bind]. rewrite Ec. cbn [mbind res_bind]. rewrite Hs.
  rewrite <- (Nat.add_0_r (push_requests t s)). eapply asks_bind; [apply asks_push|]. intros s' _. apply asks_ret.
Qed.
Lemma asks_present f t k v q bk p : t_b t <> 0 -> hash_map (hm c t) k (t_b t) = Ok (q, bk) -> locate_q pf c t bk q = Ok (Some p) ->
  asks 0 (m_find_or_insert pf c (S f) t k v) (find_or_insert pf c (S f) t k v).
Proof.
  intros Hb Eh El. cbn [m_find_or_insert find_or_insert]. apply N.eqb_neq in Hb. rewrite Hb. cbn [mbind res_bind].
  rewrite Eh. cbn [mbind res_bind]. pose proof El as El'. unfold locate_q in El'. rinv El'. cbn [mbind res_bind]. rewrite El. apply asks_ret.
Qed.
End malloc.
