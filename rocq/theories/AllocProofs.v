(** Relation of the table with failing requests (AllocModel.v) to the table whose requests succeed (TableModel.v). *)
From Verif Require Export AllocModel TableOps TableReach.

Ltac rgo H := rinv H; cbn [mbind res_bind].

Section erase.
Context (pf : platform) (c : cfg).

(** ** A call that completes returns what it returns if no request can fail *)
Lemma a_alloc_done t n h t' h' : a_alloc_table pf c t n h = Ok (Done t' h') -> alloc_table pf t n = Ok t'.
Proof.
  unfold a_alloc_table. intros H. rinv H. destruct (request true h) as [h1|]; [|done]. destruct (request (has_values (c_val c)) h1); [|done].
  injection H as <- _. done.
Qed.
Lemma a_push_done t s q v h s' h' : a_push_slot pf c t s q v h = Ok (Done s' h') -> push_slot pf c t s q v = Ok s'.
Proof.
  unfold a_push_slot, push_slot. destruct (s_size s =? 0); cbn zeta.
  - destruct (request (kind_new (c_key c)) h) as [h1|]; [|done]. destruct (request (kind_new (c_val c)) h1) as [h2|]; [|done].
    cbn [mbind res_bind]. intros H. rgo H. rgo H. by injection H as <- _.
  - destruct (rs_needs_resize _ _ _).
    + destruct (request (kind_new (c_key c)) h) as [h1|]; [|done]. intros H.
      destruct (b_resize pf (c_key c) _ _ _ _); cbn [mbind res_bind] in *; [|done..].
      destruct (request (kind_new (c_val c)) h1) as [h2|]; [|done].
      destruct (b_resize pf (c_val c) _ _ _ _); cbn [mbind res_bind] in *; [|done..].
      rgo H. rgo H. by injection H as <- _.
    + cbn [mbind res_bind]. intros H. rgo H. rgo H. by injection H as <- _.
Qed.

Section rehash.
Context (ains : table -> N -> N -> heap -> res inserted) (ins : table -> N -> N -> res (table * nav)).
Hypothesis Hins : forall tmp k v h r h', ains tmp k v h = Ok (Done r h') -> ins tmp k v = Ok r.
Lemma a_rehash_bucket_done t i s : forall n j tmp h tmp' h', a_rehash_bucket pf c ains t i s n j tmp h = Ok (Done tmp' h') ->
  rfold (fun tmp j =>
        q ← b_read pf (c_key c) (s_keys s) j (qwidth c t);
        k ← hash_inv_map (hm c t) q (N.of_nat i) (t_b t);
        v ← b_read pf (c_val c) (s_vals s) j (vwidth t);
        r ← ins tmp k v;
        Ok (fst r)) (seq j n) tmp = Ok tmp'.
Proof.
  induction n as [|n IH]; intros j tmp h tmp' h'; cbn [a_rehash_bucket seq rfold].
  - by intros [= -> _].
  - intros H. rgo H. rgo H. rgo H. rinv H. destruct a2 as [[tmp1 x] h1|]; [|done]. apply Hins in E2. rewrite E2. cbn [mbind res_bind fst]. by eapply IH.
Qed.
Lemma a_rehash_done t : forall sl i tmp h tmp' h', a_rehash pf c ains t i sl tmp h = Ok (Done tmp' h') ->
  rfold (rehash_slot pf c ins t) (imap (fun j s => ((i + j)%nat, s)) sl) tmp = Ok tmp'.
Proof.
  induction sl as [|s sl IH]; intros i tmp h tmp' h'; cbn [a_rehash].
  - by intros [= -> _].
  - rewrite imap_cons. cbn [rfold]. intros H. rinv H. destruct a as [tmp1 h1|]; [|done]. rinv H. rinv H. destruct a0 as [tmp2 h2|[]]; [|done].
    injection H as -> ->. replace (i + 0)%nat with i by lia.
    assert (Es : rehash_slot pf c ins t tmp (i, s) = Ok tmp1).
    { unfold rehash_slot. destruct (s_size s =? 0).
      - rgo E. rgo E. by injection E as <- _.
      - apply a_rehash_bucket_done in E. rewrite E. cbn [mbind res_bind]. rewrite E0. done. }
    rewrite Es. cbn [mbind res_bind]. apply IH in E1. rewrite <-E1. f_equal. apply imap_ext. intros j x _. cbn. f_equal. lia.
Qed.
Lemma a_rehash_overflow_done o : forall fuel i tmp h tmp' h', a_rehash_overflow pf c fuel ains o i tmp h = Ok (Done tmp' h') ->
  rehash_overflow pf c fuel ins o i tmp = Ok tmp'.
Proof.
  induction fuel as [|f IH]; intros i tmp h tmp' h'; cbn [a_rehash_overflow rehash_overflow]; destruct (ov_valid pf o i); try done.
  - by intros [= -> _].
  - intros H. rgo H. rgo H. rinv H. destruct a1 as [[tmp1 x] h1|]; [|done]. apply Hins in E1. rewrite E1. cbn [mbind res_bind fst]. by eapply IH.
  - by intros [= -> _].
Qed.
Lemma a_reserve_with_done t n h t' h' : a_reserve_with pf c ains t n h = Ok (Done t' h') -> reserve_with pf c ins t n = Ok t'.
Proof.
  unfold a_reserve_with, reserve_with. destruct (t_b t =? 0); [apply a_alloc_done|].
  intros H. rgo H. rinv H. destruct a0 as [tmp h1|tmp]; [|by rinv H]. apply a_alloc_done in E0. rewrite E0. cbn [mbind res_bind].
  destruct (t_slots t) as [sl|]; [|done]. rinv H. destruct a0 as [tmp1 h2|[tmp1 sl1]]; [|by rinv H].
  apply (a_rehash_done t _ 0%nat) in E1. change (imap (fun j s => ((0 + j)%nat, s)) ?l) with (imap pair l) in E1. rewrite E1. cbn [mbind res_bind].
  rinv H. destruct a0 as [tmp2 h3|tmp2]; [|by rinv H; rinv H]. apply a_rehash_overflow_done in E2. rewrite E2. cbn [mbind res_bind].
  rgo H. by injection H as <- _.
Qed.
End rehash.

Lemma a_insert_done : forall fuel t k v h r h', a_find_or_insert pf c fuel t k v h = Ok (Done r h') -> find_or_insert pf c fuel t k v = Ok r.
Proof.
  induction fuel as [|f IH]; intros t k v h r h'; cbn [a_find_or_insert find_or_insert]; [done|].
  intros H. rinv H. destruct a as [t1 h1|]; [|done].
  assert (Ea : (if t_b t =? 0 then alloc_table pf t (N.min (sub64 (t_kw t) 1) 16) else Ok t) = Ok t1).
  { destruct (t_b t =? 0); [by apply a_alloc_done in E|]. by injection E as <- _. }
  rewrite Ea. cbn [mbind res_bind]. clear E Ea. rgo H. destruct a as [q bk]. rgo H. rgo H. destruct a0 as [p|]; [by injection H as <- _|].
  rgo H. rgo H. destruct a1 as [p|]; [by injection H as <- _|].
  destruct (s_size a =? c_maxb c).
  - rgo H. destruct a1 as [o opos]. destruct opos as [p|]; [by injection H as <- _|].
    rgo H. rinv H. destruct a2 as [t2 h2|]; [|done]. apply (a_reserve_with_done _ _ IH) in E6. rewrite E6. cbn [mbind res_bind]. by eapply IH.
  - rinv H. destruct a1 as [s1 h2|]; [|done]. apply a_push_done in E4. rewrite E4. cbn [mbind res_bind]. by injection H as <- _.
Qed.
Lemma a_reserve_done fuel t n h t' h' : a_reserve pf c fuel t n h = Ok (Done t' h') -> reserve pf c fuel t n = Ok t'.
Proof. apply a_reserve_with_done, a_insert_done. Qed.
Lemma a_shrink_slot_done t s h s' h' : a_shrink_slot pf c t s h = Ok (Done s' h') -> shrink_slot pf c t s = Ok s'.
Proof.
  unfold a_shrink_slot, shrink_slot. destruct (s_size s =? 0); [by intros [= -> _]|]. destruct (rs_can_shrink _ _ _); [|by intros [= -> _]].
  cbn zeta. destruct (request _ h) as [h1|]; [|done]. intros H. rgo H. destruct (request _ h1) as [h2|]; [|done]. rgo H. by injection H as <- _.
Qed.
Lemma a_shrink_slots_done t : forall sl h sl' h', a_shrink_slots pf c t sl h = Ok (Done sl' h') -> rmap (shrink_slot pf c t) sl = Ok sl'.
Proof.
  induction sl as [|s sl IH]; intros h sl' h'; cbn [a_shrink_slots rmap]; [by intros [= <- _]|].
  intros H. rinv H. destruct a as [s1 h1|]; [|done]. apply a_shrink_slot_done in E. rewrite E. cbn [mbind res_bind].
  rinv H. destruct a as [sl1 h2|]; [|done]. apply IH in E0. rewrite E0. cbn [mbind res_bind]. by injection H as <- _.
Qed.
Lemma a_shrink_done t h t' h' : a_shrink_to_fit pf c t h = Ok (Done t' h') -> shrink_to_fit pf c t = Ok t'.
Proof.
  unfold a_shrink_to_fit, shrink_to_fit. destruct (t_b t =? 0); [by intros [= -> _]|]. destruct (t_slots t) as [sl|]; [|done].
  intros H. rinv H. destruct a as [sl1 h1|]; [|done]. apply a_shrink_slots_done in E. rewrite E. cbn [mbind res_bind]. by injection H as <- _.
Qed.

(** ** With requests that never fail nothing changes *)
Definition sure {A B} (r : res A) : res (tried A B) := a ← r; Ok (Done a None).
Lemma a_alloc_none t n : a_alloc_table pf c t n None = sure (alloc_table pf t n).
Proof. unfold a_alloc_table, sure. destruct (alloc_table pf t n); cbn [mbind res_bind]; [|done..]. cbn [request]. by destruct (has_values _). Qed.
Lemma a_push_none t s q v : a_push_slot pf c t s q v None = sure (push_slot pf c t s q v).
Proof.
  unfold a_push_slot, push_slot, sure. cbn zeta.
  assert (R : forall b, request b None = Some None) by (by intros []). rewrite !R.
  destruct (s_size s =? 0); [|destruct (rs_needs_resize _ _ _)].
  2: destruct (b_resize pf (c_key c) _ _ _ _); cbn [mbind res_bind]; [|done..]; rewrite ?R; destruct (b_resize pf (c_val c) _ _ _ _); cbn [mbind res_bind]; [|done..].
  all: cbn [mbind res_bind]; destruct (b_write pf (c_key c) _ _ _ _); cbn [mbind res_bind]; [|done..]; destruct (b_write pf (c_val c) _ _ _ _); done.
Qed.
Section rehash_none.
Context (ains : table -> N -> N -> heap -> res inserted) (ins : table -> N -> N -> res (table * nav)).
Hypothesis Hins : forall tmp k v, ains tmp k v None = sure (ins tmp k v).
Lemma a_rehash_bucket_none t i s : forall n j tmp, a_rehash_bucket pf c ains t i s n j tmp None =
  sure (rfold (fun tmp j =>
        q ← b_read pf (c_key c) (s_keys s) j (qwidth c t);
        k ← hash_inv_map (hm c t) q (N.of_nat i) (t_b t);
        v ← b_read pf (c_val c) (s_vals s) j (vwidth t);
        r ← ins tmp k v;
        Ok (fst r)) (seq j n) tmp).
Proof.
  induction n as [|n IH]; intros j tmp; cbn [a_rehash_bucket seq rfold]; [done|].
  destruct (b_read pf (c_key c) _ _ _); cbn [mbind res_bind]; [|done..]. destruct (hash_inv_map _ _ _ _); cbn [mbind res_bind]; [|done..].
  destruct (b_read pf (c_val c) _ _ _); cbn [mbind res_bind]; [|done..]. rewrite Hins. unfold sure at 1.
  destruct (ins tmp _ _) as [[tmp1 x]| | |]; cbn [mbind res_bind fst]; [|done..]. apply IH.
Qed.
Lemma a_rehash_none t : forall sl i tmp, a_rehash pf c ains t i sl tmp None =
  sure (rfold (rehash_slot pf c ins t) (imap (fun j s => ((i + j)%nat, s)) sl) tmp).
Proof.
  induction sl as [|s sl IH]; intros i tmp; cbn [a_rehash]; [done|].
  rewrite imap_cons. cbn [rfold]. replace (i + 0)%nat with i by lia.
  assert (Es : forall tmp1, (r ← a_rehash pf c ains t (S i) sl tmp1 None; match (r : tried table (table * list slot)) with
    | Done tmp h => Ok (Done tmp h) | Bad (tmp, sl') => Ok (Bad (tmp, (s :: sl'))) end) =
    sure (rfold (rehash_slot pf c ins t) (imap (fun j s => ((i + S j)%nat, s)) sl) tmp1)).
  { intros tmp1. rewrite IH. rewrite (imap_ext _ (fun j s => ((i + S j)%nat, s)) sl) by (intros j x _; cbn; f_equal; lia).
    unfold sure. destruct (rfold _ _ _); done. }
  set (R0 := rehash_slot pf c ins t tmp (i, s)). unfold rehash_slot in R0. unfold R0. clear R0. destruct (s_size s =? 0).
  - destruct (b_free pf (c_key c) _); cbn [mbind res_bind]; [|done..]. destruct (b_free pf (c_val c) _); cbn [mbind res_bind]; [|done..]. apply Es.
  - rewrite a_rehash_bucket_none. unfold sure at 1. destruct (rfold _ (seq _ _) _) as [tmp1| | |]; cbn [mbind res_bind]; [|done..].
    destruct (clear_slot pf c s) as [s1| | |]; cbn [mbind res_bind]; [|done..].
    specialize (Es tmp1). unfold sure in *. destruct (a_rehash _ _ _ _ _ _ _ _) as [[|[]]| | |]; cbn [mbind res_bind] in *; try done;
      by destruct (rfold _ _ _).
Qed.
Lemma a_rehash_overflow_none o : forall fuel i tmp, a_rehash_overflow pf c fuel ains o i tmp None = sure (rehash_overflow pf c fuel ins o i tmp).
Proof.
  induction fuel as [|f IH]; intros i tmp; cbn [a_rehash_overflow rehash_overflow]; destruct (ov_valid pf o i); try done.
  destruct (ov_key _ _ _ _); cbn [mbind res_bind]; [|done..]. destruct (ov_get _ _ _ _); cbn [mbind res_bind]; [|done..]. rewrite Hins. unfold sure at 1.
  destruct (ins tmp _ _) as [[tmp1 x]| | |]; cbn [mbind res_bind fst]; [|done..]. apply IH.
Qed.
Lemma a_reserve_with_none t n : a_reserve_with pf c ains t n None = sure (reserve_with pf c ins t n).
Proof.
  unfold a_reserve_with, reserve_with. destruct (t_b t =? 0); [apply a_alloc_none|].
  destruct (reserve_bits n); cbn [mbind res_bind]; [|done..]. rewrite a_alloc_none. unfold sure at 1.
  destruct (alloc_table _ _ _) as [tmp| | |]; cbn [mbind res_bind]; [|done..]. destruct (t_slots t) as [sl|]; [|done].
  rewrite a_rehash_none. change (imap (fun j s => ((0 + j)%nat, s)) ?l) with (imap pair l). unfold sure at 1.
  destruct (rfold _ _ _) as [tmp1| | |]; cbn [mbind res_bind]; [|done..]. rewrite a_rehash_overflow_none. unfold sure at 1.
  destruct (rehash_overflow _ _ _ _ _ _ _) as [tmp2| | |]; cbn [mbind res_bind]; [|done..]. by destruct (ov_clear _ _ _ _).
Qed.
End rehash_none.
Lemma a_insert_none : forall fuel t k v, a_find_or_insert pf c fuel t k v None = sure (find_or_insert pf c fuel t k v).
Proof.
  induction fuel as [|f IH]; intros t k v; cbn [a_find_or_insert find_or_insert]; [done|].
  assert (Ea : (if t_b t =? 0 then a_alloc_table pf c t (N.min (sub64 (t_kw t) 1) 16) None else Ok (Done t None)) =
    (sure (if t_b t =? 0 then alloc_table pf t (N.min (sub64 (t_kw t) 1) 16) else Ok t) : res (tried table table)))
    by (destruct (t_b t =? 0); [apply a_alloc_none|done]).
  rewrite Ea. unfold sure at 1. clear Ea. destruct (if t_b t =? 0 then _ else _) as [t1| | |]; cbn [mbind res_bind]; [|done..].
  destruct (hash_map _ _ _) as [[q bk]| | |]; cbn [mbind res_bind]; [|done..]. destruct (get_slot _ _) as [s| | |]; cbn [mbind res_bind]; [|done..].
  destruct (locate_q _ _ _ _ _) as [[p|]| | |]; cbn [mbind res_bind]; try done.
  destruct (ov_need_consult _ _); cbn [mbind res_bind]; [|done..]. destruct (if (a : bool) then _ else _) as [[p|]| | |]; cbn [mbind res_bind]; try done.
  destruct (s_size s =? c_maxb c).
  - destruct (if ov_size _ <? _ then _ else _) as [[o [p|]]| | |]; cbn [mbind res_bind]; try done.
    destruct (shl64 _ _); cbn [mbind res_bind]; [|done..]. rewrite (a_reserve_with_none _ _ IH). unfold sure at 1.
    destruct (reserve_with _ _ _ _ _); cbn [mbind res_bind]; [|done..]. apply IH.
  - rewrite a_push_none. unfold sure at 1. destruct (push_slot _ _ _ _ _ _); done.
Qed.
Lemma a_reserve_none fuel t n : a_reserve pf c fuel t n None = sure (reserve pf c fuel t n).
Proof. apply a_reserve_with_none, a_insert_none. Qed.
Lemma a_shrink_none t : a_shrink_to_fit pf c t None = sure (shrink_to_fit pf c t).
Proof.
  unfold a_shrink_to_fit, shrink_to_fit. destruct (t_b t =? 0); [done|]. destruct (t_slots t) as [sl|]; [|done].
  assert (E : forall sl, a_shrink_slots pf c t sl None = sure (rmap (shrink_slot pf c t) sl)).
  { clear. assert (R : forall b, request b None = Some None) by (by intros []).
    induction sl as [|s sl IH]; cbn [a_shrink_slots rmap]; [done|].
    assert (Es : a_shrink_slot pf c t s None = sure (shrink_slot pf c t s)).
    { unfold a_shrink_slot, shrink_slot. destruct (s_size s =? 0); [done|]. destruct (rs_can_shrink _ _ _); [|done]. cbn zeta. rewrite R.
      destruct (b_resize pf (c_key c) _ _ _ _); cbn [mbind res_bind]; [|done..]. rewrite ?R. by destruct (b_resize pf (c_val c) _ _ _ _). }
    rewrite Es. unfold sure. destruct (shrink_slot pf c t s); cbn [mbind res_bind]; [|done..]. rewrite IH. unfold sure. by destruct (rmap _ _). }
  rewrite E. unfold sure. by destruct (rmap _ _).
Qed.
End erase.
