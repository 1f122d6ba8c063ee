(** The debug build of compact_chaining_map computes what the release build computes, as long as no check fails. *)
From Verif Require Export DebugCompact NavTrans.
From Verif Require Import DebugGroupTrans.

Section trans.
Context (pf : platform) (c : ccfg).

(** *** One bucket *)
Lemma xs_quot_eq s i qw q : xs_quot pf c s i qw = Ok q -> cs_quot pf c (x_s s) i qw = Ok q.
Proof. unfold xs_quot. intros H. dinv_all H. by injection H as <-. Qed.
Lemma xs_value_eq s i qw vw v : xs_value pf c s i qw vw = Ok v -> cs_value pf c (x_s s) i qw vw = Ok v.
Proof. unfold xs_value. intros H. dinv_all H. by injection H as <-. Qed.
Lemma xs_set_quot_eq s i qw q s' : xs_set_quot pf c s i qw q = Ok s' -> cs_set_quot pf c (x_s s) i qw q = Ok (x_s s').
Proof. unfold xs_set_quot. intros H. dinv_all H. by injection H as <-. Qed.
Lemma xs_set_value_eq s i qw vw v s' : xs_set_value pf c s i qw vw v = Ok s' -> cs_set_value pf c (x_s s) i qw vw v = Ok (x_s s').
Proof. unfold xs_set_value. intros H. dinv_all H. by injection H as <-. Qed.
Lemma x_move_eq lim vw ms d d' : rfold (x_move pf c lim vw) ms d = Ok d' -> rfold (c_move pf (cc_sb c) vw) ms d = Ok d'.
Proof.
  intros H. rewrite <-(map_id ms). revert H. apply (rfold_eq _ _ id id). unfold x_move, c_move. intros a ft a' H. dinv1 H. dinv1 H. cbn [id]. rewrite E. done.
Qed.
Lemma x_quots_eq qw l : forall s s', rfold (fun s i => q ← xs_quot pf c s i qw; xs_set_quot pf c s (i - 1)%nat qw q) l s = Ok s' ->
  rfold (c_move pf (cc_sb c) qw) (map (fun i => (i * qw, (i - 1) * qw)%nat) l) (cs_data (x_s s)) = Ok (cs_data (x_s s'))
  /\ cs_size (x_s s') = cs_size (x_s s) /\ x_keys s' = x_keys s /\ x_vals s' = x_vals s /\ x_bits s' = x_bits s.
Proof.
  induction l as [|i l IH]; intros s s' H; cbn [rfold map] in *; [by injection H as <-|]. dinv1 H. dinv1 E. apply IH in H as (H1 & H2 & H3 & H4 & H5).
  apply xs_quot_eq in E0. unfold cs_quot in E0. unfold xs_set_quot in E. dinv_all E. injection E as <-. cbn [x_s x_keys x_vals x_bits] in *.
  match goal with E : cs_set_quot _ _ _ _ _ _ = Ok _ |- _ => unfold cs_set_quot in E; dinv1 E; injection E as <- end. cbn [mbind res_bind cs_data cs_size] in *.
  match goal with E : c_write _ _ _ _ _ _ = Ok ?d |- _ => assert (Em : c_move pf (cc_sb c) qw (cs_data (x_s s)) (i * qw, (i - 1) * qw)%nat = Ok d) by
    (unfold c_move; cbn [fst snd]; rewrite E0; exact E) end.
  rewrite Em. cbn [mbind res_bind]. rewrite H1. done.
Qed.
Lemma xs_enlarge_eq s qw vw s' : xs_enlarge pf c s qw vw = Ok s' -> cs_enlarge pf c (x_s s) qw vw = Ok (x_s s').
Proof.
  unfold xs_enlarge, cs_enlarge. cbv zeta. intros H. dinv1 H. dinv1 H. dinv1 H. injection H as <-. cbn [x_s cs_size cs_data xs_realloc] in *.
  match goal with E : rfold (x_move _ _ _ _) _ _ = Ok _ |- _ => apply x_move_eq in E; rewrite E end. done.
Qed.
Lemma xs_clear_eq s s' : xs_clear pf s = Ok s' -> c_clear_slot pf (x_s s) = Ok (x_s s').
Proof. unfold xs_clear. intros H. dinv1 H. dinv1 H. by injection H as <-. Qed.
Lemma xs_erase_eq h bk b s pos qw vw s' : xs_erase pf c h bk b s pos qw vw = Ok s' -> cs_erase pf c (x_s s) pos qw vw = Ok (x_s s').
Proof.
  unfold xs_erase, cs_erase. cbv zeta. intros H. dinv1 H. dinv1 H.
  match goal with E : rfold (fun _ _ => _) _ _ = Ok _ |- _ => apply x_quots_eq in E as (E1 & E2 & E3 & E4 & E5) end. cbn [x_s x_keys x_vals x_bits] in *.
  rewrite E1. cbn [mbind res_bind]. do 3 dinv1 H.
  repeat match goal with E : rfold (x_move _ _ _ _) _ _ = Ok _ |- _ => apply x_move_eq in E; rewrite E; cbn [mbind res_bind]; clear E end.
  dinv1 H. dinv1 H. rewrite E2 in *. revert H. unfold xs_realloc. cbn [x_s]. destruct (_ =? 0); [|by intros [= <-]]. intros H. by apply xs_clear_eq in H.
Qed.

(** *** The map *)
Lemma x_slot_eq t bk s : x_slot t bk = Ok s -> c_slot (xstrip t) bk = Ok (x_s s).
Proof.
  unfold x_slot, c_slot. cbn [xstrip cm_slots]. destruct (xm_slots t) as [sl|]; [|done]. cbn [fmap option_fmap option_map]. rewrite map_length.
  destruct (_ <? _); [|done]. change (map x_s sl) with (x_s <$> sl). rewrite list_lookup_fmap. destruct (sl !! N.to_nat bk); [|done]. cbn. by intros [= <-].
Qed.
Lemma xstrip_set t bk s : xstrip (x_set t bk s) = c_set (xstrip t) bk (x_s s).
Proof. unfold xstrip, x_set, c_set. cbn. f_equal. destruct (xm_slots t); [|done]. cbn. f_equal. exact (list_fmap_insert x_s l (N.to_nat bk) s). Qed.
Lemma xstrip_set_n t n : xstrip (x_set_n t n) = c_set_n (xstrip t) n.
Proof. done. Qed.
Lemma x_new_eq kw vw t : x_new c kw vw = Ok t -> xstrip t = c_new (u8 kw) (u8 vw).
Proof. unfold x_new. intros H. dinv_all H. by injection H as <-. Qed.
Lemma x_bucket_size_eq t bk n : x_bucket_size t bk = Ok n -> c_bucket_size (xstrip t) bk = Ok n.
Proof. unfold x_bucket_size, c_bucket_size. intros H. dinv1 H. dinv1 H. apply x_slot_eq in E as ->. done. Qed.
Lemma x_quotient_at_eq t bk pos qw q : x_quotient_at pf c t bk pos qw = Ok q -> c_quotient_at pf c (xstrip t) bk pos qw = Ok q.
Proof.
  unfold x_quotient_at, c_quotient_at. intros H. do 5 dinv1 H. injection H as <-.
  match goal with E : x_slot _ _ = Ok _ |- _ => apply x_slot_eq in E as -> end. cbn [mbind res_bind].
  match goal with E : xs_quot _ _ _ _ _ = Ok _ |- _ => by apply xs_quot_eq in E end.
Qed.
Lemma x_value_at_eq t bk pos v : x_value_at pf c t bk pos = Ok v -> c_value_at pf c (xstrip t) bk pos = Ok v.
Proof.
  unfold x_value_at, c_value_at. intros H. do 3 dinv1 H. match goal with E : x_slot _ _ = Ok _ |- _ => apply x_slot_eq in E as -> end. cbn [mbind res_bind].
  by apply xs_value_eq in H.
Qed.
Lemma x_write_value_eq t x v t' : x_write_value pf c t x v = Ok t' -> c_write_value pf c (xstrip t) x v = Ok (xstrip t').
Proof.
  unfold x_write_value, c_write_value. destruct x as [bk pos]. intros H. do 3 dinv1 H. injection H as <-.
  match goal with E : x_slot _ _ = Ok _ |- _ => apply x_slot_eq in E as -> end. cbn [mbind res_bind].
  match goal with E : xs_set_value _ _ _ _ _ _ _ = Ok _ |- _ => apply xs_set_value_eq in E as -> end. cbn [mbind res_bind]. by rewrite xstrip_set.
Qed.
Lemma rmap_eq {A A' B B'} (f : A -> res B) (g : A' -> res B') (p : A -> A') (q : B -> B') l : (forall a b, f a = Ok b -> g (p a) = Ok (q b)) ->
  forall r, rmap f l = Ok r -> rmap g (map p l) = Ok (map q r).
Proof.
  intros Hfg. induction l as [|a l IH]; intros r H; cbn [rmap map] in *; [by injection H as <-|]. dinv1 H. dinv1 H. injection H as <-.
  rewrite (Hfg _ _ E). cbn [mbind res_bind]. rewrite (IH _ eq_refl). done.
Qed.
Lemma x_clear_structure_eq t t' : x_clear_structure pf t = Ok t' -> c_clear_structure pf (xstrip t) = Ok (xstrip t').
Proof.
  unfold x_clear_structure, c_clear_structure. cbn [xstrip cm_slots]. intros H. dinv1 H. injection H as <-.
  destruct (xm_slots t); cbn [fmap option_fmap option_map] in *; [|done]. destruct (loose_free pf); [|done]. done.
Qed.
Lemma x_clear_eq t t' : x_clear pf t = Ok t' -> c_clear pf (xstrip t) = Ok (xstrip t').
Proof.
  unfold x_clear, c_clear. cbn [xstrip cm_slots]. destruct (xm_slots t) as [sl|] eqn:Es; cbn [fmap option_fmap option_map].
  2: { intros [= <-]. unfold xstrip. by rewrite Es. }
  cbv zeta. intros H. dinv1 H.
  assert (E1 : rmap (fun s => if cs_size s =? 0 then Ok s else c_clear_slot pf s) (take (N.to_nat (c_bucket_count (xstrip t))) (map x_s sl)) = Ok (map x_s a)).
  { rewrite firstn_map. revert E. apply rmap_eq. intros s s' H'. cbn. destruct (cs_size (x_s s) =? 0); [by injection H' as <-|]. by apply xs_clear_eq. }
  match goal with |- context [take (N.to_nat (c_bucket_count ?x))] => change (c_bucket_count x) with (c_bucket_count (xstrip t)) end.
  rewrite E1. cbn [mbind res_bind]. apply x_clear_structure_eq in H. 
  by rewrite <-H.
Qed.
Lemma x_find_from_eq t bk s q : forall n i r, x_find_from pf c t bk s i n q = Ok r -> c_find_from pf c (x_s s) i n (cqw c (xstrip t)) q = Ok r.
Proof.
  induction n as [|n IH]; intros i r H; [done|]. cbn [x_find_from c_find_from] in *. do 4 dinv1 H.
  match goal with E : xs_quot _ _ _ _ _ = Ok _ |- _ => apply xs_quot_eq in E as -> end. cbn [mbind res_bind]. revert H. destruct (a =? q); [done|]. apply IH.
Qed.
Lemma x_locate_q_eq t bk q r : x_locate_q pf c t bk q = Ok r -> c_locate_q pf c (xstrip t) bk q = Ok r.
Proof.
  unfold x_locate_q, c_locate_q. intros H. do 5 dinv1 H. injection H as <-. match goal with E : x_slot _ _ = Ok _ |- _ => apply x_slot_eq in E as -> end.
  cbn [mbind res_bind]. match goal with E : x_find_from _ _ _ _ _ _ _ _ = Ok _ |- _ => by apply x_find_from_eq in E end.
Qed.
Lemma x_map_eq t k qb : x_map c t k = Ok qb -> hash_map (chm c (cm_kw (xstrip t))) k (cm_b (xstrip t)) = Ok qb.
Proof. unfold x_map. intros H. do 3 dinv1 H. injection H as <-. by apply dhash_map_eq. Qed.
Lemma x_find_eq t k x : x_find pf c t k = Ok x -> c_find pf c (xstrip t) k = Ok x.
Proof.
  unfold x_find, c_find. change (cm_b (xstrip t)) with (xm_b t). destruct (_ =? _); [done|]. intros H. dinv1 H.
  apply x_map_eq in E. change (cm_b (xstrip t)) with (xm_b t) in E. rewrite E. cbn [mbind res_bind]. destruct a as [q bk]. dinv1 H.
  apply x_locate_q_eq in E0 as ->. done.
Qed.
Lemma x_locate_eq t k r : x_locate pf c t k = Ok r -> c_locate pf c (xstrip t) k = Ok r.
Proof.
  unfold x_locate, c_locate. change (cm_b (xstrip t)) with (xm_b t). destruct (_ =? _); [done|]. intros H. dinv1 H.
  apply x_map_eq in E. change (cm_b (xstrip t)) with (xm_b t) in E. rewrite E. cbn [mbind res_bind]. destruct a as [q bk]. dinv1 H.
  apply x_locate_q_eq in E0 as ->. done.
Qed.
Lemma x_alloc_eq t n t' : x_alloc t n = Ok t' -> c_alloc (xstrip t) n = Ok (xstrip t').
Proof.
  unfold x_alloc, c_alloc. intros H. dinv1 H. cbn [mbind res_bind]. injection H as <-. f_equal. unfold xstrip.
  cbn [xm_slots xm_b xm_n xm_kw xm_vw cm_n cm_kw cm_vw fmap option_fmap option_map]. f_equal. f_equal. symmetry. exact (fmap_replicate x_s _ x_none).
Qed.
Section ins.
Context (ins : xmap -> N -> N -> res (xmap * nav)) (ins0 : cmap -> N -> N -> res (cmap * nav)).
Hypothesis Hins : forall t k v r, ins t k v = Ok r -> ins0 (xstrip t) k v = Ok (xstrip (fst r), snd r).
Lemma x_rehash_slot_eq t tmp i s tmp' : x_rehash_slot pf c ins t tmp (i, s) = Ok tmp' ->
  c_rehash_slot pf c ins0 (xstrip t) (xstrip tmp) (i, x_s s) = Ok (xstrip tmp').
Proof.
  unfold x_rehash_slot, c_rehash_slot. destruct (_ =? _); [by intros [= <-]|]. intros H. do 2 dinv1 H. injection H as <-.
  match goal with E : rfold _ _ _ = Ok _ |- _ => apply (rfold_eq1 _ (fun (tmp : cmap) (j : nat) =>
        q ← cs_quot pf c (x_s s) j (cqw c (xstrip t));
        k ← hash_inv_map (chm c (cm_kw (xstrip t))) q (N.of_nat i) (cm_b (xstrip t));
        v ← cs_value pf c (x_s s) j (cqw c (xstrip t)) (cvw (xstrip t));
        r ← ins0 tmp k v;
        Ok (fst r)) xstrip) in E; [rewrite E; cbn [mbind res_bind]|] end.
  - match goal with E : xs_clear _ _ = Ok _ |- _ => apply xs_clear_eq in E as -> end. done.
  - intros tmp1 j tmp2 H. do 8 dinv1 H. injection H as <-.
    match goal with E : xs_quot _ _ _ _ _ = Ok _ |- _ => apply xs_quot_eq in E as -> end. cbn [mbind res_bind].
    match goal with E : dhash_inv_map _ _ _ _ = Ok _ |- _ => apply dhash_inv_map_eq in E end.
    match goal with E : hash_inv_map _ _ _ _ = Ok _ |- _ => change (xm_kw t) with (cm_kw (xstrip t)) in E; change (xm_b t) with (cm_b (xstrip t)) in E; rewrite E end.
    cbn [mbind res_bind]. match goal with E : xs_value _ _ _ _ _ _ = Ok _ |- _ => apply xs_value_eq in E as -> end. cbn [mbind res_bind].
    match goal with E : ins _ _ _ = Ok _ |- _ => apply Hins in E as -> end. done.
Qed.
Lemma x_reserve_with_eq t n t' : x_reserve_with pf c ins t n = Ok t' -> c_reserve_with pf c ins0 (xstrip t) n = Ok (xstrip t').
Proof.
  unfold x_reserve_with, c_reserve_with. change (cm_b (xstrip t)) with (xm_b t). destruct (xm_b t =? 0); [apply x_alloc_eq|].
  intros H. dinv1 H. cbn [mbind res_bind]. do 3 dinv1 H. 
  match goal with E : x_alloc _ _ = Ok _ |- _ => apply x_alloc_eq in E; change (xstrip (XMap None 0 0 (xm_kw t) (xm_vw t))) with (c_new (cm_kw (xstrip t)) (cm_vw (xstrip t))) in E; rewrite E end.
  cbn [mbind res_bind]. pose proof (x_clear_structure_eq t) as Hcs. change (cm_slots (xstrip t)) with ((fun sl => map x_s sl) <$> xm_slots t).
  destruct (xm_slots t) as [sl|] eqn:Es; [|done]. cbn [fmap option_fmap option_map]. do 2 dinv1 H. injection H as <-.
  rewrite (Hcs _ eq_refl).
  rewrite firstn_map. match goal with E : rfold _ (imap pair ?l0) _ = Ok _ |- _ => revert E; generalize l0 as l end. intros l EF.
  assert (Ei : imap pair (map x_s l) = map (fun ig => (fst ig, x_s (snd ig))) (imap pair l)).
  { change (map x_s l) with (x_s <$> l). rewrite imap_fmap. change (map ?f (imap pair l)) with (f <$> imap pair l). by rewrite fmap_imap. }
  apply (rfold_eq _ (c_rehash_slot pf c ins0 (xstrip t)) xstrip (fun ig => (fst ig, x_s (snd ig)))) in EF; [|intros x [gi g] y; apply x_rehash_slot_eq].
  rewrite Ei, EF. done.
Qed.
End ins.
Lemma x_push_eq t bk q k v s s' : x_push pf c t bk q k v s = Ok s' ->
  (s1 ← cs_enlarge pf c (x_s s) (cqw c (xstrip t)) (cvw (xstrip t));
   s2 ← cs_set_quot pf c s1 (N.to_nat (cs_size (x_s s))) (cqw c (xstrip t)) q;
   cs_set_value pf c s2 (N.to_nat (cs_size (x_s s))) (cqw c (xstrip t)) (cvw (xstrip t)) v) = Ok (x_s s').
Proof.
  unfold x_push. cbv zeta. intros H. do 7 dinv1 H. injection H as <-. cbn [x_s].
  match goal with E : xs_enlarge _ _ _ _ _ = Ok _ |- _ => apply xs_enlarge_eq in E as -> end. cbn [mbind res_bind].
  match goal with E : xs_set_quot _ _ _ _ _ _ = Ok _ |- _ => apply xs_set_quot_eq in E as -> end. cbn [mbind res_bind].
  match goal with E : xs_set_value _ _ _ _ _ _ _ = Ok _ |- _ => by apply xs_set_value_eq in E end.
Qed.
Lemma x_find_or_insert_eq : forall fuel t k v r, x_find_or_insert pf c fuel t k v = Ok r ->
  c_find_or_insert pf c fuel (xstrip t) k v = Ok (xstrip (fst r), snd r).
Proof.
  induction fuel as [|f IH]; intros t k v r H; [done|]. cbn [x_find_or_insert] in H. cbn [c_find_or_insert].
  dinv1 H. dinv1 H. rename a into t1.
  assert (E1 : (if cm_b (xstrip t) =? 0 then c_alloc (xstrip t) (N.min (sub64 (cm_kw (xstrip t)) 1) 16) else Ok (xstrip t)) = Ok (xstrip t1)).
  { revert E. change (cm_b (xstrip t)) with (xm_b t). destruct (_ =? _); [apply x_alloc_eq|by intros [= <-]]. }
  rewrite E1. cbn [mbind res_bind]. clear E E1. dinv1 H. apply x_map_eq in E as ->. cbn [mbind res_bind]. destruct a as [q bk].
  dinv1 H. apply x_slot_eq in E as ->. cbn [mbind res_bind]. dinv1 H. apply x_locate_q_eq in E as ->. cbn [mbind res_bind]. destruct a0 as [p|].
  { dinv1 H. by injection H as <-. }
  revert H. destruct (_ =? _); intros H.
  - change (cm_b (xstrip t1)) with (xm_b t1). dinv1 H. cbn [mbind res_bind]. dinv1 H. apply (x_reserve_with_eq _ (c_find_or_insert pf c f) IH) in E0 as ->.
    cbn [mbind res_bind]. by apply IH.
  - dinv1 H. injection H as <-. apply x_push_eq in E. cbv zeta. dinv1 E. cbn [mbind res_bind]. dinv1 E. cbn [mbind res_bind]. rewrite E.
    cbn [mbind res_bind fst snd]. by rewrite xstrip_set, xstrip_set_n.
Qed.
Lemma x_reserve_eq fuel t n t' : x_reserve pf c fuel t n = Ok t' -> c_reserve pf c fuel (xstrip t) n = Ok (xstrip t').
Proof. apply x_reserve_with_eq. intros. by apply x_find_or_insert_eq. Qed.
Lemma x_erase_at_eq t x r : x_erase_at pf c t x = Ok r -> c_erase_at pf c (xstrip t) x = Ok (xstrip (fst r), snd r).
Proof.
  unfold x_erase_at, c_erase_at. destruct x as [bk pos]. destruct (pos =? ones64); [by intros [= <-]|]. intros H. do 3 dinv1 H. injection H as <-.
  match goal with E : x_slot _ _ = Ok _ |- _ => apply x_slot_eq in E as -> end. cbn [mbind res_bind].
  match goal with E : xs_erase _ _ _ _ _ _ _ _ _ = Ok _ |- _ => apply xs_erase_eq in E as -> end. cbn [mbind res_bind fst snd].
  by rewrite xstrip_set, xstrip_set_n.
Qed.
Lemma x_erase_eq t k r : x_erase pf c t k = Ok r -> c_erase pf c (xstrip t) k = Ok (xstrip (fst r), snd r).
Proof.
  unfold x_erase, c_erase. change (cm_b (xstrip t)) with (xm_b t). destruct (_ =? _); [by intros [= <-]|]. intros H. dinv1 H.
  apply x_locate_eq in E as ->. cbn [mbind res_bind]. destruct a as [bk pos]. by apply x_erase_at_eq.
Qed.

(** Iteration and histories *)
Lemma x_view_le t : view_le (x_view pf c t) (c_view pf c (xstrip t)).
Proof.
  constructor; try done; cbn [x_view c_view v_size v_quot v_value].
  - apply x_bucket_size_eq.
  - apply x_quotient_at_eq.
  - apply x_value_at_eq.
Qed.
Lemma x_forward_eq fuel t l : x_forward pf c fuel t = Ok l -> c_forward pf c fuel (xstrip t) = Ok l.
Proof. unfold x_forward, c_forward. intros H. dinv1 H. cbn [mbind res_bind]. revert H. apply vl_iterate, x_view_le. Qed.
Lemma x_backward_eq fuel t l : x_backward pf c fuel t = Ok l -> c_backward pf c fuel (xstrip t) = Ok l.
Proof. unfold x_backward, c_backward. intros H. dinv1 H. cbn [mbind res_bind]. revert H. apply vl_iterate_rev, x_view_le. Qed.
Lemma x_move_assign_eq a other r : x_move_assign pf a other = Ok r ->
  c_move_assign pf (xstrip a) (xstrip other) = Ok (xstrip (fst r), xstrip (snd r)).
Proof. unfold x_move_assign, c_move_assign. intros H. dinv1 H. injection H as <-. apply x_clear_eq in E as ->. done. Qed.
Lemma x_impl_le fuel : impl_le (x_impl pf c fuel) (c_impl pf c fuel) xstrip.
Proof.
  constructor; cbn [x_impl c_impl i_view i_find i_insert i_write i_erase i_erase_at i_size i_reserve i_clear].
  - apply x_view_le.
  - apply x_find_eq.
  - apply x_find_or_insert_eq.
  - apply x_write_value_eq.
  - apply x_erase_eq.
  - apply x_erase_at_eq.
  - done.
  - intros s n s'. apply x_reserve_eq.
  - apply x_clear_eq.
Qed.
Lemma x_runs fuel ops t r : m_run_ops (x_impl pf c fuel) t ops = Ok r -> m_run_ops (c_impl pf c fuel) (xstrip t) ops = Ok (xstrip (fst r), snd r).
Proof. apply m_run_ops_le, x_impl_le. Qed.
End trans.
