(** The bound on the depth of the recursion find_or_insert - reserve does not influence results: a bound with which a call ends
    (in whatever way) can be replaced by any larger one. *)
From Verif Require Export TableRun CompactModel GroupModel GroupOvModel.

(** r' is r, unless r ran out of its bound. *)
Definition apx {A} (r r' : res A) : Prop := r = Timeout \/ r' = r.
Lemma apx_refl {A} (r : res A) : apx r r.
Proof. by right. Qed.
Lemma apx_bind {A B} (m m' : res A) (f f' : A -> res B) : apx m m' -> (forall a, apx (f a) (f' a)) -> apx (mbind f m) (mbind f' m').
Proof. intros [-> | ->] Hf; [by left|]. destruct m; cbn [mbind res_bind]; [apply Hf|by right..]. Qed.
Lemma apx_rfold {A B} (f f' : A -> B -> res A) l : (forall a x, apx (f a x) (f' a x)) -> forall a, apx (rfold f l a) (rfold f' l a).
Proof. intros Hf. induction l as [|x l IH]; intros a; cbn [rfold]; [by right|]. by apply apx_bind. Qed.
Ltac apx_go :=
  repeat first
    [ by apply apx_refl
    | match goal with H : forall _ _ _, apx _ _ |- _ => apply H end
    | apply apx_bind; [|intros ?]
    | apply apx_rfold; intros ? ?
    | match goal with |- apx (match ?x with _ => _ end) _ => destruct x eqn:? end ].

(** Programs run by m_run_ops. *)
Lemma run_apx {T} (I J : mapimpl T) ops :
  (forall t k v, apx (i_insert I t k v) (i_insert J t k v)) -> (forall t n, apx (i_reserve I t n) (i_reserve J t n)) ->
  i_view J = i_view I -> i_find J = i_find I -> i_write J = i_write I -> i_erase J = i_erase I -> i_erase_at J = i_erase_at I -> i_size J = i_size I -> i_clear J = i_clear I ->
  forall t, apx (m_run_ops I t ops) (m_run_ops J t ops).
Proof.
  intros Hi Hr E1 E2 E3 E4 E5 E6 E7. induction ops as [|o ops IH]; intros t; cbn [m_run_ops]; [by right|].
  apply apx_bind; [|intros [u x]; apply apx_bind; [done|intros [? ?]; by right]].
  destruct o; cbn [m_run_op]; rewrite ?E1, ?E2, ?E3, ?E4, ?E5, ?E6, ?E7; apx_go; by apply Hr.
Qed.

Section table.
Context (pf : platform) (c : cfg).
Lemma reserve_apx ins ins' : (forall t k v, apx (ins t k v) (ins' t k v)) -> forall t n, apx (reserve_with pf c ins t n) (reserve_with pf c ins' t n).
Proof.
  intros Hi t n. unfold reserve_with. destruct (t_b t =? 0); [by right|]. apply apx_bind; [by right|]. intros bits. apply apx_bind; [by right|]. intros tmp.
  destruct (t_slots t) as [sl|]; [|by right]. apply apx_bind.
  - apply apx_rfold. intros u [i s]. unfold rehash_slot. destruct (s_size s =? 0); [by right|]. apply apx_bind; [|by right].
    apply apx_rfold. intros y j. do 3 (apply apx_bind; [by right|]; intros ?). apply apx_bind; [apply Hi|by right].
  - intros u. apply apx_bind; [|by right]. generalize (S (N.to_nat (ov_capacity (t_ov t)))) as f, (ov_first pf (t_ov t)) as i. intros f. revert u.
    induction f as [|f IH]; intros u i; cbn [rehash_overflow]; destruct (ov_valid _ _ _); try (by right). do 2 (apply apx_bind; [by right|]; intros ?).
    apply apx_bind; [apply Hi|]. intros r. apply IH.
Qed.
Lemma foi_apx f : forall f', (f <= f')%nat -> forall t k v, apx (find_or_insert pf c f t k v) (find_or_insert pf c f' t k v).
Proof.
  induction f as [|f IH]; intros f' Hle t k v; [by left|]. destruct f' as [|f']; [lia|]. cbn [find_or_insert].
  apply apx_bind; [by right|]. intros u. apply apx_bind; [by right|]. intros [q bk]. do 2 (apply apx_bind; [by right|]; intros ?).
  destruct a0; [by right|]. do 2 (apply apx_bind; [by right|]; intros ?). destruct a1; [by right|]. destruct (_ =? _); [|by right].
  apply apx_bind; [by right|]. intros [o [p|]]; [by right|]. apply apx_bind; [by right|]. intros n.
  apply apx_bind; [|intros y; apply IH; lia]. apply reserve_apx. intros; apply IH; lia.
Qed.
Lemma run_ops_apx f f' ops : (f <= f')%nat -> forall t, apx (run_ops pf c f t ops) (run_ops pf c f' t ops).
Proof.
  intros Hle. induction ops as [|o ops IH]; intros t; cbn [run_ops]; [by right|].
  apply apx_bind; [|intros [u x]; apply apx_bind; [done|intros [? ?]; by right]].
  destruct o; cbn [run_op]; try (by right); unfold index; (apply apx_bind; [|by right]); try (by apply foi_apx).
  unfold reserve. apply reserve_apx. intros. by apply foi_apx.
Qed.
Lemma run_sops_apx f f' ops : (f <= f')%nat -> forall t, apx (run_sops pf c f t ops) (run_sops pf c f' t ops).
Proof.
  intros Hle. induction ops as [|o ops IH]; intros t; cbn [run_sops]; [by right|].
  apply apx_bind; [|intros [u x]; apply apx_bind; [done|intros [? ?]; by right]].
  destruct o; cbn [run_sop]; try (by right); (apply apx_bind; [|by right]); try (by apply foi_apx).
  unfold reserve. apply reserve_apx. intros. by apply foi_apx.
Qed.
End table.

Section compact.
Context (pf : platform) (c : ccfg).
Lemma c_reserve_apx ins ins' : (forall t k v, apx (ins t k v) (ins' t k v)) -> forall t n, apx (c_reserve_with pf c ins t n) (c_reserve_with pf c ins' t n).
Proof.
  intros Hi t n. unfold c_reserve_with. destruct (cm_b t =? 0); [by right|]. do 2 (apply apx_bind; [by right|]; intros ?).
  destruct (cm_slots t) as [sl|]; [|by right]. apply apx_bind; [|by right].
  apply apx_rfold. intros u [i s]. unfold c_rehash_slot. destruct (cs_size s =? 0); [by right|]. apply apx_bind; [|by right].
  apply apx_rfold. intros y j. do 3 (apply apx_bind; [by right|]; intros ?). apply apx_bind; [apply Hi|by right].
Qed.
Lemma c_foi_apx f : forall f', (f <= f')%nat -> forall t k v, apx (c_find_or_insert pf c f t k v) (c_find_or_insert pf c f' t k v).
Proof.
  induction f as [|f IH]; intros f' Hle t k v; [by left|]. destruct f' as [|f']; [lia|]. cbn [c_find_or_insert].
  apply apx_bind; [by right|]. intros u. apply apx_bind; [by right|]. intros [q bk]. do 2 (apply apx_bind; [by right|]; intros ?).
  destruct a0; [by right|]. destruct (_ =? _); [|by right]. apply apx_bind; [by right|]. intros n.
  apply apx_bind; [|intros y; apply IH; lia]. apply c_reserve_apx. intros; apply IH; lia.
Qed.
Lemma c_run_apx f f' ops t : (f <= f')%nat -> apx (m_run_ops (c_impl pf c f) t ops) (m_run_ops (c_impl pf c f') t ops).
Proof. intros Hle. apply run_apx; try done; cbn [c_impl i_insert i_reserve]; intros; [by apply c_foi_apx|]. unfold c_reserve. apply c_reserve_apx. intros. by apply c_foi_apx. Qed.
End compact.

Section group.
Context (pf : platform) (c : gcfg).
Lemma g_rehash_apx {T} (ins ins' : T -> N -> N -> res (T * nav)) t : (forall t k v, apx (ins t k v) (ins' t k v)) ->
  forall u ig, apx (g_rehash_group pf c ins t u ig) (g_rehash_group pf c ins' t u ig).
Proof.
  intros Hi u [gi g]. unfold g_rehash_group. destruct (kv_empty g); [by right|]. apply apx_rfold. intros y r. unfold g_rehash_bucket. apply apx_bind; [by right|]. intros n.
  apply apx_rfold. intros z j. do 2 (apply apx_bind; [by right|]; intros ?). apply apx_bind; [apply Hi|by right].
Qed.
Lemma g_reserve_apx ins ins' : (forall t k v, apx (ins t k v) (ins' t k v)) -> forall t n w, apx (g_reserve_with pf c ins t n w) (g_reserve_with pf c ins' t n w).
Proof.
  intros Hi t n w. unfold g_reserve_with. cbv zeta. destruct (gt_b t =? 0); [by right|]. do 3 (apply apx_bind; [by right|]; intros ?).
  destruct (gt_groups t) as [gs|]; [|by right]. destruct (_ <? _); [by right|]. apply apx_rfold. by apply g_rehash_apx.
Qed.
Lemma g_foi_apx f : forall f', (f <= f')%nat -> forall t k v, apx (g_find_or_insert pf c f t k v) (g_find_or_insert pf c f' t k v).
Proof.
  induction f as [|f IH]; intros f' Hle t k v; [by left|]. destruct f' as [|f']; [lia|]. cbn [g_find_or_insert].
  apply apx_bind; [by right|]. intros u. apply apx_bind; [by right|]. intros [q bk]. do 3 (apply apx_bind; [by right|]; intros ?).
  destruct a1; [by right|]. destruct (_ =? _); [|by right]. apply apx_bind; [by right|]. intros n.
  apply apx_bind; [|intros y; apply IH; lia]. apply g_reserve_apx. intros; apply IH; lia.
Qed.
Lemma g_run_apx f f' ops t : (f <= f')%nat -> apx (m_run_ops (g_impl pf c f) t ops) (m_run_ops (g_impl pf c f') t ops).
Proof. intros Hle. apply run_apx; try done; cbn [g_impl i_insert i_reserve]; intros; [by apply g_foi_apx|]. unfold g_reserve. apply g_reserve_apx. intros. by apply g_foi_apx. Qed.

Context (kind : ovkind).
Lemma go_reserve_apx ins ins' : (forall t k v, apx (ins t k v) (ins' t k v)) -> forall t n w, apx (go_reserve_with pf c kind ins t n w) (go_reserve_with pf c kind ins' t n w).
Proof.
  intros Hi t n w. unfold go_reserve_with. cbv zeta. destruct (gt_b (go_g t) =? 0); [by right|]. do 3 (apply apx_bind; [by right|]; intros ?).
  destruct (gt_groups (go_g t)) as [gs|]; [|by right]. destruct (_ <? _); [by right|]. apply apx_bind; [apply apx_rfold; by apply g_rehash_apx|]. intros u.
  apply apx_bind; [|by right]. generalize (S (N.to_nat (ov_capacity (go_ov t)))) as f, (ov_first pf (go_ov t)) as i. intros f. revert u.
  induction f as [|f IH]; intros u i; cbn [go_rehash_ov]; destruct (ov_valid _ _ _); try (by right). do 2 (apply apx_bind; [by right|]; intros ?).
  apply apx_bind; [apply Hi|]. intros r. apply IH.
Qed.
Lemma go_foi_apx f : forall f', (f <= f')%nat -> forall t k v, apx (go_find_or_insert pf c kind f t k v) (go_find_or_insert pf c kind f' t k v).
Proof.
  induction f as [|f IH]; intros f' Hle t k v; [by left|]. destruct f' as [|f']; [lia|]. cbn [go_find_or_insert]. cbv zeta.
  apply apx_bind; [by right|]. intros u. apply apx_bind; [by right|]. intros [q bk]. do 3 (apply apx_bind; [by right|]; intros ?).
  destruct a1; [by right|]. do 2 (apply apx_bind; [by right|]; intros ?). destruct a2; [by right|]. destruct (_ =? _); [|by right].
  apply apx_bind; [by right|]. intros [o [p|]]; [by right|]. apply apx_bind; [by right|]. intros n.
  apply apx_bind; [|intros y; apply IH; lia]. apply go_reserve_apx. intros; apply IH; lia.
Qed.
Lemma go_run_apx f f' ops : (f <= f')%nat -> forall t, apx (go_run_ops pf c kind f t ops) (go_run_ops pf c kind f' t ops).
Proof.
  intros Hle. induction ops as [|o ops IH]; intros t; cbn [go_run_ops]; [by right|].
  apply apx_bind; [|intros [u x]; apply apx_bind; [done|intros [? ?]; by right]].
  destruct o; cbn [go_run_op]; try (by right); (apply apx_bind; [|by right]); try (by apply go_foi_apx).
  unfold go_reserve. apply go_reserve_apx. intros. by apply go_foi_apx.
Qed.
End group.
