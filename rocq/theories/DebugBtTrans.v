(** Whenever no check fails, the debug build of bucket_table goes through the states of the release build. *)
From Verif Require Export DebugBt DebugTrans.

#[local] Ltac bsplit H E :=
  match type of H with mbind (fun _ => _) ?m = Ok _ => let a := fresh "a" in destruct m as [a|?| |] eqn:E; cbn [mbind res_bind] in H; [|discriminate H..] end.
#[local] Tactic Notation "rinv" hyp(H) := let E := fresh "H" in bsplit H E.

Section trans.
Context (pf : platform) (c : bcfg).

Lemma dbt_locate_eq t k p : dbt_locate pf c t k = Ok p -> bt_locate pf c (bstrip t) k = Ok p.
Proof.
  unfold dbt_locate, bt_locate. intros H. rinv H. rinv H. rinv H. rinv H. apply db_find_eq in H1. cbn [bstrip bt_keys bt_n].
  rewrite H1. cbn [mbind res_bind]. injection H as <-. by destruct a0.
Qed.
Lemma dbn_key_eq t p k : dbn_key pf c t p = Ok k -> bn_key pf c (bstrip t) p = Ok k.
Proof. unfold dbn_key. intros H. rinv H. by apply db_read_eq in H. Qed.
Lemma dbn_value_eq t p v : dbn_value pf c t p = Ok v -> bn_value pf c (bstrip t) p = Ok v.
Proof. unfold dbn_value. intros H. rinv H. by apply db_read_eq in H. Qed.
Lemma dbn_write_eq t p v t' : dbn_write pf c t p v = Ok t' -> bt_write pf c (bstrip t) p v = Ok (bstrip t').
Proof. unfold dbn_write, bt_write. intros H. rinv H. rinv H. apply db_write_eq in H1. injection H as <-. cbn [bstrip bt_vals]. by rewrite H1. Qed.
Lemma dbi_at_eq t p e : dbi_at pf c t p = Ok e -> bi_at pf c (bstrip t) p = Ok e.
Proof.
  unfold dbi_at, bi_at. destruct (bn_invalid _ _); [done|]. intros H. rinv H. rinv H. rinv H. apply dbn_key_eq in H1. apply dbn_value_eq in H2.
  rewrite H1. cbn [mbind res_bind]. by rewrite H2.
Qed.
Lemma dbt_find_eq t k p : dbt_find pf c t k = Ok p -> bt_find pf c (bstrip t) k = Ok p.
Proof. unfold dbt_find, bt_find, dbt_init. destruct (bt_init _); [apply dbt_locate_eq|done]. Qed.
Lemma dbt_at_eq t k v : dbt_at pf c t k = Ok v -> bt_at pf c (bstrip t) k = Ok v.
Proof.
  unfold dbt_at, bt_at. intros H. rinv H. rinv H. rinv H. rinv H. rinv H. rinv H. apply dbt_locate_eq in H3. rewrite H3. cbn [mbind res_bind].
  by apply db_read_eq in H.
Qed.
Lemma dbt_shrink_eq t t' : dbt_shrink pf c t = Ok t' -> bt_shrink pf c (bstrip t) = Ok (bstrip t').
Proof.
  unfold dbt_shrink, bt_shrink, dbt_init. destruct (bt_init _); [|by intros [= <-]]. cbn [bstrip bt_n bt_len bt_keys bt_vals]. destruct (_ <? _); [|by intros [= <-]].
  intros H. rinv H. rinv H. apply db_resize_eq in H0, H1. rewrite H0. cbn [mbind res_bind]. rewrite H1. by injection H as <-.
Qed.
Lemma dbt_clear_eq t t' : dbt_clear pf c t = Ok t' -> bt_clear pf c (bstrip t) = Ok (bstrip t').
Proof.
  unfold dbt_clear, bt_clear. intros H. rinv H. rinv H. apply db_clear_eq in H0, H1. cbn [bstrip bt_keys bt_vals bt_len].
  rewrite H0. cbn [mbind res_bind]. rewrite H1. by injection H as <-.
Qed.
Lemma dbt_last_eq t k v r : dbt_last pf c t k v = Ok r -> bt_last pf c (bstrip t) k v = Ok (bstrip (fst r), snd r).
Proof.
  unfold dbt_last, bt_last. intros H. rinv H. rinv H. rinv H. rinv H. apply db_write_eq in H2, H3. cbn [bstrip bt_keys bt_vals bt_n bt_len].
  rewrite H2. cbn [mbind res_bind]. rewrite H3. by injection H as <-.
Qed.
Lemma dbt_insert_eq t k v r : dbt_insert pf c t k v = Ok r -> bt_insert pf c (bstrip t) k v = Ok (bstrip (fst r), snd r).
Proof.
  unfold dbt_insert, bt_insert, dbt_init. intros H. rinv H. rinv H. destruct (bt_init _).
  - rinv H. apply dbt_locate_eq in H2. rewrite H2. cbn [mbind res_bind]. destruct (_ =? ones64).
    + change (bt_n (bstrip t)) with (h_n t). change (bt_len (bstrip t)) with (h_len t). destruct (st_needs_resize _ _ _).
      * rinv H. destruct (st_after_increment _ _ _) as [ns len]. rinv H. rinv H. apply db_resize_eq in H4, H5. cbn [bstrip bt_keys bt_vals].
        rewrite H4. cbn [mbind res_bind]. rewrite H5. cbn [mbind res_bind]. by apply dbt_last_eq in H.
      * by apply dbt_last_eq in H.
    + rinv H. by injection H as <-.
  - rinv H. rinv H. apply db_initialize_eq in H2, H3. apply dbt_last_eq in H. unfold bstrip in H at 1. cbn [h_keys h_vals h_n h_len] in H.
    rewrite H2, H3 in H. exact H.
Qed.
Lemma dbt_count_eq t k n : dbt_count pf c t k = Ok n -> bt_count pf c (bstrip t) k = Ok n.
Proof. unfold dbt_count, bt_count. intros H. rinv H. apply dbt_find_eq in H0. by rewrite H0. Qed.
Lemma dbt_shift_eq : forall n i ks vs l r, dbt_shift pf c ks vs l i n = Ok r -> bt_shift pf c (k_b ks) (k_b vs) i n = Ok (k_b (fst (fst r)), k_b (snd (fst r))).
Proof.
  induction n as [|n IH]; intros i ks vs l r H; cbn [dbt_shift bt_shift] in *; [by injection H as <-|].
  rinv H. rinv H. rinv H. rinv H. rinv H. rinv H. apply db_read_eq in H0, H4. apply db_write_eq in H1, H5.
  rewrite H0. cbn [mbind res_bind]. rewrite H1. cbn [mbind res_bind]. rewrite H4. cbn [mbind res_bind]. rewrite H5. cbn [mbind res_bind].
  by eapply IH.
Qed.
Lemma dbt_erase_eq t k r : dbt_erase pf c t k = Ok r -> bt_erase pf c (bstrip t) k = Ok (bstrip (fst r), snd r).
Proof.
  unfold dbt_erase, bt_erase, dbt_init. destruct (bt_init _); [|by intros [= <-]]. intros H. rinv H. apply dbt_locate_eq in H0. rewrite H0. cbn [mbind res_bind].
  destruct (_ =? ones64); [by injection H as <-|]. rinv H. apply dbt_shift_eq in H1. destruct a0 as [[ks vs] l]. cbn [bstrip bt_keys bt_vals bt_n bt_len fst snd] in *.
  rewrite H1. cbn [mbind res_bind bt_n]. rinv H. cbn [h_n] in H. destruct (_ =? 0) eqn:E.
  - rinv H. apply dbt_clear_eq in H3. unfold bstrip in H3 at 1. cbn [h_keys h_vals h_n h_len] in H3. rewrite H3. by injection H as <-.
  - by injection H as <-.
Qed.
Lemma dbt_run_op_eq t o r : dbt_run_op pf c t o = Ok r -> bt_run_op pf c (bstrip t) o = Ok (bstrip (fst r), snd r).
Proof.
  destruct o as [k|k|k v|k|k v|k|k| | |n| |]; cbn [dbt_run_op bt_run_op]; intros H; try done.
  - rinv H. rinv H. apply dbt_find_eq in H0. apply dbi_at_eq in H1. rewrite H0. cbn [mbind res_bind]. rewrite H1. by injection H as <-.
  - rinv H. apply dbt_count_eq in H0. rewrite H0. by injection H as <-.
  - rinv H. apply dbt_insert_eq in H0. destruct a as [t1 p]. rewrite H0. cbn [mbind res_bind fst snd]. rinv H. apply dbi_at_eq in H1. rewrite H1. by injection H as <-.
  - rinv H. apply dbt_insert_eq in H0. destruct a as [t1 p]. unfold bt_index. rewrite H0. cbn [mbind res_bind fst snd]. rinv H. apply dbn_value_eq in H1. rewrite H1. by injection H as <-.
  - rinv H. apply dbt_insert_eq in H0. destruct a as [t1 p]. unfold bt_index. rewrite H0. cbn [mbind res_bind fst snd]. rinv H. apply dbn_write_eq in H1. rewrite H1. by injection H as <-.
  - rinv H. apply dbt_erase_eq in H0. destruct a as [t1 p]. rewrite H0. by injection H as <-.
  - by injection H as <-.
  - by injection H as <-.
  - rinv H. apply dbt_shrink_eq in H0. rewrite H0. by injection H as <-.
  - rinv H. apply dbt_clear_eq in H0. rewrite H0. by injection H as <-.
Qed.
Lemma dbt_run_eq ops : forall t r, dbt_run pf c t ops = Ok r -> bt_run pf c (bstrip t) ops = Ok (bstrip (fst r), snd r).
Proof.
  induction ops as [|o ops IH]; intros t r H; cbn [dbt_run bt_run] in *; [by injection H as <-|].
  rinv H. apply dbt_run_op_eq in H0. destruct a as [t1 x]. rewrite H0. cbn [mbind res_bind fst snd]. rinv H. apply IH in H1. destruct a as [t2 xs].
  rewrite H1. by injection H as <-.
Qed.
Lemma dbt_iter_eq fuel : forall t p l, dbt_iter pf c fuel t p = Ok l -> bt_iter pf c fuel (bstrip t) p = Ok l.
Proof.
  induction fuel as [|f IH]; intros t p l; [done|]. cbn [dbt_iter bt_iter]. destruct (bn_eq _ _ _); [done|]. intros H. rinv H. apply dbi_at_eq in H0. rewrite H0.
  cbn [mbind res_bind]. destruct a as [x|]; [|done]. rinv H. unfold dbn_next in H1. rinv H1. injection H1 as <-. rinv H. apply IH in H1. by rewrite H1.
Qed.
Lemma dbt_riter_eq fuel : forall t p l, dbt_riter pf c fuel t p = Ok l -> bt_riter pf c fuel (bstrip t) p = Ok l.
Proof.
  induction fuel as [|f IH]; intros t p l; [done|]. cbn [dbt_riter bt_riter]. destruct (bn_eq _ _ _); [done|]. intros H. rinv H. rinv H.
  apply dbn_key_eq in H0. apply dbn_value_eq in H1. rewrite H0. cbn [mbind res_bind]. rewrite H1. cbn [mbind res_bind].
  rinv H. unfold dbn_prev in H2. rinv H2. injection H2 as <-. rinv H. apply IH in H2. by rewrite H2.
Qed.
Lemma dbt_move_eq ow t o r : dbt_move_assign pf c ow t o = Ok r -> ow = bc_width c /\ bt_move_assign pf c (bstrip t) (bstrip o) = Ok (bstrip (fst r), bstrip (snd r)).
Proof.
  unfold dbt_move_assign, bt_move_assign. intros H. rinv H. apply chk_true, Nat.eqb_eq in H0. split; [done|]. rinv H. apply dbt_clear_eq in H1. rewrite H1.
  cbn [mbind res_bind]. by injection H as <-.
Qed.
End trans.
