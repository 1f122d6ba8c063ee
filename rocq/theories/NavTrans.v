(** A map whose calls, when they return, return what the calls of another map return: the same holds for iterators and histories. *)
From Verif Require Export NavModel DebugTrans.

Record view_le (V W : view) : Prop := {
  vl_count : v_count V = v_count W;
  vl_hash : v_hash V = v_hash W;
  vl_b : v_b V = v_b W;
  vl_store : v_storebits V = v_storebits W;
  vl_size : forall bk n, v_size V bk = Ok n -> v_size W bk = Ok n;
  vl_quot : forall bk p w q, v_quot V bk p w = Ok q -> v_quot W bk p w = Ok q;
  vl_value : forall bk p v, v_value V bk p = Ok v -> v_value W bk p = Ok v
}.
Section view.
Context (V W : view).
Hypothesis L : view_le V W.
Lemma vl_invalid x r : vn_invalid V x = Ok r -> vn_invalid W x = Ok r.
Proof.
  unfold vn_invalid. destruct x as [bk p]. rewrite <-(vl_count _ _ L). destruct (_ <=? _); [done|]. intros H. dinv1 H.
  apply (vl_size _ _ L) in E as ->. done.
Qed.
Lemma vl_key x k : vn_key V x = Ok k -> vn_key W x = Ok k.
Proof.
  unfold vn_key. destruct x as [bk p]. rewrite <-(vl_hash _ _ L), <-(vl_b _ _ L), <-(vl_store _ _ L). intros H. dinv1 H.
  apply (vl_quot _ _ L) in E as ->. done.
Qed.
Lemma vl_val x v : vn_value V x = Ok v -> vn_value W x = Ok v.
Proof. destruct x as [bk p]. apply (vl_value _ _ L). Qed.
Lemma vl_eq x y r : vn_eq V x y = Ok r -> vn_eq W x y = Ok r.
Proof.
  unfold vn_eq. intros H. dinv1 H. dinv1 H. apply vl_invalid in E as ->. apply vl_invalid in E0 as ->. done.
Qed.
Lemma vl_read x e : vn_read V x = Ok e -> vn_read W x = Ok e.
Proof. unfold vn_read. intros H. dinv1 H. dinv1 H. apply vl_key in E as ->. apply vl_val in E0 as ->. done. Qed.
Lemma vl_iter_at x e : v_iter_at V x = Ok e -> v_iter_at W x = Ok e.
Proof.
  unfold v_iter_at. intros H. dinv1 H. apply vl_invalid in E as ->. cbn [mbind res_bind]. destruct a; [done|]. dinv1 H. apply vl_read in E as ->. done.
Qed.
Lemma vl_next_scan f : forall bk r, vnext_scan V f bk = Ok r -> vnext_scan W f bk = Ok r.
Proof.
  induction f as [|f IH]; intros bk r; cbn [vnext_scan]; rewrite <-(vl_count _ _ L); (destruct (_ <? _); [|done]); intros H; dinv1 H;
    apply (vl_size _ _ L) in E as ->; cbn [mbind res_bind]; destruct (a =? 0); try done. by apply IH.
Qed.
Lemma vl_next x y : vn_next V x = Ok y -> vn_next W x = Ok y.
Proof.
  unfold vn_next. destruct x as [bk p]. rewrite <-(vl_count _ _ L). intros H. dinv1 H. apply (vl_size _ _ L) in E as ->. cbn [mbind res_bind].
  revert H. destruct (_ <=? _); [|done]. intros H. dinv1 H. apply vl_next_scan in E as ->. done.
Qed.
Lemma vl_prev_scan f : forall bk r, vprev_scan V f bk = Ok r -> vprev_scan W f bk = Ok r.
Proof.
  induction f as [|f IH]; intros bk r; cbn [vprev_scan]; rewrite <-(vl_count _ _ L); (destruct (_ <? _); [|done]); intros H; dinv1 H;
    apply (vl_size _ _ L) in E as ->; cbn [mbind res_bind]; destruct (a =? 0); try done. by apply IH.
Qed.
Lemma vl_prev x y : vn_prev V x = Ok y -> vn_prev W x = Ok y.
Proof.
  unfold vn_prev. destruct x as [bk p]. rewrite <-(vl_count _ _ L). intros H. dinv1 H.
  assert (E1 : (if 0 <? p then v_size W bk else Ok 0) = Ok a) by (destruct (0 <? p); [by apply (vl_size _ _ L)|done]).
  rewrite E1. cbn [mbind res_bind]. revert H. destruct (_ && _); [done|]. intros H. dinv1 H. apply vl_prev_scan in E0 as ->. cbn [mbind res_bind].
  revert H. destruct (_ <? v_count V); [|done]. intros H. dinv1 H. apply (vl_size _ _ L) in E0 as ->. done.
Qed.
Lemma vl_iterate f : forall x l, v_iterate V f x = Ok l -> v_iterate W f x = Ok l.
Proof.
  induction f as [|f IH]; intros x l H; cbn [v_iterate] in *; dinv1 H; apply vl_eq in E as ->; cbn [mbind res_bind]; destruct a; try done.
  do 3 dinv1 H. apply vl_read in E as ->. apply vl_next in E0. cbn [mbind res_bind]. rewrite E0. cbn [mbind res_bind]. apply IH in E1 as ->. done.
Qed.
Lemma vl_iterate_rev f : forall x l, v_iterate_rev V f x = Ok l -> v_iterate_rev W f x = Ok l.
Proof.
  induction f as [|f IH]; intros x l H; cbn [v_iterate_rev] in *; dinv1 H; apply vl_eq in E as ->; cbn [mbind res_bind]; destruct a; try done.
  do 3 dinv1 H. apply vl_read in E as ->. apply vl_prev in E0. cbn [mbind res_bind]. rewrite E0. cbn [mbind res_bind]. apply IH in E1 as ->. done.
Qed.
End view.

Record impl_le {S T} (I : mapimpl S) (J : mapimpl T) (p : S -> T) : Prop := {
  il_view : forall s, view_le (i_view I s) (i_view J (p s));
  il_find : forall s k x, i_find I s k = Ok x -> i_find J (p s) k = Ok x;
  il_insert : forall s k v r, i_insert I s k v = Ok r -> i_insert J (p s) k v = Ok (p (fst r), snd r);
  il_write : forall s x v s', i_write I s x v = Ok s' -> i_write J (p s) x v = Ok (p s');
  il_erase : forall s k r, i_erase I s k = Ok r -> i_erase J (p s) k = Ok (p (fst r), snd r);
  il_erase_at : forall s x r, i_erase_at I s x = Ok r -> i_erase_at J (p s) x = Ok (p (fst r), snd r);
  il_size : forall s, i_size I s = i_size J (p s);
  il_reserve : forall s n s', i_reserve I s n = Ok s' -> i_reserve J (p s) n = Ok (p s');
  il_clear : forall s s', i_clear I s = Ok s' -> i_clear J (p s) = Ok (p s')
}.
Section impl.
Context {S T : Type} (I : mapimpl S) (J : mapimpl T) (p : S -> T).
Hypothesis L : impl_le I J p.
Lemma m_run_op_le s o r : m_run_op I s o = Ok r -> m_run_op J (p s) o = Ok (p (fst r), snd r).
Proof.
  pose proof (il_view _ _ _ L) as LV. intros H. destruct o; cbn [m_run_op] in *.
  - do 2 dinv1 H. injection H as <-. rewrite (il_find _ _ _ L _ _ _ E). cbn [mbind res_bind]. by rewrite (vl_iter_at _ _ (LV s) _ _ E0).
  - do 2 dinv1 H. injection H as <-. rewrite (il_find _ _ _ L _ _ _ E). cbn [mbind res_bind]. by rewrite (vl_eq _ _ (LV s) _ _ _ E0).
  - dinv1 H. destruct a as [s' x]. dinv1 H. injection H as <-. rewrite (il_insert _ _ _ L _ _ _ _ E). cbn [mbind res_bind fst snd].
    by rewrite (vl_iter_at _ _ (LV s') _ _ E0).
  - dinv1 H. destruct a as [s' x]. dinv1 H. injection H as <-. rewrite (il_insert _ _ _ L _ _ _ _ E). cbn [mbind res_bind fst snd].
    by rewrite (vl_val _ _ (LV s') _ _ E0).
  - dinv1 H. destruct a as [s' x]. dinv1 H. injection H as <-. rewrite (il_insert _ _ _ L _ _ _ _ E). cbn [mbind res_bind fst snd].
    by rewrite (il_write _ _ _ L _ _ _ _ E0).
  - dinv1 H. destruct a as [s' x]. injection H as <-. by rewrite (il_erase _ _ _ L _ _ _ E).
  - dinv1 H. dinv1 H. destruct a0 as [s' x]. injection H as <-. rewrite (il_find _ _ _ L _ _ _ E). cbn [mbind res_bind].
    by rewrite (il_erase_at _ _ _ L _ _ _ E0).
  - injection H as <-. by rewrite (il_size _ _ _ L).
  - injection H as <-. by rewrite (il_size _ _ _ L).
  - dinv1 H. injection H as <-. by rewrite (il_reserve _ _ _ L _ _ _ E).
  - by injection H as <-.
  - dinv1 H. injection H as <-. by rewrite (il_clear _ _ _ L _ _ E).
Qed.
Lemma m_run_ops_le ops : forall s r, m_run_ops I s ops = Ok r -> m_run_ops J (p s) ops = Ok (p (fst r), snd r).
Proof.
  induction ops as [|o ops IH]; intros s r H; cbn [m_run_ops] in *; [by injection H as <-|]. dinv1 H. destruct a as [s' x]. dinv1 H. destruct a as [s2 xs].
  injection H as <-. rewrite (m_run_op_le _ _ _ E). cbn [mbind res_bind fst snd]. rewrite (IH _ _ E0). done.
Qed.
End impl.
