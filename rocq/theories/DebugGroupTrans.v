(** The debug build of group_chaining.hpp computes what the release build computes, as long as no check fails. *)
From Verif Require Export DebugGroup NavTrans.
#[local] Open Scope nat_scope.

(** *** core_group *)
Section core.
Context (pf : platform).
Lemma dc_init_eq d w d' : dc_init d w = Ok d' -> c_d d' = cg_init w.
Proof. unfold dc_init. intros H. dinv_all H. by injection H as <-. Qed.
Lemma dc_read_eq d i w x : dc_read pf d i w = Ok x -> cg_read pf (c_d d) i w = Ok x.
Proof. unfold dc_read. intros H. dinv_all H. injection H as <-. done. Qed.
Lemma dc_erase_eq d i w n d' : dc_erase pf d i w n = Ok d' -> cg_erase pf (c_d d) i w n = Ok (c_d d').
Proof. unfold dc_erase. intros H. dinv1 H. dinv1 H. dinv1 H. dinv1 H. dinv1 H. dinv1 H. cbv zeta in H. dinv1 H. injection H as <-. done. Qed.
Lemma dc_insert_eq d i x w n d' : dc_insert pf d i x w n = Ok d' -> cg_insert pf (c_d d) i x w n = Ok (c_d d').
Proof. unfold dc_insert. intros H. dinv1 H. dinv1 H. dinv1 H. dinv1 H. dinv1 H. cbv zeta in H. dinv1 H. dinv1 H. dinv1 H. dinv1 H. dinv1 H. dinv1 H. injection H as <-. done. Qed.
Lemma dc_write_eq d i x w d' : dc_write pf d i x w = Ok d' -> cg_write pf (c_d d) i x w = Ok (c_d d').
Proof. unfold dc_write. intros H. do 9 dinv1 H. cbv zeta in H. do 3 dinv1 H. injection H as <-. done. Qed.
Lemma dc_scan_eq d w x : forall n i r, dc_scan pf d i n w x = Ok r -> cg_find pf (c_d d) i n w x = Ok r.
Proof.
  induction n as [|n IH]; intros i r H; [done|]. cbn [dc_scan] in H. dinv1 H. dinv1 H. dinv1 H. dinv1 H. dinv1 H.
  cbn [cg_find]. match goal with E : cg_get _ _ _ _ = _ |- _ => rewrite E end. cbn [mbind res_bind]. revert H. destruct (_ =? x)%N; [done|]. apply IH.
Qed.
Lemma dc_find_eq d i n w x r : dc_find pf d i n w x = Ok r -> cg_find pf (c_d d) i n w x = Ok r.
Proof.
  unfold dc_find. intros H. do 5 dinv1 H. match goal with E : dc_scan _ _ _ _ _ _ = _ |- _ => apply dc_scan_eq in E; rewrite E end.
  destruct a1 as [p|]; [done|]. do 2 dinv1 H. done.
Qed.
End core.

(** *** keyvalue_group *)
Lemma dborder_cons blen idx w ws rem sum : dborder_select blen idx (w :: ws) rem sum =
  (_ ← chk (idx <? blen)%N;
   if popcount w <=? rem then dborder_select blen (idx + 1) ws (rem - popcount w) (sum + 64)
   else p ← select64_swar w (N.of_nat (rem + 1)); Ok (sum + N.to_nat p)).
Proof. reflexivity. Qed.
Lemma border_cons w ws rem sum : border_select (w :: ws) rem sum =
  (if popcount w <=? rem then border_select ws (rem - popcount w) (sum + 64)
   else p ← select64_swar w (N.of_nat (rem + 1)); Ok (sum + N.to_nat p)).
Proof. reflexivity. Qed.
Lemma dborder_select_eq blen : forall ws idx rem sum p, dborder_select blen idx ws rem sum = Ok p -> border_select ws rem sum = Ok p.
Proof.
  induction ws as [|w ws IH]; intros idx rem sum p.
  { cbn [dborder_select]. destruct (idx <? blen)%N; discriminate. }
  rewrite dborder_cons, border_cons. destruct (idx <? blen)%N; [|discriminate]. cbn [chk mbind res_bind].
  destruct (popcount w <=? rem); [apply IH|exact (fun H => H)].
Qed.
Lemma dkv_position_eq g i p : dkv_position g i = Ok p -> kv_position (kstrip g) i = Ok p.
Proof.
  unfold dkv_position, kv_position. cbn [kstrip g_border]. generalize (i mod 256) as j. intros j H. do 6 dinv1 H.
  destruct (k_border g) as [ws|]; [|discriminate]. cbn [of_option] in *.
  match goal with E : Ok ws = Ok _ |- _ => injection E as <- end. injection H as <-.
  match goal with E : dborder_select _ _ _ _ _ = _ |- _ => exact (dborder_select_eq _ _ _ _ _ _ E) end.
Qed.
Lemma dkv_bucketsize_eq g i n : dkv_bucketsize g i = Ok n -> kv_bucketsize (kstrip g) i = Ok n.
Proof.
  unfold dkv_bucketsize, kv_bucketsize, kv_empty. cbn [kstrip g_size]. destruct (_ =? _)%N; [done|]. intros H.
  destruct i as [|i].
  - cbn [mbind res_bind] in *. dinv1 H. apply dkv_position_eq in E as ->. cbn [mbind res_bind] in *. dinv_all H. done.
  - dinv1 H. dinv1 E. apply dkv_position_eq in E0 as ->. injection E as <-. cbn [mbind res_bind] in *.
    dinv1 H. apply dkv_position_eq in E as ->. cbn [mbind res_bind] in *. dinv_all H. done.
Qed.
Lemma dkv_begin_eq g i b : dkv_begin g i = Ok b -> kv_begin (kstrip g) i = Ok b.
Proof.
  unfold dkv_begin, kv_begin. destruct i as [|i]; [done|]. intros H. dinv1 H. apply dkv_position_eq in E as ->. done.
Qed.
Section kv.
Context (pf : platform).
Lemma dkv_init_eq g n kw vw g' : dkv_init g n kw vw = Ok g' -> kstrip g' = kv_init (kstrip g) n kw vw.
Proof.
  unfold dkv_init. intros H. do 4 dinv1 H. cbv zeta in H. dinv1 H. injection H as <-.
  repeat match goal with E : dc_init _ _ = Ok _ |- _ => apply dc_init_eq in E end. unfold kstrip, kv_init. cbn [k_size k_keys k_vals k_border]. congruence.
Qed.
Lemma dkv_read_key_eq g i pos kw x : dkv_read_key pf g i pos kw = Ok x -> kv_read_key pf (kstrip g) i pos kw = Ok x.
Proof.
  unfold dkv_read_key, kv_read_key. intros H. do 2 dinv1 H. match goal with E : dkv_begin _ _ = Ok _ |- _ => apply dkv_begin_eq in E as -> end.
  cbn [mbind res_bind]. by apply dc_read_eq in H.
Qed.
Lemma dkv_read_value_eq g i pos vw x : dkv_read_value pf g i pos vw = Ok x -> kv_read_value pf (kstrip g) i pos vw = Ok x.
Proof.
  unfold dkv_read_value, kv_read_value. intros H. do 2 dinv1 H. match goal with E : dkv_begin _ _ = Ok _ |- _ => apply dkv_begin_eq in E as -> end.
  cbn [mbind res_bind]. by apply dc_read_eq in H.
Qed.
Lemma dkv_write_value_eq g i pos v vw g' : dkv_write_value pf g i pos v vw = Ok g' -> kv_write_value pf (kstrip g) i pos v vw = Ok (kstrip g').
Proof.
  unfold dkv_write_value, kv_write_value. intros H. do 3 dinv1 H. match goal with E : dkv_begin _ _ = Ok _ |- _ => apply dkv_begin_eq in E as -> end.
  cbn [mbind res_bind]. match goal with E : dc_write _ _ _ _ _ = Ok _ |- _ => apply dc_write_eq in E end.
  cbn [kstrip g_vals]. match goal with E : cg_write _ _ _ _ _ = Ok _ |- _ => rewrite E end. injection H as <-. done.
Qed.
Lemma dkv_read_eq g i pos kw vw e : dkv_read pf g i pos kw vw = Ok e -> kv_read pf (kstrip g) i pos kw vw = Ok e.
Proof.
  unfold dkv_read, kv_read, kv_read_key, kv_read_value. intros H. do 6 dinv1 H.
  match goal with E : dkv_begin _ _ = Ok _ |- _ => apply dkv_begin_eq in E as -> end. cbn [mbind res_bind kstrip g_keys g_vals].
  repeat match goal with E : dc_read _ _ _ _ = Ok _ |- _ => apply dc_read_eq in E; rewrite E; cbn [mbind res_bind]; clear E end. done.
Qed.
Lemma dkv_find_eq g i k kw r : dkv_find pf g i k kw = Ok r -> kv_find pf (kstrip g) i k kw = Ok r.
Proof.
  unfold dkv_find, kv_find. intros H. do 4 dinv1 H.
  match goal with E : dkv_begin _ _ = Ok _ |- _ => apply dkv_begin_eq in E as -> end. cbn [mbind res_bind].
  match goal with E : dkv_position _ _ = Ok _ |- _ => apply dkv_position_eq in E as -> end. cbn [mbind res_bind].
  revert H. destruct (_ =? _); [done|]. intros H. dinv1 H. cbn [kstrip g_keys].
  match goal with E : dc_find _ _ _ _ _ _ = Ok _ |- _ => apply dc_find_eq in E as -> end. done.
Qed.
Lemma dkv_push_eq g bpg i k kw v vw g' : dkv_push pf g bpg i k kw v vw = Ok g' -> kv_push pf (kstrip g) bpg i k kw v vw = Ok (kstrip g').
Proof.
  unfold dkv_push, kv_push. intros H. do 4 dinv1 H. cbv zeta in H. do 5 dinv1 H. injection H as <-.
  match goal with E : dkv_position _ _ = Ok _ |- _ => apply dkv_position_eq in E as -> end. cbn [mbind res_bind kstrip g_keys g_vals g_size g_border].
  repeat match goal with E : dc_insert _ _ _ _ _ _ = Ok _ |- _ => apply dc_insert_eq in E; rewrite E; cbn [mbind res_bind]; clear E end.
  destruct (k_border g) as [ws|]; [|done]. match goal with E : of_option _ (Some ws) = Ok _ |- _ => injection E as <- end. cbv zeta.
  match goal with E : border_insert _ _ _ = Ok _ |- _ => rewrite E end. done.
Qed.
Lemma dkv_erase_eq g bpg i pos kw vw g' : dkv_erase pf g bpg i pos kw vw = Ok g' -> kv_erase pf (kstrip g) bpg i pos kw vw = Ok (kstrip g').
Proof.
  unfold dkv_erase, kv_erase. intros H. do 1 dinv1 H. cbv zeta in H. dinv1 H. dinv1 H. do 10 dinv1 H. injection H as <-.
  assert (Eb : match i with 0 => Ok 0 | S i' => kv_position (kstrip g) i' end = Ok a).
  { destruct i; [done|]. by apply dkv_position_eq. }
  rewrite Eb. cbn [mbind res_bind]. cbv zeta. clear E Eb.
  match goal with E : dkv_position _ _ = Ok _ |- _ => apply dkv_position_eq in E as -> end. cbn [mbind res_bind kstrip g_keys g_vals g_size g_border].
  repeat match goal with E : dc_erase _ _ _ _ _ = Ok _ |- _ => apply dc_erase_eq in E; rewrite E; cbn [mbind res_bind]; clear E end.
  destruct (k_border g) as [ws|]; [|done]. match goal with E : of_option _ (Some ws) = Ok _ |- _ => injection E as <- end. cbv zeta.
  match goal with E : border_delete _ _ _ = Ok _ |- _ => rewrite E end. done.
Qed.
End kv.
#[local] Close Scope nat_scope.

(** *** group_chaining_table *)
Section table.
Context (pf : platform) (c : gcfg).
Implicit Types t : dgtable.

Lemma gstrip_set t bk g : gstrip (dg_set t bk g) = g_set (gstrip t) bk (kstrip g).
Proof.
  unfold gstrip, dg_set, g_set. cbn [dg_groups dg_b dg_n dg_kw dg_vw dg_bpg gt_groups gt_b gt_n gt_kw gt_vw gt_bpg].
  f_equal. destruct (dg_groups t) as [gs|]; [|done]. cbn. f_equal. change (map kstrip ?l) with (kstrip <$> l). by rewrite list_fmap_insert.
Qed.
Lemma gstrip_set_n t n : gstrip (dg_set_n t n) = g_set_n (gstrip t) n.
Proof. done. Qed.
Lemma gstrip_set_pl t bk p : gstrip (dg_set_pl t bk p) = gstrip t.
Proof. done. Qed.
Lemma dg_at_eq t gi g : dg_at t gi = Ok g -> g_at (gstrip t) gi = Ok (kstrip g).
Proof.
  unfold dg_at, g_at, gstrip. cbn [gt_groups]. destruct (dg_groups t) as [gs|]; [|done]. cbn [fmap option_fmap option_map].
  rewrite map_length. destruct (_ <? _); [|done]. change (map kstrip gs) with (kstrip <$> gs). rewrite list_lookup_fmap.
  destruct (gs !! N.to_nat gi); [|done]. cbn. by intros [= <-].
Qed.
Lemma dg_group_eq t bk g : dg_group t bk = Ok g -> g_group (gstrip t) bk = Ok (kstrip g).
Proof. unfold dg_group, g_group. intros H. dinv1 H. cbn [mbind res_bind]. by apply dg_at_eq. Qed.
Lemma dg_bucket_size_eq t bk n : dg_bucket_size t bk = Ok n -> g_bucket_size (gstrip t) bk = Ok n.
Proof.
  unfold dg_bucket_size, g_bucket_size. intros H. do 3 dinv1 H. apply dg_group_eq in E as ->. cbn [mbind res_bind].
  apply dkv_bucketsize_eq in E0 as ->. done.
Qed.
Lemma dg_quotient_at_eq t bk pos qw q : dg_quotient_at pf c t bk pos qw = Ok q -> g_quotient_at pf (gstrip t) bk pos qw = Ok q.
Proof.
  unfold dg_quotient_at, g_quotient_at. intros H. do 6 dinv1 H. injection H as <-.
  match goal with E : dg_group _ _ = Ok _ |- _ => apply dg_group_eq in E as -> end. cbn [mbind res_bind].
  match goal with E : dkv_read_key _ _ _ _ _ = Ok _ |- _ => by apply dkv_read_key_eq in E end.
Qed.
Lemma dg_value_at_eq t bk pos v : dg_value_at pf t bk pos = Ok v -> g_value_at pf (gstrip t) bk pos = Ok v.
Proof.
  unfold dg_value_at, g_value_at. intros H. dinv1 H. revert H. destruct (_ =? _); [done|]. intros H. do 2 dinv1 H.
  match goal with E : dg_group _ _ = Ok _ |- _ => apply dg_group_eq in E as -> end. cbn [mbind res_bind].
  by apply dkv_read_value_eq.
Qed.
Lemma dg_write_value_eq t x v t' : dg_write_value pf t x v = Ok t' -> g_write_value pf (gstrip t) x v = Ok (gstrip t').
Proof.
  unfold dg_write_value, g_write_value. destruct x as [bk pos]. destruct (_ =? _); [done|]. intros H. do 4 dinv1 H. cbv zeta in H. do 2 dinv1 H.
  injection H as <-. match goal with E : dg_group _ _ = Ok _ |- _ => apply dg_group_eq in E; rewrite gstrip_set_pl in E; rewrite E end.
  cbn [mbind res_bind]. match goal with E : dkv_write_value _ _ _ _ _ _ = Ok _ |- _ => apply dkv_write_value_eq in E end.
  rewrite gstrip_set_pl in *. match goal with E : kv_write_value _ _ _ _ _ _ = Ok _ |- _ => rewrite E end. cbn [mbind res_bind].
  by rewrite gstrip_set, gstrip_set_pl.
Qed.

(** clear *)
Lemma dg_clear_bucket_eq t bk t' : dg_clear_bucket t bk = Ok t' -> gstrip t' = gstrip t /\ dg_groups t' = dg_groups t.
Proof. unfold dg_clear_bucket. intros H. do 2 dinv1 H. by injection H as <-. Qed.
Lemma dg_clear_buckets_eq gi l : forall t t', rfold (fun t r =>
        let bk := gi * dg_bpg t + N.of_nat r in
        if g_bucket_count (gstrip t) <=? bk then Ok t
        else i ← g_div (gstrip t) bk; _ ← chk (i =? gi); dg_clear_bucket t bk) l t = Ok t' -> gstrip t' = gstrip t /\ dg_groups t' = dg_groups t.
Proof.
  induction l as [|r l IH]; intros t t' H; cbn [rfold] in H; [by injection H as <-|]. cbv zeta in H. dinv1 H.
  revert E. destruct (_ <=? _); intros E.
  - injection E as <-. by apply IH.
  - do 2 dinv1 E. apply dg_clear_bucket_eq in E as [E1 E2]. apply IH in H as [H1 H2]. split; congruence.
Qed.
Lemma dg_clear_group_eq t gi t' : dg_clear_group t gi = Ok t' -> exists g, dg_at t gi = Ok g
  /\ gstrip t' = g_set (gstrip t) (gi * dg_bpg t) kv_new /\ length (default [] (dg_groups t')) = length (default [] (dg_groups t)).
Proof.
  unfold dg_clear_group. intros H. do 3 dinv1 H. injection H as <-. exists a. split; [done|].
  match goal with E : rfold _ _ _ = Ok _ |- _ => apply dg_clear_buckets_eq in E as [E1 E2] end.
  rewrite gstrip_set, E1. change (dg_bpg a0) with (gt_bpg (gstrip a0)). rewrite E1. split; [done|].
  unfold dg_set. cbn [dg_groups]. rewrite E2. destruct (dg_groups t); [|done]. cbn. by rewrite insert_length.
Qed.
Lemma dg_at_lt t gi g : dg_at t gi = Ok g -> gi < N.of_nat (length (default [] (dg_groups t))) /\ exists gs, dg_groups t = Some gs.
Proof. unfold dg_at. destruct (dg_groups t) as [gs|]; [|done]. destruct (N.ltb_spec gi (N.of_nat (length gs))); [|done]. cbn. eauto. Qed.
Lemma dg_clear_loop l : forall t t', rfold (fun t gi => g ← dg_at t (N.of_nat gi); if (k_size g =? 0) then Ok t else dg_clear_group t (N.of_nat gi)) l t = Ok t' ->
  Forall (fun gi => (gi < length (default [] (dg_groups t)))%nat) l /\ dg_kw t' = dg_kw t /\ dg_vw t' = dg_vw t /\ dg_bpg t' = dg_bpg t.
Proof.
  induction l as [|gi l IH]; intros t t' H; cbn [rfold] in H; [by injection H as <-|]. dinv1 H. dinv1 E.
  apply dg_at_lt in E0 as [Hlt _]. revert E. destruct (_ =? _); intros E.
  - injection E as <-. apply IH in H as (H1 & H2). split; [constructor; [lia|done]|done].
  - apply dg_clear_group_eq in E as (g & _ & Es & El). apply IH in H as (H1 & H2 & H3 & H4). rewrite El in H1. split; [constructor; [lia|done]|].
    rewrite H2, H3, H4. change (dg_kw a) with (gt_kw (gstrip a)). change (dg_vw a) with (gt_vw (gstrip a)). change (dg_bpg a) with (gt_bpg (gstrip a)).
    by rewrite Es.
Qed.
Lemma dg_clear_eq t t' : dg_clear t = Ok t' -> g_clear (gstrip t) = Ok (gstrip t').
Proof.
  unfold dg_clear, g_clear. intros H. dinv1 H. cbn [mbind res_bind]. dinv1 H. apply dg_clear_loop in E0 as (HF & E1 & E2 & E3).
  injection H as <-.
  assert (Es : g_clear_structure (gstrip t) = gstrip (dg_clear_structure a0)).
  { unfold g_clear_structure, dg_clear_structure, gstrip. cbn. by rewrite E1, E2, E3. }
  rewrite <-Es. unfold gstrip at 1. cbn [gt_groups]. destruct (dg_groups t) as [gs|] eqn:Eg; [|done]. cbn [fmap option_fmap option_map].
  rewrite map_length. destruct (N.ltb_spec (N.of_nat (length gs)) a) as [Hlt|]; [|done]. exfalso.
  rewrite List.Forall_forall in HF. specialize (HF (length gs)). cbn in HF. specialize (HF ltac:(apply in_seq; lia)). lia.
Qed.

(** locate *)
Lemma dg_locate_q_eq t bk q r : dg_locate_q pf c t bk q = Ok r -> g_locate_q pf c (gstrip t) bk q = Ok r.
Proof.
  unfold dg_locate_q, g_locate_q. intros H. do 9 dinv1 H. injection H as <-.
  match goal with E : dg_group _ _ = Ok _ |- _ => apply dg_group_eq in E as -> end. cbn [mbind res_bind].
  match goal with E : (if _ then Ok None else _) = Ok _ |- _ => revert E end. unfold kv_empty. cbn [kstrip g_size].
  destruct (_ =? _); [done|]. intros H. dinv1 H.
  match goal with E : dkv_find _ _ _ _ _ = Ok _ |- _ => apply dkv_find_eq in E; cbn [kstrip] in E; rewrite E end. done.
Qed.
Lemma dg_map_eq t k qb : dg_map c t k = Ok qb -> hash_map (ghm c (gt_kw (gstrip t))) k (gt_b (gstrip t)) = Ok qb.
Proof. unfold dg_map. intros H. do 3 dinv1 H. injection H as <-. by apply dhash_map_eq. Qed.
Lemma dg_find_eq t k x : dg_find pf c t k = Ok x -> g_find pf c (gstrip t) k = Ok x.
Proof.
  unfold dg_find, g_find. change (gt_b (gstrip t)) with (dg_b t). destruct (_ =? _); [done|]. intros H. dinv1 H.
  apply dg_map_eq in E. change (gt_b (gstrip t)) with (dg_b t) in E. rewrite E. cbn [mbind res_bind]. destruct a as [q bk]. dinv1 H.
  apply dg_locate_q_eq in E0 as ->. done.
Qed.
Lemma dg_locate_eq t k r : dg_locate pf c t k = Ok r -> g_locate pf c (gstrip t) k = Ok r.
Proof.
  unfold dg_locate, g_locate. intros H. dinv1 H. revert H. change (gt_b (gstrip t)) with (dg_b t). destruct (_ =? _); [done|]. intros H. dinv1 H.
  apply dg_map_eq in E. change (gt_b (gstrip t)) with (dg_b t) in E. rewrite E. cbn [mbind res_bind]. destruct a as [q bk]. dinv1 H.
  apply dg_locate_q_eq in E0 as ->. done.
Qed.

(** reserve *)
Lemma rfold_eq1 {A A' B} (f : A -> B -> res A) (g : A' -> B -> res A') (p : A -> A') l :
  (forall a x a', f a x = Ok a' -> g (p a) x = Ok (p a')) -> forall a a', rfold f l a = Ok a' -> rfold g l (p a) = Ok (p a').
Proof. intros H a a' E. rewrite <-(map_id l). by apply (rfold_eq f g p id). Qed.
Lemma dg_alloc_eq t n t' : dg_alloc t n = Ok t' -> g_alloc (gstrip t) n = Ok (gstrip t').
Proof.
  unfold dg_alloc, g_alloc. intros H. dinv1 H. cbn [mbind res_bind]. dinv1 H. cbn [mbind res_bind]. injection H as <-. f_equal. unfold gstrip.
  cbn [dg_groups dg_b dg_n dg_kw dg_vw dg_bpg gt_n gt_kw gt_vw gt_bpg fmap option_fmap option_map]. f_equal. f_equal.
  change (map kstrip ?l) with (kstrip <$> l). symmetry. exact (fmap_replicate kstrip _ dkv_new).
Qed.
Section ins.
Context (ins : dgtable -> N -> N -> res (dgtable * nav)) (ins0 : gtable -> N -> N -> res (gtable * nav)).
Hypothesis Hins : forall t k v r, ins t k v = Ok r -> ins0 (gstrip t) k v = Ok (gstrip (fst r), snd r).
Lemma dg_rehash_bucket_eq t gi g tmp r tmp' : dg_rehash_bucket pf c ins t gi g tmp r = Ok tmp' ->
  g_rehash_bucket pf c ins0 (gstrip t) gi (kstrip g) (gstrip tmp) r = Ok (gstrip tmp').
Proof.
  unfold dg_rehash_bucket, g_rehash_bucket. intros H. dinv1 H. apply dkv_bucketsize_eq in E as ->. cbn [mbind res_bind].
  revert H. destruct (Nat.eqb_spec a 0) as [->|Hn]; [by intros [= <-]|]. intros H. do 6 dinv1 H. revert H.
  apply (rfold_eq1 _ _ gstrip). intros tmp1 j tmp2 H. do 7 dinv1 H. injection H as <-.
  match goal with E : dkv_read _ _ _ _ _ _ = Ok _ |- _ => apply dkv_read_eq in E as -> end. cbn [mbind res_bind].
  match goal with E : dhash_inv_map _ _ _ _ = Ok _ |- _ => apply dhash_inv_map_eq in E end.
  match goal with E : hash_inv_map _ _ _ _ = Ok _ |- _ => change (dg_kw t) with (gt_kw (gstrip t)) in E; change (dg_b t) with (gt_b (gstrip t)) in E; rewrite E end.
  cbn [mbind res_bind]. match goal with E : ins _ _ _ = Ok _ |- _ => apply Hins in E as -> end. done.
Qed.
Lemma dg_rehash_group_eq t tmp gi g tmp' : dg_rehash_group pf c ins t tmp (gi, g) = Ok tmp' ->
  g_rehash_group pf c ins0 (gstrip t) (gstrip tmp) (gi, kstrip g) = Ok (gstrip tmp').
Proof.
  unfold dg_rehash_group, g_rehash_group, kv_empty. cbn [kstrip g_size]. destruct (_ =? _); [by intros [= <-]|]. intros H. do 3 dinv1 H.
  injection H as <-. match goal with E : rfold _ _ _ = Ok _ |- _ => revert E end.
  apply (rfold_eq1 _ _ gstrip). intros. by apply dg_rehash_bucket_eq.
Qed.
Lemma dg_reserve_with_eq t n nkw t' : dg_reserve_with pf c ins t n nkw = Ok t' -> g_reserve_with pf c ins0 (gstrip t) n nkw = Ok (gstrip t').
Proof.
  unfold dg_reserve_with, g_reserve_with. cbv zeta. change (gt_b (gstrip t)) with (dg_b t). destruct (dg_b t =? 0); [apply dg_alloc_eq|].
  intros H. dinv1 H. cbn [mbind res_bind]. do 2 dinv1 H.
  match goal with E : dg_alloc _ _ = Ok _ |- _ => apply dg_alloc_eq in E; unfold gstrip at 1 in E; cbn [dg_groups dg_b dg_n dg_kw dg_vw dg_bpg fmap option_fmap option_map] in E end.
  change (gt_kw (gstrip t)) with (dg_kw t). change (gt_vw (gstrip t)) with (dg_vw t).
  match goal with E : g_alloc _ _ = Ok _ |- _ => rewrite E end. cbn [mbind res_bind]. dinv1 H. cbn [mbind res_bind]. dinv1 H.
  revert H. change (gt_groups (gstrip t)) with ((fun gs => map kstrip gs) <$> dg_groups t).
  destruct (dg_groups t) as [gs|]; [|done]. cbn [fmap option_fmap option_map]. rewrite map_length.
  destruct (_ <? _); [done|]. intros H. do 4 dinv1 H. injection H as <-. match goal with E : rfold _ _ _ = Ok _ |- _ => revert E end.
  rewrite firstn_map. match goal with |- context [imap pair (take ?m gs)] => generalize (take m gs) as l end. intros l EF.
  assert (Ei : imap pair (map kstrip l) = map (fun ig => (fst ig, kstrip (snd ig))) (imap pair l)).
  { change (map kstrip l) with (kstrip <$> l). rewrite imap_fmap. change (map ?f (imap pair l)) with (f <$> imap pair l). by rewrite fmap_imap. }
  rewrite Ei. revert EF. apply (rfold_eq _ _ gstrip). intros x [gi g] y. apply dg_rehash_group_eq.
Qed.
End ins.

(** find_or_insert *)
Lemma dg_push_eq t bk q k v g n t' : dg_push pf c t bk q k v g n = Ok t' ->
  exists g', kv_push pf (if kv_initialized (kstrip g) then kstrip g else kv_init (kstrip g) (gbpg (gstrip t)) (gqw c (gstrip t)) (gvw (gstrip t)))
      (gbpg (gstrip t)) (g_rank (gstrip t) bk) q (gqw c (gstrip t)) v (gvw (gstrip t)) = Ok g'
    /\ gstrip t' = g_set (g_set_n (gstrip t) (u64 (gt_n (gstrip t) + 1))) bk g'.
Proof.
  unfold dg_push. cbv zeta. rewrite !gstrip_set_n. intros H. do 8 dinv1 H. dinv1 H. do 8 dinv1 H. injection H as <-.
  rewrite gstrip_set_pl, gstrip_set, gstrip_set_n.
  match goal with E : dkv_push _ _ _ _ _ _ _ _ = Ok ?g' |- _ => apply dkv_push_eq in E; exists (kstrip g'); split; [rewrite <-E; f_equal|done] end.
  match goal with E : match k_border g with _ => _ end = Ok _ |- _ => revert E end. unfold kv_initialized. cbn [kstrip g_border].
  destruct (k_border g); [by intros [= <-]|]. intros E'. by apply dkv_init_eq in E'.
Qed.
Lemma dg_find_or_insert_eq : forall fuel t k v r, dg_find_or_insert pf c fuel t k v = Ok r ->
  g_find_or_insert pf c fuel (gstrip t) k v = Ok (gstrip (fst r), snd r).
Proof.
  induction fuel as [|f IH]; intros t k v r H; [done|]. cbn [dg_find_or_insert] in H. cbn [g_find_or_insert].
  dinv1 H. dinv1 H. rename a into t1.
  assert (E1 : (if gt_b (gstrip t) =? 0 then g_alloc (gstrip t) (N.min (sub64 (gt_kw (gstrip t)) 1) 8) else Ok (gstrip t)) = Ok (gstrip t1)).
  { revert E. change (gt_b (gstrip t)) with (dg_b t). destruct (_ =? _); [apply dg_alloc_eq|by intros [= <-]]. }
  rewrite E1. cbn [mbind res_bind]. clear E E1. dinv1 H. apply dg_map_eq in E as ->. cbn [mbind res_bind]. destruct a as [q bk].
  dinv1 H. apply dg_group_eq in E as ->. cbn [mbind res_bind]. dinv1 H. apply dkv_bucketsize_eq in E as ->. cbn [mbind res_bind].
  dinv1 H. apply dg_locate_q_eq in E as ->. cbn [mbind res_bind]. destruct a1 as [p|].
  { dinv1 H. by injection H as <-. }
  cbn [kstrip g_size]. revert H. destruct (_ =? _); intros H.
  - change (gt_b (gstrip t1)) with (dg_b t1). dinv1 H. cbn [mbind res_bind]. dinv1 H. apply (dg_reserve_with_eq _ (g_find_or_insert pf c f) IH) in E0 as ->.
    cbn [mbind res_bind]. by apply IH.
  - dinv1 H. apply dg_push_eq in E as (g' & Ep & Es). injection H as <-. cbv zeta. cbn [kstrip] in Ep. rewrite Ep. cbn [mbind res_bind fst snd]. by rewrite Es.
Qed.
Lemma dg_reserve_eq fuel t n nkw t' : dg_reserve pf c fuel t n nkw = Ok t' -> g_reserve pf c fuel (gstrip t) n nkw = Ok (gstrip t').
Proof. apply dg_reserve_with_eq. intros. by apply dg_find_or_insert_eq. Qed.

(** erase *)
Lemma g_set_set (t : gtable) bk g g' : gt_bpg t <> 0 -> g_set (g_set t bk g) (bk / gt_bpg t * gt_bpg t) g' = g_set t bk g'.
Proof.
  intros Hne. unfold g_set. cbn [gt_groups gt_b gt_n gt_kw gt_vw gt_bpg]. f_equal. destruct (gt_groups t) as [gs|]; [|done]. cbn. f_equal.
  by rewrite N.div_mul, list_insert_insert.
Qed.
Lemma dg_erase_at_eq t x r : dg_erase_at pf c t x = Ok r -> g_erase_at pf c (gstrip t) x = Ok (gstrip (fst r), snd r).
Proof.
  unfold dg_erase_at, g_erase_at. destruct x as [bk pos]. destruct (pos =? ones64); [by intros [= <-]|]. intros H. do 5 dinv1 H. cbv zeta in H.
  do 6 dinv1 H. match goal with E : dg_group _ _ = Ok _ |- _ => apply dg_group_eq in E as -> end. cbn [mbind res_bind].
  match goal with E : dkv_erase _ _ _ _ _ _ _ = Ok ?g |- _ => rename g into g2; apply dkv_erase_eq in E as -> end. cbn [mbind res_bind].
  unfold kv_empty. cbn [kstrip g_size]. dinv1 H. dinv1 H. dinv1 H. injection H as <-. cbn [fst snd]. f_equal. f_equal. symmetry.
  match goal with E : (if p_size _ =? 0 then _ else _) = Ok ?b |- gstrip ?b = _ => rename E into EB; rename b into tb end.
  match goal with E : (if k_size _ =? 0 then _ else _) = Ok ?b |- _ => rename E into EA; rename b into ta end.
  assert (gstrip tb = gstrip ta) as -> by (revert EB; destruct (p_size _ =? 0); [by intros [??]%dg_clear_bucket_eq|by intros [= <-]]).
  revert EA. destruct (k_size g2 =? 0).
  - intros EA. dinv1 EA. apply dg_clear_group_eq in EA as (g3 & _ & Es & _). rewrite Es. unfold kv_clear.
    change (dg_bpg ?x) with (gt_bpg (gstrip x)). rewrite gstrip_set_pl, gstrip_set, gstrip_set_n.
    match goal with E : g_div _ _ = Ok ?x |- _ => revert E; unfold g_div; rewrite gstrip_set_pl, gstrip_set, gstrip_set_n; destruct (N.eqb_spec (gt_bpg (gstrip t)) 0) as [Hz|Hz]; cbn [g_set g_set_n gt_bpg];
      [by rewrite Hz|rewrite (proj2 (N.eqb_neq _ _) Hz); intros [= <-]] end.
    exact (g_set_set (g_set_n (gstrip t) (sub64 (dg_n t) 1)) bk (kstrip g2) kv_new Hz).
  - intros [= <-]. by rewrite gstrip_set_pl, gstrip_set, gstrip_set_n.
Qed.
Lemma dg_erase_eq t k r : dg_erase pf c t k = Ok r -> g_erase pf c (gstrip t) k = Ok (gstrip (fst r), snd r).
Proof.
  unfold dg_erase, g_erase. change (gt_b (gstrip t)) with (dg_b t). destruct (_ =? _); [by intros [= <-]|]. intros H. dinv1 H.
  apply dg_locate_eq in E as ->. cbn [mbind res_bind]. destruct a as [bk pos]. by apply dg_erase_at_eq.
Qed.

(** Iteration and histories *)
Lemma dg_view_le t : view_le (dg_view pf c t) (g_view pf c (gstrip t)).
Proof.
  constructor; try done; cbn [dg_view g_view v_size v_quot v_value].
  - apply dg_bucket_size_eq.
  - apply dg_quotient_at_eq.
  - apply dg_value_at_eq.
Qed.
Lemma dg_first_bucket_eq g : forall n r x, dg_first_bucket g n r = Ok x -> g_first_bucket (kstrip g) n r = Ok x.
Proof.
  induction n as [|n IH]; intros r x H; [done|]. cbn [dg_first_bucket g_first_bucket] in *. dinv1 H. apply dkv_bucketsize_eq in E as ->.
  cbn [mbind res_bind]. destruct (0 <? a)%nat; [done|]. by apply IH.
Qed.
Lemma dg_begin_scan_eq t : forall gs gi x, dg_begin_scan t gs gi = Ok x -> g_begin_scan (gstrip t) (map kstrip gs) gi = Ok x.
Proof.
  induction gs as [|g gs IH]; intros gi x H; [done|]. cbn [dg_begin_scan g_begin_scan map] in *. unfold kv_empty. change (g_size (kstrip g)) with (k_size g). dinv1 H.
  assert (E1 : (if k_size g =? 0 then Ok None else g_first_bucket (kstrip g) (gbpg (gstrip t)) 0) = Ok a).
  { destruct (k_size g =? 0); [done|]. by apply dg_first_bucket_eq. }
  rewrite E1. cbn [mbind res_bind]. destruct a as [r|]; [done|]. by apply IH.
Qed.
Lemma dg_begin_eq t x : dg_begin t = Ok x -> g_begin (gstrip t) = Ok x.
Proof.
  unfold dg_begin, g_begin. intros H. dinv1 H. cbn [mbind res_bind]. cbv zeta in *.
  change (gt_groups (gstrip t)) with ((fun gs => map kstrip gs) <$> dg_groups t).
  assert (Eg : default [] ((fun gs => map kstrip gs) <$> dg_groups t) = map kstrip (default [] (dg_groups t))) by (by destruct (dg_groups t)).
  rewrite Eg, map_length. revert H. destruct (_ <? a); [done|]. rewrite firstn_map. apply dg_begin_scan_eq.
Qed.
Lemma dg_forward_eq fuel t l : dg_forward pf c fuel t = Ok l -> g_forward pf c fuel (gstrip t) = Ok l.
Proof.
  unfold dg_forward, g_forward. intros H. dinv1 H. apply dg_begin_eq in E as ->. cbn [mbind res_bind].
  revert H. apply vl_iterate, dg_view_le.
Qed.
Lemma dg_impl_le fuel : impl_le (dg_impl pf c fuel) (g_impl pf c fuel) gstrip.
Proof.
  constructor; cbn [dg_impl g_impl i_view i_find i_insert i_write i_erase i_erase_at i_size i_reserve i_clear].
  - apply dg_view_le.
  - apply dg_find_eq.
  - apply dg_find_or_insert_eq.
  - apply dg_write_value_eq.
  - apply dg_erase_eq.
  - apply dg_erase_at_eq.
  - done.
  - intros s n s'. apply dg_reserve_eq.
  - apply dg_clear_eq.
Qed.
Lemma dg_runs fuel ops t r : m_run_ops (dg_impl pf c fuel) t ops = Ok r -> m_run_ops (g_impl pf c fuel) (gstrip t) ops = Ok (gstrip (fst r), snd r).
Proof. apply m_run_ops_le, dg_impl_le. Qed.
Lemma dg_new_eq kw vw t : dg_new c kw vw = Ok t -> gstrip t = g_new (u8 kw) (u8 vw).
Proof. unfold dg_new. intros H. dinv_all H. by injection H as <-. Qed.
End table.
