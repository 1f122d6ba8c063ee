(** The debug build computes what the release build computes, as long as no check fails. *)
From Verif Require Export DebugModel.

Lemma chk_true b u : chk b = Ok u -> b = true.
Proof. by destruct b. Qed.
(** Splits off the binds and checks of a successful debug call. *)
Ltac dinv1 H :=
  match type of H with
  | mbind _ (chk ?b) = Ok _ =>
      let E := fresh "Ec" in destruct b eqn:E; cbn [chk mbind res_bind] in H; [|discriminate H]
  | mbind (fun _ => _) ?m = Ok _ =>
      let a := fresh "a" in let E := fresh "E" in
      destruct m as [a|?| |] eqn:E; cbn [mbind res_bind] in H; [|discriminate H..]
  end.
Ltac dinv_all H := repeat (dinv1 H).

Section trans.
Context (pf : platform) (c : cfg) (junk : option N).

Lemma dbij_hash_eq f w x y : dbij_hash f w x = Ok y -> y = bij_hash f w x.
Proof.
  unfold dbij_hash. intros H. dinv1 H. destruct f; [|by injection H as <-].
  unfold dxs_hash1 in H. cbn [mbind res_bind] in H.
  repeat match type of H with context [chk ?b] => destruct b; cbn [chk mbind res_bind] in H; [|discriminate H] end.
  by injection H as <-.
Qed.
Lemma dbij_hash_inv_eq f w x y : dbij_hash_inv f w x = Ok y -> y = bij_hash_inv f w x.
Proof. unfold dbij_hash_inv. intros H. dinv_all H. by injection H as <-. Qed.
Lemma dremainder_width_eq h b w : dremainder_width h b = Ok w -> w = remainder_width h b.
Proof. unfold dremainder_width. intros H. destruct (h_kind h); dinv_all H; by injection H as <-. Qed.
Lemma dhash_inv_map_eq h q bk b k : dhash_inv_map h q bk b = Ok k -> hash_inv_map h q bk b = Ok k.
Proof.
  unfold dhash_inv_map, hash_inv_map. destruct (h_kind h); [|done]. destruct (_ && _); [|done]. intros H.
  dinv1 H. cbn [mbind res_bind]. dinv1 H. apply dbij_hash_inv_eq in E0 as ->. done.
Qed.
Lemma dhash_map_eq h k b qb : dhash_map h k b = Ok qb -> hash_map h k b = Ok qb.
Proof.
  unfold dhash_map, hash_map. destruct (h_kind h); [|done]. destruct (_ && _); [|done]. intros H.
  dinv1 H. apply dbij_hash_eq in E as ->. dinv1 H. dinv1 H. cbv zeta. destruct (shr64 _ _) as [q| | |]; [|done..]. cbn [mbind res_bind] in *.
  dinv1 H. destruct (shl64 _ _) as [m| | |]; [|done..]. cbn [mbind res_bind] in *. cbv zeta in H. dinv_all H. done.
Qed.

Lemma db_initialize_eq kd b len w b' : db_initialize pf kd b len w = Ok b' -> k_b b' = b_initialize pf kd len w.
Proof. unfold db_initialize. intros H. destruct kd; dinv_all H; by injection H as <-. Qed.
Lemma db_clear_eq kd b b' : db_clear pf kd b = Ok b' -> b_clear pf kd (k_b b) = Ok (k_b b').
Proof. unfold db_clear. intros H. dinv_all H. by injection H as <-. Qed.
Lemma db_resize_eq kd b old new w b' : db_resize pf kd b old new w = Ok b' -> b_resize pf kd (k_b b) old new w = Ok (k_b b').
Proof.
  unfold db_resize. intros H. destruct kd; cbn [mbind res_bind] in H; dinv_all H; injection H as <-; done.
Qed.
Lemma db_write_eq kd b i v w b' : db_write pf kd b i v w = Ok b' -> b_write pf kd (k_b b) i v w = Ok (k_b b').
Proof.
  unfold db_write. intros H. destruct kd.
  4: dinv1 H; dinv1 H; dinv1 H; dinv1 H; dinv1 H; injection H as <-; done.
  all: dinv_all H; injection H as <-; done.
Qed.
Lemma db_read_eq kd b i w x : db_read pf kd b i w = Ok x -> b_read pf kd (k_b b) i w = Ok x.
Proof. unfold db_read. intros H. destruct kd; [..|done]; dinv1 H; dinv1 H; done. Qed.
Lemma db_erase_eq kd b p l w b' : db_erase pf kd b p l w = Ok b' -> b_erase pf kd (k_b b) p l w = Ok (k_b b').
Proof. unfold db_erase. intros H. destruct kd; dinv_all H; injection H as <-; done. Qed.
Lemma db_find_eq kd b k l w r : db_find pf kd b k l w = Ok r -> b_find pf kd (k_b b) k l w = Ok r.
Proof. unfold db_find. intros H. dinv1 H. done. Qed.

Section ov.
Context (kb vb : nat).
Lemma dov_next_eq o p p' : dov_next pf o p = Ok p' -> p' = ov_next pf o p.
Proof. unfold dov_next. intros H. dinv1 H. by injection H as <-. Qed.
Lemma dov_prev_eq o p p' : dov_prev pf o p = Ok p' -> p' = ov_prev pf o p.
Proof. unfold dov_prev. intros H. dinv1 H. by injection H as <-. Qed.
Lemma dov_erase_eq o p o' : dov_erase pf o p = Ok o' -> ov_erase pf o p = Ok o'.
Proof. unfold dov_erase. intros H. by dinv1 H. Qed.
Lemma dov_need_consult_eq o bk r : dov_need_consult o bk = Ok r -> ov_need_consult o bk = Ok r.
Proof. unfold dov_need_consult. intros H. by dinv1 H. Qed.
Lemma dov_find_eq o k r : dov_find pf kb o k = Ok r -> ov_find pf kb o k = Ok r.
Proof. unfold dov_find. intros H. by dinv1 H. Qed.
Lemma dov_get_eq o p r : dov_get pf vb o p = Ok r -> ov_get pf vb o p = Ok r.
Proof. unfold dov_get. intros H. by dinv1 H. Qed.
Lemma dov_key_eq o p r : dov_key pf kb o p = Ok r -> ov_key pf kb o p = Ok r.
Proof. unfold dov_key. intros H. by dinv1 H. Qed.
Lemma dov_set_eq o p v r : dov_set pf vb o p v = Ok r -> ov_set pf vb o p v = Ok r.
Proof. unfold dov_set. intros H. by dinv1 H. Qed.
Lemma dov_insert_eq o bk k v r : dov_insert pf kb vb o bk k v = Ok r -> ov_insert pf kb vb o bk k v = Ok r.
Proof. unfold dov_insert. intros H. dinv1 H. dinv1 H. dinv1 H. done. Qed.
Lemma dov_resize_eq o n o' : dov_resize_buckets pf o n = Ok o' -> o' = ov_resize_buckets pf o n.
Proof. unfold dov_resize_buckets. cbv zeta. intros H. dinv1 H. by injection H as <-. Qed.
End ov.

Implicit Types (d tmp : dtable) (s : dslot).

Lemma dwidth_eq d w : dwidth c d = Ok w -> w = qwidth c (strip d).
Proof. unfold dwidth. intros H. dinv_all H. apply dremainder_width_eq in E as ->. by injection H as <-. Qed.
Lemma dget_slot_eq d bk s : dget_slot d bk = Ok s -> get_slot (strip d) bk = Ok (sstrip s).
Proof.
  unfold dget_slot, get_slot, strip. cbn [t_slots]. destruct (d_slots d) as [sl|]; [|done]. cbn [fmap option_fmap option_map].
  rewrite map_length. destruct (_ <? _); [|done]. rewrite list_lookup_fmap.
  destruct (sl !! N.to_nat bk); [|done]. cbn. intros E. by injection E as ->.
Qed.
Lemma strip_set_slot d bk s : strip (dset_slot d bk s) = set_slot (strip d) bk (sstrip s).
Proof.
  unfold strip, dset_slot, set_slot. cbn. f_equal. destruct (d_slots d) as [sl|]; [|done]. cbn. f_equal.
  apply list_fmap_insert.
Qed.
Lemma strip_set_n d n : strip (dset_n d n) = set_n (strip d) n.
Proof. done. Qed.
Lemma strip_set_ov d o : strip (dset_ov d o) = set_ov (strip d) o.
Proof. done. Qed.

Lemma dclear_slot_eq d bk s s' : dclear_slot pf c d bk s = Ok s' -> clear_slot pf c (sstrip s) = Ok (sstrip s').
Proof.
  unfold dclear_slot, clear_slot. intros H. dinv1 H. dinv1 H. dinv1 H. injection H as <-.
  apply db_clear_eq in E, E0. unfold sstrip. cbn [s_vals s_keys]. rewrite E. cbn [mbind res_bind]. rewrite E0. done.
Qed.
Lemma dnew_table_eq kw vw d : dnew_table pf c kw vw = Ok d -> strip d = new_table pf c kw vw.
Proof. unfold dnew_table. intros H. dinv1 H. dinv_all H. by injection H as <-. Qed.
Lemma dclear_structure_eq d d' : dclear_structure pf c d = Ok d' -> clear_structure pf c (strip d) = Ok (strip d').
Proof.
  unfold dclear_structure. intros H. dinv1 H. injection H as <-. unfold strip. cbn. f_equal.
  unfold clear_structure in E. dinv1 E. dinv1 E. by injection E as <-.
Qed.

(** A mapped loop over indexed elements. *)
Lemma rmap_imap_eq {A A' B B'} (f : nat * A -> res B) (g : A' -> res B') (p : A -> A') (q : B -> B') l :
  (forall i x y, f (i, x) = Ok y -> g (p x) = Ok (q y)) ->
  forall h l', rmap f (imap (fun i x => (h i, x)) l) = Ok l' -> rmap g (map p l) = Ok (map q l').
Proof.
  intros Hfg. induction l as [|x l IH]; intros h l' H.
  - cbn in H. injection H as <-. done.
  - rewrite imap_cons in H. cbn [rmap] in H. dinv1 H. dinv1 H. injection H as <-.
    cbn [map rmap]. rewrite (Hfg _ _ _ E). cbn [mbind res_bind].
    rewrite (IH (h ∘ S) a0); [done|]. exact E0.
Qed.
Lemma rmap_pair_eq {A A' B B'} (f : nat * A -> res B) (g : A' -> res B') (p : A -> A') (q : B -> B') l l' :
  (forall i x y, f (i, x) = Ok y -> g (p x) = Ok (q y)) -> rmap f (imap pair l) = Ok l' -> rmap g (map p l) = Ok (map q l').
Proof. intros Hfg H. by apply (rmap_imap_eq f g p q l Hfg id). Qed.

Lemma dclear_eq d d' : dclear pf c d = Ok d' -> clear pf c (strip d) = Ok (strip d').
Proof.
  unfold dclear, clear. intros H. unfold strip at 1. cbn [t_slots]. destruct (d_slots d) as [sl|] eqn:Es; cbn [fmap option_fmap option_map].
  - cbv zeta. dinv1 H. unfold dbucket_count in E. change (map sstrip sl) with (sstrip <$> sl). rewrite <-fmap_take.
    change (sstrip <$> ?l) with (map sstrip l).
    rewrite (rmap_pair_eq _ (fun s0 : slot => if s_size s0 =? 0 then Ok s0 else clear_slot pf c s0) sstrip sstrip _ _) with (2 := E).
    + cbn [mbind res_bind]. apply dclear_structure_eq in H. rewrite <-H. unfold strip. cbn. do 2 f_equal. f_equal.
      unfold dbucket_count, strip. rewrite map_app. f_equal. symmetry. apply fmap_drop.
    + intros i x y Hx. cbn [sstrip s_size]. destruct (_ =? _); [by injection Hx as ->|]. by apply dclear_slot_eq in Hx.
  - dinv1 H. injection H as <-. unfold strip. cbn [t_ov]. rewrite E. cbn. by rewrite Es.
Qed.

Lemma dalloc_table_eq d n d' : dalloc_table pf c junk d n = Ok d' -> alloc_table pf (strip d) n = Ok (strip d').
Proof.
  unfold dalloc_table, alloc_table. intros H. dinv1 H. cbn [mbind res_bind]. dinv1 H. dinv1 H. apply dov_resize_eq in E1 as ->.
  injection H as <-. unfold strip. cbn. do 3 f_equal. unfold sstrip, empty_slot. change (map ?f ?l) with (f <$> l).
  rewrite fmap_replicate. done.
Qed.

Lemma rfold_eq {A A' B B'} (f : A -> B -> res A) (g : A' -> B' -> res A') (p : A -> A') (q : B -> B') l :
  (forall a x a', f a x = Ok a' -> g (p a) (q x) = Ok (p a')) ->
  forall a a', rfold f l a = Ok a' -> rfold g (map q l) (p a) = Ok (p a').
Proof.
  intros Hfg. induction l as [|x l IH]; intros a a' H; cbn in *; [by injection H as <-|].
  dinv1 H. rewrite (Hfg _ _ _ E). cbn [mbind res_bind]. by apply IH.
Qed.

Section rehash.
Context (ins : dtable -> N -> N -> res (dtable * nav)) (ins0 : table -> N -> N -> res (table * nav)).
Hypothesis Hins : forall d k v r, ins d k v = Ok r -> ins0 (strip d) k v = Ok (strip (fst r), snd r).

Lemma drehash_slot_eq d w tmp i s tmp' : w = qwidth c (strip d) -> drehash_slot pf c ins d w tmp (i, s) = Ok tmp' ->
  rehash_slot pf c ins0 (strip d) (strip tmp) (i, sstrip s) = Ok (strip tmp').
Proof.
  intros -> H. unfold drehash_slot in H. unfold rehash_slot. change (s_size (sstrip s)) with (ds_size s). destruct (_ =? _).
  - change (s_keys (sstrip s)) with (k_b (ds_keys s)). change (s_vals (sstrip s)) with (k_b (ds_vals s)).
    dinv1 H. cbn [mbind res_bind]. dinv1 H. cbn [mbind res_bind]. by injection H as <-.
  - dinv1 H. dinv1 H. injection H as <-.
    rewrite <-(map_id (seq 0 (N.to_nat (ds_size s)))).
    rewrite (rfold_eq _ _ strip id _ ) with (2 := E).
    + cbn [mbind res_bind]. apply dclear_slot_eq in E0. rewrite E0. done.
    + intros a1 j a2 Ha. cbn [id]. change (s_keys (sstrip s)) with (k_b (ds_keys s)). change (s_vals (sstrip s)) with (k_b (ds_vals s)).
      dinv1 Ha. apply db_read_eq in E1. rewrite E1. cbn [mbind res_bind].
      dinv1 Ha. apply dhash_inv_map_eq in E2. unfold dhm in E2. change (t_b (strip d)) with (d_b d). rewrite E2. cbn [mbind res_bind].
      dinv1 Ha. dinv1 Ha. dinv1 Ha. apply db_read_eq in E4. unfold dvwidth in E4. unfold vwidth. change (t_vw (strip d)) with (d_vw d). rewrite E4. cbn [mbind res_bind].
      dinv1 Ha. rewrite (Hins _ _ _ _ E5). cbn [mbind res_bind fst]. injection Ha as <-. done.
Qed.
Lemma drehash_overflow_eq fuel o : forall i tmp tmp', drehash_overflow pf c fuel ins o i tmp = Ok tmp' ->
  rehash_overflow pf c fuel ins0 o i (strip tmp) = Ok (strip tmp').
Proof.
  induction fuel as [|f IH]; intros i tmp tmp' H; cbn [drehash_overflow rehash_overflow] in *; destruct (ov_valid pf o i); try done.
  - by injection H as <-.
  - dinv1 H. apply dov_key_eq in E. rewrite E. cbn [mbind res_bind]. dinv1 H. apply dov_get_eq in E0. rewrite E0. cbn [mbind res_bind].
    dinv1 H. rewrite (Hins _ _ _ _ E1). cbn [mbind res_bind fst]. dinv1 H. apply dov_next_eq in E2 as ->. by apply IH.
  - by injection H as <-.
Qed.
Lemma dreserve_with_eq d n d' : dreserve_with pf c junk ins d n = Ok d' -> reserve_with pf c ins0 (strip d) n = Ok (strip d').
Proof.
  unfold dreserve_with, reserve_with. change (t_b (strip d)) with (d_b d). destruct (_ =? _); [apply dalloc_table_eq|].
  intros H. dinv1 H. cbn [mbind res_bind]. dinv1 H. apply dnew_table_eq in E0. dinv1 H. apply dalloc_table_eq in E1. rewrite E0 in E1.
  change (t_kw (strip d)) with (d_kw d). change (t_vw (strip d)) with (d_vw d). rewrite E1. cbn [mbind res_bind]. dinv1 H. apply dwidth_eq in E2.
  unfold strip at 1. cbn [t_slots]. destruct (d_slots d) as [sl|]; [|done]. cbn [fmap option_fmap option_map].
  dinv1 H. change (map sstrip sl) with (sstrip <$> sl). rewrite <-fmap_take.
  assert (Hi : imap pair (sstrip <$> take (N.to_nat (bucket_count (strip d))) sl)
    = map (fun ib => (fst ib, sstrip (snd ib))) (imap pair (take (N.to_nat (dbucket_count d)) sl))).
  { unfold dbucket_count. generalize (take (N.to_nat (bucket_count (strip d))) sl). intros l.
    change (map ?f ?l) with (f <$> l). rewrite fmap_imap, imap_fmap. done. }
  rewrite Hi. rewrite (rfold_eq _ _ strip _ _) with (2 := E3).
  - cbn [mbind res_bind]. dinv1 H. apply drehash_overflow_eq in E4. change (t_ov (strip d)) with (d_ov d). rewrite E4. cbn [mbind res_bind].
    dinv1 H. dinv1 H. cbn [mbind res_bind]. by injection H as <-.
  - intros t1 [i s] t2 Ht. cbn [fst snd]. by eapply drehash_slot_eq.
Qed.
End rehash.

Lemma dlocate_q_eq d bk q r : dlocate_q pf c d bk q = Ok r -> locate_q pf c (strip d) bk q = Ok r.
Proof.
  unfold dlocate_q, locate_q. intros H. dinv1 H. apply dwidth_eq in E as ->. dinv1 H. dinv1 H. apply dget_slot_eq in E. rewrite E. cbn [mbind res_bind].
  dinv1 H. dinv1 H. apply db_find_eq in E1. cbn [sstrip s_keys s_size]. rewrite E1. cbn [mbind res_bind]. dinv1 H. dinv1 H. done.
Qed.
Lemma dmap_eq d k qb : dmap c d k = Ok qb -> hash_map (hm c (strip d)) k (t_b (strip d)) = Ok qb.
Proof. unfold dmap. intros H. dinv1 H. apply dhash_map_eq in E. dinv1 H. dinv1 H. injection H as <-. done. Qed.
Lemma dpush_slot_eq d bk s k q v s' : dpush_slot pf c d bk s k q v = Ok s' -> push_slot pf c (strip d) (sstrip s) q v = Ok (sstrip s').
Proof.
  unfold dpush_slot, push_slot. intros H. dinv1 H. apply dwidth_eq in E as ->.
  change (t_kw (strip d)) with (d_kw d). change (vwidth (strip d)) with (dvwidth d).
  dinv1 H. rename a into s1, E into E1.
  match goal with |- (mbind _ ?m) = _ => assert (Hm : m = Ok (sstrip s1)) end.
  { change (s_size (sstrip s)) with (ds_size s). change (s_cap (sstrip s)) with (ds_cap s).
    change (s_keys (sstrip s)) with (k_b (ds_keys s)). change (s_vals (sstrip s)) with (k_b (ds_vals s)).
    destruct (ds_size s =? 0).
    - dinv1 E1. apply db_initialize_eq in E. dinv1 E1. apply db_initialize_eq in E0. dinv1 E1. injection E1 as <-. unfold sstrip. cbn. by rewrite E, E0.
    - cbv zeta in E1 |- *. destruct (rs_needs_resize _ _ _); [|by injection E1 as <-].
      dinv1 E1. dinv1 E1. apply db_resize_eq in E0. rewrite E0. cbn [mbind res_bind]. dinv1 E1. apply db_resize_eq in E2. rewrite E2. cbn [mbind res_bind].
      by injection E1 as <-. }
  rewrite Hm. cbn [mbind res_bind]. dinv1 H. cbv zeta in H. dinv1 H. dinv1 H. dinv1 H.
  change (s_size (sstrip s1)) with (ds_size s1). change (s_cap (sstrip s1)) with (ds_cap s1).
  change (s_keys (sstrip s1)) with (k_b (ds_keys s1)). change (s_vals (sstrip s1)) with (k_b (ds_vals s1)).
  dinv1 H. apply db_write_eq in E0. rewrite E0. cbn [mbind res_bind]. dinv1 H. dinv1 H. dinv1 H. dinv1 H. apply db_write_eq in E4. rewrite E4. cbn [mbind res_bind].
  by injection H as <-.
Qed.

Lemma dfind_or_insert_eq : forall fuel d k v r, dfind_or_insert pf c junk fuel d k v = Ok r ->
  find_or_insert pf c fuel (strip d) k v = Ok (strip (fst r), snd r).
Proof.
  induction fuel as [|f IH]; intros d k v r H; [done|]. cbn [dfind_or_insert find_or_insert] in *.
  dinv1 H. dinv1 H. rename a into d1.
  assert (E1 : (if t_b (strip d) =? 0 then alloc_table pf (strip d) (N.min (sub64 (t_kw (strip d)) 1) 16) else Ok (strip d)) = Ok (strip d1)).
  { change (t_b (strip d)) with (d_b d). destruct (_ =? _); [by apply dalloc_table_eq in E|by injection E as ->]. }
  rewrite E1. cbn [mbind res_bind]. clear E E1 Ec d. rename d1 into d.
  dinv1 H. apply dmap_eq in E. rewrite E. cbn [mbind res_bind]. destruct a as [q bk].
  dinv1 H. apply dget_slot_eq in E0. rewrite E0. cbn [mbind res_bind]. rename a into s.
  dinv1 H. apply dlocate_q_eq in E1. rewrite E1. cbn [mbind res_bind]. destruct a as [p|].
  { dinv1 H. injection H as <-. done. }
  dinv1 H. apply dov_need_consult_eq in E2. change (t_ov (strip d)) with (d_ov d). rewrite E2. cbn [mbind res_bind].
  dinv1 H.
  assert (E4 : (if a then ov_find pf (kbn c) (d_ov d) k else Ok None) = Ok a0) by (destruct a; [by apply dov_find_eq|done]).
  rewrite E4. cbn [mbind res_bind]. clear E3 E4. destruct a0 as [p|]; [by injection H as <-|].
  change (s_size (sstrip s)) with (ds_size s). destruct (_ =? _).
  - dinv1 H.
    assert (E5 : (if ov_size (d_ov d) <? ov_capacity (d_ov d) then ov_insert pf (kbn c) (vbn c) (d_ov d) bk k (v mod 2 ^ N.of_nat (vbn c))
      else Ok (d_ov d, None)) = Ok a0).
    { destruct (_ <? _); [by apply dov_insert_eq in E3|done]. }
    rewrite E5. cbn [mbind res_bind]. clear E3 E5. destruct a0 as [o [p|]].
    + cbv zeta in H. dinv_all H. by injection H as <-.
    + cbv zeta in H |- *. dinv1 H. change (t_b (set_ov (strip d) o)) with (d_b (dset_ov d o)). rewrite E3. cbn [mbind res_bind].
      dinv1 H. eapply dreserve_with_eq in E4; [|exact IH]. rewrite strip_set_ov in E4. rewrite E4. cbn [mbind res_bind]. by apply IH.
  - dinv1 H. apply dpush_slot_eq in E3. rewrite E3. cbn [mbind res_bind]. injection H as <-. cbn [fst snd]. rewrite strip_set_slot. done.
Qed.
Lemma dreserve_eq fuel d n d' : dreserve pf c junk fuel d n = Ok d' -> reserve pf c fuel (strip d) n = Ok (strip d').
Proof. unfold dreserve, reserve. apply dreserve_with_eq. apply dfind_or_insert_eq. Qed.

Lemma dnav_key_eq d x k : dnav_key pf c d x = Ok k -> nav_key pf c (strip d) x = Ok k.
Proof.
  unfold dnav_key, nav_key. intros H. dinv1 H. dinv1 H. dinv1 H. apply dwidth_eq in E0 as ->. destruct x as [bk pos].
  change (t_ov (strip d)) with (d_ov d). unfold dbucket_count in H. destruct (_ && _); [by apply dov_key_eq in H|].
  unfold quotient_at. dinv1 H. dinv1 H. apply dget_slot_eq in E0. rewrite E0. cbn [mbind res_bind]. dinv1 H. apply db_read_eq in E1.
  change (s_keys (sstrip a0)) with (k_b (ds_keys a0)). rewrite E1. cbn [mbind res_bind]. by apply dhash_inv_map_eq.
Qed.
Lemma dnav_value_eq d x v : dnav_value pf c d x = Ok v -> nav_value pf c (strip d) x = Ok v.
Proof.
  unfold dnav_value, nav_value. intros H. dinv1 H. dinv1 H. destruct x as [bk pos].
  change (t_ov (strip d)) with (d_ov d). unfold dbucket_count in H. destruct (_ && _); [by apply dov_get_eq in H|].
  unfold value_at. destruct (_ =? _); [by apply dov_get_eq in H|]. dinv1 H. dinv1 H. apply dget_slot_eq in E0. rewrite E0. cbn [mbind res_bind].
  by apply db_read_eq in H.
Qed.
Lemma diter_at_eq d x e : diter_at pf c d x = Ok e -> iter_at pf c (strip d) x = Ok e.
Proof.
  unfold diter_at, iter_at. intros H. dinv1 H. cbn [mbind res_bind]. destruct a; [done|]. dinv1 H. apply dnav_key_eq in E0. rewrite E0. cbn [mbind res_bind].
  dinv1 H. apply dnav_value_eq in E1. rewrite E1. done.
Qed.
Lemma dkey_at_eq d x e : dkey_at pf c d x = Ok e -> key_at pf c (strip d) x = Ok e.
Proof.
  unfold dkey_at, key_at. intros H. dinv1 H. cbn [mbind res_bind]. destruct a; [done|]. dinv1 H. apply dnav_key_eq in E0. rewrite E0. done.
Qed.
Lemma dfind_eq d k x : dfind pf c d k = Ok x -> TableModel.find pf c (strip d) k = Ok x.
Proof.
  unfold dfind, TableModel.find. change (t_b (strip d)) with (d_b d). destruct (_ =? _); [done|]. intros H. dinv1 H.
  change (t_ov (strip d)) with (d_ov d).
  assert (E4 : (if 0 <? ov_size (d_ov d) then ov_find pf (kbn c) (d_ov d) k else Ok None) = Ok a) by (destruct (_ <? _); [by apply dov_find_eq|done]).
  rewrite E4. cbn [mbind res_bind]. dinv1 H. dinv1 H. injection H as <-. destruct a as [p|]; [by injection E0 as <-|].
  dinv1 E0. apply dmap_eq in E2. change (t_b (strip d)) with (d_b d) in E2. rewrite E2. cbn [mbind res_bind]. destruct a as [q bk]. dinv1 E0. apply dlocate_q_eq in E3. rewrite E3. cbn [mbind res_bind].
  done.
Qed.
Lemma dcount_eq d k n : dcount pf c d k = Ok n -> count pf c (strip d) k = Ok n.
Proof. unfold dcount, count. intros H. dinv1 H. apply dfind_eq in E. rewrite E. done. Qed.
Lemma dlocate_eq d k r : dlocate pf c d k = Ok r -> locate pf c (strip d) k = Ok r.
Proof.
  unfold dlocate, locate. change (t_b (strip d)) with (d_b d). destruct (_ =? _); [done|]. intros H. dinv1 H.
  apply dmap_eq in E. change (t_b (strip d)) with (d_b d) in E. rewrite E. cbn [mbind res_bind]. destruct a as [q bk]. dinv1 H. apply dov_need_consult_eq in E0.
  change (t_ov (strip d)) with (d_ov d). rewrite E0. cbn [mbind res_bind]. dinv1 H.
  assert (E4 : (if a && (0 <? ov_size (d_ov d)) then ov_find pf (kbn c) (d_ov d) k else Ok None) = Ok a0) by (destruct (_ && _); [by apply dov_find_eq|done]).
  rewrite E4. cbn [mbind res_bind]. destruct a0; [done|]. dinv1 H. apply dlocate_q_eq in E2. rewrite E2. done.
Qed.
Lemma dwrite_value_eq d x v d' : dwrite_value pf c d x v = Ok d' -> write_value pf c (strip d) x v = Ok (strip d').
Proof.
  unfold dwrite_value, write_value. destruct x as [bk pos]. unfold dbucket_count. intros H. destruct (_ =? _).
  - dinv1 H. apply dov_set_eq in E. change (t_ov (strip d)) with (d_ov d). rewrite E. cbn [mbind res_bind]. by injection H as <-.
  - dinv1 H. dinv1 H. dinv1 H. apply dget_slot_eq in E. rewrite E. cbn [mbind res_bind]. dinv1 H. apply db_write_eq in E0.
    change (s_vals (sstrip a)) with (k_b (ds_vals a)). change (vwidth (strip d)) with (dvwidth d). rewrite E0. cbn [mbind res_bind]. injection H as <-. by rewrite strip_set_slot.
Qed.
Lemma derase_at_eq d x r : derase_at pf c d x = Ok r -> erase_at pf c (strip d) x = Ok (strip (fst r), snd r).
Proof.
  unfold derase_at, erase_at. destruct x as [bk pos]. unfold dbucket_count. intros H. destruct (pos =? ones64); [by injection H as <-|].
  change (t_ov (strip d)) with (d_ov d). destruct (_ && _).
  - dinv1 H. dinv1 H. apply dov_erase_eq in E. rewrite E. cbn [mbind res_bind]. by injection H as <-.
  - dinv1 H. dinv1 H. apply dget_slot_eq in E. rewrite E. cbn [mbind res_bind]. rename a into s. dinv1 H. dinv1 H. dinv1 H. dinv1 H. apply dwidth_eq in E1 as ->.
    change (s_size (sstrip s)) with (ds_size s). change (s_cap (sstrip s)) with (ds_cap s).
    change (s_keys (sstrip s)) with (k_b (ds_keys s)). change (s_vals (sstrip s)) with (k_b (ds_vals s)). change (vwidth (strip d)) with (dvwidth d).
    dinv1 H. apply db_erase_eq in E1. rewrite E1. cbn [mbind res_bind]. dinv1 H. apply db_erase_eq in E2. rewrite E2. cbn [mbind res_bind].
    dinv1 H. dinv1 H. cbv zeta in H |- *. cbn [s_size ds_size] in H |- *. destruct (_ =? _).
    + dinv1 H. apply dclear_slot_eq in E4. change (sstrip (DSlot a0 a1 (sub8 (ds_size s) 1) (ds_cap s) a2)) with (Slot (k_b a0) (k_b a1) (sub8 (ds_size s) 1) (ds_cap s)) in E4. rewrite E4.
      cbn [mbind res_bind]. injection H as <-. cbn [fst snd]. by rewrite strip_set_slot.
    + injection H as <-. cbn [fst snd]. by rewrite strip_set_slot.
Qed.
Lemma derase_eq d k r : derase pf c d k = Ok r -> erase pf c (strip d) k = Ok (strip (fst r), snd r).
Proof.
  unfold derase, erase. change (t_b (strip d)) with (d_b d). destruct (_ =? _); [by intros [= <-]|]. intros H. dinv1 H. apply dlocate_eq in E. rewrite E. cbn [mbind res_bind].
  destruct a as [bk pos]. by apply derase_at_eq.
Qed.
Lemma dshrink_slot_eq d bk s s' : dshrink_slot pf c d bk s = Ok s' -> shrink_slot pf c (strip d) (sstrip s) = Ok (sstrip s').
Proof.
  unfold dshrink_slot, shrink_slot. intros H. dinv1 H. apply dwidth_eq in E as ->.
  change (s_size (sstrip s)) with (ds_size s). change (s_cap (sstrip s)) with (ds_cap s).
  change (s_keys (sstrip s)) with (k_b (ds_keys s)). change (s_vals (sstrip s)) with (k_b (ds_vals s)). change (vwidth (strip d)) with (dvwidth d).
  destruct (_ =? _); [by injection H as <-|]. destruct (rs_can_shrink _ _ _); [|by injection H as <-]. cbv zeta in H |- *.
  dinv1 H. apply db_resize_eq in E. rewrite E. cbn [mbind res_bind]. dinv1 H. apply db_resize_eq in E0. rewrite E0. cbn [mbind res_bind]. dinv1 H. by injection H as <-.
Qed.
Lemma dshrink_to_fit_eq d d' : dshrink_to_fit pf c d = Ok d' -> shrink_to_fit pf c (strip d) = Ok (strip d').
Proof.
  unfold dshrink_to_fit, shrink_to_fit. change (t_b (strip d)) with (d_b d). destruct (_ =? _); [by intros [= <-]|]. intros H.
  unfold strip at 1. cbn [t_slots]. destruct (d_slots d) as [sl|] eqn:Es; [|done]. cbn [fmap option_fmap option_map].
  dinv1 H. unfold dbucket_count in E. change (map sstrip sl) with (sstrip <$> sl). rewrite <-fmap_take.
  change (sstrip <$> ?l) with (map sstrip l).
  rewrite (rmap_pair_eq _ (shrink_slot pf c (strip d)) sstrip sstrip _ _) with (2 := E).
  - cbn [mbind res_bind]. injection H as <-. unfold strip. cbn. do 3 f_equal. unfold dbucket_count, strip. rewrite map_app. f_equal. symmetry. apply fmap_drop.
  - intros i x y Hx. by apply dshrink_slot_eq in Hx.
Qed.
Lemma dnav_next_eq d x y : dnav_next pf d x = Ok y -> nav_next pf (strip d) x = Ok y.
Proof.
  unfold dnav_next. destruct x as [bk pos]. intros H. unfold dbucket_count in H. destruct (_ && _) eqn:Eb.
  - dinv1 H. apply dov_next_eq in E as ->. unfold nav_next. change (t_ov (strip d)) with (d_ov d). rewrite Eb. done.
  - by dinv1 H.
Qed.
Lemma dnav_prev_eq d x y : dnav_prev pf d x = Ok y -> nav_prev pf (strip d) x = Ok y.
Proof.
  unfold dnav_prev. destruct x as [bk pos]. intros H. unfold dbucket_count in H. destruct (_ && _) eqn:Eb.
  - destruct (0 <? pos) eqn:Ep; [|done]. dinv1 H. apply dov_prev_eq in E as ->. unfold nav_prev. change (t_ov (strip d)) with (d_ov d). rewrite Eb, Ep. done.
  - by dinv1 H.
Qed.
Lemma diterate_eq d : forall fuel x l, diterate pf c fuel d x = Ok l -> iterate pf c fuel (strip d) x = Ok l.
Proof.
  induction fuel as [|f IH]; intros x l H; cbn [diterate iterate] in *; dinv1 H; cbn [mbind res_bind]; destruct a; try done.
  dinv1 H. apply dnav_key_eq in E0. dinv1 H. apply dnav_value_eq in E1. dinv1 H. apply dnav_next_eq in E2. dinv1 H. apply IH in E3.
  unfold nav_read. rewrite E0. cbn [mbind res_bind]. rewrite E1. cbn [mbind res_bind]. rewrite E2. cbn [mbind res_bind]. rewrite E3. done.
Qed.
Lemma diterate_rev_eq d : forall fuel x l, diterate_rev pf c fuel d x = Ok l -> iterate_rev pf c fuel (strip d) x = Ok l.
Proof.
  induction fuel as [|f IH]; intros x l H; cbn [diterate_rev iterate_rev] in *; dinv1 H; cbn [mbind res_bind]; destruct a; try done.
  dinv1 H. apply dnav_key_eq in E0. dinv1 H. apply dnav_value_eq in E1. dinv1 H. apply dnav_prev_eq in E2. dinv1 H. apply IH in E3.
  unfold nav_read. rewrite E0. cbn [mbind res_bind]. rewrite E1. cbn [mbind res_bind]. rewrite E2. cbn [mbind res_bind]. rewrite E3. done.
Qed.
Lemma dforward_eq fuel d l : dforward pf c fuel d = Ok l -> forward pf c fuel (strip d) = Ok l.
Proof. unfold dforward, forward. intros H. dinv1 H. cbn [mbind res_bind]. by apply diterate_eq. Qed.
Lemma dbackward_eq fuel d l : dbackward pf c fuel d = Ok l -> backward pf c fuel (strip d) = Ok l.
Proof. unfold dbackward, backward. intros H. dinv1 H. cbn [mbind res_bind]. by apply diterate_rev_eq. Qed.

(** Whole histories. *)
Lemma drun_op_eq fuel d o r : drun_op pf c junk fuel d o = Ok r -> run_op pf c fuel (strip d) o = Ok (strip (fst r), snd r).
Proof.
  destruct o; cbn [drun_op run_op]; intros H.
  - dinv1 H. apply dfind_eq in E. rewrite E. cbn [mbind res_bind]. dinv1 H. apply diter_at_eq in E0. rewrite E0. cbn [mbind res_bind]. by injection H as <-.
  - dinv1 H. apply dcount_eq in E. rewrite E. cbn [mbind res_bind]. by injection H as <-.
  - dinv1 H. apply dfind_or_insert_eq in E. rewrite E. cbn [mbind res_bind]. destruct a as [d1 x]. dinv1 H. apply diter_at_eq in E0. cbn [fst snd]. rewrite E0. cbn [mbind res_bind]. by injection H as <-.
  - unfold dindex in H. unfold index. dinv1 H. apply dfind_or_insert_eq in E. rewrite E. cbn [mbind res_bind]. destruct a as [d1 x]. dinv1 H. apply dnav_value_eq in E0. cbn [fst snd]. rewrite E0. cbn [mbind res_bind]. by injection H as <-.
  - unfold dindex in H. unfold index. dinv1 H. apply dfind_or_insert_eq in E. rewrite E. cbn [mbind res_bind]. destruct a as [d1 x]. dinv1 H. apply dwrite_value_eq in E0. cbn [fst snd]. rewrite E0. cbn [mbind res_bind]. by injection H as <-.
  - dinv1 H. apply derase_eq in E. rewrite E. cbn [mbind res_bind]. destruct a as [d1 x]. by injection H as <-.
  - dinv1 H. apply dfind_eq in E. rewrite E. cbn [mbind res_bind]. dinv1 H. apply derase_at_eq in E0. rewrite E0. cbn [mbind res_bind]. destruct a0 as [d1 x]. by injection H as <-.
  - by injection H as <-.
  - by injection H as <-.
  - dinv1 H. apply dreserve_eq in E. rewrite E. cbn [mbind res_bind]. by injection H as <-.
  - dinv1 H. apply dshrink_to_fit_eq in E. rewrite E. cbn [mbind res_bind]. by injection H as <-.
  - dinv1 H. apply dclear_eq in E. rewrite E. cbn [mbind res_bind]. by injection H as <-.
Qed.
Lemma drun_ops_eq fuel ops : forall d r, drun_ops pf c junk fuel d ops = Ok r -> run_ops pf c fuel (strip d) ops = Ok (strip (fst r), snd r).
Proof.
  induction ops as [|o ops IH]; intros d r H; cbn [drun_ops run_ops] in *; [by injection H as <-|].
  dinv1 H. apply drun_op_eq in E. rewrite E. cbn [mbind res_bind]. destruct a as [d1 x]. dinv1 H. apply IH in E0. cbn [fst snd] in *. rewrite E0. cbn [mbind res_bind].
  destruct a as [d2 xs]. by injection H as <-.
Qed.
Lemma drun_sop_eq fuel d o r : drun_sop pf c junk fuel d o = Ok r -> run_sop pf c fuel (strip d) o = Ok (strip (fst r), snd r).
Proof.
  destruct o; cbn [drun_sop run_sop]; intros H.
  - dinv1 H. apply dfind_eq in E. rewrite E. cbn [mbind res_bind]. dinv1 H. apply dkey_at_eq in E0. rewrite E0. cbn [mbind res_bind]. by injection H as <-.
  - dinv1 H. apply dcount_eq in E. rewrite E. cbn [mbind res_bind]. by injection H as <-.
  - dinv1 H. apply dfind_or_insert_eq in E. rewrite E. cbn [mbind res_bind]. destruct a as [d1 x]. dinv1 H. apply dkey_at_eq in E0. cbn [fst snd]. rewrite E0. cbn [mbind res_bind]. by injection H as <-.
  - dinv1 H. apply derase_eq in E. rewrite E. cbn [mbind res_bind]. destruct a as [d1 x]. by injection H as <-.
  - by injection H as <-.
  - by injection H as <-.
  - dinv1 H. apply dreserve_eq in E. rewrite E. cbn [mbind res_bind]. by injection H as <-.
  - dinv1 H. apply dshrink_to_fit_eq in E. rewrite E. cbn [mbind res_bind]. by injection H as <-.
  - dinv1 H. apply dclear_eq in E. rewrite E. cbn [mbind res_bind]. by injection H as <-.
Qed.
Lemma drun_sops_eq fuel ops : forall d r, drun_sops pf c junk fuel d ops = Ok r -> run_sops pf c fuel (strip d) ops = Ok (strip (fst r), snd r).
Proof.
  induction ops as [|o ops IH]; intros d r H; cbn [drun_sops run_sops] in *; [by injection H as <-|].
  dinv1 H. apply drun_sop_eq in E. rewrite E. cbn [mbind res_bind]. destruct a as [d1 x]. dinv1 H. apply IH in E0. cbn [fst snd] in *. rewrite E0. cbn [mbind res_bind].
  destruct a as [d2 xs]. by injection H as <-.
Qed.
End trans.
