(** Proofs about array_overflow: sequences of insertions, lookups, erasures. *)
From Verif Require Export OverflowModel Chain.

Section arr.
Context (pf : platform) (kb vb : nat).
Notation fresh := (if zero_fresh pf then Some 0 else None).
Notation LEN := 256%nat.

(** The slots hold [l], the others are fresh. *)
Definition arr_state (l : list (N * N)) (full : list bool) : overflow :=
  OArray (Some (TMalloc, Cells (map (fun e => Some (fst e)) l ++ replicate (LEN - length l) fresh)))
         (Some (TMalloc, Cells (map (fun e => Some (snd e)) l ++ replicate (LEN - length l) fresh))) (N.of_nat (length l)) full.

Lemma arr_new n : ov_resize_buckets pf (ov_new pf kb vb OvArray) n = arr_state [] (replicate (N.to_nat n) false).
Proof.
  unfold arr_state. cbn [ov_new ov_resize_buckets length map app]. unfold bv_resize. rewrite take_nil. cbn [app length].
  by rewrite Nat.sub_0_r.
Qed.
Lemma cells_push {A} (l : list (option A)) n f x : (0 < n)%nat -> <[length l := Some x]> (l ++ replicate n f) = (l ++ [Some x]) ++ replicate (n - 1) f.
Proof. intros Hn. destruct n; [lia|]. cbn [replicate]. rewrite insert_app_r_alt, Nat.sub_diag by lia. cbn. by rewrite <-app_assoc, Nat.sub_0_r. Qed.

Lemma arr_insert l full bk k v : (length l < LEN)%nat -> bk < N.of_nat (length full) -> k < 2^N.of_nat kb -> v < 2^N.of_nat vb ->
  ov_insert pf kb vb (arr_state l full) bk k v = Ok (arr_state (l ++ [(k, v)]) (<[N.to_nat bk := true]> full), Some (N.of_nat (length l))).
Proof.
  intros Hl Hb Hk Hv. unfold arr_state. cbn [ov_insert b_write]. unfold bv_set. rewrite (proj2 (N.ltb_lt _ _) Hb). cbn [mbind res_bind].
  rewrite !Nat2N.id.
  assert (E : forall g : N * N -> option N, (length l <? length (map g l ++ replicate (LEN - length l) fresh))%nat = true).
  { intros g. apply Nat.ltb_lt. rewrite app_length, map_length, replicate_length. lia. }
  rewrite !E. cbn [mbind res_bind]. rewrite !N.mod_small by done.
  assert (EK := cells_push (map (fun e : N * N => Some (fst e)) l) (LEN - length l) fresh k ltac:(lia)). rewrite map_length in EK. rewrite EK.
  assert (EV := cells_push (map (fun e : N * N => Some (snd e)) l) (LEN - length l) fresh v ltac:(lia)). rewrite map_length in EV. rewrite EV.
  unfold u64. rewrite (N.mod_small _ (2^64)) by (change (2^64) with 18446744073709551616; lia).
  rewrite !map_app. cbn [map fst snd]. rewrite app_length. cbn [length].
  replace (LEN - (length l + 1))%nat with (LEN - length l - 1)%nat by lia.
  replace (N.of_nat (length l) + 1) with (N.of_nat (length l + 1)) by lia. done.
Qed.

(** Insertion of a list of (bucket, key, value). *)
Definition arr_inserts (l : list (N * N * N)) (o : overflow) : res overflow :=
  rfold (fun o e => r ← ov_insert pf kb vb o (fst (fst e)) (snd (fst e)) (snd e); Ok (fst r)) l o.
Lemma arr_inserts_spec l : forall l0 full, (length l0 + length l <= LEN)%nat ->
  Forall (fun e => fst (fst e) < N.of_nat (length full) /\ snd (fst e) < 2^N.of_nat kb /\ snd e < 2^N.of_nat vb) l ->
  exists full', arr_inserts l (arr_state l0 full) = Ok (arr_state (l0 ++ map (fun e => (snd (fst e), snd e)) l) full')
    /\ length full' = length full
    /\ (forall b, full !! b = Some true -> full' !! b = Some true)
    /\ Forall (fun e => full' !! N.to_nat (fst (fst e)) = Some true) l.
Proof.
  induction l as [|[[bk k] v] l IH]; intros l0 full Hlen HF.
  - exists full. rewrite app_nil_r. repeat split; auto.
  - apply Forall_cons in HF as [(Hb & Hk & Hv) HF]. cbn [fst snd] in *. cbn [length] in Hlen.
    destruct (IH (l0 ++ [(k, v)]) (<[N.to_nat bk := true]> full)) as (full' & E & Hl & Hm & HT).
    { rewrite app_length. cbn [length]. lia. }
    { by rewrite insert_length. }
    exists full'. split.
    { assert (Es : arr_inserts ((bk, k, v) :: l) (arr_state l0 full)
        = (o ← (r ← ov_insert pf kb vb (arr_state l0 full) bk k v; Ok (fst r)); arr_inserts l o)) by done.
      rewrite Es, arr_insert by (done || lia). cbn [mbind res_bind fst]. rewrite E. by rewrite <-app_assoc. }
    rewrite insert_length in Hl. split; [done|].
    assert (Hbk : full' !! N.to_nat bk = Some true) by (apply Hm; apply list_lookup_insert; lia).
    split.
    + intros b Hfb. apply Hm. destruct (decide (b = N.to_nat bk)) as [->|Hne]; [apply list_lookup_insert; lia|]. by rewrite list_lookup_insert_ne.
    + by apply List.Forall_cons.
Qed.

Lemma find_known xs : forall pre tl k n,
  cells_find_loop (pre ++ map Some xs ++ tl) k (length pre) (length xs + n) =
  match first_index k xs with
  | Some j => Ok (Some (length pre + j)%nat)
  | None => cells_find_loop (pre ++ map Some xs ++ tl) k (length pre + length xs) n
  end.
Proof.
  induction xs as [|x xs IH]; intros pre tl k n; cbn [length first_index].
  - by rewrite Nat.add_0_r.
  - cbn [plus cells_find_loop map]. unfold cell_read at 1. rewrite lookup_app_r, Nat.sub_diag by lia. cbn [lookup list_lookup app mbind res_bind].
    destruct (x =? k) eqn:E; [by rewrite Nat.add_0_r|].
    specialize (IH (pre ++ [Some x]) tl k n). rewrite <-!app_assoc in IH. cbn [app] in IH. rewrite app_length in IH. cbn [length] in IH.
    replace (S (length pre)) with (length pre + 1)%nat by lia. rewrite IH. destruct (first_index k xs); cbn [fmap option_fmap option_map].
    + do 2 f_equal. lia.
    + by replace (length pre + 1 + length xs)%nat with (length pre + S (length xs))%nat by lia.
Qed.
Lemma find_fresh pre k : forall n m i, (i + n <= m)%nat ->
  cells_find_loop (pre ++ replicate m (Some 0)) k (length pre + i) n = if (0 =? k) && negb (n =? 0)%nat then Ok (Some (length pre + i)%nat) else Ok None.
Proof.
  induction n as [|n IH]; intros m i Hi; [by rewrite andb_false_r|]. cbn [cells_find_loop]. unfold cell_read at 1.
  rewrite lookup_app_r by lia. replace (length pre + i - length pre)%nat with i by lia. rewrite lookup_replicate_2 by lia.
  cbn [mbind res_bind]. destruct (0 =? k) eqn:E; [done|]. replace (S (length pre + i)) with (length pre + S i)%nat by lia.
  rewrite IH by lia. done.
Qed.

Lemma arr_find l full k : (length l <= LEN)%nat -> k < 2^N.of_nat kb ->
  ov_find pf kb (arr_state l full) k =
  match first_index k (map fst l) with
  | Some j => Ok (Some (N.of_nat j))
  | None => if (length l =? LEN)%nat then Ok None
            else if zero_fresh pf then if 0 =? k then Ok (Some (N.of_nat (length l))) else Ok None
            else Ub Indeterminate
  end.
Proof.
  intros Hl Hk. unfold arr_state. cbn [ov_find b_find]. rewrite N.mod_small by done. change (N.to_nat ARRAY_OVERFLOW_LENGTH) with LEN.
  assert (E : map (fun e : N * N => Some (fst e)) l = map Some (map fst l)) by (by rewrite map_map).
  pose proof (find_known (map fst l) [] (replicate (LEN - length l) fresh) k (LEN - length l)) as HF. rewrite map_length in HF.
  cbn [length app plus] in HF. replace (length l + (LEN - length l))%nat with LEN in HF by lia. rewrite E, HF.
  destruct (first_index k (map fst l)) as [j|] eqn:Ej; [done|]. clear HF.
  destruct (Nat.eqb_spec (length l) LEN) as [El|Hne].
  - replace (LEN - length l)%nat with 0%nat by lia. done.
  - destruct (zero_fresh pf) eqn:Ez.
    + pose proof (find_fresh (map Some (map fst l)) k (LEN - length l) (LEN - length l) 0 ltac:(lia)) as HF.
      rewrite !map_length, Nat.add_0_r in HF. rewrite HF. destruct (0 =? k); [|done].
      destruct (Nat.eqb_spec (LEN - length l) 0); [lia|]. done.
    + assert (Hx : (LEN - length l = S (LEN - length l - 1))%nat) by lia. rewrite Hx. cbn [cells_find_loop]. unfold cell_read.
      rewrite lookup_app_r by (rewrite !map_length; lia). rewrite !map_length, Nat.sub_diag. done.
Qed.
Lemma first_index_nodup ks : forall i k, NoDup ks -> ks !! i = Some k -> first_index k ks = Some i.
Proof.
  induction ks as [|x ks IH]; intros i k Hnd Hi; [done|]. apply NoDup_cons in Hnd as [Hx Hnd]. cbn [first_index]. destruct i as [|i].
  - injection Hi as ->. by rewrite N.eqb_refl.
  - cbn in Hi. destruct (N.eqb_spec x k) as [->|_]; [by apply elem_of_list_lookup_2 in Hi|]. by rewrite (IH i k Hnd Hi).
Qed.
Lemma first_index_none ks k : k ∉ ks -> first_index k ks = None.
Proof.
  induction ks as [|x ks IH]; intros Hk; [done|]. apply not_elem_of_cons in Hk as [Hx Hk]. cbn [first_index].
  destruct (N.eqb_spec x k) as [->|_]; [done|]. by rewrite (IH Hk).
Qed.
Lemma arr_at l full i k v : l !! i = Some (k, v) -> ov_key pf kb (arr_state l full) (N.of_nat i) = Ok k /\ ov_get pf vb (arr_state l full) (N.of_nat i) = Ok v
  /\ ov_valid pf (arr_state l full) (N.of_nat i) = true.
Proof.
  intros Hi. pose proof (lookup_lt_Some _ _ _ Hi) as Hl. unfold arr_state. cbn [ov_key ov_get ov_valid b_read]. unfold cell_read. rewrite !Nat2N.id.
  rewrite !lookup_app_l by (by rewrite map_length).
  assert (E1 := list_lookup_fmap (fun e : N * N => Some (fst e)) l i). rewrite Hi in E1. cbn in E1. unfold fmap in E1. cbn in E1.
  assert (E2 := list_lookup_fmap (fun e : N * N => Some (snd e)) l i). rewrite Hi in E2. unfold fmap in E2. cbn in E2.
  change (map (λ e : N * N, Some e.1) l) with (list_fmap _ _ (λ e : N * N, Some e.1) l). change (map (λ e : N * N, Some e.2) l) with (list_fmap _ _ (λ e : N * N, Some e.2) l).
  rewrite E1, E2. split; [done|]. split; [done|]. apply N.ltb_lt. lia.
Qed.
(** Entry at a position. *)
Definition arr_entry (o : overflow) (p : N) : option (N * N) :=
  match o with
  | OArray (Some (_, Cells ks)) (Some (_, Cells vs)) e _ =>
      if p <? e then match ks !! N.to_nat p, vs !! N.to_nat p with Some (Some k), Some (Some v) => Some (k, v) | _, _ => None end else None
  | _ => None
  end.
Lemma arr_entry_lookup l full p : arr_entry (arr_state l full) p = l !! N.to_nat p.
Proof.
  unfold arr_state. cbn [arr_entry]. destruct (N.ltb_spec p (N.of_nat (length l))) as [Hp|Hp].
  - destruct (lookup_lt_is_Some_2 l (N.to_nat p)) as [[k v] E]; [lia|].
    rewrite !lookup_app_l by (rewrite map_length; lia).
    change (map (λ e : N * N, Some e.1) l) with ((λ e : N * N, Some e.1) <$> l). change (map (λ e : N * N, Some e.2) l) with ((λ e : N * N, Some e.2) <$> l).
    by rewrite !list_lookup_fmap, E.
  - symmetry. apply lookup_ge_None_2. lia.
Qed.
Lemma arr_set l full i v : (i < length l)%nat -> 
  ov_set pf vb (arr_state l full) (N.of_nat i) v = Ok (arr_state (alter (fun e => (fst e, v mod 2^N.of_nat vb)) i l) full).
Proof.
  intros Hi. unfold arr_state. cbn [ov_set b_write]. rewrite Nat2N.id.
  assert (E : (i <? length (map (λ e : N * N, Some e.2) l ++ replicate (LEN - length l) fresh))%nat = true).
  { apply Nat.ltb_lt. rewrite app_length, map_length. lia. }
  rewrite E. cbn [mbind res_bind]. rewrite !alter_length, insert_app_l by (by rewrite map_length).
  destruct (lookup_lt_is_Some_2 l i Hi) as [[k w] El].
  do 2 f_equal; do 4 f_equal.
  - apply list_eq. intros j. rewrite !list_lookup_fmap. destruct (decide (i = j)) as [<-|Hne].
    + rewrite list_lookup_alter, El. done.
    + by rewrite list_lookup_alter_ne.
  - apply list_eq. intros j. destruct (decide (i = j)) as [<-|Hne].
    + rewrite list_lookup_insert by (by rewrite map_length). rewrite list_lookup_fmap, list_lookup_alter, El. done.
    + rewrite list_lookup_insert_ne by done. rewrite !list_lookup_fmap. by rewrite list_lookup_alter_ne.
Qed.
Lemma arr_clear l full : exists o, ov_clear pf kb vb (arr_state l full) = Ok o.
Proof. unfold arr_state. cbn [ov_clear]. unfold b_clear. cbn. unfold b_free, free_ok. cbn. eauto. Qed.
End arr.
