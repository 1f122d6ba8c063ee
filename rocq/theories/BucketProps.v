(** Lemmas behind the bucket properties C17, C18, C35, C36. *)
From Verif Require Export BucketProofs.
#[local] Open Scope nat_scope.

(** Access to one element needs either 8 accessible bytes after the block or 64-bit units. *)
Definition elem_room (pf : platform) (iw : nat) (bs : bits) : Prop :=
  8 <= slack pf \/ iw = 64 /\ length bs mod 64 = 0.

Lemma elem_touched_room pf iw w i bs : elem_room pf iw bs -> 1 <= w <= 64 -> width_ok iw ->
  (i + 1) * w <= length bs ->
  touched_end (i * w / iw * iw) (i * w mod iw) w <= length bs + 8 * slack pf.
Proof.
  intros [Hs|[-> Hm]] Hw Hiw Hn; [apply elem_touched; done || lia|].
  transitivity (length bs); [|lia].
  pose proof (pos_split i w 64 ltac:(lia)).
  pose proof (Nat.mod_upper_bound (i * w) 64 ltac:(lia)).
  apply touched_end_aligned; try lia; try done; by apply Nat.mod_mul.
Qed.

Lemma packed_cells_independent pf iw w t bs i v :
  width_ok iw -> 1 <= w <= 64 -> elem_room pf iw bs -> (i + 1) * w <= length bs ->
  exists bs', b_write pf (KVar iw) (Some (t, Bits bs)) i v w = Ok (Some (t, Bits bs'))
    /\ length bs' = length bs
    /\ b_read pf (KVar iw) (Some (t, Bits bs')) i w = Ok (v mod 2^N.of_nat w)%N
    /\ (forall j, j <> i -> b_read pf (KVar iw) (Some (t, Bits bs')) j w = b_read pf (KVar iw) (Some (t, Bits bs)) j w)
    /\ (forall k, k < i * w \/ (i + 1) * w <= k -> bs' !! k = bs !! k).
Proof.
  intros Hiw Hw Hroom Hl. pose proof (width_ok_pos _ Hiw).
  pose proof (pos_split i w iw ltac:(lia)) as Hpos.
  pose proof (elem_touched_room _ _ _ _ _ Hroom Hw Hiw Hl) as Ht.
  cbn [b_write]. rewrite write_int_ok by (done || lia). rewrite Hpos.
  cbn [mbind res_bind]. eexists; split; [done|].
  assert (Hlen : length (wrbits bs (i * w) (nbits w v)) = length bs) by (apply wrbits_length; rewrite nbits_length; lia).
  split; [done|]. split; [|split].
  - cbn [b_read]. unfold read_int. rewrite read_raw_ok by (rewrite Hlen; done). rewrite Hpos. cbn [mbind res_bind].
    pose proof (rdbits_wrbits_same bs (i * w) (nbits w v)) as E. rewrite nbits_length in E.
    rewrite E by lia. apply raw_val_nbits.
  - intros j Hj. cbn [b_read]. unfold read_int, read_raw, accessible. rewrite Hlen.
    destruct (_ <=? _); [|done]. cbn [mbind res_bind].
    rewrite pos_split by lia. rewrite rdbits_wrbits_other; [done|rewrite nbits_length; lia|].
    rewrite nbits_length. destruct (decide (j < i)).
    + left. replace (j * w + w) with ((j + 1) * w) by lia. apply Nat.mul_le_mono_r. lia.
    + right. replace (i * w + w) with ((i + 1) * w) by lia. apply Nat.mul_le_mono_r. lia.
  - intros k Hk. rewrite wrbits_lookup by (rewrite nbits_length; lia).
    rewrite nbits_length. rewrite decide_False by lia. done.
Qed.

(** ** find *)
Definition first_match (xs : list N) (key : N) (r : option nat) : Prop :=
  match r with
  | Some p => xs !! p = Some key /\ forall j, j < p -> xs !! j <> Some key
  | None => key ∉ xs
  end.

Lemma first_index_match key xs : first_match xs key (first_index key xs).
Proof.
  induction xs as [|x xs IH]; cbn.
  - apply not_elem_of_nil.
  - destruct (N.eqb_spec x key) as [->|Hne]; cbn; [split; [done|lia]|].
    destruct (first_index key xs) as [p|]; cbn in *.
    + destruct IH as [IH1 IH2]. split; [done|]. intros [|j] Hj; cbn; [congruence|]. apply IH2. lia.
    + rewrite not_elem_of_cons. split; congruence.
Qed.

Definition find_room (pf : platform) (kd : bkind) (b : bucket) : Prop :=
  match kd, b with
  | KVar iw, Some (_, Bits bs) => 8 <= slack pf \/ iw = 64 /\ length bs mod 64 = 0
  | _, _ => True
  end.

(** [fits kd w x]: x is a value of the bucket's element type. *)
Definition fits (kd : bkind) (w : nat) (x : N) : Prop :=
  match kd with
  | KPlain es | KClass es | KAvx es => (x < 2^N.of_nat es)%N
  | KVar _ => (x < 2^N.of_nat w)%N
  | KNull => False
  end.

Lemma read_int_inv pf bs word off w x : read_int pf bs word off w = Ok x ->
  rdbits bs (word + off) w = nbits w x /\ (x < 2^N.of_nat w)%N.
Proof.
  unfold read_int. destruct (read_raw pf bs word off w) as [c| | |] eqn:E; cbn; try done.
  apply read_raw_inv in E. intros H. unfold raw_val in H. destruct (det c) as [l|] eqn:Ed; simplify_eq.
  apply det_inv in Ed. pose proof (rdbits_length bs (word + off) w) as Hl. rewrite Ed in *.
  rewrite map_length in Hl. unfold nbits. split.
  - rewrite <-Hl at 1. by rewrite bits_of_bits_val.
  - rewrite <-Hl. apply bits_val_lt.
Qed.

Lemma nbits_determined bs p w x : rdbits bs p w = nbits w x -> 1 <= w -> p + w <= length bs.
Proof.
  intros H Hw. destruct (decide (p + w <= length bs)) as [|Hn]; [done|].
  assert (rdbits bs p w !! (w - 1) = Some None) as E.
  { rewrite rdbits_lookup. rewrite decide_True by lia. rewrite lookup_ge_None_2 by lia. done. }
  rewrite H in E. unfold nbits in E. rewrite list_lookup_fmap in E. destruct (bits_of w x !! (w - 1)); done.
Qed.

Lemma bits_find_loop_aligned pf (xs : list N) bs key : length bs mod 64 = 0 ->
  (forall i x, xs !! i = Some x -> rdbits bs (i * 64) 64 = nbits 64 x) ->
  Forall (fun x => (x < 2^N.of_nat 64)%N) xs -> length xs * 64 <= length bs ->
  forall n i, i + n = length xs ->
  bits_find_loop pf bs key (i * 64) 0 64 i n = Ok (Nat.add i <$> first_index key (drop i xs)).
Proof.
  intros Hm H Hf Hl n. induction n as [|n IH]; intros i Hi.
  - rewrite drop_ge by lia. done.
  - cbn [bits_find_loop]. destruct (lookup_lt_is_Some_2 xs i) as [x Hx]; [lia|].
    unfold read_int. rewrite read_raw_ok by (unfold touched_end; cbn [Nat.add]; rewrite Nat.ltb_irrefl; lia).
    cbn [mbind res_bind]. rewrite Nat.add_0_r, (H _ _ Hx), raw_val_nbits, N.mod_small by by apply (Forall_lookup_1 _ _ _ _ Hf Hx).
    cbn [mbind res_bind]. rewrite (drop_S _ _ _ Hx). cbn [first_index]. destruct (x =? key)%N.
    + cbn. do 2 f_equal. lia.
    + unfold move_right. cbn [Nat.add]. rewrite Nat.ltb_irrefl. rewrite Nat.sub_diag.
      replace (i * 64 + 64) with (S i * 64) by lia.
      rewrite IH by lia. destruct (first_index key (drop (S i) xs)); cbn; [do 2 f_equal; lia|done].
Qed.

(** The block of a bucket has the shape its kind uses. *)
Definition typed (kd : bkind) (b : bucket) : Prop :=
  match kd, b with
  | (KPlain _ | KClass _ | KAvx _), Some (_, Cells _) => True
  | KVar _, Some (_, Bits _) => True
  | _, _ => False
  end.

Lemma bucket_find_first pf kd w b xs key : kind_ok kd w -> typed kd b -> find_room pf kd b ->
  (forall i x, xs !! i = Some x -> b_read pf kd b i w = Ok x) ->
  Forall (fits kd w) xs -> fits kd w key ->
  exists r, b_find pf kd b key (length xs) w = Ok r /\ first_match xs key r.
Proof.
  intros Hk Hb Hroom Hrd Hf Hkey. exists (first_index key xs). split; [|apply first_index_match].
  destruct kd as [es|es|es|iw|]; [| | | |destruct Hkey]; destruct b as [[t [cs|bs]]|]; try done.
  1-3: assert (Hcs : forall i x, xs !! i = Some x -> cs !! i = Some (Some x))
       by (intros i x Hx; specialize (Hrd _ _ Hx); cbn in Hrd; unfold cell_read in Hrd;
           destruct (cs !! i) as [[?|]|]; by simplify_eq);
       cbn [b_find]; cbn in Hkey.
  1-2: rewrite N.mod_small by done; rewrite (cells_find_loop_spec xs) by done; rewrite drop_0; by destruct (first_index key xs).
  - by apply avx_find_spec.
  - cbn in Hk, Hkey, Hf, Hroom. destruct Hk as (Hiw & Hw1 & Hw2). pose proof (width_ok_pos _ Hiw).
    assert (Hbs : forall i x, xs !! i = Some x -> rdbits bs (i * w) w = nbits w x).
    { intros i x Hx. specialize (Hrd _ _ Hx). cbn [b_read] in Hrd. apply read_int_inv in Hrd as [E _].
      by rewrite pos_split in E by lia. }
    destruct (decide (xs = [])) as [->|Hne]; [done|].
    assert (Hl : length xs * w <= length bs).
    { destruct (lookup_lt_is_Some_2 xs (length xs - 1)) as [x Hx]; [destruct xs; cbn; [done|lia]|].
      pose proof (lookup_lt_Some _ _ _ Hx).
      apply Hbs, nbits_determined in Hx; [|done].
      replace (length xs * w) with ((length xs - 1) * w + w); [done|].
      replace (length xs) with (S (length xs - 1)) at 2 by lia. lia. }
    cbn [b_find]. destruct ((0 <? length xs) && (w <? 64)) eqn:Ew.
    + unfold broadsearch, accessible.
      assert (64 * cdiv (length xs * w) 64 <= length bs + 8 * slack pf).
      { destruct Hroom as [Hs|[-> Hm]].
        - pose proof (cdiv_least (length xs * w) 64 (length xs * w / 64 + 1) ltac:(lia)) as Hcd.
          pose proof (Nat.div_mod (length xs * w) 64 ltac:(lia)) as Hdm.
          pose proof (Nat.mod_upper_bound (length xs * w) 64 ltac:(lia)). lia.
        - pose proof (cdiv_le_mul (length xs * w) 64 (length bs) ltac:(lia) Hm Hl). lia. }
      rewrite (proj2 (Nat.leb_le _ _)) by lia. cbn [negb].
      rewrite (proj2 (N.ltb_lt _ _) Hkey). cbn [negb].
      rewrite (rmap_ok _ _ xs); [done|].
      apply Forall2_same_length_lookup_2; [by rewrite seq_length|].
      intros j a y Ha Hy. apply lookup_seq in Ha as [-> Hj]. cbn [Nat.add].
      rewrite (Hbs _ _ Hy), raw_val_nbits, N.mod_small; [done|by apply (Forall_lookup_1 _ _ _ _ Hf Hy)].
    + destruct Hroom as [Hs|[-> Hm]].
      * rewrite (bits_find_loop_spec pf xs) by (done || lia). rewrite drop_0. by destruct (first_index key xs).
      * assert (w = 64) as ->.
        { apply andb_false_iff in Ew as [Ew|Ew].
          - apply Nat.ltb_ge in Ew. destruct xs; cbn in Ew; [done|lia].
          - apply Nat.ltb_ge in Ew. lia. }
        pose proof (bits_find_loop_aligned pf xs bs key Hm Hbs Hf Hl (length xs) 0 eq_refl) as E.
        cbn [Nat.mul] in E. rewrite E, drop_0. by destruct (first_index key xs).
Qed.

(** ** C36: what erase and write leave alone *)
Lemma move_chunks_inv pf n : forall bs rw ro ww wo bs' r' ww' wo', wo < 64 ->
  move_chunks pf bs rw ro ww wo n = Ok (bs', r', (ww', wo')) ->
  length bs' = length bs /\ ww' + wo' = ww + wo + 64 * n /\ wo' < 64
  /\ (forall k, k < ww + wo \/ ww + wo + 64 * n <= k -> bs' !! k = bs !! k).
Proof.
  induction n as [|n IH]; intros bs rw ro ww wo bs' r' ww' wo' Hwo H.
  - cbn in H. simplify_eq. repeat split; try lia; done.
  - cbn [move_chunks] in H. rinv H. destruct (move_right rw ro 64) as [rw1 ro1].
    rinv H. destruct (move_right ww wo 64) as [ww1 wo1] eqn:Ew.
    apply move_right_pos in Ew as [Ew Hwo1]; [|lia..].
    apply read_raw_inv in E. apply write_raw_inv in E0 as (-> & Hl & _). subst.
    rewrite rdbits_length in Hl.
    apply IH in H as (H1 & H2 & H3 & H4); [|done].
    rewrite wrbits_length in H1 by (rewrite rdbits_length; lia).
    repeat split; [done|lia|done|].
    intros k Hk. rewrite H4 by lia. rewrite wrbits_lookup by (rewrite rdbits_length; lia).
    rewrite rdbits_length, decide_False by lia. done.
Qed.

Lemma bits_erase_outside pf iw bs pos len w bs' : width_ok iw -> pos < len ->
  bits_erase pf iw bs pos len w = Ok bs' ->
  length bs' = length bs /\ forall k, k < pos * w \/ len * w <= k -> bs' !! k = bs !! k.
Proof.
  intros Hiw Hpos H. pose proof (width_ok_pos _ Hiw).
  assert (iw <= 64) by (unfold width_ok in *; lia).
  unfold bits_erase in H. rinv H. destruct a as [[bs1 [rw' ro']] [ww' wo']].
  pose proof (pos_split pos w iw ltac:(lia)) as HW.
  pose proof (Nat.mod_upper_bound (pos * w) iw ltac:(lia)).
  apply move_chunks_inv in E as (I1 & I2 & I3 & I4); [|lia].
  set (total := (len - pos) * w) in *.
  assert (Htot : pos * w + total = len * w) by (unfold total; rewrite <-Nat.mul_add_distr_r; f_equal; lia).
  assert (Hq : total = 64 * (total / 64) + total mod 64) by (apply Nat.div_mod; lia).
  replace (total - total / 64 * 64) with (total mod 64) in H by lia.
  destruct (0 <? total mod 64) eqn:Er.
  - rinv H. apply read_raw_inv in E. apply write_raw_inv in H as (-> & Hl & _). subst.
    rewrite rdbits_length in Hl. split; [rewrite wrbits_length by (rewrite rdbits_length; lia); done|].
    intros k Hk. rewrite wrbits_lookup by (rewrite rdbits_length; lia).
    rewrite rdbits_length, decide_False by lia. apply I4. lia.
  - simplify_eq. split; [done|]. intros k Hk. apply I4. apply Nat.ltb_ge in Er. lia.
Qed.

Lemma cells_erase_outside n : forall cs i cs', 1 <= i -> cells_erase_loop cs i n = Ok cs' ->
  length cs' = length cs /\ forall k, k < i - 1 \/ i + n - 1 <= k -> cs' !! k = cs !! k.
Proof.
  induction n as [|n IH]; intros cs i cs' Hi H; cbn in H; [simplify_eq; done|].
  destruct (cs !! i) eqn:E; [|done]. apply IH in H as [H1 H2]; [|lia]. rewrite insert_length in H1.
  split; [done|]. intros k Hk. rewrite H2 by lia. rewrite list_lookup_insert_ne by lia. done.
Qed.

Lemma write_outside pf iw w t bs i v bs' : width_ok iw ->
  b_write pf (KVar iw) (Some (t, Bits bs)) i v w = Ok (Some (t, Bits bs')) ->
  length bs' = length bs /\ forall k, k < i * w \/ (i + 1) * w <= k -> bs' !! k = bs !! k.
Proof.
  intros Hiw H. pose proof (width_ok_pos _ Hiw). cbn [b_write] in H. rinv H. simplify_eq.
  unfold write_int in E. fold (nbits w v) in E. apply write_raw_inv in E as (-> & Hl & _).
  rewrite pos_split in * by lia. rewrite nbits_length in Hl.
  split; [rewrite wrbits_length by (rewrite nbits_length; lia); done|].
  intros k Hk. rewrite wrbits_lookup by (rewrite nbits_length; lia).
  rewrite nbits_length, decide_False by lia. done.
Qed.

Lemma packed_access :
  (forall pf iw w cap b xs, 16 <= slack pf -> width_ok iw -> 1 <= w <= 64 ->
     brepr pf (KVar iw) w cap b xs ->
     (forall i, i < length xs -> is_ok (b_read pf (KVar iw) b i w) = true)
     /\ (forall i v, i < cap -> is_ok (b_write pf (KVar iw) b i v w) = true)
     /\ (forall i, i < length xs -> is_ok (b_erase pf (KVar iw) b i (length xs) w) = true)
     /\ (forall key, (key < 2^N.of_nat w)%N -> is_ok (b_find pf (KVar iw) b key (length xs) w) = true)
     /\ (forall new, length xs <= new -> is_ok (b_resize pf (KVar iw) b (length xs) new w) = true))
  /\ (forall pf w cap b xs, 1 <= w <= 64 ->
     brepr pf (KVar 64) w cap b xs ->
     (forall i, i < length xs -> is_ok (b_read pf (KVar 64) b i w) = true)
     /\ (forall i v, i < cap -> is_ok (b_write pf (KVar 64) b i v w) = true)
     /\ (forall key, (key < 2^N.of_nat w)%N -> is_ok (b_find pf (KVar 64) b key (length xs) w) = true)).
Proof.
  split.
  - intros pf iw w cap b xs Hs Hiw Hw H.
    assert (Hk : kind_ok (KVar iw) w) by (split; [done|lia]).
    split; [|split; [|split; [|split]]].
    + intros i Hi. destruct (lookup_lt_is_Some_2 xs i Hi) as [x Hx].
      by rewrite (b_read_spec pf (KVar iw) w cap b xs i x Hk Hs H Hx).
    + intros i v Hi.
      destruct (b_write_gen pf (KVar iw) w cap b xs i v [] Hk Hs H (or_intror Hi)) as (b' & -> & _); [cbn; lia| |done].
      intros j y Hj. by rewrite lookup_nil in Hj.
    + intros i Hi. by destruct (b_erase_spec pf (KVar iw) w cap b xs i Hk Hs H Hi) as (b' & -> & _).
    + intros key Hkey. rewrite (b_find_spec pf (KVar iw) w cap b xs key Hk Hs H); [done..|]. cbn. by apply N.mod_small.
    + intros new Hn. by destruct (b_resize_spec pf (KVar iw) w cap b xs new Hk H Hn) as (b' & -> & _).
  - intros pf w cap b xs Hw H.
    assert (Hk : kind_ok (KVar 64) w) by (split; [unfold width_ok; lia|lia]).
    destruct H as (t & [cs|bs] & -> & Ht & H); [done|]. destruct H as (Hc & Hl & Hm & H & Hf).
    assert (Hroom : elem_room pf 64 bs) by (by right).
    assert (Hrd : forall i x, xs !! i = Some x -> b_read pf (KVar 64) (Some (t, Bits bs)) i w = Ok x).
    { intros i x Hx. cbn [b_read]. unfold read_int. pose proof (lookup_lt_Some _ _ _ Hx).
      assert ((i + 1) * w <= length bs) by (etrans; [|exact Hl]; apply Nat.mul_le_mono_r; lia).
      rewrite read_raw_ok by (apply elem_touched_room; [done..|unfold width_ok; lia|done]).
      rewrite pos_split by lia. cbn [mbind res_bind]. rewrite (H _ _ Hx), raw_val_nbits.
      rewrite N.mod_small; [done|]. by apply (Forall_lookup_1 _ _ _ _ Hf Hx). }
    split; [|split].
    + intros i Hi. destruct (lookup_lt_is_Some_2 xs i Hi) as [x Hx]. by rewrite (Hrd _ _ Hx).
    + intros i v Hi.
      assert ((i + 1) * w <= length bs) by (etrans; [|exact Hc]; apply Nat.mul_le_mono_r; lia).
      destruct (packed_cells_independent pf 64 w t bs i v) as (bs' & -> & _); [unfold width_ok; lia|done..].
    + intros key Hkey.
      destruct (bucket_find_first pf (KVar 64) w (Some (t, Bits bs)) xs key) as (r & -> & _); try done.
Qed.

Lemma no_stray_writes :
  (forall pf iw w t bs i v bs', width_ok iw ->
     b_write pf (KVar iw) (Some (t, Bits bs)) i v w = Ok (Some (t, Bits bs')) ->
     length bs' = length bs /\ forall k, k < i * w \/ (i + 1) * w <= k -> bs' !! k = bs !! k)
  /\ (forall pf iw bs pos len w bs', width_ok iw -> pos < len ->
     bits_erase pf iw bs pos len w = Ok bs' ->
     length bs' = length bs /\ forall k, k < pos * w \/ len * w <= k -> bs' !! k = bs !! k)
  /\ (forall cs pos len cs', cells_erase_loop cs (pos + 1) (len - (pos + 1)) = Ok cs' -> pos < len ->
     length cs' = length cs /\ forall k, k < pos \/ len <= k -> cs' !! k = cs !! k).
Proof.
  split; [exact write_outside|]. split; [exact bits_erase_outside|].
  intros cs pos len cs' H Hpos. apply cells_erase_outside in H as [H1 H2]; [|lia].
  split; [done|]. intros k Hk. apply H2. lia.
Qed.
