(** Every bucket kind represents a list of numbers; its operations implement the list operations. *)
From Verif Require Export BucketModel BitsProofs.
#[local] Open Scope nat_scope.

Definition width_ok (es : nat) : Prop := es = 8 \/ es = 16 \/ es = 32 \/ es = 64.

(** Legal template arguments and widths. *)
Definition kind_ok (kd : bkind) (w : nat) : Prop :=
  match kd with
  | KPlain es | KClass es | KAvx es => width_ok es
  | KVar iw => width_ok iw /\ 1 <= w /\ w <= 64
  | KNull => True
  end.

(** What is read back after writing v. *)
Definition norm (kd : bkind) (w : nat) (v : N) : N :=
  match kd with
  | KPlain es | KClass es | KAvx es => (v mod 2^N.of_nat es)%N
  | KVar _ => (v mod 2^N.of_nat w)%N
  | KNull => 1%N
  end.

(** Platform requirement of packed buckets (see C35). *)
Definition pf_ok (pf : platform) (kd : bkind) : Prop :=
  match kd with KVar _ => 16 <= slack pf | _ => True end.

(** Block [d] holds xs with room for [cap] elements. *)
Definition drepr (kd : bkind) (w cap : nat) (d : bdata) (xs : list N) : Prop :=
  match kd, d with
  | (KPlain es | KClass es | KAvx es), Cells cs =>
      cap <= length cs /\ length xs <= length cs /\ (forall i x, xs !! i = Some x -> cs !! i = Some (Some x))
      /\ Forall (fun x => (x < 2^N.of_nat es)%N) xs
  | KVar iw, Bits bs =>
      cap * w <= length bs /\ length xs * w <= length bs /\ length bs mod iw = 0
      /\ (forall i x, xs !! i = Some x -> rdbits bs (i * w) w = nbits w x)
      /\ Forall (fun x => (x < 2^N.of_nat w)%N) xs
  | _, _ => False
  end.

Definition brepr (pf : platform) (kd : bkind) (w cap : nat) (b : bucket) (xs : list N) : Prop :=
  match kd with
  | KNull => b = None /\ Forall (fun x => x = 1%N) xs
  | _ => exists t d, b = Some (t, d) /\ free_ok pf (kind_tag kd) t = true /\ drepr kd w cap d xs
  end.

Lemma free_ok_refl pf t : free_ok pf t t = true.
Proof. unfold free_ok. rewrite bool_decide_true; done. Qed.

Lemma width_ok_pos es : width_ok es -> 0 < es.
Proof. unfold width_ok. lia. Qed.

Lemma cdiv_ge a b : 0 < b -> a <= b * cdiv a b.
Proof. intros. unfold cdiv. pose proof (Nat.div_mod (a + b - 1) b ltac:(lia)). pose proof (Nat.mod_upper_bound (a + b - 1) b ltac:(lia)). lia. Qed.
Lemma cdiv_least a b m : 0 < b -> a <= b * m -> cdiv a b <= m.
Proof.
  intros. unfold cdiv. apply Nat.lt_succ_r. apply Nat.div_lt_upper_bound; [lia|]. lia.
Qed.
Lemma cdiv_le_mul a b n : 0 < b -> n mod b = 0 -> a <= n -> b * cdiv a b <= n.
Proof.
  intros Hb Hn Ha. apply Nat.mod_divides in Hn as [m ->]; [|lia].
  apply Nat.mul_le_mono_l. by apply cdiv_least.
Qed.

Lemma mul_mod_l a b : 0 < a -> (a * b) mod a = 0.
Proof. intros. rewrite Nat.mul_comm. apply Nat.mod_mul. lia. Qed.

Lemma brepr_cap pf kd w c c' b xs : c' <= c -> brepr pf kd w c b xs -> brepr pf kd w c' b xs.
Proof.
  intros Hc H. destruct kd; cbn in *; try done;
    destruct H as (t & d & -> & Ht & Hd); exists t, d; (split; [done|]); (split; [done|]);
    destruct d; cbn in *; try done; try (destruct Hd as (?&?&?); split; [lia|done]).
  destruct Hd as (?&?). split; [|done]. etrans; [|done]. by apply Nat.mul_le_mono_r.
Qed.

(** ** initialize *)
Lemma b_initialize_spec pf kd w w' cap : kind_ok kd w -> w <= w' ->
  brepr pf kd w cap (b_initialize pf kd cap w') [].
Proof.
  intros Hk Hw. destruct kd; cbn.
  1-3: eexists _, _; split; [done|]; split; [apply free_ok_refl|]; cbn;
    unfold fresh_cells; rewrite replicate_length; (split; [lia|]); (split; [lia|]); (split; [|constructor]); intros i x; by rewrite lookup_nil.
  - destruct Hk as [Hiw Hw2]. apply width_ok_pos in Hiw.
    eexists _, _; split; [done|]; split; [apply free_ok_refl|]. cbn.
    unfold fresh_bits. rewrite replicate_length.
    pose proof (cdiv_ge (cap * w') iw Hiw). 
    split; [|split; [lia|split; [by apply mul_mod_l|split; [|constructor]]]].
    + etrans; [|done]. by apply Nat.mul_le_mono_l.
    + intros i x. by rewrite lookup_nil.
  - split; [done|constructor].
Qed.

(** ** clear *)
Lemma b_clear_spec pf kd w cap b xs : brepr pf kd w cap b xs -> b_clear pf kd b = Ok None.
Proof.
  intros H. unfold b_clear. destruct kd; cbn in H.
  5: { destruct H as [-> _]. done. }
  all: destruct H as (t & d & -> & Ht & _); cbn [b_free kind_tag]; by rewrite Ht.
Qed.
Lemma b_clear_None pf kd : b_clear pf kd None = Ok None.
Proof. done. Qed.

(** ** element access *)
Lemma elem_touched pf w iw i n : 8 <= slack pf -> 1 <= w -> width_ok iw -> (i + 1) * w <= n ->
  touched_end (i * w / iw * iw) (i * w mod iw) w <= n + 8 * slack pf.
Proof.
  intros Hs Hw Hiw Hn. pose proof (width_ok_pos _ Hiw).
  pose proof (pos_split i w iw ltac:(lia)).
  pose proof (Nat.mod_upper_bound (i * w) iw ltac:(lia)).
  assert (iw <= 64) by (unfold width_ok in *; lia).
  etrans; [apply touched_end_le; lia|]. lia.
Qed.

Lemma read_elem pf w iw i bs : 8 <= slack pf -> 1 <= w -> width_ok iw -> (i + 1) * w <= length bs ->
  read_int pf bs (i * w / iw * iw) (i * w mod iw) w = raw_val (rdbits bs (i * w) w).
Proof.
  intros Hs Hw Hiw Hn. pose proof (width_ok_pos _ Hiw).
  unfold read_int. rewrite read_raw_ok by by apply elem_touched.
  rewrite pos_split by lia. done.
Qed.
Lemma write_elem pf w iw i bs v : 8 <= slack pf -> 1 <= w -> width_ok iw -> (i + 1) * w <= length bs ->
  write_int pf bs (i * w / iw * iw) (i * w mod iw) w v = Ok (wrbits bs (i * w) (nbits w v)).
Proof.
  intros Hs Hw Hiw Hn. pose proof (width_ok_pos _ Hiw).
  rewrite write_int_ok; [|by apply elem_touched|].
  - rewrite pos_split by lia. done.
  - rewrite pos_split by lia. lia.
Qed.

Lemma b_read_spec pf kd w cap b xs i x : kind_ok kd w -> pf_ok pf kd -> brepr pf kd w cap b xs ->
  xs !! i = Some x -> b_read pf kd b i w = Ok x.
Proof.
  intros Hk Hp H Hx. destruct kd; cbn in H.
  1-3: destruct H as (t & [cs|bs] & -> & _ & H); try done; destruct H as (_ & _ & H & _);
    cbn; unfold cell_read; by rewrite (H _ _ Hx).
  - destruct H as (t & [cs|bs] & -> & _ & H); try done. destruct H as (_ & Hl & _ & H & Hf).
    cbn in *. destruct Hk as (Hiw & Hw1 & Hw2). pose proof (lookup_lt_Some _ _ _ Hx).
    assert ((i + 1) * w <= length bs) by (etrans; [|exact Hl]; apply Nat.mul_le_mono_r; lia).
    rewrite read_elem by (done || lia).
    rewrite (H _ _ Hx), raw_val_nbits, N.mod_small; [done|].
    by apply (Forall_lookup_1 _ _ _ _ Hf Hx).
  - cbn. destruct H as [_ H]. pose proof (Forall_lookup_1 _ _ _ _ H Hx) as E. cbn in E. by rewrite E.
Qed.

Lemma mod_pow_lt v n : (v mod 2^N.of_nat n < 2^N.of_nat n)%N.
Proof. apply N.mod_lt. apply N.pow_nonzero. lia. Qed.

Lemma norm_idem kd w v : norm kd w (norm kd w v) = norm kd w v.
Proof. destruct kd; cbn; try done; apply N.mod_mod; apply N.pow_nonzero; lia. Qed.

(** write at position i, either overwriting or appending *)
Lemma b_write_gen pf kd w cap b xs i v ys : kind_ok kd w -> pf_ok pf kd -> brepr pf kd w cap b xs ->
  i < length xs \/ i < cap -> length ys <= Nat.max (length xs) cap -> 
  (forall j y, ys !! j = Some y -> j = i /\ y = norm kd w v \/ j <> i /\ xs !! j = Some y) ->
  exists b', b_write pf kd b i v w = Ok b' /\ brepr pf kd w cap b' ys.
Proof.
  intros Hk Hp H Hi Hys Hy. destruct kd; cbn in H.
  1-3: destruct H as (t & [cs|bs] & -> & Ht & H); try done; destruct H as (Hc & Hl & H & Hf);
    cbn -[Nat.ltb]; rewrite (proj2 (Nat.ltb_lt i (length cs)) ltac:(lia)); eexists; split; [done|];
    cbn; eexists _, _; (split; [done|]); (split; [done|]); rewrite insert_length;
    (split; [lia|]); (split; [lia|]); split;
    [ intros j y Hj; destruct (Hy _ _ Hj) as [[-> ->]|[Hne Hx]];
      [apply list_lookup_insert; lia | rewrite list_lookup_insert_ne by done; by apply H]
    | apply Forall_lookup; intros j y Hj; destruct (Hy _ _ Hj) as [[-> ->]|[Hne Hx]];
      [apply mod_pow_lt | by apply (Forall_lookup_1 _ _ _ _ Hf Hx)] ].
  - destruct H as (t & [cs|bs] & -> & Ht & H); try done. destruct H as (Hc & Hl & Hm & H & Hf).
    cbn in Hk, Hp. destruct Hk as (Hiw & Hw1 & Hw2).
    assert ((i + 1) * w <= length bs).
    { destruct Hi; [etrans; [|exact Hl] | etrans; [|exact Hc]]; apply Nat.mul_le_mono_r; lia. }
    cbn [b_write]. rewrite write_elem by (done || lia). eexists; split; [done|].
    cbn. eexists _, _; split; [done|]. split; [done|].
    rewrite wrbits_length by (rewrite nbits_length; lia).
    split; [done|]. split.
    { destruct (Nat.max_spec (length xs) cap) as [[_ E]|[_ E]]; rewrite E in Hys;
        [etrans; [|exact Hc]|etrans; [|exact Hl]]; by apply Nat.mul_le_mono_r. }
    split; [done|]. split.
    + intros j y Hj. destruct (Hy _ _ Hj) as [[-> ->]|[Hne Hx]].
      * pose proof (rdbits_wrbits_same bs (i * w) (nbits w v)) as E. rewrite nbits_length in E.
        rewrite E by lia. cbn. unfold nbits. by rewrite bits_of_mod.
      * rewrite rdbits_wrbits_other; [by apply H|rewrite nbits_length; lia|].
        rewrite nbits_length. destruct (decide (j < i)).
        -- left. replace (j * w + w) with ((j + 1) * w) by lia. apply Nat.mul_le_mono_r. lia.
        -- right. replace (i * w + w) with ((i + 1) * w) by lia. apply Nat.mul_le_mono_r. lia.
    + apply Forall_lookup; intros j y Hj; destruct (Hy _ _ Hj) as [[-> ->]|[Hne Hx]];
      [apply mod_pow_lt | by apply (Forall_lookup_1 _ _ _ _ Hf Hx)].
  - destruct H as [-> H]. cbn. eexists; split; [done|]. split; [done|].
    apply Forall_lookup; intros j y Hj; destruct (Hy _ _ Hj) as [[-> ->]|[Hne Hx]]; [done|].
    by apply (Forall_lookup_1 _ _ _ _ H Hx).
Qed.

Lemma b_write_push pf kd w cap b xs v : kind_ok kd w -> pf_ok pf kd -> brepr pf kd w cap b xs ->
  length xs < cap ->
  exists b', b_write pf kd b (length xs) v w = Ok b' /\ brepr pf kd w cap b' (xs ++ [norm kd w v]).
Proof.
  intros. eapply b_write_gen; eauto.
  - rewrite app_length. cbn. lia.
  - intros j y Hj. destruct (decide (j < length xs)).
    + rewrite lookup_app_l in Hj by done. right. split; [lia|done].
    + rewrite lookup_app_r in Hj by lia. apply list_lookup_singleton_Some in Hj as [? <-]. left. split; [lia|done].
Qed.

Lemma b_write_upd pf kd w cap b xs i v : kind_ok kd w -> pf_ok pf kd -> brepr pf kd w cap b xs ->
  i < length xs ->
  exists b', b_write pf kd b i v w = Ok b' /\ brepr pf kd w cap b' (<[i := norm kd w v]> xs).
Proof.
  intros. eapply b_write_gen; eauto.
  - rewrite insert_length. lia.
  - intros j y Hj. apply list_lookup_insert_Some in Hj as [(-> & <- & _)|[? ?]]; [by left|right; split; [congruence|done]].
Qed.

(** ** erase *)
Lemma cells_erase_loop_spec n : forall cs i, 1 <= i -> i + n <= length cs ->
  exists cs', cells_erase_loop cs i n = Ok cs' /\ length cs' = length cs
    /\ forall j, cs' !! j = if decide (i - 1 <= j < i - 1 + n) then cs !! (j + 1) else cs !! j.
Proof.
  induction n as [|n IH]; intros cs i Hi Hl.
  - eexists; split; [done|]. split; [done|]. intros j. rewrite decide_False by lia. done.
  - cbn. destruct (lookup_lt_is_Some_2 cs i) as [c Hc]; [lia|]. rewrite Hc.
    destruct (IH (<[i - 1:=c]> cs) (S i)) as (cs' & -> & Hlen & Hlk); [lia|rewrite insert_length; lia|].
    rewrite insert_length in Hlen. eexists; split; [done|]. split; [done|]. intros j.
    rewrite Hlk. replace (S i - 1) with i by lia.
    destruct (decide (j = i - 1)) as [->|Hj].
    + rewrite (decide_False (P := i <= i - 1 < i + n)) by lia. rewrite decide_True by lia.
      rewrite list_lookup_insert by lia. rewrite <-Hc. f_equal. lia.
    + destruct (decide (i <= j < i + n)).
      * rewrite decide_True by lia. rewrite list_lookup_insert_ne by lia. done.
      * rewrite decide_False by lia. rewrite list_lookup_insert_ne by lia. done.
Qed.

Lemma move_chunks_spec pf n : forall bs rw ro ww wo,
  ro < 64 -> wo < 64 -> ww + wo <= rw + ro -> ww + wo + 64 * n <= length bs ->
  (n = 0 \/ rw + ro + 64 * n + 63 <= length bs + 8 * slack pf) ->
  exists rw' ro' ww' wo',
    move_chunks pf bs rw ro ww wo n = Ok (wrbits bs (ww + wo) (rdbits bs (rw + ro) (64 * n)), (rw', ro'), (ww', wo'))
    /\ rw' + ro' = rw + ro + 64 * n /\ ro' < 64 /\ ww' + wo' = ww + wo + 64 * n /\ wo' < 64.
Proof.
  induction n as [|n IH]; intros bs rw ro ww wo Hro Hwo Hle Hl Hs.
  - exists rw, ro, ww, wo. rewrite Nat.mul_0_r, rdbits_0, wrbits_nil. cbn. repeat split; lia.
  - destruct Hs as [|Hs]; [lia|]. cbn [move_chunks].
    rewrite read_raw_ok.
    2: { etrans; [apply touched_end_le; lia|]. lia. }
    cbn [mbind res_bind].
    destruct (move_right rw ro 64) as [rw1 ro1] eqn:Er.
    apply move_right_pos in Er as [Er Hro1]; [|lia..].
    rewrite write_raw_ok.
    2: { rewrite rdbits_length. etrans; [apply touched_end_le; lia|]. lia. }
    2: { rewrite rdbits_length. lia. }
    cbn [mbind res_bind].
    destruct (move_right ww wo 64) as [ww1 wo1] eqn:Ew.
    apply move_right_pos in Ew as [Ew Hwo1]; [|lia..].
    set (bs1 := wrbits bs (ww + wo) (rdbits bs (rw + ro) 64)).
    assert (Hl1 : length bs1 = length bs) by (apply wrbits_length; rewrite rdbits_length; lia).
    destruct (IH bs1 rw1 ro1 ww1 wo1) as (rw' & ro' & ww' & wo' & -> & H1 & H2 & H3 & H4); try lia.
    exists rw', ro', ww', wo'. split; [|lia].
    do 3 f_equal. rewrite Er, Ew. unfold bs1.
    replace (64 * S n) with (64 + 64 * n) by lia. apply move_seq; lia.
Qed.

Lemma rdbits_wrbits_sub l W c a n : W + length c <= length l -> a + n <= length c ->
  rdbits (wrbits l W c) (W + a) n = take n (drop a c).
Proof.
  intros Hl Ha. apply list_eq. intros i. rewrite rdbits_lookup.
  destruct (decide (i < n)).
  - rewrite wrbits_lookup by done. rewrite decide_True by lia.
    rewrite lookup_take, lookup_drop by done. replace (W + a + i - W) with (a + i) by lia.
    destruct (lookup_lt_is_Some_2 c (a + i)) as [x ->]; [lia|done].
  - symmetry. apply lookup_ge_None. rewrite take_length. lia.
Qed.
Lemma take_drop_rdbits l R m a n : a + n <= m -> take n (drop a (rdbits l R m)) = rdbits l (R + a) n.
Proof.
  intros. apply list_eq. intros i. rewrite rdbits_lookup. destruct (decide (i < n)).
  - rewrite lookup_take, lookup_drop, rdbits_lookup by done. rewrite decide_True by lia.
    do 3 f_equal. lia.
  - apply lookup_ge_None. rewrite take_length. lia.
Qed.

Lemma bits_erase_spec pf iw bs pos len w : width_ok iw -> 1 <= w -> w <= 64 -> 16 <= slack pf ->
  pos < len -> len * w <= length bs ->
  bits_erase pf iw bs pos len w = Ok (wrbits bs (pos * w) (rdbits bs ((pos + 1) * w) ((len - pos) * w))).
Proof.
  intros Hiw Hw1 Hw2 Hs Hpos Hlen. pose proof (width_ok_pos _ Hiw).
  assert (iw <= 64) by (unfold width_ok in *; lia).
  unfold bits_erase.
  pose proof (pos_split (pos + 1) w iw ltac:(lia)) as HR.
  pose proof (pos_split pos w iw ltac:(lia)) as HW.
  set (total := (len - pos) * w).
  assert (Htot : pos * w + total = len * w) by (unfold total; rewrite <-Nat.mul_add_distr_r; f_equal; lia).
  assert (Hq : total = 64 * (total / 64) + total mod 64) by (apply Nat.div_mod; lia).
  assert (Hr : total mod 64 < 64) by (apply Nat.mod_upper_bound; lia).
  assert (Hadd : (pos + 1) * w = pos * w + w) by lia.
  destruct (move_chunks_spec pf (total / 64) bs ((pos + 1) * w / iw * iw) ((pos + 1) * w mod iw)
    (pos * w / iw * iw) (pos * w mod iw)) as (rw' & ro' & ww' & wo' & -> & H1 & H2 & H3 & H4).
  { pose proof (Nat.mod_upper_bound ((pos + 1) * w) iw ltac:(lia)). lia. }
  { pose proof (Nat.mod_upper_bound (pos * w) iw ltac:(lia)). lia. }
  { lia. } { lia. } { right. lia. }
  cbn [mbind res_bind]. rewrite HR, HW in *.
  replace (total - total / 64 * 64) with (total mod 64) by lia.
  destruct (Nat.ltb_spec 0 (total mod 64)) as [Hrem|Hrem].
  - assert (Hlw : length (wrbits bs (pos * w) (rdbits bs ((pos + 1) * w) (64 * (total / 64)))) = length bs)
      by (apply wrbits_length; rewrite rdbits_length; lia).
    rewrite read_raw_ok.
    2: { etrans; [apply touched_end_le; lia|]. rewrite Hlw. lia. }
    cbn [mbind res_bind]. rewrite write_raw_ok.
    2: { rewrite rdbits_length, Hlw. etrans; [apply touched_end_le; lia|]. lia. }
    2: { rewrite rdbits_length, Hlw. lia. }
    f_equal. rewrite H1, H3. rewrite move_seq by lia. do 2 f_equal. lia.
  - do 3 f_equal. lia.
Qed.

Lemma delete_lookup {A} (xs : list A) pos j : delete pos xs !! j = if decide (j < pos) then xs !! j else xs !! (S j).
Proof.
  case_decide; [apply lookup_delete_lt; lia|apply lookup_delete_ge; lia].
Qed.

Lemma Forall_delete {A} (P : A -> Prop) (xs : list A) pos : Forall P xs -> Forall P (delete pos xs).
Proof.
  intros H. apply Forall_lookup. intros j y. rewrite delete_lookup. case_decide; intros Hy;
  by apply (Forall_lookup_1 _ _ _ _ H Hy).
Qed.

Lemma b_erase_spec pf kd w cap b xs pos : kind_ok kd w -> pf_ok pf kd -> brepr pf kd w cap b xs ->
  pos < length xs ->
  exists b', b_erase pf kd b pos (length xs) w = Ok b' /\ brepr pf kd w cap b' (delete pos xs).
Proof.
  intros Hk Hp H Hpos.
  assert (Hdl : length (delete pos xs) = length xs - 1).
  { destruct (lookup_lt_is_Some_2 xs pos Hpos) as [x Hx]. by apply (length_delete _ _ (ex_intro _ x Hx)). }
  destruct kd; cbn in H.
  1-3: destruct H as (t & [cs|bs] & -> & Ht & H); try done; destruct H as (Hc & Hl & H & Hf);
    cbn [b_erase];
    destruct (cells_erase_loop_spec (length xs - (pos + 1)) cs (pos + 1)) as (cs' & -> & Hlen & Hlk); [lia|lia|];
    cbn [mbind res_bind]; eexists; (split; [done|]); cbn; eexists _, _; (split; [done|]); (split; [done|]);
    rewrite Hlen; (split; [lia|]); (split; [lia|]); (split; [|by apply Forall_delete]);
    intros j y Hy; rewrite delete_lookup in Hy; rewrite Hlk; case_decide as Hd;
    [ rewrite decide_False by lia; by apply H
    | pose proof (lookup_lt_Some _ _ _ Hy); rewrite decide_True by lia;
      apply H; rewrite <-Hy; f_equal; lia ].
  - destruct H as (t & [cs|bs] & -> & Ht & H); try done. destruct H as (Hc & Hl & Hm & H & Hf).
    cbn in Hk, Hp. destruct Hk as (Hiw & Hw1 & Hw2).
    cbn [b_erase]. rewrite bits_erase_spec by done. cbn [mbind res_bind].
    eexists; split; [done|]. cbn. eexists _, _; split; [done|]. split; [done|].
    set (c := rdbits bs ((pos + 1) * w) ((length xs - pos) * w)).
    assert (Htot : pos * w + (length xs - pos) * w = length xs * w) by (rewrite <-Nat.mul_add_distr_r; f_equal; lia).
    assert (Hcl : length c = (length xs - pos) * w) by apply rdbits_length.
    rewrite wrbits_length by lia.
    split; [done|]. split.
    { rewrite Hdl. etrans; [|exact Hl]. apply Nat.mul_le_mono_r. lia. }
    split; [done|]. split; [|by apply Forall_delete].
    intros j y Hy. rewrite delete_lookup in Hy. case_decide as Hd.
    + rewrite rdbits_wrbits_other; [by apply H|lia|]. left.
      replace (j * w + w) with ((j + 1) * w) by lia. apply Nat.mul_le_mono_r. lia.
    + pose proof (lookup_lt_Some _ _ _ Hy).
      assert (Hj : j * w = pos * w + (j - pos) * w) by (rewrite <-Nat.mul_add_distr_r; f_equal; lia).
      assert (Hj2 : (j - pos) * w + w <= (length xs - pos) * w).
      { replace ((j - pos) * w + w) with ((j - pos + 1) * w) by lia. apply Nat.mul_le_mono_r. lia. }
      rewrite Hj, rdbits_wrbits_sub by lia. unfold c. rewrite take_drop_rdbits by done.
      replace ((pos + 1) * w + (j - pos) * w) with (S j * w); [by apply H|].
      rewrite <-Nat.mul_add_distr_r. f_equal. lia.
  - destruct H as [-> H]. eexists; split; [done|]. split; [done|]. by apply Forall_delete.
Qed.

(** ** find *)
Lemma cell_read_repr (xs : list N) (cs : list (option N)) i x : (forall i x, xs !! i = Some x -> cs !! i = Some (Some x)) ->
  xs !! i = Some x -> cell_read cs i = Ok x.
Proof. intros H Hx. unfold cell_read. by rewrite (H _ _ Hx). Qed.

Lemma first_index_app key xs ys : first_index key (xs ++ ys) =
  match first_index key xs with Some i => Some i | None => Nat.add (length xs) <$> first_index key ys end.
Proof.
  induction xs as [|x xs IH]; cbn.
  - destruct (first_index key ys); done.
  - destruct (x =? key)%N; [done|]. rewrite IH.
    destruct (first_index key xs); cbn; [done|]. destruct (first_index key ys); done.
Qed.

Lemma cells_find_loop_spec (xs : list N) (cs : list (option N)) key : (forall i x, xs !! i = Some x -> cs !! i = Some (Some x)) ->
  forall n i, i + n = length xs ->
  cells_find_loop cs key i n = Ok (Nat.add i <$> first_index key (drop i xs)).
Proof.
  intros H n. induction n as [|n IH]; intros i Hi.
  - rewrite drop_ge by lia. done.
  - cbn. destruct (lookup_lt_is_Some_2 xs i) as [x Hx]; [lia|].
    rewrite (cell_read_repr _ _ _ _ H Hx). cbn.
    rewrite (drop_S _ _ _ Hx). cbn. destruct (x =? key)%N.
    + cbn. do 2 f_equal. lia.
    + rewrite IH by lia. destruct (first_index key (drop (S i) xs)); cbn; [do 2 f_equal; lia|done].
Qed.

Lemma rmap_ok {A B} (f : A -> res B) l ys : Forall2 (fun x y => f x = Ok y) l ys -> rmap f l = Ok ys.
Proof. induction 1 as [|x y l ys Hxy _ IH]; cbn; [done|]. rewrite Hxy. cbn. by rewrite IH. Qed.

Lemma avx_mask_spec es key lanes : width_ok es -> (key < 2^N.of_nat es)%N ->
  match first_index key lanes with
  | None => forallb negb (avx_mask es lanes key) = true
  | Some p => forallb negb (avx_mask es lanes key) = false /\ lowest_set (avx_mask es lanes key) = p * (es / 8)
  end.
Proof.
  intros Hes Hk. unfold avx_mask. rewrite N.mod_small by done.
  assert (He : 0 < es / 8) by (destruct Hes as [-> | [-> | [-> | ->]]]; cbn; lia).
  induction lanes as [|v lanes IH]; cbn [map concat first_index]; [done|].
  rewrite forallb_app. destruct (v =? key)%N eqn:Ev.
  - destruct (es / 8) as [|m] eqn:Em; [lia|]. cbn. done.
  - assert (Hrep : forall m l, forallb negb (replicate m false) = true /\ lowest_set (replicate m false ++ l) = m + lowest_set l).
    { intros m l. induction m as [|m [IHm1 IHm2]]; cbn; [done|]. split; [done|by rewrite IHm2]. }
    destruct (Hrep (es / 8) (concat (map (λ v0 : N, replicate (es / 8) (v0 =? key)%N) lanes))) as [-> Hlow].
    cbn [andb]. destruct (first_index key lanes) as [p|] eqn:Ep; cbn [fmap option_fmap option_map].
    + destruct IH as [-> IH]. split; [done|]. rewrite Hlow, IH. lia.
    + done.
Qed.

Lemma forallb_id_lowest m : m <> [] -> forallb id m = true -> lowest_set m = 0.
Proof. destruct m as [|[] m]; done. Qed.

Lemma avx_find_loop_spec es (xs : list N) (cs : list (option N)) key : width_ok es -> (key < 2^N.of_nat es)%N ->
  (forall i x, xs !! i = Some x -> cs !! i = Some (Some x)) ->
  let reg := 32 / (es / 8) in
  forall n i, (i + n) * reg <= length xs ->
  avx_find_loop es cs key i n = Ok (Nat.add (i * reg) <$> first_index key (take (n * reg) (drop (i * reg) xs))).
Proof.
  intros Hes Hk H reg n. 
  assert (He : 0 < es / 8) by (destruct Hes as [-> | [-> | [-> | ->]]]; cbn; lia).
  assert (Hreg : 0 < reg) by (unfold reg; destruct Hes as [-> | [-> | [-> | ->]]]; cbn; lia).
  induction n as [|n IH]; intros i Hi; [done|].
  cbn [avx_find_loop]. fold reg. set (lanes := take reg (drop (i * reg) xs)).
  assert (Hlen : i * reg + reg <= length xs) by nia.
  rewrite (rmap_ok _ _ lanes).
  2: { apply Forall2_same_length_lookup_2.
       - rewrite seq_length. unfold lanes. rewrite take_length, drop_length. lia.
       - intros j a y Ha Hy. apply lookup_seq in Ha as [-> Hj]. cbn [Nat.add].
         unfold lanes in Hy. rewrite lookup_take, lookup_drop in Hy by done.
         by apply (cell_read_repr xs). }
  cbn [mbind res_bind].
  replace (S n * reg) with (reg + n * reg) by lia.
  rewrite <-take_take_drop. fold lanes. rewrite first_index_app.
  pose proof (avx_mask_spec es key lanes Hes Hk) as Hm.
  destruct (first_index key lanes) as [p|] eqn:Ep.
  - destruct Hm as [-> Hlow].
    destruct (forallb id (avx_mask es lanes key)) eqn:Eall.
    + assert (lowest_set (avx_mask es lanes key) = 0).
      { apply forallb_id_lowest; [|done]. intros E. unfold avx_mask in E.
        clearbody lanes. destruct lanes; [discriminate Ep|]. cbn [map concat] in E.
        apply app_nil in E as [E _]. destruct (es / 8); [lia|discriminate E]. }
      assert (p = 0) by nia. subst p. cbn. do 2 f_equal. lia.
    + rewrite Hlow, Nat.div_mul by lia. done.
  - rewrite Hm. rewrite IH by lia.
    assert (Hll : length lanes = reg) by (unfold lanes; rewrite take_length, drop_length; lia).
    rewrite Hll, drop_drop. replace (i * reg + reg) with (S i * reg) by lia.
    f_equal. destruct (first_index key (take (n * reg) (drop (S i * reg) xs))); cbn; [f_equal; lia|done].
Qed.

Lemma avx_find_spec es (xs : list N) (cs : list (option N)) key : width_ok es -> (key < 2^N.of_nat es)%N ->
  (forall i x, xs !! i = Some x -> cs !! i = Some (Some x)) ->
  avx_find es cs key (length xs) = Ok (first_index key xs).
Proof.
  intros Hes Hk H. unfold avx_find. set (reg := 32 / (es / 8)).
  assert (Hreg : 0 < reg) by (unfold reg; destruct Hes as [-> | [-> | [-> | ->]]]; cbn; lia).
  assert (Hq : length xs / reg * reg <= length xs) by (rewrite Nat.mul_comm; apply Nat.mul_div_le; lia).
  assert (Hloop : (if reg <=? length xs then avx_find_loop es cs key 0 (length xs / reg) else Ok None)
    = Ok (first_index key (take (length xs / reg * reg) xs))).
  { destruct (Nat.leb_spec reg (length xs)).
    - rewrite (avx_find_loop_spec es xs cs key Hes Hk H) by (cbn [Nat.add]; done). cbn [Nat.mul Nat.add]. fold reg.
      rewrite drop_0. by destruct (first_index _ _).
    - rewrite Nat.div_small by done. done. }
  rewrite Hloop. cbn [mbind res_bind].
  assert (Hsp : first_index key xs = first_index key (take (length xs / reg * reg) xs ++ drop (length xs / reg * reg) xs))
    by (by rewrite take_drop).
  rewrite Hsp, first_index_app.
  destruct (first_index key (take (length xs / reg * reg) xs)); [done|].
  rewrite (cells_find_loop_spec xs) by (done || lia).
  rewrite take_length, Nat.min_l by done. done.
Qed.

Lemma bits_find_loop_spec pf (xs : list N) bs key w : 1 <= w -> w <= 64 -> 8 <= slack pf ->
  length xs * w <= length bs ->
  (forall i x, xs !! i = Some x -> rdbits bs (i * w) w = nbits w x) ->
  Forall (fun x => (x < 2^N.of_nat w)%N) xs ->
  forall n i word off, i + n = length xs -> word + off = i * w -> off < 64 ->
  bits_find_loop pf bs key word off w i n = Ok (Nat.add i <$> first_index key (drop i xs)).
Proof.
  intros Hw1 Hw2 Hs Hl H Hf n. induction n as [|n IH]; intros i word off Hi Hwo Hoff.
  - rewrite drop_ge by lia. done.
  - cbn [bits_find_loop]. destruct (lookup_lt_is_Some_2 xs i) as [x Hx]; [lia|].
    assert ((i + 1) * w <= length bs) by (etrans; [|exact Hl]; apply Nat.mul_le_mono_r; lia).
    unfold read_int. rewrite read_raw_ok by (etrans; [apply touched_end_le; lia|]; lia).
    cbn [mbind res_bind]. rewrite Hwo, (H _ _ Hx), raw_val_nbits, N.mod_small by by apply (Forall_lookup_1 _ _ _ _ Hf Hx).
    cbn [mbind res_bind]. rewrite (drop_S _ _ _ Hx). cbn [first_index]. destruct (x =? key)%N.
    + cbn. do 2 f_equal. lia.
    + destruct (move_right word off w) as [word' off'] eqn:Em.
      apply move_right_pos in Em as [Em Hoff']; [|lia..].
      rewrite IH by lia. destruct (first_index key (drop (S i) xs)); cbn; [do 2 f_equal; lia|done].
Qed.

Lemma b_find_spec pf kd w cap b xs key : kind_ok kd w -> pf_ok pf kd -> brepr pf kd w cap b xs ->
  kd <> KNull -> norm kd w key = key ->
  b_find pf kd b key (length xs) w = Ok (first_index key xs).
Proof.
  intros Hk Hp H Hnn Hkey. destruct kd; cbn in H; [| | | |done].
  1-2: destruct H as (t & [cs|bs] & -> & Ht & H); try done; destruct H as (Hc & Hl & H & Hf);
    cbn [b_find norm] in *; rewrite Hkey;
    rewrite (cells_find_loop_spec xs) by done; rewrite drop_0; by destruct (first_index key xs).
  - destruct H as (t & [cs|bs] & -> & Ht & H); try done; destruct H as (Hc & Hl & H & Hf).
    cbn [b_find norm] in *. apply avx_find_spec; [done| |done]. rewrite <-Hkey. apply mod_pow_lt.
  - destruct H as (t & [cs|bs] & -> & Ht & H); try done. destruct H as (Hc & Hl & Hm & H & Hf).
    cbn in Hk, Hp, Hkey. destruct Hk as (Hiw & Hw1 & Hw2). cbn [b_find].
    assert (Hkl : (key < 2^N.of_nat w)%N) by (rewrite <-Hkey; apply mod_pow_lt).
    destruct ((0 <? length xs) && (w <? 64)).
    + unfold broadsearch, accessible.
      pose proof (cdiv_least (length xs * w) 64 (length xs * w / 64 + 1) ltac:(lia)) as Hcd.
      pose proof (Nat.div_mod (length xs * w) 64 ltac:(lia)) as Hdm.
      pose proof (Nat.mod_upper_bound (length xs * w) 64 ltac:(lia)).
      rewrite (proj2 (Nat.leb_le _ _)) by lia. cbn [negb].
      rewrite (proj2 (N.ltb_lt _ _) Hkl). cbn [negb].
      rewrite (rmap_ok _ _ xs); [done|].
      apply Forall2_same_length_lookup_2; [by rewrite seq_length|].
      intros j a y Ha Hy. apply lookup_seq in Ha as [-> Hj]. cbn [Nat.add].
      rewrite (H _ _ Hy), raw_val_nbits, N.mod_small; [done|by apply (Forall_lookup_1 _ _ _ _ Hf Hy)].
    + rewrite (bits_find_loop_spec pf xs) by (done || lia). rewrite drop_0. by destruct (first_index key xs).
Qed.

(** ** resize *)
Lemma lookup_take_Some {A} (l : list A) n i x : i < n -> l !! i = Some x -> take n l !! i = Some x.
Proof. intros. by rewrite lookup_take. Qed.

Lemma rdbits_ext l l' p n : (forall i, i < n -> default None (l !! (p + i)) = default None (l' !! (p + i))) ->
  rdbits l p n = rdbits l' p n.
Proof.
  intros H. apply list_eq. intros i. rewrite !rdbits_lookup. case_decide; [|done]. by rewrite H.
Qed.

Lemma b_resize_spec pf kd w cap b xs new : kind_ok kd w -> brepr pf kd w cap b xs ->
  length xs <= new ->
  exists b', b_resize pf kd b (length xs) new w = Ok b' /\ brepr pf kd w new b' xs.
Proof.
  intros Hk H Hnew. destruct kd; cbn in H.
  - destruct H as (t & [cs|bs] & -> & Ht & H); try done; destruct H as (Hc & Hl & H & Hf).
    cbn in Ht. cbn. rewrite Ht. eexists; split; [done|]. cbn. eexists _, _; split; [done|]. split; [apply free_ok_refl|].
    unfold realloc_cells, fresh_cells. rewrite app_length, take_length, replicate_length.
    split; [lia|]. split; [lia|]. split; [|done]. intros i x Hx. pose proof (lookup_lt_Some _ _ _ Hx).
    rewrite lookup_app_l by (rewrite take_length; lia). rewrite lookup_take by lia. by apply H.
  - destruct H as (t & [cs|bs] & -> & Ht & H); try done; destruct H as (Hc & Hl & H & Hf).
    cbn in Ht. cbn -[Nat.ltb]. unfold cells_prefix. rewrite (proj2 (Nat.leb_le _ _)) by lia. cbn -[Nat.ltb].
    rewrite (proj2 (Nat.ltb_ge _ _)) by lia. rewrite Ht.
    eexists; split; [done|]. cbn. eexists _, _; split; [done|]. split; [apply free_ok_refl|].
    unfold fresh_cells. rewrite app_length, take_length, replicate_length.
    split; [lia|]. split; [lia|]. split; [|done]. intros i x Hx. pose proof (lookup_lt_Some _ _ _ Hx).
    rewrite lookup_app_l by (rewrite take_length; lia). rewrite lookup_take by lia. by apply H.
  - destruct H as (t & [cs|bs] & -> & Ht & H); try done; destruct H as (Hc & Hl & H & Hf).
    cbn in Ht. cbn -[Nat.ltb]. unfold cells_prefix. rewrite (proj2 (Nat.leb_le _ _)) by lia. cbn -[Nat.ltb].
    rewrite (proj2 (Nat.ltb_ge _ _)) by lia. rewrite Ht.
    eexists; split; [done|]. cbn. eexists _, _; split; [done|]. split; [apply free_ok_refl|].
    unfold fresh_cells. rewrite app_length, take_length, replicate_length.
    split; [lia|]. split; [lia|]. split; [|done]. intros i x Hx. pose proof (lookup_lt_Some _ _ _ Hx).
    rewrite lookup_app_l by (rewrite take_length; lia). rewrite lookup_take by lia. by apply H.
  - destruct H as (t & [cs|bs] & -> & Ht & H); try done. destruct H as (Hc & Hl & Hm & H & Hf).
    destruct Hk as (Hiw & Hw1 & Hw2). pose proof (width_ok_pos _ Hiw). cbn in Ht. cbn [b_resize].
    pose proof (cdiv_ge (new * w) iw ltac:(lia)) as Hn.
    destruct (Nat.ltb_spec (cdiv (length xs * w) iw) (cdiv (new * w) iw)) as [Hlt|Hge].
    + rewrite Ht. eexists; split; [done|]. cbn. eexists _, _; split; [done|]. split; [apply free_ok_refl|].
      set (N' := iw * cdiv (new * w) iw) in *.
      assert (Hxn : length xs * w <= new * w) by (by apply Nat.mul_le_mono_r).
      unfold realloc_bits, fresh_bits. rewrite app_length, take_length, replicate_length.
      assert (Hlen : N' `min` length bs + (N' - length bs) = N') by lia. rewrite Hlen.
      split; [done|]. split; [lia|]. split; [by apply mul_mod_l|]. split; [|done].
      intros i x Hx. rewrite <-(H _ _ Hx). pose proof (lookup_lt_Some _ _ _ Hx).
      assert ((i + 1) * w <= length xs * w) by (apply Nat.mul_le_mono_r; lia).
      apply rdbits_ext. intros j Hj.
      rewrite lookup_app_l by (rewrite take_length; lia). rewrite lookup_take by lia. done.
    + eexists; split; [done|]. cbn. eexists _, _; split; [done|]. split; [done|].
      split; [|done].
      pose proof (cdiv_le_mul (length xs * w) iw (length bs) ltac:(lia) Hm Hl).
      assert (iw * cdiv (new * w) iw <= iw * cdiv (length xs * w) iw) by (by apply Nat.mul_le_mono_l). lia.
  - destruct H as [-> H]. eexists; split; [done|]. done.
Qed.

(** ** serialize / deserialize *)
Lemma bits_cells_encode es xs s : Forall (fun x => (x < 2^N.of_nat es)%N) xs ->
  bits_cells es (length xs) (concat (map (cell_bits es) (map Some xs)) ++ s) = map Some xs.
Proof.
  induction 1 as [|x xs Hx Hf IH]; [done|]. cbn [length bits_cells map concat cell_bits].
  rewrite <-app_assoc. rewrite take_app_alt, drop_app_alt by (by rewrite nbits_length).
  rewrite IH. f_equal. unfold bits_cell, nbits. by rewrite det_map_Some, bits_val_bits_of, N.mod_small.
Qed.

Lemma concat_cell_bits_length es cs : length (concat (map (cell_bits es) cs)) = es * length cs.
Proof.
  induction cs as [|c cs IH]; cbn [map concat length]; [lia|].
  rewrite app_length, IH. destruct c; cbn [cell_bits]; rewrite ?nbits_length, ?replicate_length; lia.
Qed.

Lemma st_read_app s s' old : length old = length s -> st_read (s ++ s') old = (s, s').
Proof.
  intros E. unfold st_read. rewrite E. rewrite take_app, drop_app. rewrite drop_ge by lia. by rewrite app_nil_r.
Qed.

Lemma take_repr {A} (xs : list A) (cs : list (option A)) : (forall i x, xs !! i = Some x -> cs !! i = Some (Some x)) ->
  take (length xs) cs = map Some xs.
Proof.
  intros H. apply list_eq. intros i. rewrite list_lookup_fmap.
  destruct (xs !! i) as [x|] eqn:Hx.
  - pose proof (lookup_lt_Some _ _ _ Hx). rewrite lookup_take by done. by rewrite (H _ _ Hx).
  - apply lookup_ge_None in Hx. apply lookup_ge_None. rewrite take_length. lia.
Qed.

(** The bucket written by serialize is restored by deserialize, whatever follows in the stream. *)
Lemma b_serialize_spec pf kd w cap b xs : kind_ok kd w -> brepr pf kd w cap b xs ->
  (match kd with KClass _ => loose_free pf = true | _ => True end) ->
  exists s, b_serialize pf kd b (length xs) w = Ok s
    /\ forall s', exists b', b_deserialize pf kd (s ++ s') (length xs) w = (b', s')
       /\ brepr pf kd w (length xs) b' xs.
Proof.
  intros Hk H Hcl. destruct kd; cbn in H.
  1-3: destruct H as (t & [cs|bs] & -> & Ht & H); try done; destruct H as (Hc & Hl & H & Hf);
    cbn [b_serialize b_deserialize]; unfold cells_prefix; rewrite (proj2 (Nat.leb_le _ _)) by lia;
    cbn [mbind res_bind]; eexists; (split; [done|]); intros s';
    rewrite st_read_app by (rewrite concat_cell_bits_length, take_length, replicate_length; f_equal; lia);
    eexists; (split; [done|]); rewrite (take_repr xs cs H);
    pose proof (bits_cells_encode es xs [] Hf) as E; rewrite app_nil_r in E; rewrite E;
    cbn; eexists _, _; (split; [done|]); (split; [first [apply free_ok_refl | unfold free_ok; rewrite Hcl; apply orb_true_r]|]);
    rewrite map_length; (split; [done|]); (split; [done|]); (split; [|done]);
    intros i x Hx; rewrite list_lookup_fmap, Hx; done.
  - destruct H as (t & [cs|bs] & -> & Ht & H); try done. destruct H as (Hc & Hl & Hm & H & Hf).
    destruct Hk as (Hiw & Hw1 & Hw2). pose proof (width_ok_pos _ Hiw).
    cbn [b_serialize b_deserialize].
    pose proof (cdiv_ge (length xs * w) iw ltac:(lia)) as Hn.
    pose proof (cdiv_le_mul (length xs * w) iw (length bs) ltac:(lia) Hm Hl) as Hn2.
    set (n := iw * cdiv (length xs * w) iw) in *.
    rewrite (proj2 (Nat.leb_le _ _)) by lia. eexists; split; [done|]. intros s'.
    rewrite st_read_app by (rewrite take_length, replicate_length; lia).
    eexists; split; [done|]. cbn. eexists _, _; split; [done|]. split; [apply free_ok_refl|].
    rewrite take_length, Nat.min_l by lia.
    split; [done|]. split; [done|]. split; [by apply mul_mod_l|]. split; [|done].
    intros i x Hx. rewrite <-(H _ _ Hx). pose proof (lookup_lt_Some _ _ _ Hx).
    assert ((i + 1) * w <= length xs * w) by (apply Nat.mul_le_mono_r; lia).
    apply rdbits_ext. intros j Hj. rewrite lookup_take by lia. done.
  - destruct H as [-> H]. eexists; split; [done|]. intros s'. eexists; split; [done|]. done.
Qed.
