(** core_group with any internal_t: a packed array of fields.  The words touched end at most 64-ib bits behind the block. *)
From Verif Require Export NarrowModel GroupHist.
#[local] Open Scope nat_scope.

(** internal_t is as wide as ib bits and divides a 64-bit word; the platform lets a word be read that begins in a block. *)
Definition iwidth (ib : nat) : Prop := 1 <= ib /\ exists m, 64 = ib * m.
Definition roomy (ib : nat) (pf : platform) : Prop := 64 <= ib + 8 * slack pf.

(** The fields xs in a block of whole internal_t, with room for one more *)
Definition ncore_rep (ib : nat) (w : nat) (d : core) (xs : list N) : Prop :=
  exists l : bits, d = Some l /\ (exists b, length l = ib * b) /\ w * (length xs + 1) <= length l
    /\ Forall (fun x => (x < 2^N.of_nat w)%N) xs
    /\ forall i x, xs !! i = Some x -> rdbits l (i * w) w = nbits w x.

Section core.
Context (ib : nat) (pf : platform).
Hypothesis IB : iwidth ib.
Hypothesis PF : roomy ib pf.
Notation ncore_rep := (ncore_rep ib).
#[local] Lemma ib_pos : ib <> 0.
Proof. destruct IB. lia. Qed.
Lemma mul_lt_r a b : ib * a < ib * b -> ib * a + ib <= ib * b.
Proof.
  intros H. assert (a < b) by (destruct (Nat.lt_ge_cases a b); [done|]; pose proof (Nat.mul_le_mono_l b a ib); lia).
  replace (ib * a + ib) with (ib * S a) by lia. by apply Nat.mul_le_mono_l.
Qed.
Lemma posib p : p / ib * ib + p mod ib = p.
Proof. pose proof (Nat.div_mod p ib ib_pos). lia. Qed.
Lemma modib p : p mod ib < 64.
Proof. pose proof (Nat.mod_upper_bound p ib ib_pos). destruct IB as [_ (m & Hm)]. destruct m; [lia|]. rewrite Nat.mul_succ_r in Hm. lia. Qed.
(** A word at a multiple of ib that holds a bit of the block *)
Lemma ntouch a off n L : (exists b, L = ib * b) -> 1 <= n -> off + n <= 128 -> ib * a + off + n <= L -> touched_end (ib * a) off n <= L + 8 * slack pf.
Proof.
  intros (b & ->) Hn Ho H. destruct IB as [H1 (m & Hm)]. unfold roomy in PF. unfold touched_end. destruct (Nat.ltb_spec 64 (off + n)).
  - assert (Hlt : ib * (a + m) < ib * b) by (rewrite Nat.mul_add_distr_l; lia).
    apply mul_lt_r in Hlt. rewrite Nat.mul_add_distr_l in Hlt. lia.
  - assert (Hlt : ib * a < ib * b) by lia. apply mul_lt_r in Hlt. lia.
Qed.
Lemma ntouch_pos p n L : 1 <= n <= 64 -> (exists b, L = ib * b) -> p + n <= L -> touched_end (p / ib * ib) (p mod ib) n <= L + 8 * slack pf.
Proof.
  intros Hn Hm Hp. pose proof (posib p). pose proof (modib p). rewrite (Nat.mul_comm (p / ib)) in *. apply ntouch; [done|lia..].
Qed.
Lemma wr_blocks (l : bits) p c : p + length c <= length l -> (exists b, length l = ib * b) -> exists b, length (wrbits l p c) = ib * b.
Proof. intros H (b & Hb). exists b. by rewrite wrbits_length. Qed.

Lemma ncopy_ok (l : bits) f t n : 1 <= n <= 64 -> (exists b, length l = ib * b) -> f + n <= length l -> t + n <= length l ->
  nc_copy ib pf (Some l) (f, t, n) = Ok (Some (wrbits l t (rdbits l f n))).
Proof.
  intros Hn Hm Hf Ht. unfold nc_copy. rewrite read_raw_ok by (by apply ntouch_pos). cbn [mbind res_bind].
  rewrite posib, write_raw_ok; rewrite ?rdbits_length, ?posib; try done. by apply ntouch_pos.
Qed.
Lemma nget_ok (l : bits) p w x : 1 <= w <= 64 -> (exists b, length l = ib * b) -> p + w <= length l -> (x < 2^N.of_nat w)%N ->
  rdbits l p w = nbits w x -> nc_get ib pf (Some l) p w = Ok x.
Proof.
  intros Hw Hm Hp Hx Hr. unfold nc_get, read_int. rewrite read_raw_ok by (by apply ntouch_pos).
  cbn [mbind res_bind]. rewrite posib, Hr, raw_val_nbits. by rewrite N.mod_small.
Qed.
Lemma nput_ok (l : bits) p w x : 1 <= w <= 64 -> (exists b, length l = ib * b) -> p + w <= length l ->
  nc_put ib pf (Some l) p w x = Ok (Some (wrbits l p (nbits w x))).
Proof.
  intros Hw Hm Hp. unfold nc_put. rewrite write_int_ok by (rewrite ?posib; try done; by apply ntouch_pos). cbn [mbind res_bind]. by rewrite posib.
Qed.

Lemma ncopies_up (l : bits) f t m : (exists b, length l = ib * b) -> t <= f -> f + 64 * m <= length l ->
  rfold (nc_copy ib pf) (map (fun j => (f + 64 * j, t + 64 * j, 64)) (seq 0 m)) (Some l) = Ok (Some (wrbits l t (rdbits l f (64 * m)))).
Proof.
  intros Hl Htf. induction m as [|m IH]; intros Hf.
  { cbn [seq map rfold]. by rewrite Nat.mul_0_r, rdbits_0, wrbits_nil. }
  rewrite seq_S, map_app, rfold_app, IH by lia. cbn [mbind res_bind map rfold Nat.add].
  assert (Hb : t + length (rdbits l f (64 * m)) <= length l) by (rewrite ?rdbits_length; lia).
  pose proof (wr_blocks _ _ _ Hb Hl) as Hl'. pose proof (wrbits_length _ _ _ Hb) as Hlen.
  rewrite ncopy_ok; rewrite ?Hlen; try lia; [|by rewrite <-Hlen]. cbn [mbind res_bind].
  rewrite move_seq by lia. do 4 f_equal. lia.
Qed.
Lemma ncopies_down (l : bits) e w m : (exists b, length l = ib * b) -> 64 * m <= e -> e + w <= length l ->
  rfold (nc_copy ib pf) (map (fun j => (e - 64 * (j + 1), e + w - 64 * (j + 1), 64)) (seq 0 m)) (Some l)
    = Ok (Some (wrbits l (e + w - 64 * m) (rdbits l (e - 64 * m) (64 * m)))).
Proof.
  intros Hl. induction m as [|m IH]; intros Hm He.
  { cbn [seq map rfold]. by rewrite Nat.mul_0_r, rdbits_0, wrbits_nil. }
  rewrite seq_S, map_app, rfold_app, IH by lia. cbn [mbind res_bind map rfold Nat.add].
  assert (Hb : e + w - 64 * m + length (rdbits l (e - 64 * m) (64 * m)) <= length l) by (rewrite ?rdbits_length; lia).
  pose proof (wr_blocks _ _ _ Hb Hl) as Hl'. pose proof (wrbits_length _ _ _ Hb) as Hlen.
  rewrite ncopy_ok; rewrite ?Hlen; try lia; [|by rewrite <-Hlen]. cbn [mbind res_bind].
  replace (e + w - 64 * m) with (e + w - 64 * (m + 1) + 64) by lia.
  replace (e - 64 * m) with (e - 64 * (m + 1) + 64) by lia.
  rewrite move_seq_down by lia. replace (m + 1) with (S m) by lia. do 4 f_equal; lia.
Qed.
Lemma nerase_moves_ok (l : bits) i w n : (exists b, length l = ib * b) -> i < n -> (n + 1) * w <= length l ->
  rfold (nc_copy ib pf) (erase_moves i w n) (Some l) = Ok (Some (wrbits l (i * w) (rdbits l ((i + 1) * w) ((n - i) * w)))).
Proof.
  intros Hl Hi Hr. unfold erase_moves. set (T := (n - i) * w).
  assert (HT : i * w + T = n * w) by (subst T; rewrite <-Nat.mul_add_distr_r; f_equal; lia).
  assert (HT' : (i + 1) * w + T = (n + 1) * w) by (subst T; rewrite <-Nat.mul_add_distr_r; f_equal; lia).
  pose proof (Nat.div_mod T 64 ltac:(lia)) as Hd. pose proof (Nat.mod_upper_bound T 64 ltac:(lia)).
  assert (Hw : i * w <= (i + 1) * w) by (apply Nat.mul_le_mono_r; lia).
  rewrite rfold_app, ncopies_up by (try done; lia). cbn [mbind res_bind].
  destruct (Nat.eqb_spec (T mod 64) 0) as [E|E].
  - cbn [rfold]. do 4 f_equal. lia.
  - assert (Hb : i * w + length (rdbits l ((i + 1) * w) (64 * (T / 64))) <= length l) by (rewrite ?rdbits_length; lia).
    pose proof (wr_blocks _ _ _ Hb Hl) as Hl'. pose proof (wrbits_length _ _ _ Hb) as Hlen.
    cbn [rfold]. rewrite ncopy_ok; rewrite ?Hlen; try lia; [|by rewrite <-Hlen]. cbn [mbind res_bind].
    rewrite move_seq by lia. do 4 f_equal. lia.
Qed.
Lemma ninsert_moves_ok (l : bits) i w n : (exists b, length l = ib * b) -> i <= n -> (n + 1) * w <= length l ->
  rfold (nc_copy ib pf) (insert_moves i w n) (Some l) = Ok (Some (wrbits l ((i + 1) * w) (rdbits l (i * w) ((n - i) * w)))).
Proof.
  intros Hl Hi Hn. unfold insert_moves. set (T := (n - i) * w).
  assert (HT : i * w + T = n * w) by (subst T; rewrite <-Nat.mul_add_distr_r; f_equal; lia).
  assert (HT' : (i + 1) * w + T = (n + 1) * w) by (subst T; rewrite <-Nat.mul_add_distr_r; f_equal; lia).
  assert (Hw : (n + 1) * w = n * w + w) by lia. assert (Hw' : (i + 1) * w = i * w + w) by lia.
  pose proof (Nat.div_mod T 64 ltac:(lia)) as Hd. pose proof (Nat.mod_upper_bound T 64 ltac:(lia)).
  rewrite rfold_app, ncopies_down by (try done; lia). cbn [mbind res_bind].
  assert (Hb : n * w + w - 64 * (T / 64) + length (rdbits l (n * w - 64 * (T / 64)) (64 * (T / 64))) <= length l) by (rewrite ?rdbits_length; lia).
  pose proof (wr_blocks _ _ _ Hb Hl) as Hl'. pose proof (wrbits_length _ _ _ Hb) as Hlen.
  destruct (Nat.ltb_spec 0 n) as [H0|H0]; cbn [andb].
  - destruct (Nat.ltb_spec (i * w) (n * w - 64 * (T / 64))) as [E|E].
    + cbn [rfold]. rewrite ncopy_ok; rewrite ?Hlen; try lia; [|by rewrite <-Hlen]. cbn [mbind res_bind].
      replace (n * w + w - 64 * (T / 64)) with ((i + 1) * w + T mod 64) by lia.
      replace (n * w - 64 * (T / 64)) with (i * w + T mod 64) by lia.
      rewrite move_seq_down by lia. do 4 f_equal. lia.
    + cbn [rfold]. do 3 f_equal; [lia|f_equal; lia].
  - assert (i = 0) as -> by lia. assert (n = 0) as -> by lia. subst T. cbn [Nat.sub Nat.mul]. rewrite Nat.div_0_l by done.
    cbn [rfold]. rewrite !rdbits_0, !wrbits_nil. done.
Qed.

Lemma ncdiv_mono a b : a <= b -> cdiv a ib <= cdiv b ib.
Proof. intros H. unfold cdiv. apply Nat.div_le_mono; [apply ib_pos|lia]. Qed.
Lemma ncdiv_block n m : (exists b, m = ib * b) -> n <= m -> ib * cdiv n ib <= m.
Proof.
  intros (b & ->) Hn. apply Nat.mul_le_mono_l. unfold cdiv. pose proof ib_pos.
  assert ((n + ib - 1) / ib < b + 1); [|lia]. apply Nat.div_lt_upper_bound; [done|]. rewrite Nat.mul_add_distr_l. lia.
Qed.
Lemma ncdiv_ge a : a <= ib * cdiv a ib.
Proof. pose proof ib_pos. pose proof (cdiv_ge a ib ltac:(lia)). lia. Qed.

Lemma ncore_init w : ncore_rep w (nc_init ib w) [].
Proof.
  unfold nc_init. eexists. split; [done|]. rewrite replicate_length. cbn [length]. pose proof (ncdiv_ge w).
  split; [by eexists|]. split; [lia|]. split; [constructor|]. intros i x. by rewrite lookup_nil.
Qed.
Lemma ncore_read w d xs i x : 1 <= w <= 64 -> ncore_rep w d xs -> xs !! i = Some x -> nc_read ib pf d i w = Ok x.
Proof.
  intros Hw (l & -> & Hm & Hl & Hs & Hf) Hi. unfold nc_read. pose proof (lookup_lt_Some _ _ _ Hi) as Hlt.
  pose proof (field_in i _ w Hlt). apply nget_ok; try done; [lia| |by apply Hf]. by eapply Forall_lookup in Hs.
Qed.
Lemma ncore_write w d xs i x : 1 <= w <= 64 -> ncore_rep w d xs -> i < length xs -> (x < 2^N.of_nat w)%N ->
  exists d', nc_write ib pf d i x w = Ok d' /\ ncore_rep w d' (<[i := x]> xs).
Proof.
  intros Hw (l & -> & Hm & Hl & Hs & Hf) Hi Hx. unfold nc_write. pose proof (field_in i _ w Hi).
  rewrite nput_ok by (try done; lia). eexists. split; [done|]. eexists. split; [done|].
  assert (Hb : i * w + length (nbits w x) <= length l) by (rewrite nbits_length; lia).
  rewrite wrbits_length, insert_length by done. split; [done|]. split; [done|]. split; [by apply Forall_insert|].
  intros j y Hy. destruct (decide (j = i)) as [->|Hne].
  - rewrite list_lookup_insert in Hy by done. injection Hy as <-.
    pose proof (rdbits_wrbits_same l (i * w) (nbits w x) Hb) as Hr. by rewrite nbits_length in Hr.
  - rewrite list_lookup_insert_ne in Hy by done. rewrite rdbits_wrbits_other; [by apply Hf|done|].
    rewrite nbits_length. destruct (Nat.lt_ge_cases j i) as [Hc|Hc].
    + left. by apply field_in.
    + right. apply field_in. lia.
Qed.
Lemma ncore_scan w d xs x a : 1 <= w <= 64 -> ncore_rep w d xs -> forall n i, i + n <= length xs -> ib * a <= i * w ->
  nc_scan pf d (ib * a) i n w x = Ok ((fun j => i + j) <$> first_index x (take n (drop i xs))).
Proof.
  intros Hw H. induction n as [|n IH]; intros i Hi Ha; cbn [nc_scan].
  { by rewrite take_0. }
  destruct (lookup_lt_is_Some_2 xs i) as (y & Hy); [lia|]. destruct H as (l & -> & Hm & Hl & Hs & Hf).
  pose proof (Nat.div_mod (i * w - ib * a) 64 ltac:(lia)) as Hd. pose proof (Nat.mod_upper_bound (i * w - ib * a) 64 ltac:(lia)) as Hu.
  pose proof (field_in i _ w (lookup_lt_Some _ _ _ Hy)) as Hin. destruct IB as [_ (m & Hm64)].
  assert (Er : read_int pf l (ib * a + (i * w - ib * a) / 64 * 64) ((i * w - ib * a) mod 64) w = Ok y).
  { set (q := (i * w - ib * a) / 64) in *. set (r := (i * w - ib * a) mod 64) in *.
    assert (Ew : ib * a + q * 64 = ib * (a + q * m)) by (rewrite Nat.mul_add_distr_l; f_equal; rewrite Hm64; lia).
    unfold read_int. rewrite read_raw_ok; [|rewrite Ew; apply ntouch; [done|lia..]]. cbn [mbind res_bind].
    replace (ib * a + q * 64 + r) with (i * w) by lia. rewrite (Hf _ _ Hy), raw_val_nbits. rewrite N.mod_small; [done|]. by eapply Forall_lookup in Hs. }
  rewrite Er. cbn [mbind res_bind]. rewrite (drop_S _ _ _ Hy). cbn [take first_index]. destruct (N.eqb_spec y x).
  - cbn. by rewrite Nat.add_0_r.
  - rewrite IH by (try lia). destruct (first_index x (take n (drop (S i) xs))); cbn; [|done]. do 2 f_equal. lia.
Qed.
Lemma ncore_find w d xs x n i : 1 <= w <= 64 -> ncore_rep w d xs -> i + n <= length xs ->
  nc_find ib pf d i n w x = Ok ((fun j => i + j) <$> first_index x (take n (drop i xs))).
Proof.
  intros Hw H Hi. unfold nc_find. rewrite (Nat.mul_comm (i * w / ib)). apply ncore_scan; try done. apply Nat.mul_div_le, ib_pos.
Qed.

Lemma ncore_insert w d xs i x : 1 <= w <= 64 -> ncore_rep w d xs -> i <= length xs -> (x < 2^N.of_nat w)%N ->
  exists d', nc_insert ib pf d i x w (length xs) = Ok d' /\ ncore_rep w d' (take i xs ++ x :: drop i xs).
Proof.
  intros Hw (l & -> & Hm & Hl & Hs & Hf) Hi Hx. unfold nc_insert. cbv zeta. set (n := length xs) in *. rewrite (proj2 (Nat.ltb_ge _ _) Hi).
  set (new := cdiv (w * (n + 2)) ib) in *. pose proof (ncdiv_ge (w * (n + 2))) as Hnew. fold new in Hnew.
  assert (Hst : exists l2 : bits, (if cdiv (w * n) ib <? new
       then Ok (Some (wrbits (realloc_bits pf (default [] (Some l)) (ib * new)) (ib * (new - 1)) (replicate ib (Some false))))
       else Ok (Some l)) = Ok (Some l2) /\ (exists b, length l2 = ib * b) /\ w * (n + 2) <= length l2
       /\ forall p k, p + k <= w * n -> rdbits l2 p k = rdbits l p k).
  { destruct (Nat.ltb_spec (cdiv (w * n) ib) new) as [Hlt|Hge].
    - cbn [default from_option id]. eexists. split; [done|].
      assert (Hn1 : ib * (new - 1) + ib = ib * new) by (destruct new; [lia|]; rewrite Nat.sub_succ, Nat.sub_0_r; lia).
      assert (Hb : ib * (new - 1) + length (replicate ib (Some false)) <= length (realloc_bits pf l (ib * new)))
        by (rewrite rbits_length, replicate_length; lia).
      rewrite wrbits_length, rbits_length by done. split; [by eexists|]. split; [done|].
      intros p k Hp. pose proof (ncdiv_ge (w * n)). assert (ib * cdiv (w * n) ib <= ib * (new - 1)) by (apply Nat.mul_le_mono_l; lia).
      rewrite rdbits_wrbits_other by (try done; lia). apply rbits_rd; lia.
    - exists l. split; [done|]. split; [done|]. split; [|done].
      pose proof (ncdiv_block (w * n) (length l) Hm ltac:(lia)).
      assert (ib * new <= ib * cdiv (w * n) ib) by (apply Nat.mul_le_mono_l; lia). lia. }
  destruct Hst as (l2 & -> & Hm2 & Hl2 & Hrd). cbn [mbind res_bind].
  assert (E2 : w * (n + 2) = n * w + w + w) by lia. assert (E1 : (n + 1) * w = n * w + w) by lia.
  assert (Ei : (i + 1) * w = i * w + w) by lia.
  assert (Ein : i * w + (n - i) * w = n * w) by (rewrite <-Nat.mul_add_distr_r; f_equal; lia).
  rewrite ninsert_moves_ok by (try done; lia). cbn [mbind res_bind].
  set (l3 := wrbits l2 ((i + 1) * w) (rdbits l2 (i * w) ((n - i) * w))).
  assert (Hb3 : (i + 1) * w + length (rdbits l2 (i * w) ((n - i) * w)) <= length l2) by (rewrite rdbits_length; lia).
  assert (Hlen3 : length l3 = length l2) by (by apply wrbits_length).
  rewrite nput_ok by (rewrite ?Hlen3; try done; lia). eexists. split; [done|]. eexists. split; [done|].
  assert (Hb4 : i * w + length (nbits w x) <= length l3) by (rewrite Hlen3, nbits_length; lia).
  rewrite wrbits_length, Hlen3 by done.
  assert (Hlx : length (take i xs ++ x :: drop i xs) = n + 1).
  { rewrite app_length, take_length. cbn [length]. rewrite drop_length. fold n. lia. }
  rewrite Hlx. split; [done|]. split; [lia|]. split.
  { apply Forall_app. split; [by apply Forall_take|]. constructor; [done|by apply Forall_drop]. }
  intros j y Hy. destruct (Nat.lt_trichotomy j i) as [Hj|[->|Hj]].
  - rewrite lookup_app_l in Hy by (rewrite take_length; fold n; lia). rewrite lookup_take in Hy by done.
    pose proof (field_in j i w Hj). rewrite rdbits_wrbits_other by (try done; lia). unfold l3.
    rewrite rdbits_wrbits_other by (try done; lia). rewrite Hrd by lia. by apply Hf.
  - rewrite lookup_app_r in Hy by (rewrite take_length; fold n; lia). rewrite take_length in Hy. fold n in Hy.
    replace (i - i `min` n) with 0 in Hy by lia. cbn in Hy. injection Hy as <-.
    pose proof (rdbits_wrbits_same l3 (i * w) (nbits w x) Hb4) as Hr. by rewrite nbits_length in Hr.
  - rewrite lookup_app_r in Hy by (rewrite take_length; fold n; lia). rewrite take_length in Hy. fold n in Hy.
    destruct (j - i `min` n) as [|j'] eqn:Ej; [lia|]. change (drop i xs !! j' = Some y) in Hy.
    assert (j = i + S j') as -> by lia. rewrite lookup_drop in Hy. pose proof (lookup_lt_Some _ _ _ Hy) as Hlt. fold n in Hlt.
    assert (Hj2 : i * w + w <= (i + S j') * w) by (apply field_in; lia).
    rewrite rdbits_wrbits_other by (try done; rewrite nbits_length; lia). unfold l3.
    assert (Epos : (i + S j') * w = (i + 1) * w + j' * w) by lia. rewrite Epos.
    pose proof (field_in j' (n - i) w ltac:(lia)).
    rewrite rdbits_wrbits_in by (rewrite ?rdbits_length; lia). rewrite rdbits_sub by lia.
    replace (i * w + j' * w) with ((i + j') * w) by lia. pose proof (field_in (i + j') n w ltac:(lia)).
    rewrite Hrd by lia. by apply Hf.
Qed.

Lemma ncore_erase w d xs i : 1 <= w <= 64 -> ncore_rep w d xs -> i < length xs ->
  exists d', nc_erase ib pf d i w (length xs) = Ok d' /\ ncore_rep w d' (delete i xs).
Proof.
  intros Hw (l & -> & Hm & Hl & Hs & Hf) Hi. unfold nc_erase. set (n := length xs) in *. rewrite (proj2 (Nat.ltb_ge _ _) (Nat.lt_le_incl _ _ Hi)).
  assert (E1 : (n + 1) * w = n * w + w) by lia. assert (E2 : w * (n + 1) = n * w + w) by lia.
  assert (Ei : (i + 1) * w = i * w + w) by lia.
  assert (Ein : i * w + (n - i) * w = n * w) by (rewrite <-Nat.mul_add_distr_r; f_equal; lia).
  rewrite nerase_moves_ok by (try done; lia). cbn [mbind res_bind].
  assert (Hnm : cdiv (w * (n - 1)) ib <= cdiv (w * n) ib) by (apply ncdiv_mono, Nat.mul_le_mono_l; lia).
  rewrite (proj2 (Nat.ltb_ge _ _) Hnm), andb_false_r.
  eexists. split; [done|]. eexists. split; [done|].
  assert (Hb : i * w + length (rdbits l ((i + 1) * w) ((n - i) * w)) <= length l) by (rewrite rdbits_length; lia).
  rewrite wrbits_length by done.
  assert (Hld : length (delete i xs) = n - 1) by (rewrite length_delete by (by apply lookup_lt_is_Some_2); fold n; lia).
  rewrite Hld. split; [done|]. split; [replace (n - 1 + 1) with n by lia; lia|].
  split; [by apply Forall_delete|].
  intros j y Hy. destruct (Nat.lt_ge_cases j i) as [Hj|Hj].
  - rewrite lookup_delete_lt in Hy by done. pose proof (field_in j i w Hj).
    rewrite rdbits_wrbits_other by (try done; lia). by apply Hf.
  - rewrite lookup_delete_ge in Hy by done. pose proof (lookup_lt_Some _ _ _ Hy) as Hlt. fold n in Hlt.
    assert (Epos : j * w = i * w + (j - i) * w) by (rewrite <-Nat.mul_add_distr_r; f_equal; lia). rewrite Epos.
    pose proof (field_in (j - i) (n - i) w ltac:(lia)).
    rewrite rdbits_wrbits_in by (rewrite ?rdbits_length; lia). rewrite rdbits_sub by lia.
    replace ((i + 1) * w + (j - i) * w) with (S j * w); [by apply Hf|]. rewrite <-Nat.mul_add_distr_r. f_equal. lia.
Qed.
End core.
