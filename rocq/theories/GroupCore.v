(** core_group: a packed array of fields. *)
From Verif Require Export GroupModel BitsProofs BucketProofs Chain.
#[local] Open Scope nat_scope.

(** The fields xs in a block of whole words.  [er]: an erasure may follow, which reads one field past the last one. *)
Definition core_rep (er : Prop) (pf : platform) (w : nat) (d : core) (xs : list N) : Prop :=
  exists l : bits, d = Some l /\ length l mod 64 = 0 /\ w * length xs <= length l
    /\ (er -> w * (length xs + 1) <= length l \/ 8 <= slack pf)
    /\ Forall (fun x => (x < 2^N.of_nat w)%N) xs
    /\ forall i x, xs !! i = Some x -> rdbits l (i * w) w = nbits w x.

Lemma rdbits_wrbits_in (l : bits) p c o k : p + length c <= length l -> o + k <= length c ->
  rdbits (wrbits l p c) (p + o) k = take k (drop o c).
Proof.
  intros Hl Ho. apply list_eq. intros i. rewrite rdbits_lookup. case_decide.
  - rewrite lookup_take by lia. rewrite lookup_drop, wrbits_lookup by done. rewrite decide_True by lia.
    replace (p + o + i - p) with (o + i) by lia. destruct (lookup_lt_is_Some_2 c (o + i)) as (y & ->); [lia|done].
  - rewrite lookup_take_ge by lia. done.
Qed.
Lemma rdbits_sub (l : bits) f n o k : o + k <= n -> take k (drop o (rdbits l f n)) = rdbits l (f + o) k.
Proof.
  intros Ho. apply list_eq. intros i. rewrite rdbits_lookup. case_decide.
  - rewrite lookup_take, lookup_drop, rdbits_lookup by lia. rewrite decide_True by lia. by rewrite Nat.add_assoc.
  - by rewrite lookup_take_ge by lia.
Qed.
(** Two adjacent blocks moved up, the upper one first *)
Lemma move_seq_down (l : bits) f t a b : f <= t -> t + b + a <= length l ->
  wrbits (wrbits l (t + b) (rdbits l (f + b) a)) t (rdbits (wrbits l (t + b) (rdbits l (f + b) a)) f b)
  = wrbits l t (rdbits l f (b + a)).
Proof.
  intros Hft Hl. rewrite rdbits_wrbits_other by (rewrite rdbits_length; lia). rewrite rdbits_app.
  assert (H1 : t + b + length (rdbits l (f + b) a) <= length l) by (rewrite rdbits_length; lia).
  assert (H2 : t + length (rdbits l f b) <= length (wrbits l (t + b) (rdbits l (f + b) a)))
    by (rewrite wrbits_length by done; rewrite rdbits_length; lia).
  assert (H3 : t + length (rdbits l f b ++ rdbits l (f + b) a) <= length l) by (rewrite app_length, !rdbits_length; lia).
  apply list_eq. intros i. rewrite (wrbits_lookup _ _ _ _ H2), (wrbits_lookup _ _ _ _ H1), (wrbits_lookup _ _ _ _ H3).
  rewrite app_length, !rdbits_length.
  destruct (decide (t <= i < t + b)).
  - rewrite decide_True by lia. by rewrite lookup_app_l by (rewrite rdbits_length; lia).
  - destruct (decide (t + b <= i < t + b + a)).
    + rewrite decide_True by lia. rewrite lookup_app_r by (rewrite rdbits_length; lia). rewrite rdbits_length. f_equal. lia.
    + by rewrite decide_False by lia.
Qed.

Section core.
Context (pf : platform).
Lemma rbits_length (l : bits) n : length (realloc_bits pf l n) = n.
Proof. unfold realloc_bits, fresh_bits. rewrite app_length, take_length, replicate_length. lia. Qed.
Lemma rbits_rd (l : bits) n p w : p + w <= n -> p + w <= length l -> rdbits (realloc_bits pf l n) p w = rdbits l p w.
Proof.
  intros H1 H2. unfold realloc_bits. apply list_eq. intros i. rewrite !rdbits_lookup. case_decide; [|done].
  rewrite lookup_app_l by (rewrite take_length; lia). by rewrite lookup_take by lia.
Qed.
Lemma pos64 p : p / 64 * 64 + p mod 64 = p.
Proof. pose proof (Nat.div_mod p 64 ltac:(lia)). lia. Qed.
Lemma touch64 p n m : 1 <= n <= 64 -> m mod 64 = 0 -> p + n <= m -> touched_end (p / 64 * 64) (p mod 64) n <= m.
Proof.
  intros Hn Hm Hp. pose proof (pos64 p). pose proof (Nat.mod_upper_bound p 64 ltac:(lia)).
  pose proof (Nat.mod_mul (p / 64) 64 ltac:(lia)). apply touched_end_aligned; lia.
Qed.
Lemma mod64_add n : n mod 64 = 0 -> (n + 64) mod 64 = 0.
Proof. intros H. rewrite <-Nat.add_mod_idemp_l, H by done. done. Qed.

(** Reading up to [n + 64] bits is allowed if the platform has slack. *)
Definition readable (n : nat) (e : nat) : Prop := e <= n \/ (8 <= slack pf /\ e <= n + 64).
Lemma readable_le n e e' : e' <= e -> readable n e -> readable n e'.
Proof. intros H [|[]]; [left|right]; lia. Qed.
Lemma copy_ok (l : bits) f t n : 1 <= n <= 64 -> length l mod 64 = 0 -> readable (length l) (f + n) -> t + n <= length l ->
  cg_copy pf (Some l) (f, t, n) = Ok (Some (wrbits l t (rdbits l f n))).
Proof.
  intros Hn Hm Hf Ht. unfold cg_copy. rewrite read_raw_ok.
  - cbn [mbind res_bind]. rewrite pos64, write_raw_ok; rewrite ?rdbits_length, ?pos64; try done.
    pose proof (touch64 t n (length l) Hn Hm Ht). lia.
  - destruct Hf as [Hf|[Hs Hf]].
    + pose proof (touch64 f n (length l) Hn Hm Hf). lia.
    + pose proof (touch64 f n (length l + 64) Hn (mod64_add _ Hm) Hf). lia.
Qed.
Lemma get_ok (l : bits) p w x : 1 <= w <= 64 -> length l mod 64 = 0 -> p + w <= length l -> (x < 2^N.of_nat w)%N ->
  rdbits l p w = nbits w x -> cg_get pf (Some l) p w = Ok x.
Proof.
  intros Hw Hm Hp Hx Hr. unfold cg_get, read_int. pose proof (touch64 p w (length l) Hw Hm Hp).
  rewrite read_raw_ok by lia. cbn [mbind res_bind]. rewrite pos64, Hr, raw_val_nbits. by rewrite N.mod_small.
Qed.
Lemma put_ok (l : bits) p w x : 1 <= w <= 64 -> length l mod 64 = 0 -> p + w <= length l ->
  cg_put pf (Some l) p w x = Ok (Some (wrbits l p (nbits w x))).
Proof.
  intros Hw Hm Hp. unfold cg_put. pose proof (touch64 p w (length l) Hw Hm Hp).
  rewrite write_int_ok by (rewrite ?pos64; lia). cbn [mbind res_bind]. by rewrite pos64.
Qed.

Lemma copies_up (l : bits) f t m : length l mod 64 = 0 -> t <= f -> readable (length l) (f + 64 * m) -> t + 64 * m <= length l ->
  rfold (cg_copy pf) (map (fun j => (f + 64 * j, t + 64 * j, 64)) (seq 0 m)) (Some l) = Ok (Some (wrbits l t (rdbits l f (64 * m)))).
Proof.
  intros Hl Htf. induction m as [|m IH]; intros Hf Ht.
  { cbn [seq map rfold]. by rewrite Nat.mul_0_r, rdbits_0, wrbits_nil. }
  rewrite seq_S, map_app, rfold_app, IH; [|eapply readable_le; [|exact Hf]; lia|lia]. cbn [mbind res_bind map rfold Nat.add].
  assert (Hlen : length (wrbits l t (rdbits l f (64 * m))) = length l) by (rewrite wrbits_length; rewrite ?rdbits_length; lia).
  rewrite copy_ok; rewrite ?Hlen; try lia; [|eapply readable_le; [|exact Hf]; lia]. cbn [mbind res_bind].
  rewrite move_seq by lia. do 4 f_equal. lia.
Qed.
Lemma copies_down (l : bits) e w m : length l mod 64 = 0 -> 64 * m <= e -> e + w <= length l ->
  rfold (cg_copy pf) (map (fun j => (e - 64 * (j + 1), e + w - 64 * (j + 1), 64)) (seq 0 m)) (Some l)
    = Ok (Some (wrbits l (e + w - 64 * m) (rdbits l (e - 64 * m) (64 * m)))).
Proof.
  intros Hl. induction m as [|m IH]; intros Hm He.
  { cbn [seq map rfold]. by rewrite Nat.mul_0_r, rdbits_0, wrbits_nil. }
  rewrite seq_S, map_app, rfold_app, IH by lia. cbn [mbind res_bind map rfold Nat.add].
  assert (Hlen : length (wrbits l (e + w - 64 * m) (rdbits l (e - 64 * m) (64 * m))) = length l) by (rewrite wrbits_length; rewrite ?rdbits_length; lia).
  rewrite copy_ok; rewrite ?Hlen; try lia; [|left; lia]. cbn [mbind res_bind].
  replace (e + w - 64 * m) with (e + w - 64 * (m + 1) + 64) by lia.
  replace (e - 64 * m) with (e - 64 * (m + 1) + 64) by lia.
  rewrite move_seq_down by lia. replace (m + 1) with (S m) by lia. do 4 f_equal; lia.
Qed.

Lemma erase_moves_ok (l : bits) i w n : length l mod 64 = 0 -> i < n -> n * w <= length l -> readable (length l) ((n + 1) * w) ->
  rfold (cg_copy pf) (erase_moves i w n) (Some l) = Ok (Some (wrbits l (i * w) (rdbits l ((i + 1) * w) ((n - i) * w)))).
Proof.
  intros Hl Hi Hn Hr. unfold erase_moves. set (T := (n - i) * w).
  assert (HT : i * w + T = n * w) by (subst T; rewrite <-Nat.mul_add_distr_r; f_equal; lia).
  assert (HT' : (i + 1) * w + T = (n + 1) * w) by (subst T; rewrite <-Nat.mul_add_distr_r; f_equal; lia).
  pose proof (Nat.div_mod T 64 ltac:(lia)) as Hd. pose proof (Nat.mod_upper_bound T 64 ltac:(lia)).
  assert (Hw : i * w <= (i + 1) * w) by (apply Nat.mul_le_mono_r; lia).
  rewrite rfold_app, copies_up; [|done|done|eapply readable_le; [|exact Hr]; lia|lia]. cbn [mbind res_bind].
  destruct (Nat.eqb_spec (T mod 64) 0) as [E|E].
  - cbn [rfold]. do 4 f_equal. lia.
  - assert (Hlen : length (wrbits l (i * w) (rdbits l ((i + 1) * w) (64 * (T / 64)))) = length l)
      by (rewrite wrbits_length; rewrite ?rdbits_length; lia).
    cbn [rfold]. rewrite copy_ok; rewrite ?Hlen; try lia; [|eapply readable_le; [|exact Hr]; lia]. cbn [mbind res_bind].
    rewrite move_seq by lia. do 4 f_equal. lia.
Qed.
Lemma insert_moves_ok (l : bits) i w n : length l mod 64 = 0 -> i <= n -> (n + 1) * w <= length l ->
  rfold (cg_copy pf) (insert_moves i w n) (Some l) = Ok (Some (wrbits l ((i + 1) * w) (rdbits l (i * w) ((n - i) * w)))).
Proof.
  intros Hl Hi Hn. unfold insert_moves. set (T := (n - i) * w).
  assert (HT : i * w + T = n * w) by (subst T; rewrite <-Nat.mul_add_distr_r; f_equal; lia).
  assert (HT' : (i + 1) * w + T = (n + 1) * w) by (subst T; rewrite <-Nat.mul_add_distr_r; f_equal; lia).
  assert (Hw : (n + 1) * w = n * w + w) by lia. assert (Hw' : (i + 1) * w = i * w + w) by lia.
  pose proof (Nat.div_mod T 64 ltac:(lia)) as Hd. pose proof (Nat.mod_upper_bound T 64 ltac:(lia)).
  rewrite rfold_app, copies_down by lia. cbn [mbind res_bind].
  assert (Hlen : length (wrbits l (n * w + w - 64 * (T / 64)) (rdbits l (n * w - 64 * (T / 64)) (64 * (T / 64)))) = length l)
      by (rewrite wrbits_length; rewrite ?rdbits_length; lia).
  destruct (Nat.ltb_spec 0 n) as [H0|H0]; cbn [andb].
  - destruct (Nat.ltb_spec (i * w) (n * w - 64 * (T / 64))) as [E|E].
    + cbn [rfold]. rewrite copy_ok; rewrite ?Hlen; try lia; [|left; lia]. cbn [mbind res_bind].
      replace (n * w + w - 64 * (T / 64)) with ((i + 1) * w + T mod 64) by lia.
      replace (n * w - 64 * (T / 64)) with (i * w + T mod 64) by lia.
      rewrite move_seq_down by lia. do 4 f_equal. lia.
    + cbn [rfold]. do 3 f_equal; [lia|f_equal; lia].
  - assert (i = 0) as -> by lia. assert (n = 0) as -> by lia. subst T. cbn [Nat.sub Nat.mul]. rewrite Nat.div_0_l by done.
    cbn [rfold]. rewrite !rdbits_0, !wrbits_nil. done.
Qed.

Lemma cdiv_mono a b : a <= b -> cdiv a 64 <= cdiv b 64.
Proof. intros H. unfold cdiv. apply Nat.div_le_mono; lia. Qed.
Lemma cdiv_pos a : 1 <= a -> 1 <= cdiv a 64.
Proof. intros H. pose proof (cdiv_ge a 64 ltac:(lia)). lia. Qed.
Lemma cdiv_block n m : m mod 64 = 0 -> n <= m -> 64 * cdiv n 64 <= m.
Proof.
  intros Hm Hn. pose proof (Nat.div_mod m 64 ltac:(lia)) as Hd. rewrite Hm in Hd.
  assert (cdiv n 64 <= m / 64); [|lia]. unfold cdiv.
  assert ((n + 64 - 1) / 64 < m / 64 + 1); [|lia]. apply Nat.div_lt_upper_bound; lia.
Qed.
Lemma mul64_mod n : (64 * n) mod 64 = 0.
Proof. rewrite Nat.mul_comm. by apply Nat.mod_mul. Qed.
Lemma field_in i n w : i < n -> i * w + w <= n * w.
Proof. intros H. replace (i * w + w) with (S i * w) by lia. apply Nat.mul_le_mono_r. lia. Qed.

Lemma core_init er w : 1 <= w -> core_rep er pf w (cg_init w) [].
Proof.
  intros Hw. unfold cg_init. eexists. split; [done|]. rewrite replicate_length. cbn [length].
  pose proof (cdiv_ge w 64 ltac:(lia)). split; [apply mul64_mod|]. split; [lia|]. split; [intros _; left; lia|].
  split; [constructor|]. intros i x. by rewrite lookup_nil.
Qed.
Lemma core_weaken (er er' : Prop) w d xs : (er' -> er) -> core_rep er pf w d xs -> core_rep er' pf w d xs.
Proof. intros Hi (l & H1 & H2 & H3 & H4 & H5). exists l. split; [done|]. split; [done|]. split; [done|]. split; [|done]. auto. Qed.

Lemma core_read er w d xs i x : 1 <= w <= 64 -> core_rep er pf w d xs -> xs !! i = Some x -> cg_read pf d i w = Ok x.
Proof.
  intros Hw (l & -> & Hm & Hl & _ & Hs & Hf) Hi. unfold cg_read. pose proof (lookup_lt_Some _ _ _ Hi) as Hlt.
  pose proof (field_in i _ w Hlt). apply get_ok; try done; [lia| |by apply Hf]. by eapply Forall_lookup in Hs.
Qed.
Lemma core_write er w d xs i x : 1 <= w <= 64 -> core_rep er pf w d xs -> i < length xs -> (x < 2^N.of_nat w)%N ->
  exists d', cg_write pf d i x w = Ok d' /\ core_rep er pf w d' (<[i := x]> xs).
Proof.
  intros Hw (l & -> & Hm & Hl & He & Hs & Hf) Hi Hx. unfold cg_write. pose proof (field_in i _ w Hi).
  rewrite put_ok by (try done; lia). eexists. split; [done|]. eexists. split; [done|].
  assert (Hb : i * w + length (nbits w x) <= length l) by (rewrite nbits_length; lia).
  rewrite wrbits_length, insert_length by done. split; [done|]. split; [done|]. split; [done|]. split; [by apply Forall_insert|].
  intros j y Hy. destruct (decide (j = i)) as [->|Hne].
  - rewrite list_lookup_insert in Hy by done. injection Hy as <-.
    pose proof (rdbits_wrbits_same l (i * w) (nbits w x) Hb) as Hr. by rewrite nbits_length in Hr.
  - rewrite list_lookup_insert_ne in Hy by done. rewrite rdbits_wrbits_other; [by apply Hf|done|].
    rewrite nbits_length. destruct (Nat.lt_ge_cases j i) as [Hc|Hc].
    + left. by apply field_in.
    + right. apply field_in. lia.
Qed.
Lemma core_find er w d xs x : 1 <= w <= 64 -> core_rep er pf w d xs -> forall n i, i + n <= length xs ->
  cg_find pf d i n w x = Ok ((fun j => i + j) <$> first_index x (take n (drop i xs))).
Proof.
  intros Hw H. induction n as [|n IH]; intros i Hi; cbn [cg_find].
  { by rewrite take_0. }
  destruct (lookup_lt_is_Some_2 xs i) as (y & Hy); [lia|].
  pose proof (core_read er w d xs i y Hw H Hy) as Hr. unfold cg_read in Hr. rewrite Hr. cbn [mbind res_bind].
  rewrite (drop_S _ _ _ Hy). cbn [take first_index]. destruct (N.eqb_spec y x).
  - cbn. by rewrite Nat.add_0_r.
  - rewrite IH by lia. destruct (first_index x (take n (drop (S i) xs))); cbn; [|done]. do 2 f_equal. lia.
Qed.

Lemma core_insert er er' w d xs i x : 1 <= w <= 64 -> core_rep er pf w d xs -> i <= length xs -> (x < 2^N.of_nat w)%N ->
  exists d', cg_insert pf d i x w (length xs) = Ok d' /\ core_rep er' pf w d' (take i xs ++ x :: drop i xs).
Proof.
  intros Hw (l & -> & Hm & Hl & _ & Hs & Hf) Hi Hx. unfold cg_insert. cbv zeta. set (n := length xs) in *. rewrite (proj2 (Nat.ltb_ge _ _) Hi).
  set (new := cdiv (w * (n + 2)) 64) in *. pose proof (cdiv_ge (w * (n + 2)) 64 ltac:(lia)) as Hnew. fold new in Hnew.
  assert (Hst : exists l2 : bits, (if cdiv (w * n) 64 <? new
       then Ok (Some (wrbits (realloc_bits pf (default [] (Some l)) (64 * new)) (64 * (new - 1)) (replicate 64 (Some false))))
       else Ok (Some l)) = Ok (Some l2) /\ length l2 mod 64 = 0 /\ w * (n + 2) <= length l2
       /\ forall p k, p + k <= w * n -> rdbits l2 p k = rdbits l p k).
  { destruct (Nat.ltb_spec (cdiv (w * n) 64) new) as [Hlt|Hge].
    - cbn [default from_option id]. eexists. split; [done|].
      assert (Hb : 64 * (new - 1) + length (replicate 64 (Some false)) <= length (realloc_bits pf l (64 * new)))
        by (rewrite rbits_length, replicate_length; lia).
      rewrite wrbits_length, rbits_length by done. split; [apply mul64_mod|]. split; [done|].
      intros p k Hp. pose proof (cdiv_ge (w * n) 64 ltac:(lia)). rewrite rdbits_wrbits_other by (try done; lia).
      apply rbits_rd; lia.
    - exists l. split; [done|]. split; [done|]. split; [|done].
      pose proof (cdiv_block (w * n) (length l) Hm Hl). pose proof (cdiv_mono (w * n) (w * (n + 2)) ltac:(nia)). lia. }
  destruct Hst as (l2 & -> & Hm2 & Hl2 & Hrd). cbn [mbind res_bind].
  assert (E2 : w * (n + 2) = n * w + w + w) by lia. assert (E1 : (n + 1) * w = n * w + w) by lia.
  assert (Ei : (i + 1) * w = i * w + w) by lia.
  assert (Ein : i * w + (n - i) * w = n * w) by (rewrite <-Nat.mul_add_distr_r; f_equal; lia).
  rewrite insert_moves_ok by (try done; lia). cbn [mbind res_bind].
  set (l3 := wrbits l2 ((i + 1) * w) (rdbits l2 (i * w) ((n - i) * w))).
  assert (Hb3 : (i + 1) * w + length (rdbits l2 (i * w) ((n - i) * w)) <= length l2) by (rewrite rdbits_length; lia).
  assert (Hlen3 : length l3 = length l2) by (by apply wrbits_length).
  rewrite put_ok by (rewrite ?Hlen3; try done; lia). eexists. split; [done|]. eexists. split; [done|].
  assert (Hb4 : i * w + length (nbits w x) <= length l3) by (rewrite Hlen3, nbits_length; lia).
  rewrite wrbits_length, Hlen3 by done.
  assert (Hlx : length (take i xs ++ x :: drop i xs) = n + 1).
  { rewrite app_length, take_length. cbn [length]. rewrite drop_length. fold n. lia. }
  rewrite Hlx. split; [done|]. split; [lia|]. split; [intros _; left; lia|]. split.
  { apply Forall_app. split; [by apply Forall_take|]. constructor; [done|by apply Forall_drop]. }
  intros j y Hy. destruct (Nat.lt_trichotomy j i) as [Hj|[->|Hj]].
  - rewrite lookup_app_l in Hy by (rewrite take_length; fold n; lia). rewrite lookup_take in Hy by done.
    pose proof (field_in j i w Hj). rewrite rdbits_wrbits_other by (try done; lia). unfold l3.
    rewrite rdbits_wrbits_other by (try done; lia). rewrite Hrd by lia. by apply Hf.
  - rewrite lookup_app_r in Hy by (rewrite take_length; fold n; lia). rewrite take_length in Hy. fold n in Hy.
    replace (i - i `min` n) with 0 in Hy by lia. cbn in Hy. injection Hy as <-.
    pose proof (rdbits_wrbits_same l3 (i * w) (nbits w x) Hb4) as Hr. by rewrite nbits_length in Hr.
  - rewrite lookup_app_r in Hy by (rewrite take_length; fold n; lia). rewrite take_length in Hy. fold n in Hy.
    destruct (j - i `min` n) as [|j'] eqn:Ej; [lia|]. change (drop i xs !! j' = Some y) in Hy.
    assert (j = i + S j') as -> by lia. rewrite lookup_drop in Hy. pose proof (lookup_lt_Some _ _ _ Hy) as Hlt. fold n in Hlt.
    assert (Hj2 : i * w + w <= (i + S j') * w) by (apply field_in; lia).
    rewrite rdbits_wrbits_other by (try done; rewrite nbits_length; lia). unfold l3.
    assert (Epos : (i + S j') * w = (i + 1) * w + j' * w) by lia. rewrite Epos.
    pose proof (field_in j' (n - i) w ltac:(lia)).
    rewrite rdbits_wrbits_in by (rewrite ?rdbits_length; lia). rewrite rdbits_sub by lia.
    replace (i * w + j' * w) with ((i + j') * w) by lia. pose proof (field_in (i + j') n w ltac:(lia)).
    rewrite Hrd by lia. by apply Hf.
Qed.

Lemma core_erase (er : Prop) w d xs i : er -> 1 <= w <= 64 -> core_rep er pf w d xs -> i < length xs ->
  exists d', cg_erase pf d i w (length xs) = Ok d' /\ core_rep er pf w d' (delete i xs).
Proof.
  intros He Hw (l & -> & Hm & Hl & Hr & Hs & Hf) Hi. specialize (Hr He). unfold cg_erase. set (n := length xs) in *. rewrite (proj2 (Nat.ltb_ge _ _) (Nat.lt_le_incl _ _ Hi)).
  assert (E1 : (n + 1) * w = n * w + w) by lia. assert (E0 : w * n = n * w) by lia. assert (E2 : w * (n + 1) = n * w + w) by lia.
  assert (Ei : (i + 1) * w = i * w + w) by lia.
  assert (Ein : i * w + (n - i) * w = n * w) by (rewrite <-Nat.mul_add_distr_r; f_equal; lia).
  rewrite erase_moves_ok; [|done|done|lia|].
  2:{ destruct Hr as [Hr|Hr]; [left; lia|right; lia]. }
  cbn [mbind res_bind].
  assert (Hnm : cdiv (w * (n - 1)) 64 <= cdiv (w * n) 64) by (apply cdiv_mono, Nat.mul_le_mono_l; lia).
  rewrite (proj2 (Nat.ltb_ge _ _) Hnm), andb_false_r.
  eexists. split; [done|]. eexists. split; [done|].
  assert (Hb : i * w + length (rdbits l ((i + 1) * w) ((n - i) * w)) <= length l) by (rewrite rdbits_length; lia).
  rewrite wrbits_length by done.
  assert (Hld : length (delete i xs) = n - 1) by (rewrite length_delete by (by apply lookup_lt_is_Some_2); fold n; lia).
  assert (E3 : w * (n - 1) = n * w - w) by (rewrite Nat.mul_sub_distr_l; lia).
  rewrite Hld. split; [done|]. split; [lia|]. split; [intros _; left; replace (n - 1 + 1) with n by lia; lia|].
  split; [by apply Forall_delete|].
  intros j y Hy. destruct (Nat.lt_ge_cases j i) as [Hj|Hj].
  - rewrite lookup_delete_lt in Hy by done. pose proof (field_in j i w Hj).
    rewrite rdbits_wrbits_other by (try done; lia). by apply Hf.
  - rewrite lookup_delete_ge in Hy by done. pose proof (lookup_lt_Some _ _ _ Hy) as Hlt. fold n in Hlt.
    assert (Epos : j * w = i * w + (j - i) * w) by (rewrite <-Nat.mul_add_distr_r; f_equal; lia). rewrite Epos.
    pose proof (field_in (j - i) (n - i) w ltac:(lia)).
    rewrite rdbits_wrbits_in by (rewrite ?rdbits_length; lia). rewrite rdbits_sub by lia.
    replace ((i + 1) * w + (j - i) * w) with (S j * w); [by apply Hf|]. rewrite <-Nat.mul_add_distr_r. f_equal. lia.
Qed.
End core.
