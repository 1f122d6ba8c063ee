(** Proofs about HashModel. *)
From Verif Require Export HashModel.

Lemma mask_ones w : 1 <= w <= 64 -> bmask w = N.ones w.
Proof.
  intros H. unfold bmask, ones64.
  change (2^64 - 1) with (N.ones 64). rewrite N.shiftr_div_pow2.
  rewrite N.ones_div_pow2 by lia. f_equal. lia.
Qed.

Lemma mod_mod_pow2 x a b : a <= b -> (x mod 2^b) mod 2^a = x mod 2^a.
Proof.
  intros H. apply N.bits_inj; intros i.
  destruct (N.lt_ge_cases i a).
  - rewrite !N.mod_pow2_bits_low by lia. reflexivity.
  - rewrite !N.mod_pow2_bits_high by lia. reflexivity.
Qed.

Lemma land_mask w x : 1 <= w <= 64 -> N.land (u64 x) (bmask w) = x mod 2^w.
Proof.
  intros H. rewrite mask_ones by exact H. rewrite N.land_ones. unfold u64.
  apply mod_mod_pow2; lia.
Qed.

Lemma lt_pow2_bits x w : (forall i, w <= i -> N.testbit x i = false) -> x < 2^w.
Proof.
  intros H. destruct (N.eq_dec x 0) as [->|Hx]; [apply N.neq_0_lt_0, N.pow_nonzero; lia|].
  apply N.log2_lt_pow2; [lia|]. destruct (N.lt_ge_cases (N.log2 x) w) as [|Hge]; [assumption|].
  specialize (H _ Hge). rewrite N.bit_log2 in H by exact Hx. discriminate.
Qed.

Lemma bits_lt_pow2 x w i : x < 2^w -> w <= i -> N.testbit x i = false.
Proof.
  intros H Hi. rewrite <- (N.mod_small x (2^w)) by exact H.
  apply N.mod_pow2_bits_high. exact Hi.
Qed.

Lemma xorshift_lt w s x : x < 2^w -> N.lxor x (N.shiftr x s) < 2^w.
Proof.
  intros H. apply lt_pow2_bits. intros i Hi.
  rewrite N.lxor_spec, N.shiftr_spec' . rewrite !(bits_lt_pow2 x w) by (exact H || lia). reflexivity.
Qed.

(** A xorshift by at least half of the width is an involution. *)
Lemma xorshift_invol w s x : x < 2^w -> w <= 2 * s ->
  N.lxor (N.lxor x (N.shiftr x s)) (N.shiftr (N.lxor x (N.shiftr x s)) s) = x.
Proof.
  intros H Hs. apply N.bits_inj; intros i.
  rewrite !N.lxor_spec, !N.shiftr_spec', !N.lxor_spec, !N.shiftr_spec'.
  rewrite (bits_lt_pow2 x w (i + s + s)) by (exact H || lia).
  destruct (N.testbit x i), (N.testbit x (i + s)); reflexivity.
Qed.

(** Every row of PRIME_TABLE holds inverse pairs (finite sweep over the 65 rows). *)
Definition row_ok (w : N) : bool :=
  forallb (fun i => ((prime w 0 i * prime w 1 i) mod 2^w =? 1 mod 2^w)) [0; 1; 2].
Lemma prime_table_sweep : forallb row_ok (map N.of_nat (seq 1 64)) = true.
Proof. vm_compute. reflexivity. Qed.

Lemma prime_inv w i : 1 <= w <= 64 -> i <= 2 ->
  (prime w 0 i * prime w 1 i) mod 2^w = 1 mod 2^w.
Proof.
  intros Hw Hi. pose proof prime_table_sweep as Hs. rewrite forallb_forall in Hs.
  specialize (Hs w). assert (In w (map N.of_nat (seq 1 64))) as Hin.
  { apply in_map_iff. exists (N.to_nat w). split; [lia|]. apply in_seq. lia. }
  specialize (Hs Hin). unfold row_ok in Hs. rewrite forallb_forall in Hs.
  apply N.eqb_eq, Hs. assert (i = 0 \/ i = 1 \/ i = 2) as [->|[->| ->]] by lia; cbn; tauto.
Qed.

Lemma mul_inv_mod w p q x : (p * q) mod 2^w = 1 mod 2^w -> x < 2^w ->
  (((x * p) mod 2^w) * q) mod 2^w = x.
Proof.
  intros Hpq Hx. assert (2^w <> 0) by (apply N.pow_nonzero; lia).
  rewrite N.mul_mod_idemp_l by assumption. rewrite <- N.mul_assoc.
  rewrite <- N.mul_mod_idemp_r by assumption. rewrite Hpq.
  rewrite N.mul_mod_idemp_r by assumption. rewrite N.mul_1_r.
  apply N.mod_small. exact Hx.
Qed.

Lemma pow2_pos w : 0 < 2^w.
Proof. apply N.neq_0_lt_0, N.pow_nonzero. lia. Qed.

Lemma xs_hash1_alt w i x : 1 <= w <= 64 ->
  xs_hash1 w i x = (N.lxor x (N.shiftr x (xs_shift w + i)) * prime w 0 i) mod 2^w.
Proof. intros Hw. unfold xs_hash1. apply land_mask. exact Hw. Qed.

Lemma xs_hash_inv1_alt w i x : 1 <= w <= 64 ->
  xs_hash_inv1 w i x =
  N.lxor ((x * prime w 1 i) mod 2^w) (N.shiftr ((x * prime w 1 i) mod 2^w) (xs_shift w + i)).
Proof. intros Hw. unfold xs_hash_inv1. rewrite land_mask by exact Hw. reflexivity. Qed.

Lemma xs_hash1_lt w i x : 1 <= w <= 64 -> xs_hash1 w i x < 2^w.
Proof. intros Hw. rewrite xs_hash1_alt by exact Hw. apply N.mod_lt, N.pow_nonzero. lia. Qed.

Lemma xs_hash_inv1_lt w i x : 1 <= w <= 64 -> xs_hash_inv1 w i x < 2^w.
Proof.
  intros Hw. rewrite xs_hash_inv1_alt by exact Hw. apply xorshift_lt.
  apply N.mod_lt, N.pow_nonzero. lia.
Qed.

Lemma xs_hash1_left w i x : 1 <= w <= 64 -> i <= 2 -> x < 2^w ->
  xs_hash_inv1 w i (xs_hash1 w i x) = x.
Proof.
  intros Hw Hi Hx. rewrite xs_hash_inv1_alt, xs_hash1_alt by exact Hw.
  rewrite mul_inv_mod; [|apply prime_inv; assumption|apply xorshift_lt; exact Hx].
  apply xorshift_invol with w; [exact Hx|]. unfold xs_shift. dlia.
Qed.

Lemma xs_hash1_right w i x : 1 <= w <= 64 -> i <= 2 -> x < 2^w ->
  xs_hash1 w i (xs_hash_inv1 w i x) = x.
Proof.
  intros Hw Hi Hx. rewrite xs_hash_inv1_alt, xs_hash1_alt by exact Hw.
  rewrite xorshift_invol with (w := w).
  - apply mul_inv_mod; [|exact Hx]. rewrite N.mul_comm. apply prime_inv; assumption.
  - apply N.mod_lt, N.pow_nonzero. lia.
  - unfold xs_shift. dlia.
Qed.

Lemma xs_left w x : 1 <= w <= 64 -> x < 2^w -> xs_hash_inv w (xs_hash w x) = x.
Proof.
  intros Hw Hx. unfold xs_hash, xs_hash_inv.
  rewrite !xs_hash1_left; auto using xs_hash1_lt; lia.
Qed.
Lemma xs_right w x : 1 <= w <= 64 -> x < 2^w -> xs_hash w (xs_hash_inv w x) = x.
Proof.
  intros Hw Hx. unfold xs_hash, xs_hash_inv.
  rewrite !xs_hash1_right; auto using xs_hash_inv1_lt; lia.
Qed.

Lemma mul_prime_inv w : 1 <= w <= 64 -> (prime 63 0 0 * prime 63 1 0) mod 2^w = 1 mod 2^w.
Proof.
  intros Hw. assert ((prime 63 0 0 * prime 63 1 0) mod 2^64 = 1) as H by (vm_compute; reflexivity).
  rewrite <- (mod_mod_pow2 _ w 64) by lia. rewrite H. reflexivity.
Qed.
Lemma mul_hash_alt w x : 1 <= w <= 64 -> mul_hash w x = (x * prime 63 0 0) mod 2^w.
Proof. intros. apply land_mask. assumption. Qed.
Lemma mul_hash_inv_alt w x : 1 <= w <= 64 -> mul_hash_inv w x = (x * prime 63 1 0) mod 2^w.
Proof. intros. apply land_mask. assumption. Qed.

Lemma bij_hash_lt f w x : 1 <= w <= 64 -> bij_hash f w x < 2^w.
Proof.
  intros Hw. destruct f; cbn [bij_hash].
  - apply xs_hash1_lt. exact Hw.
  - rewrite mul_hash_alt by exact Hw. apply N.mod_lt, N.pow_nonzero. lia.
Qed.
Lemma bij_hash_inv_lt f w x : 1 <= w <= 64 -> bij_hash_inv f w x < 2^w.
Proof.
  intros Hw. destruct f; cbn [bij_hash_inv].
  - apply xs_hash_inv1_lt. exact Hw.
  - rewrite mul_hash_inv_alt by exact Hw. apply N.mod_lt, N.pow_nonzero. lia.
Qed.
Lemma bij_left f w x : 1 <= w <= 64 -> x < 2^w -> bij_hash_inv f w (bij_hash f w x) = x.
Proof.
  intros Hw Hx. destruct f; cbn [bij_hash bij_hash_inv]; [apply xs_left; assumption|].
  rewrite mul_hash_inv_alt, mul_hash_alt by exact Hw.
  apply mul_inv_mod; [apply mul_prime_inv; exact Hw|exact Hx].
Qed.
Lemma bij_right f w x : 1 <= w <= 64 -> x < 2^w -> bij_hash f w (bij_hash_inv f w x) = x.
Proof.
  intros Hw Hx. destruct f; cbn [bij_hash bij_hash_inv]; [apply xs_right; assumption|].
  rewrite mul_hash_inv_alt, mul_hash_alt by exact Hw.
  apply mul_inv_mod; [rewrite N.mul_comm; apply mul_prime_inv; exact Hw|exact Hx].
Qed.

(** ** SplitMix *)
Lemma xorshift_inj s x y : 1 <= s ->
  N.lxor x (N.shiftr x s) = N.lxor y (N.shiftr y s) -> x = y.
Proof.
  intros Hs H.
  assert (N.lxor x y = N.shiftr (N.lxor x y) s) as Hz.
  { apply N.bits_inj; intros i. apply (f_equal (fun z => N.testbit z i)) in H.
    rewrite !N.lxor_spec, !N.shiftr_spec' in H.
    rewrite N.shiftr_spec', !N.lxor_spec.
    destruct (N.testbit x i), (N.testbit y i), (N.testbit x (i+s)), (N.testbit y (i+s));
      cbn in *; congruence. }
  apply N.lxor_eq. set (z := N.lxor x y) in *. clearbody z.
  destruct (N.eq_dec z 0) as [|Hz0]; [assumption|]. exfalso.
  rewrite N.shiftr_div_pow2 in Hz.
  assert (z / 2^s < z); [|lia]. apply N.div_lt; [lia|].
  apply N.lt_le_trans with (2^1); [cbn; lia|]. apply N.pow_le_mono_r; lia.
Qed.

Lemma mul_inj_mod w p q x y : (p * q) mod 2^w = 1 mod 2^w -> x < 2^w -> y < 2^w ->
  (x * p) mod 2^w = (y * p) mod 2^w -> x = y.
Proof.
  intros Hpq Hx Hy H. rewrite <- (mul_inv_mod w p q x Hpq Hx), <- (mul_inv_mod w p q y Hpq Hy).
  rewrite H. reflexivity.
Qed.

Lemma splitmix_lt x : splitmix x < 2^64.
Proof. unfold splitmix. apply xorshift_lt. apply N.mod_lt. lia. Qed.

Lemma splitmix_inj x y : x < 2^64 -> y < 2^64 -> splitmix x = splitmix y -> x = y.
Proof.
  intros Hx Hy H. unfold splitmix in H.
  apply xorshift_inj in H; [|lia]. unfold u64 in H.
  apply (mul_inj_mod 64 0x94d049bb133111eb 0x319642b2d24d8ec3) in H;
    [|vm_compute; reflexivity|apply xorshift_lt, N.mod_lt; lia|apply xorshift_lt, N.mod_lt; lia].
  apply xorshift_inj in H; [|lia].
  apply (mul_inj_mod 64 0xbf58476d1ce4e5b9 0x96de1b173f119089) in H;
    [|vm_compute; reflexivity|apply xorshift_lt; assumption|apply xorshift_lt; assumption].
  apply xorshift_inj in H; [exact H|lia].
Qed.

(** ** The adapters *)
Lemma land_pow2_pred x b : N.land x (2^b - 1) = x mod 2^b.
Proof. rewrite <- N.land_ones. f_equal. rewrite N.ones_equiv. lia. Qed.

Lemma sub64_pow2_pred b : b < 64 -> sub64 (u64 (N.shiftl 1 b)) 1 = 2^b - 1.
Proof.
  intros Hb. unfold sub64, u64. rewrite N.shiftl_mul_pow2, N.mul_1_l.
  assert (2^b < 2^64) by (apply N.pow_lt_mono_r; lia). pose proof (pow2_pos b).
  rewrite (N.mod_small (2^b)) by assumption.
  rewrite (N.mod_small 1) by lia.
  replace (2^b + 2^64 - 1) with (2^b - 1 + 1 * 2^64) by lia.
  rewrite N.mod_add by lia. apply N.mod_small. lia.
Qed.

(** Closed form of [hash_map] for bijective mappings. *)
Lemma hash_map_bij f w kb sb key b : 1 <= w <= 64 -> b < 64 ->
  hash_map (HMap (HBij f) w kb sb) key b =
  Ok ((bij_hash f w key / 2^b) mod 2^sb, bij_hash f w key mod 2^b).
Proof.
  intros Hw Hb. unfold hash_map; cbn [h_kind h_width h_storebits].
  destruct (N.leb_spec 1 w); [|lia]. destruct (N.leb_spec w 64); [|lia]. cbn [andb].
  unfold shr64, shl64. destruct (N.ltb_spec b 64); [|lia]. cbn [mbind res_bind].
  rewrite N.shiftr_div_pow2, sub64_pow2_pred, land_pow2_pred by exact Hb. reflexivity.
Qed.

Lemma hash_map_adapter f w kb sb key b : 1 <= b <= 64 ->
  hash_map (HMap (HAdapter f) w kb sb) key b = Ok (key, u64 (f key) mod 2^b).
Proof.
  intros Hb. unfold hash_map; cbn [h_kind].
  destruct (N.leb_spec 1 b); [|lia]. destruct (N.leb_spec b 64); [|lia]. cbn [andb].
  change (N.shiftr ones64 (64 - b)) with (bmask b). rewrite mask_ones by exact Hb.
  rewrite N.land_ones. reflexivity.
Qed.

(** Closed form of the inverse. *)
Lemma hash_inv_map_bij f w kb sb r bk b : 1 <= w <= 64 -> b < 64 -> r * 2^b + bk < 2^64 ->
  hash_inv_map (HMap (HBij f) w kb sb) r bk b = Ok (bij_hash_inv f w (r * 2^b + bk) mod 2^kb).
Proof.
  intros Hw Hb Hr. unfold hash_inv_map; cbn [h_kind h_width h_keybits].
  destruct (N.leb_spec 1 w); [|lia]. destruct (N.leb_spec w 64); [|lia]. cbn [andb].
  unfold shl64. destruct (N.ltb_spec b 64); [|lia]. cbn [mbind res_bind].
  unfold u64. rewrite N.shiftl_mul_pow2. rewrite (N.mod_small (r * 2^b)) by lia.
  rewrite (N.mod_small (_ + _)) by exact Hr. reflexivity.
Qed.

Lemma quot_lt x w b : x < 2^w -> b <= w -> x / 2^b < 2^(w - b).
Proof.
  intros Hx Hb. apply N.div_lt_upper_bound; [apply N.pow_nonzero; lia|].
  rewrite <- N.pow_add_r. replace (b + (w - b)) with w by lia. exact Hx.
Qed.

Lemma quotient_roundtrip f w kb sb key b :
  1 <= w <= 64 -> w <= kb -> b < 64 -> b <= w -> w - b <= sb -> key < 2^w ->
  exists q bk, hash_map (HMap (HBij f) w kb sb) key b = Ok (q, bk)
    /\ q < 2^(w-b) /\ bk < 2^b /\ hash_inv_map (HMap (HBij f) w kb sb) q bk b = Ok key.
Proof.
  intros Hw Hkb Hb Hbw Hsb Hk. pose proof (bij_hash_lt f w key Hw) as Hh.
  assert (bij_hash f w key / 2^b < 2^(w-b)) as Hq by (apply quot_lt; assumption).
  assert ((bij_hash f w key / 2^b) mod 2^sb = bij_hash f w key / 2^b) as Es.
  { apply N.mod_small. apply N.lt_le_trans with (1 := Hq). apply N.pow_le_mono_r; lia. }
  exists (bij_hash f w key / 2^b), (bij_hash f w key mod 2^b).
  rewrite hash_map_bij, Es by assumption.
  assert (bij_hash f w key / 2^b * 2^b + bij_hash f w key mod 2^b = bij_hash f w key) as E.
  { rewrite N.mul_comm. symmetry. apply N.div_mod. apply N.pow_nonzero. lia. }
  split; [reflexivity|]. split; [exact Hq|]. split; [apply N.mod_lt, N.pow_nonzero; lia|].
  rewrite hash_inv_map_bij; [|assumption|assumption|].
  - rewrite E, bij_left by assumption. f_equal. apply N.mod_small.
    apply N.lt_le_trans with (1 := Hk). apply N.pow_le_mono_r; lia.
  - rewrite E. apply N.lt_le_trans with (1 := Hh). apply N.pow_le_mono_r; lia.
Qed.

Lemma quotient_onto f w kb sb q bk b :
  1 <= w <= 64 -> w <= kb -> b < 64 -> b <= w -> w - b <= sb -> q < 2^(w-b) -> bk < 2^b ->
  exists key, key < 2^w /\ hash_inv_map (HMap (HBij f) w kb sb) q bk b = Ok key
    /\ hash_map (HMap (HBij f) w kb sb) key b = Ok (q, bk).
Proof.
  intros Hw Hkb Hb Hbw Hsb Hq Hbk.
  assert (q * 2^b + bk < 2^w) as Hx.
  { replace w with ((w - b) + b) by lia. rewrite N.pow_add_r. pose proof (pow2_pos b). nia. }
  exists (bij_hash_inv f w (q * 2^b + bk)). pose proof (bij_hash_inv_lt f w (q * 2^b + bk) Hw) as Hl.
  split; [exact Hl|].
  assert (2^w <= 2^64) by (apply N.pow_le_mono_r; lia).
  split.
  - rewrite hash_inv_map_bij by (assumption || lia). f_equal. apply N.mod_small.
    apply N.lt_le_trans with (1 := Hl). apply N.pow_le_mono_r; lia.
  - rewrite hash_map_bij by assumption. rewrite bij_right by assumption.
    f_equal. f_equal.
    + rewrite N.div_add_l by (apply N.pow_nonzero; lia). rewrite (N.div_small bk) by exact Hbk.
      rewrite N.add_0_r. apply N.mod_small. apply N.lt_le_trans with (1 := Hq). apply N.pow_le_mono_r; lia.
    + rewrite N.add_comm, N.mod_add by (apply N.pow_nonzero; lia). apply N.mod_small. exact Hbk.
Qed.

From Verif Require Import ArithProofs.
Lemma integer_helpers :
  (forall x, x < 2^64 -> x < 2^(bit_width x) /\ (bit_width x = 1 \/ 2^(bit_width x - 1) <= x)
                         /\ 1 <= bit_width x <= 64)
  /\ (forall x, 0 < x < 2^64 -> exists k, most_significant_bit x = Z.of_N k /\ 2^k <= x < 2^(k+1))
  /\ most_significant_bit 0 = (-1)%Z
  /\ (forall a b, 0 < b -> a + b - 1 < 2^64 ->
        exists q, ceil_div a b = Ok q /\ a <= q * b /\ (forall q', a <= q' * b -> q <= q'))
  /\ (forall w, 1 <= w <= 64 -> bmask w = 2^w - 1).
Proof.
  split; [exact bit_width_spec|]. split; [|split; [reflexivity|split; [exact ceil_div_spec|]]].
  - intros x Hx. exists (N.log2 x). split; [apply most_significant_bit_log2; exact Hx|].
    rewrite N.add_1_r. apply N.log2_spec. lia.
  - intros w Hw. rewrite mask_ones by exact Hw. rewrite N.ones_equiv. lia.
Qed.
