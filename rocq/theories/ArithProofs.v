(** Proofs about MathModel, SizeModel. *)
From Verif Require Export MathModel SizeModel.

Lemma log2_lt_64 x : x < 2^64 -> N.log2 x <= 63.
Proof.
  intros H. destruct (N.eq_dec x 0) as [->|Hx]; [cbn; lia|].
  apply N.lt_succ_r. apply N.log2_lt_pow2; [lia|exact H].
Qed.

Lemma most_significant_bit_log2 x :
  0 < x < 2^64 -> most_significant_bit x = Z.of_N (N.log2 x).
Proof.
  intros [H0 H]. unfold most_significant_bit, clz64.
  pose proof (log2_lt_64 x H). destruct (N.eqb_spec x 0); lia.
Qed.

Lemma bit_width_size x :
  x < 2^64 -> bit_width x = N.max 1 (N.size x).
Proof.
  intros H. unfold bit_width, clz64. pose proof (log2_lt_64 x H).
  destruct (N.eqb_spec x 0) as [->|Hx]; [reflexivity|].
  rewrite N.size_log2 by lia. lia.
Qed.

Lemma bit_width_spec x :
  x < 2^64 -> x < 2^(bit_width x) /\ (bit_width x = 1 \/ 2^(bit_width x - 1) <= x) /\ 1 <= bit_width x <= 64.
Proof.
  intros H. unfold bit_width, clz64. pose proof (log2_lt_64 x H).
  destruct (N.eqb_spec x 0) as [->|Hx]; [vm_compute; intuition congruence|].
  pose proof (N.log2_spec x ltac:(lia)) as [Hl Hu].
  replace (64 - (63 - N.log2 x)) with (N.succ (N.log2 x)) by lia.
  split; [exact Hu|]. split; [|lia]. right.
  replace (N.succ (N.log2 x) - 1) with (N.log2 x) by lia. exact Hl.
Qed.

Lemma ceil_div_spec a b :
  0 < b -> a + b - 1 < 2^64 ->
  exists q, ceil_div a b = Ok q /\ a <= q * b /\ (forall q', a <= q' * b -> q <= q').
Proof.
  intros Hb Hs. unfold ceil_div. destruct (N.eqb_spec b 0); [lia|].
  exists ((a + b - 1) / b). split; [|split].
  - f_equal. f_equal. unfold u64, ones64.
    replace (a + b + (2^64 - 1)) with ((a + b - 1) + 1 * 2^64) by lia.
    rewrite N.mod_add by lia. apply N.mod_small. exact Hs.
  - pose proof (N.div_mod (a + b - 1) b ltac:(lia)).
    pose proof (N.mod_lt (a + b - 1) b ltac:(lia)). nia.
  - intros q' Hq. apply N.lt_succ_r. apply N.div_lt_upper_bound; [lia|]. nia.
Qed.

Lemma arb_resize_bounds n : 1 <= n <= 255 -> n <= arb_resize n <= 255.
Proof.
  intros H. unfold arb_resize, MAX_BUCKET_BYTESIZE.
  change (255 / 4) with 63. destruct (N.ltb_spec n 63); [lia|].
  split; [|lia]. apply N.min_glb; [|lia]. dlia.
Qed.

Lemma arb_resize_grows n : 1 <= n < 255 -> n < arb_resize n.
Proof.
  intros H. unfold arb_resize, MAX_BUCKET_BYTESIZE.
  change (255 / 4) with 63. destruct (N.ltb_spec n 63); [lia|].
  apply N.min_glb_lt; [|lia]. dlia.
Qed.

Lemma arb_size_after_increment_bounds n :
  1 <= n <= 255 -> n <= arb_size_after_increment n <= 255.
Proof.
  intros H. unfold arb_size_after_increment, u8.
  rewrite (N.mod_small n) by lia. pose proof (arb_resize_bounds n H).
  rewrite N.mod_small by lia. exact H0.
Qed.

Lemma resize_policy :
  (forall n, n <= 255 -> n <= arb_resize n <= 255 /\ arb_size_after_increment n = arb_resize n)
  /\ (forall n, 1 <= n < 255 -> n < arb_resize n)
  /\ (forall cap n, n < cap -> n <= 255 -> arb_needs_resize cap n = false)
  /\ (forall cap n, cap <= n -> n <= 255 -> arb_needs_resize cap n = true).
Proof.
  assert (forall n, n <= 255 -> n <= arb_resize n <= 255) as H.
  { intros n Hn. destruct (N.eq_dec n 0) as [->|]; [vm_compute; split; discriminate|].
    apply arb_resize_bounds. lia. }
  repeat split.
  - apply H; assumption.
  - apply H; assumption.
  - unfold arb_size_after_increment, u8. rewrite (N.mod_small n) by lia.
    apply N.mod_small. specialize (H n). lia.
  - apply arb_resize_grows.
  - intros cap n H1 H2. unfold arb_needs_resize, u8. rewrite N.mod_small by lia. lia.
  - intros cap n H1 H2. unfold arb_needs_resize, u8. rewrite N.mod_small by lia. lia.
Qed.
