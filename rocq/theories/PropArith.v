(** Properties of the arithmetic helpers, the hash functions, the size policy and select64. *)
From Verif Require Import ArithProofs HashProofs SelectProofs.

(** C14: quotienting with xorshift_hash loses nothing and uses exactly the advertised bits. *)
Theorem C14_quotienting_lossless :
  forall w kb b key, 1 <= w <= 64 -> w <= kb -> b < w -> key < 2^w ->
  let h := HMap (HBij Xorshift) w kb kb in
  (exists q bk, hash_map h key b = Ok (q, bk) /\ q < 2^(w - b) /\ bk < 2^b
      /\ hash_inv_map h q bk b = Ok key)
  /\ (forall q bk, q < 2^(w - b) -> bk < 2^b ->
        exists key', key' < 2^w /\ hash_map h key' b = Ok (q, bk)).
Proof.
  intros w kb b key Hw Hkb Hb Hkey h. split.
  - exact (quotient_roundtrip Xorshift w kb kb key b Hw Hkb ltac:(lia) ltac:(lia) ltac:(lia) Hkey).
  - intros q bk Hq Hbk.
    destruct (quotient_onto Xorshift w kb kb q bk b Hw Hkb ltac:(lia) ltac:(lia) ltac:(lia) Hq Hbk)
      as (key' & H1 & _ & H2). exact (ex_intro _ key' (conj H1 H2)).
Qed.
Print Assumptions C14_quotienting_lossless.
Example C14_case : hash_map (HMap (HBij Xorshift) 20 64 64) 777777 7 = Ok (6569, 36).
Proof. vm_compute. reflexivity. Qed.

(** C15: the same for the multiplicative hash, together with the plain bijection laws. *)
Theorem C15_multiplicative_bijective :
  forall w x, 1 <= w <= 64 -> x < 2^w ->
  mul_hash_inv w (mul_hash w x) = x /\ mul_hash w (mul_hash_inv w x) = x
  /\ mul_hash w x < 2^w /\ mul_hash_inv w x < 2^w
  /\ forall kb b, w <= kb -> b < w ->
     (exists q bk, hash_map (HMap (HBij Multiplicative) w kb kb) x b = Ok (q, bk)
        /\ q < 2^(w - b) /\ bk < 2^b
        /\ hash_inv_map (HMap (HBij Multiplicative) w kb kb) q bk b = Ok x)
     /\ (forall q bk, q < 2^(w - b) -> bk < 2^b ->
           exists x', x' < 2^w /\ hash_map (HMap (HBij Multiplicative) w kb kb) x' b = Ok (q, bk)).
Proof.
  intros w x Hw Hx.
  refine (conj (bij_left Multiplicative w x Hw Hx) (conj (bij_right Multiplicative w x Hw Hx)
    (conj (bij_hash_lt Multiplicative w x Hw) (conj (bij_hash_inv_lt Multiplicative w x Hw) _)))).
  intros kb b Hkb Hb. split.
  - exact (quotient_roundtrip Multiplicative w kb kb x b Hw Hkb ltac:(lia) ltac:(lia) ltac:(lia) Hx).
  - intros q bk Hq Hbk.
    destruct (quotient_onto Multiplicative w kb kb q bk b Hw Hkb ltac:(lia) ltac:(lia) ltac:(lia) Hq Hbk)
      as (key' & H1 & _ & H2). exact (ex_intro _ key' (conj H1 H2)).
Qed.
Print Assumptions C15_multiplicative_bijective.
Example C15_case : mul_hash 64 12345678901234567890 = 18304201638942811622
  /\ mul_hash_inv 64 18304201638942811622 = 12345678901234567890.
Proof. vm_compute. split; reflexivity. Qed.

(** C16: SplitMix is injective on 64-bit keys. *)
Theorem C16_splitmix_injective :
  forall x y, x < 2^64 -> y < 2^64 -> splitmix x = splitmix y -> x = y.
Proof. exact splitmix_inj. Qed.
Print Assumptions C16_splitmix_injective.
Example C16_case : splitmix 1 = 6238072747940578789 /\ splitmix 2 <> splitmix 1.
Proof. vm_compute. split; [reflexivity|discriminate]. Qed.

(** C19: both variants of select64 return the position of the i-th set bit. *)
Theorem C19_select64 :
  forall x i, x < 2^64 -> 1 <= i <= rank1 x 64 ->
  exists p, select64_swar x i = Ok p /\ select64_bmi x i = Ok p /\ p < 64 /\ is_select x i p.
Proof.
  intros x i Hx Hi.
  destruct (select64_swar_correct x i Hx Hi) as (p & E & Hp & Hs).
  destruct (select64_bmi_correct x i Hx Hi) as (q & E' & _ & Hs').
  rewrite (is_select_unique x i q p ltac:(lia) Hs' Hs) in E'.
  exact (ex_intro _ p (conj E (conj E' (conj Hp Hs)))).
Qed.
Print Assumptions C19_select64.
Example C19_case : rank1 0x8000000000000116 64 = 5 /\ select64_swar 0x8000000000000116 4 = Ok 8
  /\ select64_bmi 0x8000000000000116 5 = Ok 63.
Proof. vm_compute. repeat split. Qed.

(** C28: the capacity policy. *)
Theorem C28_arbitrary_resize_policy :
  (forall n, n <= 255 -> n <= arb_resize n <= 255 /\ arb_size_after_increment n = arb_resize n)
  /\ (forall n, 1 <= n < 255 -> n < arb_resize n)
  /\ (forall cap n, n < cap -> n <= 255 -> arb_needs_resize cap n = false)
  /\ (forall cap n, cap <= n -> n <= 255 -> arb_needs_resize cap n = true).
Proof. exact resize_policy. Qed.
Print Assumptions C28_arbitrary_resize_policy.
Example C28_case : map arb_resize [1; 62; 63; 170; 255] = [2; 124; 94; 255; 255].
Proof. reflexivity. Qed.

(** C51: the integer helpers. *)
Theorem C51_integer_helpers :
  (forall x, x < 2^64 -> x < 2^(bit_width x) /\ (bit_width x = 1 \/ 2^(bit_width x - 1) <= x)
                         /\ 1 <= bit_width x <= 64)
  /\ (forall x, 0 < x < 2^64 -> exists k, most_significant_bit x = Z.of_N k /\ 2^k <= x < 2^(k+1))
  /\ most_significant_bit 0 = (-1)%Z
  /\ (forall a b, 0 < b -> a + b - 1 < 2^64 ->
        exists q, ceil_div a b = Ok q /\ a <= q * b /\ (forall q', a <= q' * b -> q <= q'))
  /\ (forall w, 1 <= w <= 64 -> bmask w = 2^w - 1).
Proof. exact integer_helpers. Qed.
Print Assumptions C51_integer_helpers.
Example C51_case : bit_width 256 = 9 /\ most_significant_bit 255 = 7%Z /\ ceil_div 129 64 = Ok 3.
Proof. vm_compute. repeat split. Qed.
