(** Lemmas about bit blocks. *)
From Verif Require Export BitsModel.
#[local] Open Scope nat_scope.

Lemma bits_of_length w x : length (bits_of w x) = w.
Proof. unfold bits_of. by rewrite map_length, seq_length. Qed.

Lemma bits_of_S w x : bits_of (S w) x = N.odd x :: bits_of w (N.div2 x).
Proof.
  unfold bits_of. cbn [seq map]. f_equal.
  - by rewrite N.bit0_odd.
  - rewrite <-seq_shift, map_map. apply map_ext. intros i.
    rewrite N.div2_spec, N.shiftr_spec by lia. f_equal. lia.
Qed.

Lemma bits_val_bits_of w x : bits_val (bits_of w x) = (x mod 2^N.of_nat w)%N.
Proof.
  revert x. induction w as [|w IH]; intros x.
  - cbn. by rewrite N.mod_1_r.
  - rewrite bits_of_S. cbn [bits_val foldr]. fold (bits_val (bits_of w (N.div2 x))).
    rewrite IH, Nat2N.inj_succ, N.pow_succ_r', N.div2_div.
    rewrite N.mod_mul_r by (try apply N.pow_nonzero; lia).
    f_equal. by rewrite <-N.bit0_odd, <-N.bit0_mod.
Qed.

Lemma bits_val_lt l : (bits_val l < 2^N.of_nat (length l))%N.
Proof.
  induction l as [|b l IH]; [cbn; lia|].
  cbn [bits_val foldr length]. fold (bits_val l).
  rewrite Nat2N.inj_succ, N.pow_succ_r'. destruct b; cbn [N.b2n]; lia.
Qed.

Lemma bits_of_bits_val l : bits_of (length l) (bits_val l) = l.
Proof.
  induction l as [|b l IH]; [done|].
  cbn [length]. rewrite bits_of_S. cbn [bits_val foldr]. fold (bits_val l).
  f_equal.
  - rewrite N.odd_add, N.odd_mul. destruct b; done.
  - replace (N.div2 _) with (bits_val l); [done|].
    rewrite N.div2_div. rewrite N.mul_comm, N.div_add by lia.
    destruct b; done.
Qed.

Lemma bits_of_mod w x : bits_of w (x mod 2^N.of_nat w) = bits_of w x.
Proof.
  rewrite <-bits_val_bits_of. pose proof (bits_of_bits_val (bits_of w x)) as H.
  by rewrite bits_of_length in H.
Qed.

Lemma bits_of_inj w x y : (x < 2^N.of_nat w)%N -> (y < 2^N.of_nat w)%N -> bits_of w x = bits_of w y -> x = y.
Proof.
  intros Hx Hy H. rewrite <-(N.mod_small x _ Hx), <-(N.mod_small y _ Hy), <-!bits_val_bits_of. by f_equal.
Qed.

Lemma det_map_Some {A} (l : list A) : det (map Some l) = Some l.
Proof. induction l as [|a l IH]; cbn; [done|]. by rewrite IH. Qed.
Lemma det_inv {A} (c : list (option A)) l : det c = Some l -> c = map Some l.
Proof.
  revert l. induction c as [|[a|] c IH]; cbn; intros l H; try (by simplify_eq).
  destruct (det c); simplify_eq. cbn. f_equal. by apply IH.
Qed.

Lemma raw_val_map_Some l : raw_val (map Some l) = Ok (bits_val l).
Proof. unfold raw_val. by rewrite det_map_Some. Qed.

Lemma rdbits_length l pos len : length (rdbits l pos len) = len.
Proof. unfold rdbits. rewrite take_length, app_length, replicate_length. lia. Qed.

Lemma rdbits_lookup l pos len i :
  rdbits l pos len !! i = if decide (i < len) then Some (default None (l !! (pos + i))) else None.
Proof.
  unfold rdbits. case_decide as Hi.
  - rewrite lookup_take by done.
    destruct (decide (i < length (drop pos l))) as [Hd|Hd].
    + rewrite lookup_app_l by done. rewrite lookup_drop.
      rewrite drop_length in Hd.
      destruct (lookup_lt_is_Some_2 l (pos + i)) as [x Hx]; [lia|]. by rewrite Hx.
    + rewrite lookup_app_r by lia. rewrite drop_length in Hd. rewrite drop_length.
      rewrite (lookup_ge_None_2 l) by lia. cbn.
      apply lookup_replicate_2. lia.
  - apply lookup_ge_None. rewrite take_length. lia.
Qed.

Lemma wrbits_length l pos c : pos + length c <= length l -> length (wrbits l pos c) = length l.
Proof. unfold wrbits. rewrite !app_length, take_length, drop_length. lia. Qed.

Lemma wrbits_lookup l pos c i : pos + length c <= length l ->
  wrbits l pos c !! i = if decide (pos <= i < pos + length c) then c !! (i - pos) else l !! i.
Proof.
  intros Hl. unfold wrbits. destruct (decide (i < pos)) as [Hi|Hi].
  - rewrite lookup_app_l by (rewrite take_length; lia).
    rewrite lookup_take by done. case_decide; [lia|done].
  - rewrite lookup_app_r by (rewrite take_length; lia).
    rewrite take_length, Nat.min_l by lia. case_decide as Hc.
    + rewrite lookup_app_l by lia. done.
    + rewrite lookup_app_r by lia. rewrite lookup_drop. f_equal. lia.
Qed.

Lemma rdbits_wrbits_same l pos c : pos + length c <= length l ->
  rdbits (wrbits l pos c) pos (length c) = c.
Proof.
  intros Hl. apply list_eq. intros i. rewrite rdbits_lookup. case_decide.
  - rewrite wrbits_lookup by done. case_decide; [|lia].
    replace (pos + i - pos) with i by lia.
    destruct (lookup_lt_is_Some_2 c i) as [x Hx]; [done|]. by rewrite Hx.
  - symmetry. apply lookup_ge_None. lia.
Qed.

Lemma rdbits_wrbits_other l pos c p n : pos + length c <= length l ->
  p + n <= pos \/ pos + length c <= p ->
  rdbits (wrbits l pos c) p n = rdbits l p n.
Proof.
  intros Hl Hd. apply list_eq. intros i. rewrite !rdbits_lookup. case_decide; [|done].
  rewrite wrbits_lookup by done. case_decide; [lia|done].
Qed.

Lemma rdbits_app l p a b : rdbits l p (a + b) = rdbits l p a ++ rdbits l (p + a) b.
Proof.
  apply list_eq. intros i. rewrite rdbits_lookup.
  destruct (decide (i < a)) as [Hi|Hi].
  - rewrite lookup_app_l by (rewrite rdbits_length; done).
    rewrite rdbits_lookup. rewrite !decide_True by lia. done.
  - rewrite lookup_app_r by (rewrite rdbits_length; lia).
    rewrite rdbits_length, rdbits_lookup.
    destruct (decide (i < a + b)).
    + rewrite !decide_True by lia. do 2 f_equal. f_equal. lia.
    + rewrite !decide_False by lia. done.
Qed.

Lemma rdbits_0 l p : rdbits l p 0 = [].
Proof. unfold rdbits. by destruct (drop p l). Qed.
Lemma wrbits_nil l p : wrbits l p [] = l.
Proof. unfold wrbits. cbn [length app]. rewrite Nat.add_0_r. apply take_drop. Qed.

Lemma wrbits_app l p c d : p + length c + length d <= length l ->
  wrbits l p (c ++ d) = wrbits (wrbits l p c) (p + length c) d.
Proof.
  intros Hl. apply list_eq. intros i.
  assert (length (wrbits l p c) = length l) by (apply wrbits_length; lia).
  rewrite (wrbits_lookup (wrbits l p c)) by lia.
  rewrite (wrbits_lookup l p (c ++ d)) by (rewrite app_length; lia).
  rewrite app_length. rewrite wrbits_lookup by lia.
  repeat case_decide; try lia; try done.
  - rewrite lookup_app_r by lia. f_equal. lia.
  - rewrite lookup_app_l by lia. done.
Qed.

(** Moving a range towards lower addresses piecewise is the same as moving it at once. *)
Lemma move_seq l W R a b : W <= R -> W + a + b <= length l ->
  wrbits (wrbits l W (rdbits l R a)) (W + a) (rdbits (wrbits l W (rdbits l R a)) (R + a) b)
  = wrbits l W (rdbits l R (a + b)).
Proof.
  intros HWR Hl.
  rewrite (rdbits_wrbits_other l W) by (rewrite ?rdbits_length; lia).
  rewrite rdbits_app. rewrite wrbits_app by (rewrite !rdbits_length; lia).
  by rewrite rdbits_length.
Qed.

Lemma touched_end_le word off len : 1 <= len -> off < 64 -> touched_end word off len <= word + off + len + 63.
Proof. intros. unfold touched_end. destruct (Nat.ltb_spec 64 (off + len)); lia. Qed.

(** If all accesses are word-aligned the last touched word is the one holding the last bit. *)
Lemma touched_end_aligned word off len n :
  1 <= len -> len <= 64 -> off < 64 -> word mod 64 = 0 -> n mod 64 = 0 ->
  word + off + len <= n -> touched_end word off len <= n.
Proof.
  intros ? ? ? Hw Hn ?. unfold touched_end.
  apply Nat.mod_divides in Hw as [q ->]; [|lia]. apply Nat.mod_divides in Hn as [m ->]; [|lia].
  destruct (Nat.ltb_spec 64 (off + len)); lia.
Qed.

Lemma read_raw_ok pf l word off len : touched_end word off len <= length l + 8 * slack pf ->
  read_raw pf l word off len = Ok (rdbits l (word + off) len).
Proof.
  intros H. unfold read_raw, accessible. apply Nat.leb_le in H. by rewrite H.
Qed.
Lemma write_raw_ok pf l word off c : touched_end word off (length c) <= length l + 8 * slack pf ->
  word + off + length c <= length l ->
  write_raw pf l word off c = Ok (wrbits l (word + off) c).
Proof.
  intros H H2. unfold write_raw, accessible. apply Nat.leb_le in H, H2. by rewrite H, H2.
Qed.
Lemma read_raw_inv pf l word off len c : read_raw pf l word off len = Ok c -> c = rdbits l (word + off) len.
Proof. unfold read_raw. destruct (accessible _ _ _); congruence. Qed.
Lemma write_raw_inv pf l word off c l' : write_raw pf l word off c = Ok l' ->
  l' = wrbits l (word + off) c /\ word + off + length c <= length l
  /\ touched_end word off (length c) <= length l + 8 * slack pf.
Proof.
  unfold write_raw, accessible. destruct (Nat.leb_spec (touched_end word off (length c)) (length l + 8 * slack pf)); [|done].
  destruct (Nat.leb_spec (word + off + length c) (length l)); [|done].
  cbn. intros [= <-]. done.
Qed.

Lemma nbits_length w x : length (nbits w x) = w.
Proof. unfold nbits. by rewrite map_length, bits_of_length. Qed.
Lemma write_int_ok pf l word off len x : touched_end word off len <= length l + 8 * slack pf ->
  word + off + len <= length l ->
  write_int pf l word off len x = Ok (wrbits l (word + off) (nbits len x)).
Proof.
  intros. unfold write_int. apply write_raw_ok; fold (nbits len x); by rewrite nbits_length.
Qed.
Lemma raw_val_nbits w x : raw_val (nbits w x) = Ok (x mod 2^N.of_nat w)%N.
Proof. unfold nbits. by rewrite raw_val_map_Some, bits_val_bits_of. Qed.

Lemma move_right_pos word off len word' off' : off < 64 -> len <= 64 ->
  move_right word off len = (word', off') -> word' + off' = word + off + len /\ off' < 64.
Proof.
  intros ? ? H. unfold move_right in H. destruct (Nat.ltb_spec (off + len) 64); simplify_eq; lia.
Qed.

Lemma move_right_mod word off len word' off' :
  move_right word off len = (word', off') -> word mod 64 = 0 -> word' mod 64 = 0.
Proof.
  intros H Hw. unfold move_right in H. destruct (off + len <? 64); simplify_eq; [done|].
  rewrite <-Nat.add_mod_idemp_l by lia. by rewrite Hw.
Qed.

(** Encoded arrays: element i of width w occupies bits [i*w, (i+1)*w). *)
Lemma pos_split i w iw : iw <> 0 -> i * w / iw * iw + i * w mod iw = i * w.
Proof. intros. rewrite (Nat.div_mod (i * w) iw) at 3 by done. lia. Qed.
