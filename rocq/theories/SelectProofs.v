(** Proofs about SelectModel. *)
From Verif Require Export SelectModel SpecBits.
From Verif Require Import HashProofs.

(** Little-endian value of a list of bytes. *)
Definition bval (bs : list N) : N := foldr (fun b a => b + 256 * a) 0 bs.
Definition isbyte (b : N) : Prop := b < 256.

Lemma testbit_cons b a i : b < 256 ->
  N.testbit (b + 256 * a) i = if i <? 8 then N.testbit b i else N.testbit a (i - 8).
Proof.
  intros Hb. destruct (N.ltb_spec i 8) as [Hi|Hi].
  - rewrite <- (N.mod_pow2_bits_low _ 8 i) by exact Hi.
    change (2^8) with 256. rewrite N.mul_comm, N.mod_add by lia.
    rewrite N.mod_small by exact Hb. reflexivity.
  - replace i with ((i - 8) + 8) at 1 by lia. rewrite <- N.div_pow2_bits.
    change (2^8) with 256. rewrite N.mul_comm, N.div_add by lia.
    rewrite N.div_small by exact Hb. rewrite N.add_0_l. reflexivity.
Qed.

Lemma byte_high b i : b < 256 -> 8 <= i -> N.testbit b i = false.
Proof. intros Hb. apply (bits_lt_pow2 b 8 i). exact Hb. Qed.

Lemma land_lt256 a b : a < 256 -> N.land a b < 256.
Proof.
  intros H. change 256 with (2^8). apply lt_pow2_bits. intros i Hi.
  rewrite N.land_spec, (byte_high a) by assumption. reflexivity.
Qed.

Lemma land_cons b a c d : b < 256 -> c < 256 ->
  N.land (b + 256 * a) (c + 256 * d) = N.land b c + 256 * N.land a d.
Proof.
  intros Hb Hc. apply N.bits_inj; intros i. rewrite N.land_spec.
  rewrite !testbit_cons by (assumption || apply land_lt256; assumption).
  destruct (i <? 8); rewrite N.land_spec; reflexivity.
Qed.

Lemma land_shiftr_cons b a c d k : b < 256 -> k < 8 -> c < 2^(8-k) ->
  N.land (N.shiftr (b + 256 * a) k) (c + 256 * d)
  = N.land (N.shiftr b k) c + 256 * N.land (N.shiftr a k) d.
Proof.
  intros Hb Hk Hc.
  assert (c < 256) as Hc'.
  { apply N.lt_le_trans with (1 := Hc). change 256 with (2^8). apply N.pow_le_mono_r; lia. }
  apply N.bits_inj; intros i. rewrite N.land_spec, N.shiftr_spec'.
  rewrite !testbit_cons; try assumption.
  2:{ rewrite N.land_comm. apply land_lt256. exact Hc'. }
  destruct (N.ltb_spec i 8) as [Hi|Hi]; rewrite N.land_spec, N.shiftr_spec'.
  - destruct (N.ltb_spec (i + k) 8); [reflexivity|].
    rewrite (bits_lt_pow2 c (8 - k) i) by (assumption || lia).
    rewrite !andb_false_r. reflexivity.
  - destruct (N.ltb_spec (i + k) 8); [lia|].
    replace (i + k - 8) with (i - 8 + k) by lia. reflexivity.
Qed.

Lemma bval_lt bs : Forall isbyte bs -> bval bs < 2^(8 * N.of_nat (length bs)).
Proof.
  induction 1 as [|b bs Hb Hbs IH]; [cbn; lia|]. cbn [bval foldr length].
  fold (bval bs). unfold isbyte in Hb.
  replace (8 * N.of_nat (S (length bs))) with (8 + 8 * N.of_nat (length bs)) by lia.
  rewrite N.pow_add_r. change (2^8) with 256. lia.
Qed.

Lemma land_bval bs c : Forall isbyte bs -> c < 256 ->
  N.land (bval bs) (bval (replicate (length bs) c)) = bval (map (fun b => N.land b c) bs).
Proof.
  intros H Hc. induction H as [|b bs Hb Hbs IH]; [reflexivity|].
  cbn [bval foldr length replicate map]. fold (bval bs) (bval (replicate (length bs) c)).
  rewrite land_cons by assumption. rewrite IH. reflexivity.
Qed.

Lemma land_shiftr_bval bs c k : Forall isbyte bs -> k < 8 -> c < 2^(8-k) ->
  N.land (N.shiftr (bval bs) k) (bval (replicate (length bs) c))
  = bval (map (fun b => N.land (N.shiftr b k) c) bs).
Proof.
  intros H Hk Hc. induction H as [|b bs Hb Hbs IH].
  - cbn. rewrite N.land_0_r. reflexivity.
  - cbn [bval foldr length replicate map]. fold (bval bs) (bval (replicate (length bs) c)).
    rewrite land_shiftr_cons by assumption. rewrite IH. reflexivity.
Qed.

Lemma bval_nth bs j : Forall isbyte bs ->
  N.land (N.shiftr (bval bs) (8 * N.of_nat j)) 255 = nth j bs 0.
Proof.
  change 255 with (N.ones 8). rewrite N.land_ones, N.shiftr_div_pow2.
  intros H. revert j. induction H as [|b bs Hb Hbs IH]; intros j.
  - cbn [bval foldr]. rewrite N.div_0_l by (apply N.pow_nonzero; lia).
    destruct j; reflexivity.
  - destruct j as [|j]; cbn [nth bval foldr].
    + fold (bval bs). change (2^(8 * N.of_nat 0)) with 1. rewrite N.div_1_r. change (2^8) with 256.
      rewrite N.mul_comm, N.mod_add by lia. apply N.mod_small. exact Hb.
    + fold (bval bs). replace (8 * N.of_nat (S j)) with (8 + 8 * N.of_nat j) by lia.
      rewrite N.pow_add_r, <- N.div_div by (apply N.pow_nonzero; lia || lia).
      change (2^8) with 256 at 1. rewrite (N.mul_comm 256), N.div_add by lia.
      rewrite (N.div_small b) by exact Hb. rewrite N.add_0_l. apply IH.
Qed.

Lemma testbit_bval bs j r : Forall isbyte bs -> r < 8 ->
  N.testbit (bval bs) (8 * N.of_nat j + r) = N.testbit (nth j bs 0) r.
Proof.
  intros H Hr. revert j. induction H as [|b bs Hb Hbs IH]; intros j.
  - cbn [bval foldr]. destruct j; reflexivity.
  - cbn [bval foldr]. fold (bval bs). rewrite testbit_cons by exact Hb. destruct j as [|j]; cbn [nth].
    + replace (8 * N.of_nat 0 + r) with r by lia. destruct (N.ltb_spec r 8); [reflexivity|lia].
    + destruct (N.ltb_spec (8 * N.of_nat (S j) + r) 8); [lia|].
      replace (8 * N.of_nat (S j) + r - 8) with (8 * N.of_nat j + r) by lia. apply IH.
Qed.

(** ** Decomposition of a word into eight bytes *)
Lemma word_bytes x : x < 2^64 ->
  exists b0 b1 b2 b3 b4 b5 b6 b7, Forall isbyte [b0;b1;b2;b3;b4;b5;b6;b7]
    /\ x = bval [b0;b1;b2;b3;b4;b5;b6;b7].
Proof.
  intros Hx.
  assert (forall y n, exists b a, isbyte b /\ y = b + 256 * a /\ (y < 256 * n -> a < n)) as Hs.
  { intros y n. exists (y mod 256), (y / 256). unfold isbyte.
    pose proof (N.mod_lt y 256). pose proof (N.div_mod y 256). split; [lia|]. split; [lia|].
    intros Hy. apply N.div_lt_upper_bound; lia. }
  destruct (Hs x (2^56)) as (b0 & x1 & H0 & E0 & L0).
  destruct (Hs x1 (2^48)) as (b1 & x2 & H1 & E1 & L1).
  destruct (Hs x2 (2^40)) as (b2 & x3 & H2 & E2 & L2).
  destruct (Hs x3 (2^32)) as (b3 & x4 & H3 & E3 & L3).
  destruct (Hs x4 (2^24)) as (b4 & x5 & H4 & E4 & L4).
  destruct (Hs x5 (2^16)) as (b5 & x6 & H5 & E5 & L5).
  destruct (Hs x6 (2^8)) as (b6 & x7 & H6 & E6 & L6).
  exists b0, b1, b2, b3, b4, b5, b6, x7.
  assert (isbyte x7) by (unfold isbyte; lia).
  split; [repeat constructor; assumption|]. cbn [bval foldr]. lia.
Qed.

(** ** Per-byte facts, by sweep over all 256 bytes *)
Definition all_bytes : list N := map N.of_nat (seq 0 256).
Lemma in_all_bytes b : isbyte b -> In b all_bytes.
Proof.
  intros H. unfold isbyte in H. apply in_map_iff. exists (N.to_nat b). split; [lia|].
  apply in_seq. lia.
Qed.
Lemma sweep (P : N -> bool) : forallb P all_bytes = true -> forall b, isbyte b -> P b = true.
Proof. intros H b Hb. rewrite forallb_forall in H. apply H, in_all_bytes, Hb. Qed.

Definition st1 (b : N) : N := b - N.land (N.shiftr b 1) 0x55.
Definition st2 (b : N) : N := N.land b 0x33 + N.land (N.shiftr b 2) 0x33.
Definition nibs (b : N) : bool := (b mod 16 <=? 4) && (b / 16 <=? 4).

Lemma byte_st1 b : isbyte b -> N.land (N.shiftr b 1) 0x55 <= b.
Proof.
  intros H. apply N.leb_le. revert b H. apply sweep. vm_compute. reflexivity.
Qed.
Lemma byte_st2 b : isbyte b -> nibs (st2 (st1 b)) = true.
Proof. revert b. apply sweep. vm_compute. reflexivity. Qed.
Lemma byte_st3 b : isbyte b ->
  (st2 (st1 b) mod 16 + st2 (st1 b) / 16 =? rank1 b 8) = true.
Proof. revert b. apply sweep. vm_compute. reflexivity. Qed.

Lemma isbyte_st1 b : isbyte b -> isbyte (st1 b).
Proof. unfold isbyte, st1. lia. Qed.
Lemma isbyte_st2 b : isbyte b -> isbyte (st2 (st1 b)).
Proof.
  intros H. apply byte_st2 in H. unfold nibs in H. unfold isbyte.
  apply andb_prop in H as [H1 H2].
  pose proof (N.div_mod (st2 (st1 b)) 16). lia.
Qed.

Lemma rank1_le x k : rank1 x k <= N.of_nat k.
Proof. induction k; cbn [rank1]; [lia|]. destruct (N.testbit _ _); lia. Qed.
Lemma rank1_ext x y k : (forall i, i < N.of_nat k -> N.testbit x i = N.testbit y i) -> rank1 x k = rank1 y k.
Proof.
  induction k as [|k IH]; intros H; cbn [rank1]; [reflexivity|].
  rewrite (H (N.of_nat k)) by lia. rewrite IH; [reflexivity|]. intros. apply H. lia.
Qed.
Lemma rank1_app x j k : rank1 x (j + k) = rank1 x j + rank1 (N.shiftr x (N.of_nat j)) k.
Proof.
  induction k as [|k IH]; cbn [rank1]; [rewrite Nat.add_0_r; lia|].
  rewrite Nat.add_succ_r. cbn [rank1]. rewrite IH, N.shiftr_spec'.
  replace (N.of_nat k + N.of_nat j) with (N.of_nat (j + k)) by lia. lia.
Qed.

(** Set bits below 8j+r of a byte list. *)
Fixpoint psum (bs : list N) (j : nat) : N :=
  match j with O => 0 | S j' => psum bs j' + rank1 (nth j' bs 0) 8 end.
Lemma rank1_bval bs j r : Forall isbyte bs -> (r <= 8)%nat ->
  rank1 (bval bs) (8 * j + r) = psum bs j + rank1 (nth j bs 0) r.
Proof.
  intros H Hr.
  assert (forall j r, (r <= 8)%nat -> rank1 (N.shiftr (bval bs) (N.of_nat (8 * j))) r = rank1 (nth j bs 0) r) as Hp.
  { intros j' r' Hr'. apply rank1_ext. intros i Hi. rewrite N.shiftr_spec'.
    replace (i + N.of_nat (8 * j')) with (8 * N.of_nat j' + i) by lia.
    apply testbit_bval; [exact H|lia]. }
  rewrite rank1_app, Hp by exact Hr. f_equal. clear r Hr.
  induction j as [|j IH]; [reflexivity|]. cbn [psum].
  replace (8 * S j)%nat with (8 * j + 8)%nat by lia. rewrite rank1_app, Hp, IH by lia. reflexivity.
Qed.

(** lt_sel: for every byte and rank, the position of the rank-th bit. *)
Definition lt_ok (b : N) : bool :=
  forallb (fun i => if i <=? rank1 b 8 then
     match lt_sel !! N.to_nat ((i - 1) * 256 + b) with
     | Some p => (p <? 8) && N.testbit b p && (rank1 b (N.to_nat p) =? i - 1)
     | None => false end else true) [1;2;3;4;5;6;7;8].
Lemma lt_sel_ok b i : isbyte b -> 1 <= i <= rank1 b 8 ->
  exists p, lt_sel !! N.to_nat ((i - 1) * 256 + b) = Some p /\ p < 8
    /\ N.testbit b p = true /\ rank1 b (N.to_nat p) = i - 1.
Proof.
  intros Hb Hi. assert (lt_ok b = true) as H.
  { revert b Hb Hi. intros b Hb _. revert b Hb. apply sweep. vm_compute. reflexivity. }
  unfold lt_ok in H. rewrite forallb_forall in H. specialize (H i).
  assert (In i [1;2;3;4;5;6;7;8]) as Hin.
  { pose proof (rank1_le b 8). cbn [In].
    assert (i=1\/i=2\/i=3\/i=4\/i=5\/i=6\/i=7\/i=8) by lia. intuition. }
  specialize (H Hin). destruct (N.leb_spec i (rank1 b 8)); [|lia].
  destruct (lt_sel !! _) as [p|]; [|discriminate].
  apply andb_prop in H as [H H3]. apply andb_prop in H as [H1 H2].
  exists p. rewrite N.eqb_eq in H3. rewrite N.ltb_lt in H1. auto.
Qed.

(** ps_overflow[i] has all bytes 128-i. *)
Lemma ps_overflow_ok i : 1 <= i <= 64 ->
  ps_overflow !! N.to_nat i = Some (bval (replicate 8 (128 - i))).
Proof.
  intros Hi.
  assert (forallb (fun k => match ps_overflow !! k with
     | Some v => v =? bval (replicate 8 (128 - N.of_nat k)) | None => false end) (seq 0 65) = true) as H
    by (vm_compute; reflexivity).
  rewrite forallb_forall in H. specialize (H (N.to_nat i)).
  destruct (ps_overflow !! N.to_nat i) as [v|].
  - f_equal. apply N.eqb_eq. rewrite <- (N2Nat.id i) at 1. apply H. apply in_seq. lia.
  - specialize (H ltac:(apply in_seq; lia)). discriminate.
Qed.

(** Trailing zeros of a word whose bytes are 0 or 128. *)
Definition flagval (fs : list bool) : N := bval (map (fun f : bool => if f then 128 else 0) fs).
Fixpoint first_true (fs : list bool) : option nat :=
  match fs with [] => None | true :: _ => Some O | false :: fs' => S <$> first_true fs' end.
Lemma ctz_flags f0 f1 f2 f3 f4 f5 f6 f7 j :
  first_true [f0;f1;f2;f3;f4;f5;f6;f7] = Some j ->
  ctz64 (flagval [f0;f1;f2;f3;f4;f5;f6;f7]) = Ok (8 * N.of_nat j + 7).
Proof.
  destruct f0, f1, f2, f3, f4, f5, f6, f7; cbn [first_true fmap option_fmap option_map];
    intros E; try discriminate E; injection E as <-; vm_compute; reflexivity.
Qed.

Lemma first_true_spec fs j : first_true fs = Some j ->
  nth j fs false = true /\ forall k, (k < j)%nat -> nth k fs false = false.
Proof.
  revert j. induction fs as [|f fs IH]; intros j H; [discriminate|].
  destruct f; cbn in H.
  - injection H as <-. split; [reflexivity|]. intros. lia.
  - destruct (first_true fs) as [j'|]; [|discriminate]. injection H as <-.
    destruct (IH j' eq_refl) as [H1 H2]. split; [exact H1|].
    intros [|k] Hk; [reflexivity|]. cbn. apply H2. lia.
Qed.
Lemma first_true_some fs j : nth j fs false = true -> exists k, first_true fs = Some k.
Proof.
  revert j. induction fs as [|f fs IH]; intros j H; [destruct j; discriminate|].
  destruct f; cbn; [eauto|]. destruct j as [|j]; [discriminate|].
  destruct (IH j H) as [k ->]. cbn. eauto.
Qed.

Lemma flag_byte c i : 1 <= i <= 64 -> c <= 64 ->
  N.land (c + (128 - i)) 0x80 = if i <=? c then 128 else 0.
Proof.
  intros Hi Hc.
  assert (forallb (fun i => forallb (fun c =>
    N.land (c + (128 - i)) 0x80 =? if i <=? c then 128 else 0) (map N.of_nat (seq 0 65)))
    (map N.of_nat (seq 1 64)) = true) as H by (vm_compute; reflexivity).
  rewrite forallb_forall in H. specialize (H i ltac:(apply in_map_iff; exists (N.to_nat i); split; [lia|apply in_seq; lia])).
  rewrite forallb_forall in H. specialize (H c ltac:(apply in_map_iff; exists (N.to_nat c); split; [lia|apply in_seq; lia])).
  apply N.eqb_eq. exact H.
Qed.

Lemma bval_sub bs cs : Forall2 (fun b c => c <= b) bs cs ->
  bval bs - bval cs = bval (zip_with N.sub bs cs) /\ bval cs <= bval bs.
Proof.
  induction 1 as [|b c bs cs Hbc Hr [IH1 IH2]]; [split; reflexivity|].
  cbn [bval foldr zip_with]. fold (bval bs) (bval cs) (bval (zip_with N.sub bs cs)).
  split; lia.
Qed.

Lemma psum_step bs j : psum bs (S j) = psum bs j + rank1 (nth j bs 0) 8.
Proof. reflexivity. Qed.

Lemma sub64_small a b : b <= a -> a < 2^64 -> sub64 a b = a - b.
Proof.
  intros H Ha. unfold sub64, u64. rewrite (N.mod_small b) by lia.
  replace (a + 2^64 - b) with (a - b + 1 * 2^64) by lia. rewrite N.mod_add by lia.
  apply N.mod_small. lia.
Qed.

(** s after the three SWAR stages: the bytewise population counts. *)
Lemma swar_popcounts b0 b1 b2 b3 b4 b5 b6 b7 :
  let bs := [b0;b1;b2;b3;b4;b5;b6;b7] in
  Forall isbyte bs ->
  let s := sub64 (bval bs) (N.land (N.shiftr (bval bs) 1) 0x5555555555555555) in
  let s := u64 (N.land s 0x3333333333333333 + N.land (N.shiftr s 2) 0x3333333333333333) in
  let s := N.land (u64 (s + N.shiftr s 4)) 0x0F0F0F0F0F0F0F0F in
  s = bval (map (fun b => rank1 b 8) bs).
Proof.
  intros bs Hbs. cbv zeta.
  pose proof (bval_lt bs Hbs) as Hlt. change (2^(8 * N.of_nat (length bs))) with (2^64) in Hlt.
  change 0x5555555555555555 with (bval (replicate (length bs) 0x55)).
  rewrite land_shiftr_bval by (exact Hbs || reflexivity).
  assert (Forall2 (fun b c => c <= b) bs (map (fun b => N.land (N.shiftr b 1) 0x55) bs)) as H2.
  { clear -Hbs. generalize dependent bs. intros l Hl. induction Hl as [|b l Hb Hl IH]; cbn [map]; constructor;
      [apply byte_st1, Hb|exact IH]. }
  destruct (bval_sub _ _ H2) as [E1 L1]. rewrite sub64_small by assumption. rewrite E1.
  assert (zip_with N.sub bs (map (fun b => N.land (N.shiftr b 1) 0x55) bs) = map st1 bs) as -> by reflexivity.
  assert (Forall isbyte (map st1 bs)) as Hs1.
  { apply Forall_fmap. eapply Forall_impl; [exact Hbs|]. intros b Hb. apply isbyte_st1, Hb. }
  change 0x3333333333333333 with (bval (replicate (length (map st1 bs)) 0x33)).
  rewrite land_bval, land_shiftr_bval by (exact Hs1 || reflexivity).
  assert (forall (f g : N -> N) (l : list N), bval (map f l) + bval (map g l) = bval (map (fun b => f b + g b) l)) as Hadd.
  { intros f g l. induction l as [|b l IH]; [reflexivity|]. cbn [map bval foldr].
    fold (bval (map f l)) (bval (map g l)) (bval (map (fun b => f b + g b) l)). lia. }
  rewrite Hadd. rewrite (map_map st1).
  change (fun b => N.land (st1 b) 51 + N.land (N.shiftr (st1 b) 2) 51) with (fun b => st2 (st1 b)).
  set (cs := map (fun b => st2 (st1 b)) bs).
  assert (Forall isbyte cs) as Hcs.
  { apply Forall_fmap. eapply Forall_impl; [exact Hbs|]. intros b Hb. apply isbyte_st2, Hb. }
  pose proof (bval_lt cs Hcs) as Hlt2. change (2^(8 * N.of_nat (length cs))) with (2^64) in Hlt2.
  unfold u64 at 2 3. rewrite (N.mod_small (bval cs)) by exact Hlt2.
  assert (Forall (fun b => b mod 16 <= 4 /\ b / 16 <= 4) cs) as Hn.
  { apply Forall_fmap. eapply Forall_impl; [exact Hbs|]. intros b Hb. cbn.
    apply byte_st2 in Hb. unfold nibs in Hb. apply andb_prop in Hb as [A B].
    apply N.leb_le in A. apply N.leb_le in B. split; assumption. }
  assert (map (fun b => rank1 b 8) bs = map (fun c => c mod 16 + c / 16) cs) as ->.
  { unfold cs. rewrite (map_map _ (fun c => c mod 16 + c / 16)).
    apply map_ext_in. intros b Hb. symmetry. apply N.eqb_eq, byte_st3.
    rewrite Forall_forall in Hbs. apply Hbs, elem_of_list_In, Hb. }
  (* bytes of s + (s >> 4) *)
  assert (forall l, Forall (fun b => b mod 16 <= 4 /\ b / 16 <= 4) l ->
    exists l', length l' = length l /\ Forall isbyte l'
      /\ bval l + N.shiftr (bval l) 4 = bval l'
      /\ map (fun b => N.land b 0x0f) l' = map (fun c => c mod 16 + c / 16) l) as Hsh.
  { clear. induction l as [|b l IH]; intros H.
    - exists []. cbn. auto.
    - apply Forall_cons_1 in H as [[Hb1 Hb2] Hl]. destruct (IH Hl) as (l' & Hlen & Hby & Hv & Hm).
      assert (bval l mod 16 <= 4) as Hm4.
      { destruct l as [|c l2]; [cbn; lia|]. apply Forall_cons_1 in Hl as [[Hc1 _] _].
        cbn [bval foldr]. replace (c + 256 * foldr (fun b a => b + 256 * a) 0 l2)
          with (c + 16 * foldr (fun b a => b + 256 * a) 0 l2 * 16) by lia.
        rewrite N.mod_add by lia. exact Hc1. }
      exists ((b + b / 16 + 16 * (bval l mod 16)) :: l').
      pose proof (N.div_mod b 16 ltac:(lia)) as Eb.
      split; [cbn; lia|]. split; [constructor; [unfold isbyte; lia|exact Hby]|]. split.
      + cbn [bval foldr]. fold (bval l) (bval l'). rewrite <- Hv.
        rewrite !N.shiftr_div_pow2. change (2^4) with 16.
        pose proof (N.div_mod (bval l) 16 ltac:(lia)) as El.
        assert ((b + 256 * bval l) / 16 = b / 16 + 16 * bval l) as ->.
        { replace (256 * bval l) with ((16 * bval l) * 16) by lia. apply N.div_add. lia. }
        lia.
      + cbn [map]. f_equal; [|exact Hm]. change 15 with (N.ones 4). rewrite N.land_ones.
        change (2^4) with 16. rewrite (N.mul_comm 16), N.mod_add by lia.
        rewrite Eb at 1. replace (16 * (b / 16) + b mod 16 + b / 16)
          with (b mod 16 + b / 16 + (b / 16) * 16) by lia.
        rewrite N.mod_add by lia. apply N.mod_small. lia. }
  destruct (Hsh cs Hn) as (l' & Hlen & Hby & Hv & Hm). rewrite Hv.
  pose proof (bval_lt l' Hby) as Hlt3. rewrite Hlen in Hlt3.
  change (2^(8 * N.of_nat (length cs))) with (2^64) in Hlt3.
  unfold u64. rewrite N.mod_small by exact Hlt3.
  change 0x0F0F0F0F0F0F0F0F with (bval (replicate (length cs) 0x0f)).
  rewrite <- Hlen, land_bval by (exact Hby || reflexivity). rewrite Hm. reflexivity.
Qed.

Lemma psum_mono bs j k : (j <= k)%nat -> psum bs j <= psum bs k.
Proof. induction 1; [lia|]. cbn [psum]. lia. Qed.

Lemma select64_swar_correct x i : x < 2^64 -> 1 <= i <= rank1 x 64 ->
  exists p, select64_swar x i = Ok p /\ p < 64 /\ is_select x i p.
Proof.
  intros Hx Hi.
  destruct (word_bytes x Hx) as (b0 & b1 & b2 & b3 & b4 & b5 & b6 & b7 & Hbs & ->).
  set (bs := [b0;b1;b2;b3;b4;b5;b6;b7]) in *.
  assert (i <= 64) as Hi64 by (pose proof (rank1_le (bval bs) 64); lia).
  unfold select64_swar. cbv zeta.
  pose proof (swar_popcounts b0 b1 b2 b3 b4 b5 b6 b7 Hbs) as Epop. cbv zeta in Epop. fold bs in Epop.
  rewrite Epop. clear Epop.
  set (cs := map (psum bs) [1;2;3;4;5;6;7;8]%nat).
  assert (forall j, psum bs j <= 8 * N.of_nat j) as Hpl.
  { intros j. induction j; [cbn; lia|]. cbn [psum].
    pose proof (rank1_le (nth j bs 0) 8). lia. }
  assert (u64 (0x0101010101010101 * bval (map (fun b => rank1 b 8) bs)) = bval cs) as ->.
  { assert (Forall isbyte cs) as Hcs.
    { unfold cs. apply Forall_fmap, Forall_forall. intros j Hj. unfold isbyte, compose.
      pose proof (Hpl j). apply elem_of_list_In in Hj. cbn [In] in Hj. lia. }
    pose proof (bval_lt cs Hcs) as Hlt. change (2^(8 * N.of_nat (length cs))) with (2^64) in Hlt.
    set (p0 := rank1 b0 8). set (p1 := rank1 b1 8). set (p2 := rank1 b2 8). set (p3 := rank1 b3 8).
    set (p4 := rank1 b4 8). set (p5 := rank1 b5 8). set (p6 := rank1 b6 8). set (p7 := rank1 b7 8).
    assert (bval (map (fun b => rank1 b 8) bs) = bval [p0;p1;p2;p3;p4;p5;p6;p7]) as -> by reflexivity.
    assert (bval cs = bval [p0; p0+p1; p0+p1+p2; p0+p1+p2+p3; p0+p1+p2+p3+p4; p0+p1+p2+p3+p4+p5;
       p0+p1+p2+p3+p4+p5+p6; p0+p1+p2+p3+p4+p5+p6+p7]) as E by reflexivity.
    unfold u64. rewrite <- (N.mod_small (bval cs) (2^64)) by exact Hlt. rewrite E.
    clearbody p0 p1 p2 p3 p4 p5 p6 p7.
    rewrite <- (N.mod_add (bval [p0; p0+p1; p0+p1+p2; p0+p1+p2+p3; p0+p1+p2+p3+p4; p0+p1+p2+p3+p4+p5;
       p0+p1+p2+p3+p4+p5+p6; p0+p1+p2+p3+p4+p5+p6+p7])
       (bval [p1+p2+p3+p4+p5+p6+p7; p2+p3+p4+p5+p6+p7; p3+p4+p5+p6+p7; p4+p5+p6+p7; p5+p6+p7; p6+p7; p7])) by lia.
    f_equal. cbn [bval foldr]. lia. }
  assert (length cs = 8%nat) as Hlc by reflexivity.
  assert (Forall (fun c => c <= 64) cs) as Hc64.
  { unfold cs. apply Forall_fmap, Forall_forall. intros j Hj. unfold compose.
    pose proof (Hpl j). apply elem_of_list_In in Hj. cbn [In] in Hj. lia. }
  rewrite ps_overflow_ok by lia. cbn [of_option mbind res_bind].
  (* b = flags *)
  set (fl := map (fun c => i <=? c) cs).
  assert (N.land (u64 (bval cs + bval (replicate 8 (128 - i)))) 0x8080808080808080 = flagval fl) as ->.
  { assert (bval cs + bval (replicate 8 (128 - i)) = bval (map (fun c => c + (128 - i)) cs)) as ->.
    { cbn [cs map replicate bval foldr]. lia. }
    assert (Forall isbyte (map (fun c => c + (128 - i)) cs)) as Hd.
    { apply Forall_fmap. eapply Forall_impl; [exact Hc64|]. intros c Hc. unfold isbyte, compose. cbv beta in *. lia. }
    pose proof (bval_lt _ Hd) as Hlt. rewrite map_length, Hlc in Hlt. change (2^(8 * N.of_nat 8)) with (2^64) in Hlt.
    unfold u64. rewrite N.mod_small by exact Hlt.
    change 0x8080808080808080 with (bval (replicate 8 0x80)). rewrite <- Hlc at 1.
    rewrite <- (map_length (fun c => c + (128 - i)) cs) at 1.
    rewrite land_bval by (exact Hd || reflexivity). unfold flagval, fl. f_equal.
    rewrite !map_map. apply map_ext_in. intros c Hc. apply flag_byte; [lia|].
    rewrite Forall_forall in Hc64. apply Hc64, elem_of_list_In, Hc. }
  assert (nth 7 fl false = true) as Hlast.
  { unfold fl, cs. cbn [map nth]. apply N.leb_le.
    pose proof (rank1_bval bs 8 0 Hbs ltac:(lia)) as E8. change (8 * 8 + 0)%nat with 64%nat in E8.
    rewrite E8 in Hi. cbn [rank1] in Hi. lia. }
  destruct (first_true_some fl 7 Hlast) as [j Hj].
  destruct (first_true_spec fl j Hj) as [Hj1 Hj2].
  assert (j < 8)%nat as Hj8.
  { destruct (Nat.lt_ge_cases j 8) as [|Hge]; [assumption|].
    rewrite nth_overflow in Hj1; [discriminate|]. exact Hge. }
  unfold fl, cs in *. cbn [map] in Hj |- *. rewrite (ctz_flags _ _ _ _ _ _ _ _ j Hj).
  cbn [mbind res_bind].
  replace (N.shiftr (8 * N.of_nat j + 7) 3) with (N.of_nat j).
  2:{ rewrite N.shiftr_div_pow2. change (2^3) with 8. rewrite N.add_comm, N.mul_comm, N.div_add by lia. reflexivity. }
  replace (N.shiftl (N.of_nat j) 3) with (8 * N.of_nat j) by (rewrite N.shiftl_mul_pow2; change (2^3) with 8; lia).
  (* previous prefix sum *)
  assert (forall k, (k < 8)%nat -> nth k fl false = (i <=? psum bs (S k))) as Hnth.
  { intros k Hk. unfold fl. do 8 (destruct k as [|k]; [reflexivity|]). lia. }
  assert (psum bs j < i <= psum bs (S j)) as [Hlo Hhi].
  { split.
    - destruct j as [|j']; [cbn [psum]; lia|].
      pose proof (Hj2 j' ltac:(lia)) as H. change (nth j' fl false = false) in H.
      rewrite Hnth in H by lia. apply N.leb_gt. exact H.
    - change (nth j fl false = true) in Hj1. rewrite Hnth in Hj1 by exact Hj8. apply N.leb_le. exact Hj1. }
  cbn [psum] in Hhi.
  assert (N.land (N.shiftr (u64 (N.shiftl (bval [psum bs 1; psum bs 2; psum bs 3; psum bs 4; psum bs 5; psum bs 6; psum bs 7; psum bs 8]) 8)) (8 * N.of_nat j)) 255 = psum bs j) as Hprev.
  { assert (u64 (N.shiftl (bval [psum bs 1; psum bs 2; psum bs 3; psum bs 4; psum bs 5; psum bs 6; psum bs 7; psum bs 8]) 8)
      = bval [psum bs 0; psum bs 1; psum bs 2; psum bs 3; psum bs 4; psum bs 5; psum bs 6; psum bs 7]) as ->.
    { unfold u64. rewrite N.shiftl_mul_pow2.
      assert (Forall isbyte [psum bs 0; psum bs 1; psum bs 2; psum bs 3; psum bs 4; psum bs 5; psum bs 6; psum bs 7]) as Hb.
      { rewrite !Forall_cons. unfold isbyte.
        repeat split; try (match goal with |- psum _ ?j < _ => pose proof (Hpl j) end; lia). constructor. }
      pose proof (bval_lt _ Hb) as Hlt. cbn [length] in Hlt. change (2^(8 * N.of_nat 8)) with (2^64) in Hlt.
      rewrite <- (N.mod_small (bval [psum bs 0; psum bs 1; psum bs 2; psum bs 3; psum bs 4; psum bs 5; psum bs 6; psum bs 7]) (2^64)) by exact Hlt.
      rewrite <- (N.mod_add (bval [psum bs 0; psum bs 1; psum bs 2; psum bs 3; psum bs 4; psum bs 5; psum bs 6; psum bs 7]) (psum bs 8)) by lia.
      f_equal. change (psum bs 0) with 0.
      generalize (psum bs 1) (psum bs 2) (psum bs 3) (psum bs 4) (psum bs 5) (psum bs 6) (psum bs 7) (psum bs 8).
      intros. cbn [bval foldr]. lia. }
    rewrite bval_nth.
    - do 8 (destruct j as [|j]; [reflexivity|]). lia.
    - rewrite !Forall_cons. unfold isbyte.
      repeat split; try (match goal with |- psum _ ?j < _ => pose proof (Hpl j) end; lia). constructor. }
  rewrite Hprev. rewrite bval_nth by exact Hbs.
  set (c := psum bs j) in *.
  assert (u32 (i + 2^32 - c) = i - c) as ->.
  { unfold u32. replace (i + 2^32 - c) with (i - c + 1 * 2^32) by lia. rewrite N.mod_add by lia.
    apply N.mod_small. lia. }
  assert (u32 (u32 (i - c + 2^32 - 1) * 2^8) = (i - c - 1) * 256) as ->.
  { unfold u32. replace (i - c + 2^32 - 1) with (i - c - 1 + 1 * 2^32) by lia. rewrite N.mod_add by lia.
    rewrite (N.mod_small (i - c - 1)) by lia. apply N.mod_small. lia. }
  destruct (lt_sel_ok (nth j bs 0) (i - c)) as (p & Hp & Hp8 & Hpb & Hpr).
  { rewrite Forall_forall in Hbs. apply Hbs. apply elem_of_list_In, nth_In. exact Hj8. }
  { lia. }
  rewrite Hp. cbn [of_option mbind res_bind].
  exists (8 * N.of_nat j + p). split; [reflexivity|]. split; [lia|].
  split.
  - rewrite testbit_bval by assumption. exact Hpb.
  - replace (N.to_nat (8 * N.of_nat j + p)) with (8 * j + N.to_nat p)%nat by lia.
    rewrite rank1_bval by (exact Hbs || lia). fold c. rewrite Hpr. lia.
Qed.

(** ** BMI2 variant *)
Lemma rank1_0 k : rank1 0 k = 0.
Proof. induction k; cbn [rank1]; [reflexivity|]. rewrite IHk, N.bits_0. reflexivity. Qed.

Lemma rank1_div2 x k : rank1 x (S k) = N.b2n (N.odd x) + rank1 (N.div2 x) k.
Proof.
  replace (S k) with (1 + k)%nat by lia. rewrite rank1_app. rewrite N.div2_spec.
  change (N.of_nat 1) with 1. f_equal. cbn [rank1]. change (N.testbit x (N.of_nat 0)) with (N.testbit x 0).
  rewrite N.bit0_odd. destruct (N.odd x); reflexivity.
Qed.

Lemma pdep_select k : forall x n, 1 <= n + 1 <= rank1 x k ->
  exists p, pdep_aux k (2^n) x = 2^p /\ p < N.of_nat k /\ N.testbit x p = true /\ rank1 x (N.to_nat p) = n.
Proof.
  induction k as [|k IH]; intros x n Hn; [cbn [rank1] in Hn; lia|].
  rewrite rank1_div2 in Hn. cbn [pdep_aux]. destruct (N.odd x) eqn:Ho.
  - cbn [N.b2n] in Hn. destruct (N.eq_dec n 0) as [->|Hn0].
    + exists 0. split.
      * cbn. assert (forall k m, pdep_aux k 0 m = 0) as Hz.
        { clear. induction k as [|k IH]; intros m; [reflexivity|]. cbn [pdep_aux].
          destruct (N.odd m); cbn; rewrite IH; reflexivity. }
        rewrite Hz. reflexivity.
      * split; [lia|]. split; [rewrite N.bit0_odd; exact Ho|reflexivity].
    + destruct (IH (N.div2 x) (n - 1) ltac:(lia)) as (p & Hp & Hk & Hb & Hr).
      exists (p + 1). replace n with (N.succ (n - 1)) by lia.
      rewrite N.pow_succ_r by lia. rewrite N.odd_mul. cbn [N.odd andb N.b2n].
      change (N.odd 2) with false. cbn [andb N.b2n]. rewrite N.div2_double, Hp.
      split; [rewrite N.add_1_r, N.pow_succ_r by lia; lia|]. split; [lia|]. split.
      * rewrite N.div2_spec, N.shiftr_spec' in Hb. exact Hb.
      * replace (N.to_nat (p + 1)) with (S (N.to_nat p)) by lia.
        rewrite rank1_div2, Hr, Ho. cbn [N.b2n]. lia.
  - cbn [N.b2n] in Hn. destruct (IH (N.div2 x) n ltac:(lia)) as (p & Hp & Hk & Hb & Hr).
    exists (p + 1). rewrite Hp. split; [rewrite N.add_1_r, N.pow_succ_r by lia; lia|].
    split; [lia|]. split.
    + rewrite N.div2_spec, N.shiftr_spec' in Hb. exact Hb.
    + replace (N.to_nat (p + 1)) with (S (N.to_nat p)) by lia.
      rewrite rank1_div2, Hr, Ho. reflexivity.
Qed.

Lemma ctz_pow2 p : p < 64 -> ctz64 (2^p) = Ok p.
Proof.
  intros Hp.
  assert (forallb (fun k => match ctz64 (2^N.of_nat k) with Ok q => q =? N.of_nat k | _ => false end) (seq 0 64) = true) as H
    by (vm_compute; reflexivity).
  rewrite forallb_forall in H. specialize (H (N.to_nat p) ltac:(apply in_seq; lia)).
  rewrite N2Nat.id in H. destruct (ctz64 (2^p)); try discriminate. apply N.eqb_eq in H. congruence.
Qed.

Lemma select64_bmi_correct x i : x < 2^64 -> 1 <= i <= rank1 x 64 ->
  exists p, select64_bmi x i = Ok p /\ p < 64 /\ is_select x i p.
Proof.
  intros Hx Hi. assert (i <= 64) as Hi64 by (pose proof (rank1_le x 64); lia).
  destruct (pdep_select 64 x (i - 1) ltac:(lia)) as (p & Hp & Hk & Hb & Hr).
  exists p. unfold select64_bmi, shl64.
  assert (u32 (i + 2^32 - 1) = i - 1) as ->.
  { unfold u32. replace (i + 2^32 - 1) with (i - 1 + 1 * 2^32) by lia. rewrite N.mod_add by lia.
    apply N.mod_small. lia. }
  destruct (N.ltb_spec (i - 1) 64); [|lia]. cbn [mbind res_bind].
  rewrite N.shiftl_mul_pow2, N.mul_1_l. unfold u64.
  rewrite N.mod_small by (apply N.pow_lt_mono_r; lia).
  unfold pdep64. rewrite Hp, ctz_pow2 by lia.
  split; [reflexivity|]. split; [lia|]. split; [exact Hb|exact Hr].
Qed.

(** The i-th set bit is unique, so the specification determines the result. *)
Lemma is_select_unique x i p q : 1 <= i -> is_select x i p -> is_select x i q -> p = q.
Proof.
  intros Hi [Hp1 Hp2] [Hq1 Hq2].
  assert (forall a b, N.testbit x a = true -> a < b -> rank1 x (N.to_nat a) < rank1 x (N.to_nat b)) as Hm.
  { intros a b Ha Hab. replace (N.to_nat b) with (S (N.to_nat a) + (N.to_nat b - S (N.to_nat a)))%nat by lia.
    rewrite rank1_app. cbn [rank1]. rewrite N2Nat.id, Ha. lia. }
  destruct (N.lt_trichotomy p q) as [H|[H|H]]; [|exact H|]; exfalso.
  - pose proof (Hm p q Hp1 H). lia.
  - pose proof (Hm q p Hq1 H). lia.
Qed.
