(** The debug members of core_group and keyvalue_group agree with the data, and no check fails on valid calls. *)
From Verif Require Export DebugGroupTrans GroupHist DebugHash.
#[local] Open Scope nat_scope.

Definition dcore_rep (pf : platform) (w : nat) (d : dcore) (xs : list N) : Prop :=
  core_rep True pf w (c_d d) xs /\ c_kw d = Some (N.of_nat w) /\ c_len d = Some (N.of_nat (length xs))
  /\ (exists bs, c_bs d = Some bs /\ (N.of_nat (length xs * w) <= 64 * bs)%N)
  /\ exists P, c_plain d = Some P /\ take (length xs) P = xs.

Section core.
Context (pf : platform).
Lemma dcore_init w d : 1 <= w -> c_plain d = None -> c_d d = None -> exists d', dc_init d w = Ok d' /\ dcore_rep pf w d' [].
Proof.
  intros Hw E1 E2. unfold dc_init. rewrite E1, E2. cbn [chk mbind res_bind]. eexists. split; [done|]. split; [by apply core_init|].
  split; [done|]. split; [done|]. split; [|eauto]. eexists. split; [done|]. cbn [length]. lia.
Qed.
Lemma dcore_width w d xs : dcore_rep pf w d xs -> dc_width d w = Ok tt.
Proof. intros (_ & E & _). unfold dc_width. rewrite E. cbn [known of_option mbind res_bind]. by rewrite N.eqb_refl. Qed.
Lemma dcore_plain w d xs i x : dcore_rep pf w d xs -> xs !! i = Some x -> dc_plain d i = Ok x.
Proof.
  intros (_ & _ & _ & _ & P & EP & Ht) Hi. unfold dc_plain. rewrite EP. rewrite <-Ht in Hi. apply lookup_take_Some in Hi as [-> _]. done.
Qed.
Lemma pos_small i n w : 1 <= w -> i < n -> i * w / 64 + i * w mod 64 < 64 * cdiv (n * w) 64.
Proof.
  intros Hw Hi. pose proof (cdiv_ge (n * w) 64 ltac:(lia)). pose proof (field_in i n w Hi).
  pose proof (Nat.div_mod (i * w) 64 ltac:(lia)). lia.
Qed.
Lemma dcore_read w d xs i x : 1 <= w <= 64 -> dcore_rep pf w d xs -> xs !! i = Some x -> dc_read pf d i w = Ok x.
Proof.
  intros Hw H Hi. pose proof (lookup_lt_Some _ _ _ Hi) as Hlt. unfold dc_read. rewrite (dcore_width _ _ _ H). cbn [mbind res_bind].
  pose proof H as (Hc & _ & -> & _). cbn [known of_option mbind res_bind]. rewrite (proj2 (N.ltb_lt _ _)) by lia. cbn [chk mbind res_bind].
  rewrite Nat2N.id, (proj2 (Nat.ltb_lt _ _)) by (apply pos_small; lia). cbn [chk mbind res_bind].
  rewrite (core_read _ _ _ _ _ _ _ Hw Hc Hi). cbn [mbind res_bind]. rewrite (dcore_plain _ _ _ _ _ H Hi). cbn [mbind res_bind]. by rewrite N.eqb_refl.
Qed.
Lemma rfold_tt {A} (f : unit -> A -> res unit) l : (forall u x, x ∈ l -> f u x = Ok tt) -> rfold f l tt = Ok tt.
Proof.
  intros H. induction l as [|x l IH]; [done|]. cbn [rfold]. rewrite H by (by left). cbn [mbind res_bind]. apply IH. intros u y Hy. apply H. by right.
Qed.
Lemma dcore_check w d xs n : 1 <= w <= 64 -> dcore_rep pf w d xs -> n <= length xs -> dc_check pf d n w = Ok tt.
Proof.
  intros Hw H Hn. unfold dc_check. apply rfold_tt. intros _ i Hi. apply elem_of_seq in Hi. destruct (lookup_lt_is_Some_2 xs i) as (x & Hx); [lia|].
  rewrite (dcore_plain _ _ _ _ _ H Hx). cbn [mbind res_bind]. rewrite (dcore_read _ _ _ _ _ Hw H Hx). cbn [mbind res_bind]. by rewrite N.eqb_refl.
Qed.
Lemma take_len (P xs : list N) : take (length xs) P = xs -> length xs <= length P.
Proof. intros H. apply (f_equal length) in H. rewrite take_length in H. lia. Qed.
Lemma dcore_erase w d xs i : 1 <= w <= 64 -> dcore_rep pf w d xs -> i < length xs ->
  exists d', dc_erase pf d i w (length xs) = Ok d' /\ dcore_rep pf w d' (delete i xs).
Proof.
  intros Hw H Hi. unfold dc_erase. rewrite (dcore_width _ _ _ H). cbn [mbind res_bind].
  pose proof H as (Hc & Ek & El & (bs & Eb & Hbs) & P & EP & Ht). rewrite EP, El. cbn [known of_option mbind res_bind]. rewrite N.eqb_refl. cbn [chk mbind res_bind].
  destruct (core_erase pf True w (c_d d) xs i I Hw Hc Hi) as (y & -> & Hy). cbn [mbind res_bind].
  pose proof (take_len _ _ Ht) as HP. rewrite (proj2 (Nat.ltb_ge _ _)) by done. cbn [mbind res_bind].
  pose proof (length_delete xs i ltac:(by apply lookup_lt_is_Some_2)) as Hlen.
  match goal with |- context [DCore y (c_kw d) ?l (c_bs d) (Some ?P')] => set (d' := DCore y (c_kw d) l (c_bs d) (Some P')) in * end.
  assert (Hd : dcore_rep pf w d' (delete i xs)).
  { split; [done|]. split; [done|]. split; [cbn [c_len]; by rewrite Hlen|]. split.
    - exists bs. split; [done|]. rewrite Hlen. nia.
    - eexists. split; [reflexivity|]. rewrite Hlen. destruct (Nat.ltb_spec 0 (length xs - 1)) as [Hp|Hp].
      + rewrite Ht. rewrite take_take, Nat.min_id. replace (take i P) with (take i xs).
        * rewrite <-delete_take_drop. apply take_ge. lia.
        * rewrite <-Ht at 1. rewrite take_take. f_equal. lia.
      + assert (length xs = 1) by lia. replace (length xs - 1) with 0 by lia. rewrite take_0. symmetry. apply nil_length_inv. lia. }
  rewrite (dcore_check _ _ _ _ Hw Hd) by lia. cbn [mbind res_bind]. eauto.
Qed.
Lemma dcore_insert w d xs i x : 1 <= w <= 64 -> dcore_rep pf w d xs -> i <= length xs -> (x < 2^N.of_nat w)%N ->
  exists d', dc_insert pf d i x w (length xs) = Ok d' /\ dcore_rep pf w d' (take i xs ++ x :: drop i xs).
Proof.
  intros Hw H Hi Hx. unfold dc_insert. rewrite (dcore_width _ _ _ H). cbn [mbind res_bind].
  pose proof H as (Hc & Ek & El & (bs & Eb & Hbs) & P & EP & Ht). rewrite EP, El. cbn [known of_option mbind res_bind]. rewrite N.eqb_refl. cbn [chk mbind res_bind].
  pose proof (take_len _ _ Ht) as HP. rewrite (proj2 (Nat.ltb_ge (length xs) i)), (proj2 (Nat.ltb_ge (length P) _)) by lia. cbn [orb mbind res_bind]. cbv zeta.
  set (n := length xs) in *. pose proof (cdiv_ge (w * (n + 2)) 64 ltac:(lia)) as Hnew. set (m := cdiv (w * (n + 2)) 64) in *.
  assert (Hnw : (n - i) * w <= n * w) by (apply Nat.mul_le_mono_r; lia).
  assert (Hd64 : 64 * ((n - i) * w / 64) <= (n - i) * w) by (apply Nat.mul_div_le; lia).
  assert (Hn1 : (n + 1) * w = n * w + w) by lia. assert (Hi1 : (i + 1) * w = i * w + w) by lia.
  assert (Hsp : n * w = i * w + (n - i) * w) by (rewrite <-Nat.mul_add_distr_r; f_equal; lia).
  assert (Hroom : (n + 1) * w <= 64 * m) by (rewrite (Nat.mul_comm w) in Hnew; replace ((n + 2) * w) with ((n + 1) * w + w) in Hnew by lia; lia).
  assert (C1 : (if 0 <? (n - i) * w / 64 then (n * w <=? (n + 1) * w) && (n * w + w <=? (n + 1) * w) else true) = true).
  { destruct (0 <? _); [|done]. rewrite !(proj2 (Nat.leb_le _ _)) by lia. done. }
  rewrite C1. cbn [chk mbind res_bind].
  assert (C2 : forallb (fun j => 64 * (j + 1) <=? n * w) (seq 0 ((n - i) * w / 64)) = true).
  { apply forallb_forall. intros j Hj%in_seq. apply Nat.leb_le. lia. }
  rewrite C2. cbn [chk mbind res_bind].
  assert (C3 : forallb (fun m0 : nat * nat * nat => snd (fst m0) + snd m0 <=? 64 * m) (insert_moves i w n) = true).
  { apply forallb_forall. intros [[f t] k] Hj. cbn [fst snd]. apply Nat.leb_le. unfold insert_moves in Hj. apply in_app_or in Hj as [Hj|Hj].
    - apply in_map_iff in Hj as (j & [= <- <- <-] & Hj%in_seq). lia.
    - destruct ((0 <? n) && _); [|done]. destruct Hj as [Hj|[]]. pose proof (Nat.mod_le ((n - i) * w) 64 ltac:(lia)) as Hmod. revert Hj Hmod. generalize (((n - i) * w) mod 64).
      intros r [= <- <- <-] Hmod. lia. }
  rewrite C3. cbn [chk mbind res_bind]. rewrite (proj2 (Nat.leb_le _ _)) by lia. cbn [chk mbind res_bind].
  destruct (core_insert pf True True w (c_d d) xs i x Hw Hc Hi Hx) as (y & E & Hy). fold n in E. rewrite E. cbn [mbind res_bind].
  match goal with |- context [DCore y (c_kw d) ?l ?b ?P'] => set (d' := DCore y (c_kw d) l b P') in * end.
  assert (Hlen : length (take i xs ++ x :: drop i xs) = n + 1).
  { rewrite app_length. cbn [length]. rewrite take_length, drop_length. lia. }
  assert (Hd : dcore_rep pf w d' (take i xs ++ x :: drop i xs)).
  { split; [done|]. split; [done|]. rewrite Hlen. split; [done|]. split.
    - eexists. split; [reflexivity|]. lia.
    - eexists. split; [reflexivity|]. replace (take i P) with (take i xs) by (rewrite <-Ht; rewrite take_take; f_equal; lia).
      replace (take (n - i) (drop i P)) with (drop i xs) by (rewrite <-Ht at 1; by rewrite skipn_firstn_comm).
      apply take_ge. lia. }
  rewrite (dcore_check _ _ _ _ Hw Hd) by lia. cbn [mbind res_bind]. eauto.
Qed.
Lemma msb_ok x w : w <= 64 -> (x < 2^N.of_nat w)%N -> (most_significant_bit x <=? Z.of_nat w)%Z = true.
Proof.
  intros Hw Hx. apply Z.leb_le. pose proof (msb_le x (N.of_nat w)) as Hm. rewrite nat_N_Z in Hm. apply Hm; [|done].
  eapply N.lt_le_trans; [done|]. apply N.pow_le_mono_r; lia.
Qed.
Lemma dcore_write w d xs i x : 1 <= w <= 64 -> dcore_rep pf w d xs -> i < length xs -> (x < 2^N.of_nat w)%N ->
  exists d', dc_write pf d i x w = Ok d' /\ dcore_rep pf w d' (<[i := x]> xs).
Proof.
  intros Hw H Hi Hx. unfold dc_write. rewrite (dcore_width _ _ _ H). cbn [mbind res_bind]. rewrite msb_ok by (done || lia). cbn [chk mbind res_bind].
  pose proof H as (Hc & Ek & El & (bs & Eb & Hbs) & P & EP & Ht). rewrite El. cbn [known of_option mbind res_bind]. rewrite (proj2 (N.ltb_lt _ _)) by lia. cbn [chk mbind res_bind].
  destruct (lookup_lt_is_Some_2 xs i Hi) as (y & Hy). rewrite (dcore_plain _ _ _ _ _ H Hy). cbn [mbind res_bind].
  rewrite (dcore_read _ _ _ _ _ Hw H Hy). cbn [mbind res_bind]. rewrite N.eqb_refl. cbn [chk mbind res_bind].
  rewrite Nat2N.id, (proj2 (Nat.ltb_lt _ _)) by (apply pos_small; lia). cbn [chk mbind res_bind].
  destruct (core_write pf True w (c_d d) xs i x Hw Hc Hi Hx) as (z & -> & Hz). cbn [mbind res_bind]. cbv zeta.
  match goal with |- context [DCore z (c_kw d) ?l ?b ?P'] => set (d' := DCore z (c_kw d) l b P') in * end.
  assert (Hd : dcore_rep pf w d' (<[i := x]> xs)).
  { split; [done|]. split; [done|]. rewrite insert_length. split; [done|]. split; [by exists bs|].
    exists (<[i := x]> P). split; [subst d'; cbn [c_plain]; by rewrite EP|]. rewrite <-(insert_length xs i x). rewrite insert_length.
    rewrite take_insert_lt by done. by rewrite Ht. }
  rewrite (dcore_read _ _ _ i x Hw Hd) by (by apply list_lookup_insert). cbn [mbind res_bind]. rewrite N.eqb_refl. cbn [chk mbind res_bind].
  rewrite rfold_tt; [cbn [mbind res_bind]; eauto|].
  intros _ j Hj. apply elem_of_seq in Hj. destruct (lookup_lt_is_Some_2 (<[i := x]> xs) j) as (u & Hu); [rewrite insert_length; lia|].
  rewrite (dcore_read _ _ _ j u Hw Hd Hu). done.
Qed.
Lemma dcore_scan w d xs x : 1 <= w <= 64 -> dcore_rep pf w d xs -> forall n i, i + n <= length xs ->
  dc_scan pf d i n w x = Ok ((fun j => i + j) <$> first_index x (take n (drop i xs))).
Proof.
  intros Hw H. pose proof H as (Hc & Ek & El & (bs & Eb & Hbs) & _). induction n as [|n IH]; intros i Hi; cbn [dc_scan].
  { by rewrite take_0. }
  destruct (lookup_lt_is_Some_2 xs i) as (y & Hy); [lia|]. rewrite Eb. cbn [known of_option mbind res_bind].
  pose proof (field_in i (length xs) w ltac:(lia)). rewrite (proj2 (N.leb_le _ _)) by lia. cbn [chk mbind res_bind].
  pose proof (core_read pf True w (c_d d) xs i y Hw Hc Hy) as Hr. unfold cg_read in Hr. rewrite Hr. cbn [mbind res_bind].
  rewrite (dcore_plain _ _ _ _ _ H Hy). cbn [mbind res_bind]. rewrite N.eqb_refl. cbn [chk mbind res_bind].
  rewrite (drop_S _ _ _ Hy). cbn [take first_index]. destruct (N.eqb_spec y x).
  - cbn. by rewrite Nat.add_0_r.
  - rewrite IH by lia. f_equal. destruct (first_index x _); [|done]. cbn. f_equal. lia.
Qed.
Lemma dcore_find_plain w d xs x : dcore_rep pf w d xs -> forall n i, i + n <= length xs -> first_index x (take n (drop i xs)) = None ->
  dc_find_plain d i n x = Ok false.
Proof.
  intros H. induction n as [|n IH]; intros i Hi Hn; cbn [dc_find_plain]; [done|].
  destruct (lookup_lt_is_Some_2 xs i) as (y & Hy); [lia|]. rewrite (dcore_plain _ _ _ _ _ H Hy). cbn [mbind res_bind].
  rewrite (drop_S _ _ _ Hy) in Hn. cbn [take first_index] in Hn. destruct (y =? x)%N; [done|]. apply IH; [lia|]. by destruct (first_index x _).
Qed.
Lemma dcore_find w d xs x n i : 1 <= w <= 64 -> dcore_rep pf w d xs -> 0 < n -> i + n <= length xs ->
  dc_find pf d i n w x = Ok ((fun j => i + j) <$> first_index x (take n (drop i xs))).
Proof.
  intros Hw H Hn Hi. unfold dc_find. rewrite (dcore_width _ _ _ H). cbn [mbind res_bind]. rewrite (proj2 (Nat.ltb_lt _ _)) by done. cbn [chk mbind res_bind].
  pose proof H as (_ & _ & -> & _). cbn [known of_option mbind res_bind]. rewrite (proj2 (N.leb_le _ _)) by lia. cbn [chk mbind res_bind].
  rewrite (dcore_scan _ _ _ _ Hw H) by done. cbn [mbind res_bind]. destruct (first_index x _) eqn:E; [done|]. cbn [fmap option_fmap option_map].
  rewrite (dcore_find_plain _ _ _ _ H) by done. done.
Qed.
End core.
