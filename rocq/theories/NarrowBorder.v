(** m_border of keyvalue_group with any internal_t: the unary code of the bucket sizes, cut into internal_t. *)
From Verif Require Export NarrowCore.
#[local] Open Scope nat_scope.

Section border.
Context (ib : nat) (pf : platform).
Hypothesis IB : iwidth ib.
Hypothesis PF : roomy ib pf.
Notation trunc := (trunc ib).
Notation nwbits := (nwbits ib).
#[local] Lemma ibp : 1 <= ib <= 64.
Proof. destruct IB as [H (m & Hm)]. split; [done|]. destruct m; [lia|]. rewrite Nat.mul_succ_r in Hm. lia. Qed.

Definition nwbit (ws : list N) (i : nat) : bool :=
  match ws !! (i / ib) with Some w => N.testbit w (N.of_nat (i mod ib)) | None => false end.
Definition fits (w : N) : Prop := (w < 2^N.of_nat ib)%N.
Definition nborder_rep (ws : list N) (ns : list nat) : Prop :=
  Forall fits ws /\ length ws = cdiv (tot ns + length ns + 1) ib /\ forall i, nwbit ws i = nth i (ucode ns) false.

(** ** Bits of words *)
Lemma tb_trunc x k : k < ib -> N.testbit (trunc x) (N.of_nat k) = N.testbit x (N.of_nat k).
Proof. intros H. unfold NarrowModel.trunc. rewrite N.mod_pow2_bits_low; [done|lia]. Qed.
Lemma trunc_fits x : fits (trunc x).
Proof. unfold fits, NarrowModel.trunc. apply N.mod_lt. apply N.pow_nonzero. done. Qed.
Lemma fits_high w r : fits w -> (N.of_nat ib <= r)%N -> N.testbit w r = false.
Proof. intros Hw Hr. destruct (N.eq_dec w 0) as [->|H0]; [apply N.bits_0|]. apply N.bits_above_log2. apply N.log2_lt_pow2 in Hw; lia. Qed.
Lemma fits64 w : fits w -> (w < 2^64)%N.
Proof. intros H. eapply N.lt_le_trans; [exact H|]. apply N.pow_le_mono_r; [done|]. pose proof ibp. lia. Qed.
Lemma nwbits_length ws : length (nwbits ws) = ib * length ws.
Proof. unfold NarrowModel.nwbits. induction ws as [|w ws IH]; cbn [map concat length]; [lia|]. rewrite app_length, bits_of_length, IH. lia. Qed.
Lemma nbits_of_lookup w i : i < ib -> bits_of ib w !! i = Some (N.testbit w (N.of_nat i)).
Proof. intros Hi. unfold bits_of. change (map ?f ?l) with (f <$> l). rewrite list_lookup_fmap, lookup_seq_lt by done. done. Qed.
Lemma nwbit_at ws g r w : ws !! g = Some w -> r < ib -> nwbit ws (ib * g + r) = N.testbit w (N.of_nat r).
Proof.
  intros Hw Hr. pose proof ibp. unfold nwbit. rewrite (Nat.add_comm _ r), (Nat.mul_comm ib). rewrite Nat.div_add, Nat.mod_add by lia.
  rewrite Nat.div_small, Nat.mod_small by done. cbn [Nat.add]. by rewrite Hw.
Qed.
Lemma nwbit_out ws i : ib * length ws <= i -> nwbit ws i = false.
Proof.
  intros H. pose proof ibp. unfold nwbit. rewrite lookup_ge_None_2; [done|]. apply Nat.div_le_lower_bound; lia.
Qed.
Lemma nwbits_lookup ws i : i < ib * length ws -> nwbits ws !! i = Some (nwbit ws i).
Proof.
  pose proof ibp as Hib. revert i. induction ws as [|w ws IH]; intros i Hi; cbn [length] in Hi; [lia|].
  unfold NarrowModel.nwbits. cbn [map concat]. fold (nwbits ws).
  destruct (Nat.lt_ge_cases i ib) as [Hc|Hc].
  - rewrite lookup_app_l by (by rewrite bits_of_length). rewrite nbits_of_lookup by done. unfold nwbit.
    rewrite Nat.div_small, Nat.mod_small by done. done.
  - rewrite lookup_app_r by (by rewrite bits_of_length). rewrite bits_of_length, IH by (rewrite Nat.mul_succ_r in Hi; lia). f_equal.
    unfold nwbit.
    assert (E1 : i / ib = S ((i - ib) / ib)). { replace i with (i - ib + 1 * ib) at 1 by lia. rewrite Nat.div_add by lia. lia. }
    assert (E2 : i mod ib = (i - ib) mod ib). { replace i with (i - ib + 1 * ib) at 1 by lia. by rewrite Nat.mod_add by lia. }
    by rewrite E1, E2.
Qed.
Lemma nwbit_take ws ws' g i : (forall j, j < g -> ws' !! j = ws !! j) -> i < ib * g -> nwbit ws' i = nwbit ws i.
Proof. intros H Hi. pose proof ibp. unfold nwbit. rewrite H; [done|]. apply Nat.div_lt_upper_bound; lia. Qed.
Lemma ndiv_cases i g : i < ib * g \/ (exists r, r < ib /\ i = ib * g + r) \/ (exists g' r, g <= g' /\ r < ib /\ i = ib * S g' + r).
Proof.
  pose proof ibp. pose proof (Nat.div_mod i ib ltac:(lia)) as Hd. pose proof (Nat.mod_upper_bound i ib ltac:(lia)).
  destruct (Nat.lt_trichotomy (i / ib) g) as [H1|[H1|H1]].
  - left. assert (ib * S (i / ib) <= ib * g) by (apply Nat.mul_le_mono_l; lia). rewrite Nat.mul_succ_r in *. lia.
  - right. left. exists (i mod ib). rewrite <-H1. lia.
  - right. right. exists (i / ib - 1), (i mod ib). replace (S (i / ib - 1)) with (i / ib) by lia. lia.
Qed.

(** ** find_group_position *)
Lemma nb_select_spec : forall fuel mem rem sum p, mem !! p = Some true -> ones (take p mem) = rem ->
  p / 64 < fuel -> p / 64 * 64 + 64 <= length mem -> nb_select fuel mem rem sum = Ok (sum + p).
Proof.
  induction fuel as [|fuel IH]; intros mem rem sum p Hp Hrem Hf Hl; [lia|]. cbn [nb_select].
  rewrite (proj2 (Nat.ltb_ge _ _)) by lia.
  assert (Hlen : length (take 64 mem) = 64) by (rewrite take_length; lia). set (w := bits_val (take 64 mem)).
  assert (Hb : bits_of 64 w = take 64 mem).
  { subst w. rewrite <-Hlen at 1. apply bits_of_bits_val. }
  assert (Hw : (w < 2^64)%N) by (subst w; pose proof (bits_val_lt (take 64 mem)) as Hlt; by rewrite Hlen in Hlt).
  assert (Hpop : popcount w = ones (take 64 mem)) by (unfold popcount; by rewrite Hb). rewrite Hpop.
  destruct (Nat.lt_ge_cases p 64) as [Hc|Hc].
  - rewrite <-(take_drop 64 mem), lookup_app_l in Hp by lia. rewrite <-(take_drop 64 mem), take_app_le in Hrem by lia.
    assert (Hgt : rem < ones (take 64 mem)).
    { pose proof (ones_take (take 64 mem) (S p)) as Hle. rewrite (take_S_r _ _ _ Hp), ones_app, Hrem in Hle. change (ones [true]) with 1 in Hle. lia. }
    rewrite (proj2 (Nat.leb_gt _ _)) by done.
    assert (Hr64 : rank1 w 64 = N.of_nat (ones (take 64 mem))).
    { rewrite rank1_ones by lia. rewrite take_ge; [by rewrite Hb|]. by rewrite bits_of_length. }
    destruct (select64_swar_correct w (N.of_nat (rem + 1))) as (q & -> & Hq & Hs); [done|rewrite Hr64; lia|]. cbn [mbind res_bind].
    assert (Hs' : is_select w (N.of_nat (rem + 1)) (N.of_nat p)).
    { rewrite <-Hb in Hp, Hrem. split; [rewrite bits_of_lookup in Hp by done; congruence|]. rewrite Nat2N.id, rank1_ones by lia. rewrite Hrem. lia. }
    rewrite (is_select_unique w (N.of_nat (rem + 1)) q (N.of_nat p) ltac:(lia) Hs Hs'). by rewrite Nat2N.id.
  - rewrite <-(take_drop 64 mem), lookup_app_r in Hp by lia. rewrite Hlen in Hp.
    rewrite <-(take_drop 64 mem), take_app_ge in Hrem by lia. rewrite ones_app, Hlen in Hrem.
    rewrite (proj2 (Nat.leb_le _ _)) by lia.
    assert (Ed : p / 64 = S ((p - 64) / 64)).
    { replace p with (p - 64 + 1 * 64) at 1 by lia. rewrite Nat.div_add by done. lia. }
    rewrite (IH (drop 64 mem) (rem - ones (take 64 mem)) (sum + 64) (p - 64)); [f_equal; lia|done|lia|lia|]. rewrite drop_length. lia.
Qed.
Lemma nborder_bits ws ns : nborder_rep ws ns -> exists k, nwbits ws = ucode ns ++ replicate k false.
Proof.
  intros (HF & Hlen & Hb). pose proof ibp. exists (ib * length ws - length (ucode ns)).
  assert (Hle : length (ucode ns) <= ib * length ws). { rewrite ucode_length, Hlen. pose proof (cdiv_ge (tot ns + length ns + 1) ib ltac:(lia)). lia. }
  apply list_eq. intros i. destruct (Nat.lt_ge_cases i (ib * length ws)) as [Hi|Hi].
  - rewrite nwbits_lookup, Hb by done. destruct (Nat.lt_ge_cases i (length (ucode ns))) as [Hc|Hc].
    + rewrite lookup_app_l by done. destruct (lookup_lt_is_Some_2 (ucode ns) i Hc) as (y & Hy). rewrite Hy. f_equal.
      by apply nth_lookup_Some with (d := false).
    + rewrite lookup_app_r, lookup_replicate_2 by lia. f_equal. by apply nth_overflow.
  - rewrite !lookup_ge_None_2; [done| |by rewrite nwbits_length]. rewrite app_length, replicate_length. lia.
Qed.
Lemma nborder_pos junk ws ns g : nborder_rep ws ns -> g < length ns ->
  nb_select (length (nb_memory ib pf junk ws)) (nb_memory ib pf junk ws) g 0 = Ok (upos ns g).
Proof.
  intros H Hg. destruct (nborder_bits _ _ H) as (k & E). destruct (ucode_one ns g Hg) as [H1 H2]. pose proof (upos_lt ns g Hg) as Hu.
  pose proof (nwbits_length ws) as Hl. unfold nb_memory. rewrite E in Hl |- *. set (mem := _ ++ _).
  assert (Hin : upos ns g < ib * length ws) by (rewrite <-Hl, app_length; lia).
  assert (Hml : length mem = ib * length ws + 8 * slack pf) by (subst mem; rewrite app_length, map_length, seq_length; lia).
  assert (Hchunk : upos ns g / 64 * 64 + 64 <= length mem).
  { destruct IB as [Hib (m & Hm)]. pose proof (Nat.mul_div_le (upos ns g) 64 ltac:(lia)).
    assert (Hlt : ib * (m * (upos ns g / 64)) < ib * length ws) by (rewrite Nat.mul_assoc, <-Hm; lia).
    apply (mul_lt_r ib) in Hlt. rewrite Nat.mul_assoc, <-Hm in Hlt. unfold roomy in PF. lia. }
  apply (nb_select_spec _ mem g 0 (upos ns g)); try done.
  - subst mem. rewrite !lookup_app_l by (rewrite ?app_length; lia). done.
  - subst mem. rewrite !take_app_le by (rewrite ?app_length; lia). done.
  - lia.
Qed.

(** ** initialize *)
Lemma ntb_ones k : k < ib -> N.testbit (trunc ones64) (N.of_nat k) = true.
Proof. intros H. pose proof ibp. rewrite tb_trunc, tb_ones64 by done. apply N.ltb_lt. lia. Qed.
Lemma nborder_init n : nborder_rep (nb_init ib n) (replicate n 0).
Proof.
  unfold nb_init. pose proof ibp as Hib. pose proof (cdiv_ge (n + 1) ib ltac:(lia)) as Hge. set (m := cdiv (n + 1) ib) in *.
  assert (Hm1 : 1 <= m) by (destruct m; lia).
  assert (Hmm : ib * (m - 1) + ib = ib * m) by (destruct m; [lia|]; rewrite Nat.sub_succ, Nat.sub_0_r; lia).
  assert (Hm : ib * (m - 1) < n + 1 <= ib * m).
  { split; [|lia]. assert (ib * m <= n + 1 + ib - 1) by (subst m; unfold cdiv; apply Nat.mul_div_le; lia). lia. }
  pose proof (Nat.div_mod (n + 1) ib ltac:(lia)) as Hd. pose proof (Nat.mod_upper_bound (n + 1) ib ltac:(lia)) as Hu.
  set (r := (n + 1) mod ib) in *.
  assert (Hr : if r =? 0 then n + 1 = ib * m else n + 1 = ib * (m - 1) + r).
  { destruct (ndiv_cases n (m - 1)) as [Hc|[(x & Hx & En)|(g & x & Hg & Hx & En)]].
    - lia.
    - subst r. rewrite En, <-Nat.add_assoc, Nat.mul_comm, Nat.add_comm, Nat.mod_add by lia.
      destruct (decide (x + 1 = ib)) as [E1|E1].
      + rewrite E1, Nat.mod_same by lia. cbn. lia.
      + rewrite Nat.mod_small by lia. destruct (Nat.eqb_spec (x + 1) 0); lia.
    - assert (ib * m <= ib * S g) by (apply Nat.mul_le_mono_l; lia). lia. }
  split; [|split].
  - apply Forall_app. split; [apply Forall_replicate, trunc_fits|]. apply List.Forall_cons; [|apply List.Forall_nil]. destruct (r =? 0); apply trunc_fits.
  - rewrite app_length, replicate_length. cbn [length]. rewrite replicate_length.
    assert (tot (replicate n 0) = 0) as ->. { clear. induction n; [done|]. cbn. exact IHn. } cbn [Nat.add]. fold m. lia.
  - intros i. rewrite ucode_zero.
    assert (Hnth : nth i (replicate (n + 1) true) false = (i <? n + 1)).
    { destruct (Nat.ltb_spec i (n + 1)).
      - by apply nth_lookup_Some, lookup_replicate_2.
      - apply nth_overflow. by rewrite replicate_length. }
    rewrite Hnth. destruct (ndiv_cases i (m - 1)) as [Hc|[(k & Hk & ->)|(g' & k & Hg' & Hk & ->)]].
    + unfold nwbit. assert (i / ib < m - 1) by (apply Nat.div_lt_upper_bound; lia).
      rewrite lookup_app_l by (by rewrite replicate_length). rewrite lookup_replicate_2 by done.
      rewrite ntb_ones by (apply Nat.mod_upper_bound; lia). symmetry. apply Nat.ltb_lt. lia.
    + erewrite nwbit_at; [|rewrite lookup_app_r by (rewrite replicate_length; lia); rewrite replicate_length, Nat.sub_diag; reflexivity|done].
      destruct (Nat.eqb_spec r 0) as [E|E].
      * rewrite ntb_ones by done. symmetry. apply Nat.ltb_lt. lia.
      * rewrite tb_trunc, N.shiftr_spec' by done. destruct (Nat.ltb_spec (ib * (m - 1) + k) (n + 1)).
        -- replace (N.of_nat k + N.of_nat (ib - r))%N with (N.of_nat (k + (ib - r))) by lia. apply ntb_ones. lia.
        -- apply (fits_high _ _ (trunc_fits _)). lia.
    + rewrite nwbit_out; [symmetry; apply Nat.ltb_ge|rewrite app_length, replicate_length; cbn [length]];
        (assert (ib * m <= ib * S g') by (apply Nat.mul_le_mono_l; lia)); [lia|]. replace (m - 1 + 1) with m by lia. lia.
Qed.

(** ** push_back *)
Lemma nb_carry_length ws hi : length (nb_carry ib ws hi) = length ws.
Proof. revert hi. induction ws as [|w ws IH]; intros hi; [done|]. cbn [nb_carry length]. by rewrite IH. Qed.
Lemma nb_carry_lookup ws hi j w : ws !! j = Some w ->
  nb_carry ib ws hi !! j = Some (trunc (N.lor (u64 (N.shiftl w 1))
    (N.b2n (match j with O => hi | S j' => match ws !! j' with Some y => N.testbit y (N.of_nat (ib - 1)) | None => false end end)))).
Proof.
  revert hi j. induction ws as [|y ws IH]; intros hi [|j] Hj; try done.
  - injection Hj as ->. done.
  - cbn [nb_carry]. change ((?a :: ?l) !! S j) with (l !! j). rewrite (IH _ _ Hj). destruct j; done.
Qed.
Lemma nb_carry_fits ws hi : Forall fits (nb_carry ib ws hi).
Proof. revert hi. induction ws as [|w ws IH]; intros hi; constructor; [apply trunc_fits|done]. Qed.

Lemma nb_insert_spec ws ge : Forall fits ws -> ge < ib * length ws ->
  exists ws', nb_insert ib ws ge (length ws) = Ok ws' /\ length ws' = length ws /\ Forall fits ws'
    /\ forall i, i < ib * length ws -> nwbit ws' i = if i <? ge then nwbit ws i else if i =? ge then false else nwbit ws (i - 1).
Proof.
  intros HF Hge. pose proof ibp as Hib. unfold nb_insert. rewrite (proj2 (Nat.ltb_ge _ _)) by lia.
  pose proof (Nat.div_mod ge ib ltac:(lia)) as Hd. pose proof (Nat.mod_upper_bound ge ib ltac:(lia)) as Hu.
  assert (Hg : ge / ib < length ws) by (apply Nat.div_lt_upper_bound; lia).
  set (g := ge / ib) in *. set (r := ge mod ib) in *.
  destruct (lookup_lt_is_Some_2 ws g Hg) as (cur & Hcur). rewrite Hcur. cbn [of_option mbind res_bind].
  assert (Hcb : fits cur) by (by eapply Forall_lookup in HF).
  set (cur' := if (ge + 1) mod ib =? 0 then _ else _).
  rewrite (take_ge (drop (S g) ws)) by (rewrite drop_length; lia). rewrite (drop_ge ws (Nat.max _ _)) by lia. rewrite app_nil_r.
  eexists. split; [done|]. split; [|split].
  - rewrite app_length, take_length. cbn [length]. rewrite nb_carry_length, drop_length. lia.
  - apply Forall_app. split; [by apply Forall_take|]. constructor; [|apply nb_carry_fits].
    subst cur'. destruct ((ge + 1) mod ib =? 0); apply trunc_fits.
  - intros i Hi. assert (Hcur' : forall k, k < ib -> N.testbit cur' (N.of_nat k) =
        if k <? r then N.testbit cur (N.of_nat k) else if k =? r then false else N.testbit cur (N.of_nat (k - 1))).
    { intros k Hk. subst cur'.
      assert (Er : ((ge + 1) mod ib =? 0) = (r =? ib - 1)).
      { apply Bool.eq_iff_eq_true. rewrite !Nat.eqb_eq. rewrite Hd, <-Nat.add_assoc, Nat.mul_comm, Nat.add_comm, Nat.mod_add by lia.
        destruct (decide (r = ib - 1)) as [->|Hr]; [replace (ib - 1 + 1) with ib by lia; rewrite Nat.mod_same by lia; lia|].
        rewrite Nat.mod_small by lia. lia. }
      rewrite Er. destruct (Nat.eqb_spec r (ib - 1)) as [E|E].
      - rewrite tb_trunc, N.land_spec, N.shiftr_spec', tb_ones64 by done. rewrite E. destruct (Nat.ltb_spec k (ib - 1)).
        + rewrite (proj2 (N.ltb_lt _ _)) by lia. by rewrite andb_true_r.
        + rewrite (proj2 (N.ltb_ge _ _)), andb_false_r by lia. by rewrite (proj2 (Nat.eqb_eq _ _)) by lia.
      - rewrite tb_trunc, N.lor_spec, !N.land_spec, tb_mask, !tb_u64, !tb_shl, tb_ones64 by lia.
        destruct (Nat.ltb_spec k r) as [Hc|Hc].
        + rewrite (proj2 (N.ltb_lt _ _)) by lia. rewrite (proj2 (N.leb_gt (N.of_nat r + 1) _)) by lia.
          by rewrite andb_true_r, andb_false_r, orb_false_r.
        + rewrite (proj2 (N.ltb_ge (N.of_nat k) _)), andb_false_r by lia. cbn [orb]. destruct (Nat.eqb_spec k r) as [E'|E'].
          * rewrite (proj2 (N.leb_gt (N.of_nat r + 1) _)) by lia. by rewrite andb_false_r.
          * rewrite !(proj2 (N.leb_le _ _)), (proj2 (N.ltb_lt _ _)) by lia. rewrite !andb_true_r. cbn [andb]. f_equal. lia. }
    clearbody cur'.
    destruct (ndiv_cases i g) as [Hc|[(k & Hk & ->)|(g' & k & Hg' & Hk & ->)]].
    + rewrite (proj2 (Nat.ltb_lt _ _)) by lia. apply (nwbit_take _ _ g); [|done]. intros j Hj.
      rewrite lookup_app_l by (rewrite take_length; lia). by apply lookup_take.
    + rewrite (nwbit_at _ g k cur') by (try done; rewrite lookup_app_r by (rewrite take_length; lia); rewrite take_length; by replace (g - g `min` length ws) with 0 by lia).
      rewrite Hcur' by done. destruct (Nat.ltb_spec k r).
      * rewrite (proj2 (Nat.ltb_lt _ _)) by lia. symmetry. by apply nwbit_at.
      * rewrite (proj2 (Nat.ltb_ge _ _)) by lia. destruct (Nat.eqb_spec k r).
        -- by rewrite (proj2 (Nat.eqb_eq _ _)) by lia.
        -- rewrite (proj2 (Nat.eqb_neq _ _)) by lia. replace (ib * g + k - 1) with (ib * g + (k - 1)) by lia.
           symmetry. apply nwbit_at; [done|lia].
    + assert (Hgg : ib * S g <= ib * S g') by (apply Nat.mul_le_mono_l; lia). rewrite (Nat.mul_succ_r ib g) in Hgg.
      rewrite (proj2 (Nat.ltb_ge _ _)), (proj2 (Nat.eqb_neq _ _)) by lia.
      assert (Hgl : S g' < length ws).
      { destruct (Nat.lt_ge_cases (S g') (length ws)) as [|Hge']; [done|]. assert (ib * length ws <= ib * S g') by (by apply Nat.mul_le_mono_l). lia. }
      destruct (lookup_lt_is_Some_2 ws (S g')) as (w & Hw); [lia|]. destruct (lookup_lt_is_Some_2 ws g') as (y & Hy); [lia|].
      assert (El : (take g ws ++ cur' :: nb_carry ib (drop (S g) ws) (N.testbit cur (N.of_nat (ib - 1)))) !! S g'
          = Some (trunc (N.lor (u64 (N.shiftl w 1)) (N.b2n (N.testbit y (N.of_nat (ib - 1))))))).
      { rewrite lookup_app_r by (rewrite take_length; lia). rewrite take_length. replace (S g' - g `min` length ws) with (S (g' - g)) by lia.
        change ((?a :: ?l) !! S ?j) with (l !! j). rewrite (nb_carry_lookup _ _ _ w).
        - do 4 f_equal. destruct (g' - g) as [|j] eqn:Ej.
          + assert (g' = g) as -> by lia. congruence.
          + rewrite lookup_drop. replace (S g + j) with g' by lia. by rewrite Hy.
        - rewrite lookup_drop. by replace (S g + (g' - g)) with (S g') by lia. }
      rewrite (nwbit_at _ (S g') k _ El Hk). rewrite tb_trunc, N.lor_spec, tb_b2n, tb_u64, tb_shl by lia.
      destruct k as [|k].
      * rewrite (proj2 (N.leb_gt _ _)) by lia. cbn [andb orb N.of_nat N.eqb].
        replace (ib * S g' + 0 - 1) with (ib * g' + (ib - 1)) by (rewrite Nat.mul_succ_r; lia).
        symmetry. apply (nwbit_at _ g' (ib - 1) y); [done|lia].
      * rewrite (proj2 (N.leb_le _ _)), (proj2 (N.eqb_neq _ _)) by lia. cbn [andb]. rewrite orb_false_r.
        replace (ib * S g' + S k - 1) with (ib * S g' + k) by lia. rewrite (nwbit_at _ _ k w) by (try done; lia). f_equal. lia.
Qed.

Lemma nborder_push ws ns g n : nborder_rep ws ns -> ns !! g = Some n ->
  let size := cdiv (tot ns + length ns + 2) ib in
  exists ws', nb_insert ib (if cdiv (tot ns + length ns + 1) ib <? size then take (size - 1) ws ++ [0%N] else ws) (upos ns g) size = Ok ws'
    /\ nborder_rep ws' (<[g := S n]> ns).
Proof.
  intros (HF & Hlen & Hb) Hg size. pose proof ibp as Hib. pose proof (lookup_lt_Some _ _ _ Hg) as Hgl. pose proof (upos_lt ns g Hgl) as Hu.
  rewrite ucode_length in Hu. pose proof (cdiv_ge (tot ns + length ns + 1) ib ltac:(lia)) as Hc1.
  pose proof (cdiv_ge (tot ns + length ns + 2) ib ltac:(lia)) as Hc2. fold size in Hc2.
  assert (Hstep : size = length ws \/ size = S (length ws)).
  { rewrite Hlen. subst size. unfold cdiv. set (x := tot ns + length ns).
    assert (H1 : (x + 1 + ib - 1) / ib <= (x + 2 + ib - 1) / ib) by (apply Nat.div_le_mono; lia).
    assert (H2 : (x + 2 + ib - 1) / ib <= (x + 1 + ib - 1 + 1 * ib) / ib) by (apply Nat.div_le_mono; lia).
    rewrite Nat.div_add in H2 by lia. lia. }
  rewrite <-Hlen in Hc1 |- *.
  assert (Hex : exists ws1, (if length ws <? size then take (size - 1) ws ++ [0%N] else ws) = ws1 /\ length ws1 = size
     /\ Forall fits ws1 /\ forall i, nwbit ws1 i = nwbit ws i).
  { eexists. split; [done|]. destruct (Nat.ltb_spec (length ws) size).
    - rewrite take_ge by lia. split; [rewrite app_length; cbn [length]; lia|]. split.
      + apply Forall_app. split; [done|]. constructor; [|done]. unfold fits. assert (2 ^ N.of_nat ib <> 0)%N by (by apply N.pow_nonzero). lia.
      + intros i. unfold nwbit. destruct (Nat.lt_ge_cases (i / ib) (length ws)).
        * by rewrite lookup_app_l by done.
        * rewrite lookup_app_r by done. rewrite (lookup_ge_None_2 ws) by done. destruct (i / ib - length ws); done.
    - split; [lia|done]. }
  destruct Hex as (ws1 & -> & Hl1 & HF1 & Hb1).
  destruct (nb_insert_spec ws1 (upos ns g) HF1) as (ws' & Eq & Hl' & HF' & Hb'); [rewrite Hl1; lia|].
  rewrite Hl1 in Eq. exists ws'. split; [done|]. pose proof (tot_update ns g n (S n) Hg) as Hsum.
  split; [done|]. split.
  - rewrite insert_length, Hl', Hl1. subst size. f_equal. lia.
  - intros i. rewrite (ucode_push ns g n Hg), nth_insert_at by (by apply upos_lt).
    destruct (Nat.lt_ge_cases i (ib * length ws1)) as [Hi|Hi].
    + rewrite Hb' by done. rewrite !Hb1, !Hb. done.
    + rewrite nwbit_out by (by rewrite Hl'). rewrite Hl1 in Hi. rewrite (proj2 (Nat.ltb_ge _ _)), (proj2 (Nat.eqb_neq _ _)) by lia.
      symmetry. apply nth_overflow. rewrite ucode_length. lia.
Qed.

(** ** erase *)
Lemma nb_shift_length ws : length (nb_shift ib ws) = length ws.
Proof. induction ws as [|w ws IH]; [done|]. cbn [nb_shift length]. by rewrite IH. Qed.
Lemma nb_shift_lookup ws j w : ws !! j = Some w ->
  nb_shift ib ws !! j = Some (trunc (N.lor (N.shiftr w 1) (N.shiftl (N.land (default 0%N (ws !! S j)) 1) (N.of_nat (ib - 1))))).
Proof.
  revert j. induction ws as [|y ws IH]; intros [|j] Hj; try done.
  - injection Hj as ->. cbn [nb_shift]. destruct ws; done.
  - cbn [nb_shift]. change ((?a :: ?l) !! S ?j) with (l !! j). by apply IH.
Qed.
Lemma nb_shift_fits ws : Forall fits (nb_shift ib ws).
Proof. induction ws; constructor; [apply trunc_fits|done]. Qed.
(** The word below its successor's lowest bit, shifted down by one *)
Lemma ntb_down w y k : k < ib -> fits w ->
  N.testbit (trunc (N.lor (N.shiftr w 1) (N.shiftl (N.land y 1) (N.of_nat (ib - 1))))) (N.of_nat k) =
    if k =? ib - 1 then N.testbit y 0 else N.testbit w (N.of_nat (k + 1)).
Proof.
  intros Hk Hw. pose proof ibp. rewrite tb_trunc, N.lor_spec, N.shiftr_spec', tb_shl, N.land_spec, tb_1 by done. destruct (Nat.eqb_spec k (ib - 1)) as [->|Hne].
  - rewrite (fits_high w) by (try done; lia). rewrite N.leb_refl, N.sub_diag. cbn. by rewrite andb_true_r.
  - rewrite (proj2 (N.leb_gt _ _)), orb_false_r by lia. f_equal. lia.
Qed.

Lemma nb_delete_spec ws ge : Forall fits ws -> 1 <= ge < ib * length ws ->
  nwbit ws ge = true -> nwbit ws (ge - 1) = false ->
  exists ws', nb_delete ib ws ge (length ws) = Ok ws' /\ length ws' = length ws /\ Forall fits ws'
    /\ forall i, i < ib * length ws -> nwbit ws' i = if i <? ge - 1 then nwbit ws i else nwbit ws (i + 1).
Proof.
  intros HF Hge Hone Hzero. pose proof ibp as Hib. unfold nb_delete. rewrite (proj2 (Nat.ltb_ge _ _)) by lia.
  pose proof (Nat.div_mod ge ib ltac:(lia)) as Hd. pose proof (Nat.mod_upper_bound ge ib ltac:(lia)) as Hu.
  assert (Hg : ge / ib < length ws) by (apply Nat.div_lt_upper_bound; lia).
  set (g := ge / ib) in *. set (r := ge mod ib) in *.
  destruct (lookup_lt_is_Some_2 ws g Hg) as (cur & Hcur). rewrite Hcur. cbn [of_option mbind res_bind].
  assert (Hcb : fits cur) by (by eapply Forall_lookup in HF).
  (* the two cases of 583-600 *)
  assert (Hst : exists ws1 cur', (if r =? 0 then
            match g with
            | O => Ub OobWrite
            | S g' => prev ← of_option OobRead (ws !! g'); Ok (<[g' := trunc (N.lor prev (N.shiftl 1 (N.of_nat (ib - 1))))]> ws, N.shiftr cur 1)
            end
          else Ok (ws, trunc (N.lor (N.land cur (N.shiftl 1 (N.of_nat r) - 1)) (N.shiftr (N.land cur (u64 (N.shiftl ones64 (N.of_nat r)))) 1))))
          = Ok (ws1, cur') /\ length ws1 = length ws /\ Forall fits ws1 /\ N.testbit cur' (N.of_nat (ib - 1)) = false
          /\ (forall j, g < j -> ws1 !! j = ws !! j)
          /\ (forall i, i < ib * g -> nwbit ws1 i = if i <? ge - 1 then nwbit ws i else nwbit ws (i + 1))
          /\ (forall k, k < ib - 1 -> N.testbit cur' (N.of_nat k) = if ib * g + k <? ge - 1 then N.testbit cur (N.of_nat k) else N.testbit cur (N.of_nat (k + 1)))).
  { destruct (Nat.eqb_spec r 0) as [E|E].
    - destruct g as [|g'] eqn:Eg; [lia|]. destruct (lookup_lt_is_Some_2 ws g') as (prev & Hprev); [lia|]. rewrite Hprev.
      rewrite Nat.mul_succ_r in Hd.
      cbn [of_option mbind res_bind]. eexists _, _. split; [done|]. split; [by rewrite insert_length|]. split; [|split; [|split; [|split]]].
      + apply Forall_insert; [done|]. apply trunc_fits.
      + rewrite N.shiftr_spec'. apply (fits_high _ _ Hcb). lia.
      + intros j Hj. by rewrite list_lookup_insert_ne by lia.
      + intros i Hi. rewrite Nat.mul_succ_r in Hi. destruct (Nat.ltb_spec i (ge - 1)) as [Hc|Hc].
        * pose proof (Nat.div_mod i ib ltac:(lia)) as Hdi. pose proof (Nat.mod_upper_bound i ib ltac:(lia)).
          destruct (decide (i / ib = g')) as [Ei|Ei].
          -- rewrite Ei in Hdi. rewrite Hdi. rewrite (nwbit_at _ g' _ (trunc (N.lor prev (N.shiftl 1 (N.of_nat (ib - 1)))))); [|by apply list_lookup_insert; lia|done].
             rewrite (nwbit_at _ g' _ prev) by done. rewrite tb_trunc, N.lor_spec, tb_shl by done. rewrite (proj2 (N.leb_gt _ _)) by lia. by rewrite orb_false_r.
          -- unfold nwbit. by rewrite list_lookup_insert_ne by done.
        * assert (i = ge - 1) as -> by lia. replace (ge - 1 + 1) with ge by lia. rewrite Hone.
          replace (ge - 1) with (ib * g' + (ib - 1)) by lia.
          rewrite (nwbit_at _ g' _ (trunc (N.lor prev (N.shiftl 1 (N.of_nat (ib - 1)))))); [|by apply list_lookup_insert; lia|lia].
          rewrite tb_trunc, N.lor_spec, tb_shl, N.leb_refl, N.sub_diag by lia. apply orb_true_r.
      + intros k Hk. rewrite Nat.mul_succ_r. rewrite (proj2 (Nat.ltb_ge _ _)) by lia. rewrite N.shiftr_spec'. f_equal. lia.
    - eexists _, _. split; [done|]. split; [done|]. split; [done|]. split; [|split; [done|split]].
      + rewrite tb_trunc, N.lor_spec, N.land_spec, tb_mask, N.shiftr_spec', N.land_spec by lia.
        rewrite (proj2 (N.ltb_ge _ _)), andb_false_r by lia. rewrite (fits_high cur) by (try done; lia). done.
      + intros i Hi. by rewrite (proj2 (Nat.ltb_lt _ _)) by lia.
      + intros k Hk. rewrite tb_trunc, N.lor_spec, N.land_spec, tb_mask, N.shiftr_spec', N.land_spec, tb_u64, tb_shl, tb_ones64 by lia.
        destruct (Nat.ltb_spec (ib * g + k) (ge - 1)) as [Hc|Hc].
        * rewrite (proj2 (N.ltb_lt (N.of_nat k) _)) by lia. rewrite (proj2 (N.leb_gt _ _)) by lia.
          by rewrite andb_true_r, andb_false_r, orb_false_r.
        * rewrite (proj2 (N.leb_le _ _)), (proj2 (N.ltb_lt (_ - _) _)) by lia. rewrite !andb_true_r.
          replace (N.of_nat k + 1)%N with (N.of_nat (k + 1)) by lia. destruct (N.ltb_spec (N.of_nat k) (N.of_nat r)) as [Hk2|Hk2].
          -- assert (k = r - 1) as -> by lia. replace (ge - 1) with (ib * g + (r - 1)) in Hzero by lia.
             rewrite (nwbit_at _ g _ cur) in Hzero by (try done; lia). rewrite Hzero. done.
          -- by rewrite andb_false_r. }
  destruct Hst as (ws1 & cur' & -> & Hl1 & HF1 & Hc63 & Habove & Hbelow & Hbits). cbn [mbind res_bind].
  assert (Hlow : exists y, (if g =? length ws - 1 then Ok 0%N else y ← of_option OobRead (ws1 !! S g); Ok (N.land y 1)) = Ok (N.land y 1)
    /\ N.testbit y 0 = nwbit ws (ib * S g)).
  { destruct (Nat.eqb_spec g (length ws - 1)) as [E|E].
    - exists 0%N. split; [done|]. rewrite nwbit_out by (replace (S g) with (length ws) by lia; done). done.
    - destruct (lookup_lt_is_Some_2 ws (S g)) as (y & Hy); [lia|]. exists y. rewrite Habove, Hy by lia. split; [done|].
      pose proof (nwbit_at ws (S g) 0 y Hy ltac:(lia)) as Hb. rewrite Nat.add_0_r in Hb. by rewrite Hb. }
  destruct Hlow as (y & -> & Hy). cbn [mbind res_bind].
  rewrite <-Hl1. rewrite (take_ge (drop (S g) ws1)) by (rewrite drop_length; lia). rewrite (drop_ge ws1 (Nat.max _ _)) by lia. rewrite app_nil_r.
  assert (Hdrop : drop (S g) ws1 = drop (S g) ws).
  { apply list_eq. intros j. rewrite !lookup_drop. apply Habove. lia. }
  rewrite Hdrop. eexists. split; [done|]. split; [|split].
  - rewrite app_length, take_length. cbn [length]. rewrite nb_shift_length, drop_length. lia.
  - apply Forall_app. split; [by apply Forall_take|]. constructor; [apply trunc_fits|apply nb_shift_fits].
  - intros i Hi. rewrite Hl1 in Hi. destruct (ndiv_cases i g) as [Hc|[(k & Hk & ->)|(g' & k & Hg' & Hk & ->)]].
    + rewrite <-Hbelow by done. apply (nwbit_take _ _ g); [|done]. intros j Hj.
      rewrite lookup_app_l by (rewrite take_length; lia). by apply lookup_take.
    + erewrite (nwbit_at _ g k); [|rewrite lookup_app_r by (rewrite take_length; lia); rewrite take_length; replace (g - g `min` length ws1) with 0 by lia; reflexivity|done].
      rewrite tb_trunc, N.lor_spec, tb_shl, N.land_spec, tb_1 by done. destruct (decide (k = ib - 1)) as [->|Hne].
      * rewrite (proj2 (Nat.ltb_ge _ _)) by lia. rewrite Hc63, N.leb_refl, N.sub_diag. cbn [andb orb N.eqb]. rewrite andb_true_r, Hy.
        f_equal. rewrite Nat.mul_succ_r. lia.
      * rewrite (proj2 (N.leb_gt _ _)) by lia. cbn [andb]. rewrite orb_false_r, Hbits by lia.
        destruct (ib * g + k <? ge - 1); [symmetry; by apply nwbit_at|]. rewrite <-Nat.add_assoc. symmetry. apply nwbit_at; [done|lia].
    + assert (Hgg : ib * S g <= ib * S g') by (apply Nat.mul_le_mono_l; lia). rewrite (Nat.mul_succ_r ib g) in Hgg.
      rewrite (proj2 (Nat.ltb_ge _ _)) by lia.
      assert (Hgl : S g' < length ws).
      { destruct (Nat.lt_ge_cases (S g') (length ws)) as [|Hge']; [done|]. assert (ib * length ws <= ib * S g') by (by apply Nat.mul_le_mono_l). lia. }
      destruct (lookup_lt_is_Some_2 ws (S g')) as (w & Hw); [lia|]. assert (Hwb : fits w) by (by eapply Forall_lookup in HF).
      assert (El : forall c, (take g ws1 ++ c :: nb_shift ib (drop (S g) ws)) !! S g' = Some (trunc (N.lor (N.shiftr w 1) (N.shiftl (N.land (default 0%N (ws !! S (S g'))) 1) (N.of_nat (ib - 1)))))).
      { intros c. rewrite lookup_app_r by (rewrite take_length; lia). rewrite take_length. replace (S g' - g `min` length ws1) with (S (g' - g)) by lia.
        change ((?a :: ?l) !! S ?j) with (l !! j). rewrite (nb_shift_lookup _ _ w).
        - rewrite lookup_drop. replace (S g + S (g' - g)) with (S (S g')) by lia. done.
        - rewrite lookup_drop. by replace (S g + (g' - g)) with (S g') by lia. }
      rewrite (nwbit_at _ (S g') k _ (El _) Hk), ntb_down by done. destruct (Nat.eqb_spec k (ib - 1)) as [->|Hne].
      * replace (ib * S g' + (ib - 1) + 1) with (ib * S (S g') + 0) by (rewrite (Nat.mul_succ_r ib (S g')); lia). destruct (ws !! S (S g')) as [z|] eqn:Ez.
        -- by rewrite (nwbit_at _ _ 0 z) by (try done; lia).
        -- rewrite nwbit_out; [done|]. apply lookup_ge_None in Ez. rewrite Nat.add_0_r. by apply Nat.mul_le_mono_l.
      * rewrite <-Nat.add_assoc. symmetry. apply nwbit_at; [done|lia].
Qed.

Lemma nborder_pop ws ns g n : nborder_rep ws ns -> ns !! g = Some (S n) ->
  let old := cdiv (tot ns + length ns + 1) ib in
  let new := cdiv (tot ns + length ns) ib in
  exists ws', nb_delete ib ws (upos ns g) old = Ok ws' /\ nborder_rep (if new <? old then take new ws' else ws') (<[g := n]> ns).
Proof.
  intros H Hg old new. pose proof ibp as Hib. pose proof H as (HF & Hlen & Hb). pose proof (lookup_lt_Some _ _ _ Hg) as Hgl. pose proof (upos_lt ns g Hgl) as Hu.
  destruct (ucode_pop ns g n Hg) as (Hu1 & Hz & Ec). destruct (ucode_one ns g Hgl) as [Ho _].
  pose proof (cdiv_ge (tot ns + length ns + 1) ib ltac:(lia)) as Hc1. fold old in Hc1, Hlen.
  pose proof (cdiv_ge (tot ns + length ns) ib ltac:(lia)) as Hc2. fold new in Hc2.
  assert (Hle : new <= old) by (apply (ncdiv_mono ib IB); lia). pose proof (ucode_length ns) as Hul.
  destruct (nb_delete_spec ws (upos ns g) HF) as (ws' & Eq & Hl' & HF' & Hb').
  { rewrite Hlen. lia. }
  { rewrite Hb. by apply nth_lookup_Some. }
  { rewrite Hb. by apply nth_lookup_Some. }
  rewrite Hlen in Eq. exists ws'. split; [done|]. pose proof (tot_update ns g (S n) n Hg) as Hsum.
  assert (Hbit : forall i, nwbit ws' i = nth i (ucode (<[g := n]> ns)) false).
  { intros i. rewrite Ec, nth_delete_at by lia. destruct (Nat.lt_ge_cases i (ib * length ws)) as [Hi|Hi].
    - rewrite Hb' by done. by rewrite !Hb.
    - rewrite nwbit_out by (by rewrite Hl'). rewrite Hlen in Hi. rewrite (proj2 (Nat.ltb_ge _ _)) by lia. symmetry. apply nth_overflow. lia. }
  assert (Hlw : length ws' = old) by congruence.
  assert (Hnew : cdiv (tot (<[g := n]> ns) + length (<[g := n]> ns) + 1) ib = new).
  { rewrite insert_length. subst new. f_equal. lia. }
  destruct (Nat.ltb_spec new old) as [Hc|Hc].
  - split; [by apply Forall_take|]. split; [rewrite take_length; lia|]. intros i. rewrite <-Hbit.
    destruct (Nat.lt_ge_cases i (ib * new)) as [Hi|Hi].
    + apply (nwbit_take _ _ new); [|done]. intros j Hj. by apply lookup_take.
    + rewrite nwbit_out by (rewrite take_length, Nat.min_l by lia; lia). symmetry. rewrite Hbit. apply nth_overflow. rewrite ucode_length, insert_length. lia.
  - split; [done|]. split; [lia|done].
Qed.
End border.
