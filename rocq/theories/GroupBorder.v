(** m_border of a keyvalue_group: the sizes of the buckets in unary. *)
From Verif Require Export GroupCore SelectProofs.
#[local] Open Scope nat_scope.

Fixpoint tot (ns : list nat) : nat := match ns with [] => 0 | n :: ns' => n + tot ns' end.
(** A one after each bucket, a zero for each element, one more one at the end. *)
Fixpoint ucode (ns : list nat) : list bool :=
  match ns with [] => [true] | n :: ns' => replicate n false ++ true :: ucode ns' end.
(** The position of the one that ends bucket g *)
Definition upos (ns : list nat) (g : nat) : nat := tot (take (S g) ns) + g.
Definition ones (l : list bool) : nat := length (List.filter (fun b => b) l).
(** The bits of the words *)
Definition wbits (ws : list N) : list bool := concat (map (bits_of 64) ws).
Definition wbit (ws : list N) (i : nat) : bool :=
  match ws !! (i / 64) with Some w => N.testbit w (N.of_nat (i mod 64)) | None => false end.

Definition border_rep (ws : list N) (ns : list nat) : Prop :=
  Forall (fun w => (w < 2^64)%N) ws
  /\ length ws = cdiv (tot ns + length ns + 1) 64
  /\ forall i, wbit ws i = nth i (ucode ns) false.

(** ** The unary code *)
Lemma ucode_length ns : length (ucode ns) = tot ns + length ns + 1.
Proof. induction ns as [|n ns IH]; cbn [ucode tot length]; [done|]. rewrite app_length, replicate_length. cbn [length]. rewrite IH. cbn. lia. Qed.
Lemma upos_0 n ns : upos (n :: ns) 0 = n.
Proof. unfold upos. cbn. rewrite take_0. cbn. lia. Qed.
Lemma upos_S n ns g : upos (n :: ns) (S g) = n + 1 + upos ns g.
Proof. unfold upos. rewrite firstn_cons. cbn [tot]. lia. Qed.
Lemma ones_app a b : ones (a ++ b) = ones a + ones b.
Proof. unfold ones. by rewrite List.filter_app, app_length. Qed.
Lemma ones_false n : ones (replicate n false) = 0.
Proof. induction n; [done|]. cbn. exact IHn. Qed.

Lemma ucode_one ns g : g < length ns -> ucode ns !! upos ns g = Some true /\ ones (take (upos ns g) (ucode ns)) = g.
Proof.
  revert g. induction ns as [|n ns IH]; intros g Hg; cbn [length] in Hg; [lia|]. cbn [ucode]. destruct g as [|g].
  - rewrite upos_0. split.
    + rewrite lookup_app_r by (rewrite replicate_length; lia). by rewrite replicate_length, Nat.sub_diag.
    + rewrite take_app_alt by (by rewrite replicate_length). apply ones_false.
  - rewrite upos_S. destruct (IH g) as [H1 H2]; [lia|]. split.
    + rewrite lookup_app_r by (rewrite replicate_length; lia). rewrite replicate_length.
      replace (n + 1 + upos ns g - n) with (S (upos ns g)) by lia. done.
    + replace (n + 1 + upos ns g) with (length (replicate n false) + S (upos ns g)) by (rewrite replicate_length; lia).
      rewrite take_add_app by done. rewrite ones_app, ones_false. cbn [take]. unfold ones. cbn [List.filter length].
      fold (ones (take (upos ns g) (ucode ns))). by rewrite H2.
Qed.
Lemma drop_rep_app n (l : list bool) k : drop (n + k) (replicate n false ++ l) = drop k l.
Proof. rewrite <-(replicate_length n false) at 1. apply drop_add_app. done. Qed.
Lemma take_rep_app n (l : list bool) k : take (n + k) (replicate n false ++ l) = replicate n false ++ take k l.
Proof. rewrite <-(replicate_length n false) at 1. by rewrite take_add_app. Qed.
Lemma ucode_push ns g n : ns !! g = Some n ->
  ucode (<[g := S n]> ns) = take (upos ns g) (ucode ns) ++ false :: drop (upos ns g) (ucode ns).
Proof.
  revert g. induction ns as [|m ns IH]; intros g Hg; [done|]. destruct g as [|g].
  - injection Hg as ->. rewrite upos_0. cbn [insert list_insert ucode].
    pose proof (take_rep_app n (true :: ucode ns) 0) as E1. pose proof (drop_rep_app n (true :: ucode ns) 0) as E2.
    rewrite Nat.add_0_r in E1, E2. rewrite E1, E2, take_0, drop_0, app_nil_r.
    rewrite replicate_S_end, <-app_assoc. done.
  - cbn [lookup list_lookup] in Hg. change (<[S g := S n]> (m :: ns)) with (m :: <[g := S n]> ns). cbn [ucode]. rewrite (IH g) by done.
    rewrite upos_S, <-Nat.add_assoc. rewrite take_rep_app, drop_rep_app. cbn [Nat.add take drop]. by rewrite <-app_assoc.
Qed.
Lemma ucode_pop ns g n : ns !! g = Some (S n) ->
  1 <= upos ns g /\ ucode ns !! (upos ns g - 1) = Some false
  /\ ucode (<[g := n]> ns) = take (upos ns g - 1) (ucode ns) ++ drop (upos ns g) (ucode ns).
Proof.
  revert g. induction ns as [|m ns IH]; intros g Hg; [done|]. destruct g as [|g].
  - injection Hg as ->. rewrite upos_0. cbn [insert list_insert ucode]. split; [lia|]. replace (S n - 1) with n by lia. split.
    + rewrite lookup_app_l by (rewrite replicate_length; lia). by rewrite lookup_replicate_2 by lia.
    + pose proof (drop_rep_app (S n) (true :: ucode ns) 0) as E2. rewrite Nat.add_0_r in E2. rewrite E2, drop_0. rewrite take_app_le by (rewrite replicate_length; lia).
      rewrite take_replicate. do 2 f_equal. lia.
  - change (ns !! g = Some (S n)) in Hg. change (<[S g := n]> (m :: ns)) with (m :: <[g := n]> ns). cbn [ucode].
    destruct (IH g Hg) as (H1 & H2 & H3). rewrite upos_S. split; [lia|]. split.
    + rewrite lookup_app_r by (rewrite replicate_length; lia). rewrite replicate_length.
      replace (m + 1 + upos ns g - 1 - m) with (S (upos ns g - 1)) by lia. exact H2.
    + rewrite H3. replace (m + 1 + upos ns g - 1) with (m + S (upos ns g - 1)) by lia.
      replace (m + 1 + upos ns g) with (m + S (upos ns g)) by lia. rewrite take_rep_app, drop_rep_app. cbn [take drop].
      by rewrite <-app_assoc.
Qed.
Lemma ucode_zero n : ucode (replicate n 0) = replicate (n + 1) true.
Proof. induction n as [|n IH]; [done|]. cbn [replicate ucode app Nat.add]. by rewrite IH. Qed.
Lemma tot_update ns g n m : ns !! g = Some n -> tot (<[g := m]> ns) + n = tot ns + m.
Proof.
  revert g. induction ns as [|a ns IH]; intros g Hg; [done|]. destruct g as [|g].
  - injection Hg as ->. cbn [insert list_insert tot]. lia.
  - change (<[S g := m]> (a :: ns)) with (a :: <[g := m]> ns). cbn [tot]. specialize (IH g Hg). lia.
Qed.
Lemma tot_take_le ns k : tot (take k ns) <= tot ns.
Proof. revert k. induction ns as [|a ns IH]; intros [|k]; cbn; try lia. specialize (IH k). lia. Qed.
Lemma upos_lt ns g : g < length ns -> upos ns g < length (ucode ns).
Proof. intros H. rewrite ucode_length. unfold upos. pose proof (tot_take_le ns (S g)). lia. Qed.

(** ** Bits of words *)
Lemma tb_u64 x r : (r < 64)%N -> N.testbit (u64 x) r = N.testbit x r.
Proof. intros H. unfold u64. by rewrite N.mod_pow2_bits_low. Qed.
Lemma tb_high w r : (w < 2^64)%N -> (64 <= r)%N -> N.testbit w r = false.
Proof. intros Hw Hr. destruct (N.eq_dec w 0) as [->|H0]; [apply N.bits_0|]. apply N.bits_above_log2. apply N.log2_lt_pow2 in Hw; lia. Qed.
Lemma tb_bound w : (forall r, (64 <= r)%N -> N.testbit w r = false) -> (w < 2^64)%N.
Proof.
  intros H. destruct (N.lt_ge_cases w (2^64)) as [|Hge]; [done|]. exfalso.
  assert (H0 : w <> 0%N) by lia. assert (Hl : (64 <= N.log2 w)%N) by (apply N.log2_le_pow2; lia).
  specialize (H _ Hl). by rewrite N.bit_log2 in H.
Qed.
Lemma tb_lor_bound a b : (a < 2^64)%N -> (b < 2^64)%N -> (N.lor a b < 2^64)%N.
Proof. intros Ha Hb. apply tb_bound. intros r Hr. by rewrite N.lor_spec, !tb_high. Qed.
Lemma tb_land_bound a b : (a < 2^64)%N -> (N.land a b < 2^64)%N.
Proof. intros Ha. apply tb_bound. intros r Hr. by rewrite N.land_spec, tb_high. Qed.
Lemma tb_shr_bound a n : (a < 2^64)%N -> (N.shiftr a n < 2^64)%N.
Proof. intros Ha. apply tb_bound. intros r Hr. rewrite N.shiftr_spec', tb_high; [done|done|lia]. Qed.
Lemma u64_lt x : (u64 x < 2^64)%N.
Proof. unfold u64. by apply N.mod_lt. Qed.
Lemma ones64_ones : ones64 = N.ones 64.
Proof. reflexivity. Qed.
Lemma tb_ones n r : N.testbit (N.ones n) r = (r <? n)%N.
Proof. destruct (N.ltb_spec r n); [by apply N.ones_spec_low|by apply N.ones_spec_high]. Qed.
Lemma tb_mask r i : N.testbit (N.shiftl 1 r - 1) i = (i <? r)%N.
Proof. rewrite N.sub_1_r. apply tb_ones. Qed.
Lemma tb_ones64 i : N.testbit ones64 i = (i <? 64)%N.
Proof. rewrite ones64_ones. apply tb_ones. Qed.
Lemma tb_shl x n i : N.testbit (N.shiftl x n) i = (n <=? i)%N && N.testbit x (i - n).
Proof. destruct (N.leb_spec n i); [by rewrite N.shiftl_spec_high'|by rewrite N.shiftl_spec_low]. Qed.
Lemma tb_b2n b i : N.testbit (N.b2n b) i = (i =? 0)%N && b.
Proof. destruct b; cbn [N.b2n]; [|by rewrite N.bits_0, andb_false_r]. rewrite andb_true_r. change 1%N with (2^0)%N. rewrite N.pow2_bits_eqb. apply N.eqb_sym. Qed.
Lemma tb_1 i : N.testbit 1 i = (i =? 0)%N.
Proof. change 1%N with (N.b2n true). by rewrite tb_b2n, andb_true_r. Qed.

Lemma wbits_length ws : length (wbits ws) = 64 * length ws.
Proof. unfold wbits. induction ws as [|w ws IH]; [done|]. cbn [map concat length]. rewrite app_length, bits_of_length, IH. lia. Qed.
Lemma bits_of_lookup w i : i < 64 -> bits_of 64 w !! i = Some (N.testbit w (N.of_nat i)).
Proof. intros Hi. unfold bits_of. change (map ?f ?l) with (f <$> l). rewrite list_lookup_fmap, lookup_seq_lt by done. done. Qed.
Lemma wbits_lookup ws i : i < 64 * length ws -> wbits ws !! i = Some (wbit ws i).
Proof.
  revert i. induction ws as [|w ws IH]; intros i Hi; cbn [length] in Hi; [lia|]. unfold wbits. cbn [map concat]. fold (wbits ws).
  destruct (Nat.lt_ge_cases i 64) as [Hc|Hc].
  - rewrite lookup_app_l by (by rewrite bits_of_length). rewrite bits_of_lookup by done. unfold wbit.
    rewrite Nat.div_small, Nat.mod_small by done. done.
  - rewrite lookup_app_r by (by rewrite bits_of_length). rewrite bits_of_length, IH by lia. unfold wbit.
    assert (E1 : i / 64 = S ((i - 64) / 64)).
    { replace i with ((i - 64) + 1 * 64) at 1 by lia. rewrite Nat.div_add by done. lia. }
    assert (E2 : i mod 64 = (i - 64) mod 64).
    { replace i with ((i - 64) + 1 * 64) at 1 by lia. by rewrite Nat.mod_add by done. }
    rewrite E1, E2. done.
Qed.
Lemma wbit_at ws g r w : ws !! g = Some w -> r < 64 -> wbit ws (64 * g + r) = N.testbit w (N.of_nat r).
Proof.
  intros Hw Hr. unfold wbit. rewrite (Nat.add_comm _ r), (Nat.mul_comm 64). rewrite Nat.div_add, Nat.mod_add by done.
  rewrite Nat.div_small, Nat.mod_small by done. cbn [Nat.add]. by rewrite Hw.
Qed.
Lemma wbit_out ws i : 64 * length ws <= i -> wbit ws i = false.
Proof.
  intros H. unfold wbit. rewrite lookup_ge_None_2; [done|]. apply Nat.div_le_lower_bound; lia.
Qed.

(** ** find_group_position *)
Lemma rank1_ones w k : k <= 64 -> rank1 w k = N.of_nat (ones (take k (bits_of 64 w))).
Proof.
  induction k as [|k IH]; intros Hk; cbn [rank1]; [done|]. rewrite IH by lia.
  rewrite (take_S_r _ _ _ (bits_of_lookup w k ltac:(lia))), ones_app. destruct (N.testbit w (N.of_nat k)); cbn; lia.
Qed.
Lemma ones_take l i : ones (take i l) <= ones l.
Proof. rewrite <-(take_drop i l) at 2. rewrite ones_app. lia. Qed.
Lemma border_select_spec : forall ws rem sum p, Forall (fun w => (w < 2^64)%N) ws -> wbits ws !! p = Some true ->
  ones (take p (wbits ws)) = rem -> border_select ws rem sum = Ok (sum + p).
Proof.
  induction ws as [|w ws IH]; intros rem sum p HF Hp Hrem; [done|]. apply Forall_cons in HF as [Hw HF].
  unfold wbits in Hp, Hrem. cbn [map concat] in Hp, Hrem. fold (wbits ws) in Hp, Hrem. cbn [border_select].
  assert (Hpop : popcount w = ones (bits_of 64 w)) by (unfold popcount, ones; reflexivity). rewrite Hpop.
  destruct (Nat.lt_ge_cases p 64) as [Hc|Hc].
  - rewrite lookup_app_l in Hp by (by rewrite bits_of_length). rewrite take_app_le in Hrem by (rewrite bits_of_length; lia).
    assert (Hgt : rem < ones (bits_of 64 w)).
    { pose proof (ones_take (bits_of 64 w) (S p)) as Hle. rewrite (take_S_r _ _ _ Hp), ones_app, Hrem in Hle. change (ones [true]) with 1 in Hle. lia. }
    rewrite (proj2 (Nat.leb_gt _ _)) by done.
    assert (Hr64 : rank1 w 64 = N.of_nat (ones (bits_of 64 w))).
    { rewrite rank1_ones by lia. rewrite take_ge; [done|]. by rewrite bits_of_length. }
    destruct (select64_swar_correct w (N.of_nat (rem + 1))) as (q & -> & Hq & Hs); [done|rewrite Hr64; lia|]. cbn [mbind res_bind].
    assert (Hs' : is_select w (N.of_nat (rem + 1)) (N.of_nat p)).
    { split; [rewrite bits_of_lookup in Hp by done; congruence|]. rewrite Nat2N.id, rank1_ones by lia. rewrite Hrem. lia. }
    rewrite (is_select_unique w (N.of_nat (rem + 1)) q (N.of_nat p) ltac:(lia) Hs Hs'). by rewrite Nat2N.id.
  - rewrite lookup_app_r in Hp by (by rewrite bits_of_length). rewrite bits_of_length in Hp.
    rewrite take_app_ge in Hrem by (by rewrite bits_of_length). rewrite ones_app, bits_of_length in Hrem.
    rewrite (proj2 (Nat.leb_le _ _)) by lia. rewrite (IH (rem - ones (bits_of 64 w)) (sum + 64) (p - 64)); [f_equal; lia|done|done|lia].
Qed.
Lemma border_rep_bits ws ns : border_rep ws ns -> exists k, wbits ws = ucode ns ++ replicate k false.
Proof.
  intros (HF & Hlen & Hb). exists (64 * length ws - length (ucode ns)).
  assert (Hle : length (ucode ns) <= 64 * length ws). { rewrite ucode_length, Hlen. apply cdiv_ge. lia. }
  apply list_eq. intros i. destruct (Nat.lt_ge_cases i (64 * length ws)) as [Hi|Hi].
  - rewrite wbits_lookup, Hb by done. destruct (Nat.lt_ge_cases i (length (ucode ns))) as [Hc|Hc].
    + rewrite lookup_app_l by done. destruct (lookup_lt_is_Some_2 (ucode ns) i Hc) as (y & Hy). rewrite Hy. f_equal.
      by apply nth_lookup_Some with (d := false).
    + rewrite lookup_app_r, lookup_replicate_2 by lia. f_equal. by apply nth_overflow.
  - rewrite !lookup_ge_None_2; [done| |by rewrite wbits_length]. rewrite app_length, replicate_length. lia.
Qed.
Lemma border_select_pos ws ns g : border_rep ws ns -> g < length ns -> border_select ws g 0 = Ok (upos ns g).
Proof.
  intros H Hg. destruct (border_rep_bits _ _ H) as (k & E). destruct (ucode_one ns g Hg) as [H1 H2].
  pose proof (upos_lt ns g Hg). apply (border_select_spec ws g 0 (upos ns g)).
  - apply H.
  - rewrite E, lookup_app_l by done. done.
  - rewrite E, take_app_le by lia. done.
Qed.

(** ** initialize *)
Lemma border_init_rep n : border_rep (border_init n) (replicate n 0).
Proof.
  unfold border_init. pose proof (cdiv_ge (n + 1) 64 ltac:(lia)) as Hge. set (m := cdiv (n + 1) 64) in *.
  assert (Hm : 64 * (m - 1) < n + 1 <= 64 * m).
  { split; [|done]. assert (m * 64 <= n + 1 + 64 - 1) by (subst m; unfold cdiv; rewrite Nat.mul_comm; apply Nat.mul_div_le; done). lia. }
  pose proof (Nat.div_mod (n + 1) 64 ltac:(lia)) as Hd. pose proof (Nat.mod_upper_bound (n + 1) 64 ltac:(lia)) as Hu.
  set (r := (n + 1) mod 64) in *.
  split; [|split].
  - apply Forall_app. split; [by apply Forall_replicate|]. constructor; [|constructor]. destruct (r =? 0); [done|]. by apply tb_shr_bound.
  - rewrite app_length, replicate_length. cbn [length]. rewrite replicate_length.
    assert (tot (replicate n 0) = 0) as ->. { clear. induction n; [done|]. cbn. exact IHn. } cbn [Nat.add]. fold m. lia.
  - intros i. rewrite ucode_zero. unfold wbit.
    pose proof (Nat.div_mod i 64 ltac:(lia)) as Hdi. pose proof (Nat.mod_upper_bound i 64 ltac:(lia)) as Hui.
    assert (Hnth : nth i (replicate (n + 1) true) false = (i <? n + 1)).
    { destruct (Nat.ltb_spec i (n + 1)).
      - by apply nth_lookup_Some, lookup_replicate_2.
      - apply nth_overflow. by rewrite replicate_length. }
    rewrite Hnth. destruct (Nat.lt_trichotomy (i / 64) (m - 1)) as [Hc|[Hc|Hc]].
    + rewrite lookup_app_l by (by rewrite replicate_length). rewrite lookup_replicate_2 by done. rewrite tb_ones64.
      rewrite (proj2 (N.ltb_lt _ _)) by lia. symmetry. apply Nat.ltb_lt. lia.
    + rewrite lookup_app_r by (rewrite replicate_length; lia). rewrite replicate_length, Hc, Nat.sub_diag. cbn [lookup list_lookup].
      destruct (Nat.eqb_spec r 0) as [E|E].
      * rewrite tb_ones64, (proj2 (N.ltb_lt _ _)) by lia. symmetry. apply Nat.ltb_lt. lia.
      * rewrite N.shiftr_spec', tb_ones64. apply Bool.eq_iff_eq_true. rewrite N.ltb_lt, Nat.ltb_lt. lia.
    + rewrite lookup_ge_None_2 by (rewrite app_length, replicate_length; cbn [length]; lia). symmetry. apply Nat.ltb_ge. lia.
Qed.

(** ** push_back *)
Lemma border_carry_length ws hi : length (border_carry ws hi) = length ws.
Proof. revert hi. induction ws as [|w ws IH]; intros hi; [done|]. cbn. by rewrite IH. Qed.
Lemma border_carry_lookup ws hi j w : ws !! j = Some w ->
  border_carry ws hi !! j = Some (N.lor (u64 (N.shiftl w 1)) (N.b2n (match j with O => hi | S j' => match ws !! j' with Some y => N.testbit y 63 | None => false end end))).
Proof.
  revert hi j. induction ws as [|y ws IH]; intros hi [|j] Hj; try done.
  - injection Hj as ->. done.
  - cbn [border_carry]. change ((?a :: ?l) !! S j) with (l !! j). rewrite (IH _ _ Hj). destruct j; done.
Qed.
Lemma border_carry_bound ws hi : Forall (fun w => (w < 2^64)%N) (border_carry ws hi).
Proof.
  revert hi. induction ws as [|w ws IH]; intros hi; constructor; [|done]. apply tb_lor_bound; [apply u64_lt|by destruct hi].
Qed.
Lemma div_cases i g : i < 64 * g \/ (exists r, r < 64 /\ i = 64 * g + r) \/ (exists g' r, g <= g' /\ r < 64 /\ i = 64 * S g' + r).
Proof.
  pose proof (Nat.div_mod i 64 ltac:(lia)). pose proof (Nat.mod_upper_bound i 64 ltac:(lia)).
  destruct (Nat.lt_trichotomy (i / 64) g) as [H1|[H1|H1]].
  - left. lia.
  - right. left. exists (i mod 64). lia.
  - right. right. exists (i / 64 - 1), (i mod 64). lia.
Qed.
Lemma wbit_take ws ws' g i : (forall j, j < g -> ws' !! j = ws !! j) -> i < 64 * g -> wbit ws' i = wbit ws i.
Proof. intros H Hi. unfold wbit. rewrite H; [done|]. apply Nat.div_lt_upper_bound; lia. Qed.

Lemma border_insert_spec ws ge : Forall (fun w => (w < 2^64)%N) ws -> ge < 64 * length ws ->
  exists ws', border_insert ws ge (length ws) = Ok ws' /\ length ws' = length ws /\ Forall (fun w => (w < 2^64)%N) ws'
    /\ forall i, i < 64 * length ws -> wbit ws' i = if i <? ge then wbit ws i else if i =? ge then false else wbit ws (i - 1).
Proof.
  intros HF Hge. unfold border_insert. rewrite (proj2 (Nat.ltb_ge _ _)) by lia.
  pose proof (Nat.div_mod ge 64 ltac:(lia)) as Hd. pose proof (Nat.mod_upper_bound ge 64 ltac:(lia)) as Hu.
  set (g := ge / 64) in *. set (r := ge mod 64) in *. assert (Hg : g < length ws) by lia.
  destruct (lookup_lt_is_Some_2 ws g Hg) as (cur & Hcur). rewrite Hcur. cbn [of_option mbind res_bind].
  assert (Hcb : (cur < 2^64)%N) by (by eapply Forall_lookup in HF).
  set (cur' := if (ge + 1) mod 64 =? 0 then _ else _).
  rewrite (take_ge (drop (S g) ws)) by (rewrite drop_length; lia). rewrite (drop_ge ws (Nat.max _ _)) by lia. rewrite app_nil_r.
  eexists. split; [done|]. split; [|split].
  - rewrite app_length, take_length. cbn [length]. rewrite border_carry_length, drop_length. lia.
  - apply Forall_app. split; [by apply Forall_take|]. constructor; [|apply border_carry_bound].
    subst cur'. destruct ((ge + 1) mod 64 =? 0); [by apply tb_land_bound|]. apply tb_lor_bound; [by apply tb_land_bound|].
    apply tb_land_bound, u64_lt.
  - intros i Hi. assert (Hcur' : forall k, k < 64 -> N.testbit cur' (N.of_nat k) =
        if k <? r then N.testbit cur (N.of_nat k) else if k =? r then false else N.testbit cur (N.of_nat (k - 1))).
    { intros k Hk. subst cur'.
      assert (Er : ((ge + 1) mod 64 =? 0) = (r =? 63)).
      { apply Bool.eq_iff_eq_true. rewrite !Nat.eqb_eq. rewrite Hd, <-Nat.add_assoc, Nat.mul_comm, Nat.add_comm, Nat.mod_add by done.
        destruct (decide (r = 63)) as [->|Hr]; [done|]. rewrite Nat.mod_small by lia. lia. }
      rewrite Er. destruct (Nat.eqb_spec r 63) as [E|E].
      - rewrite N.land_spec, N.shiftr_spec', tb_ones64. rewrite E. destruct (Nat.ltb_spec k 63).
        + rewrite (proj2 (N.ltb_lt _ _)) by lia. by rewrite andb_true_r.
        + rewrite (proj2 (N.ltb_ge _ _)), andb_false_r by lia. by rewrite (proj2 (Nat.eqb_eq _ _)) by lia.
      - rewrite N.lor_spec, !N.land_spec, tb_mask, !tb_u64, !tb_shl, tb_ones64 by lia.
        destruct (Nat.ltb_spec k r) as [Hc|Hc].
        + rewrite (proj2 (N.ltb_lt _ _)) by lia. rewrite (proj2 (N.leb_gt (N.of_nat r + 1) _)) by lia.
          by rewrite andb_true_r, andb_false_r, orb_false_r.
        + rewrite (proj2 (N.ltb_ge (N.of_nat k) _)), andb_false_r by lia. cbn [orb]. destruct (Nat.eqb_spec k r) as [E'|E'].
          * rewrite (proj2 (N.leb_gt (N.of_nat r + 1) _)) by lia. by rewrite andb_false_r.
          * rewrite !(proj2 (N.leb_le _ _)), (proj2 (N.ltb_lt _ _)) by lia. rewrite !andb_true_r. cbn [andb]. f_equal. lia. }
    clearbody cur'.
    destruct (div_cases i g) as [Hc|[(k & Hk & ->)|(g' & k & Hg' & Hk & ->)]].
    + rewrite (proj2 (Nat.ltb_lt _ _)) by lia. apply (wbit_take _ _ g); [|done]. intros j Hj.
      rewrite lookup_app_l by (rewrite take_length; lia). by apply lookup_take.
    + rewrite (wbit_at _ g k cur') by (try done; rewrite lookup_app_r by (rewrite take_length; lia); rewrite take_length; by replace (g - g `min` length ws) with 0 by lia).
      rewrite Hcur' by done. destruct (Nat.ltb_spec k r).
      * rewrite (proj2 (Nat.ltb_lt _ _)) by lia. symmetry. by apply wbit_at.
      * rewrite (proj2 (Nat.ltb_ge _ _)) by lia. destruct (Nat.eqb_spec k r).
        -- by rewrite (proj2 (Nat.eqb_eq _ _)) by lia.
        -- rewrite (proj2 (Nat.eqb_neq _ _)) by lia. replace (64 * g + k - 1) with (64 * g + (k - 1)) by lia.
           symmetry. apply wbit_at; [done|lia].
    + rewrite (proj2 (Nat.ltb_ge _ _)), (proj2 (Nat.eqb_neq _ _)) by lia.
      destruct (lookup_lt_is_Some_2 ws (S g')) as (w & Hw); [lia|]. destruct (lookup_lt_is_Some_2 ws g') as (y & Hy); [lia|].
      assert (El : (take g ws ++ cur' :: border_carry (drop (S g) ws) (N.testbit cur 63)) !! S g' = Some (N.lor (u64 (N.shiftl w 1)) (N.b2n (N.testbit y 63)))).
      { rewrite lookup_app_r by (rewrite take_length; lia). rewrite take_length. replace (S g' - g `min` length ws) with (S (g' - g)) by lia.
        change ((?a :: ?l) !! S ?j) with (l !! j). rewrite (border_carry_lookup _ _ _ w).
        - do 3 f_equal. destruct (g' - g) as [|j] eqn:Ej.
          + assert (g' = g) as -> by lia. congruence.
          + rewrite lookup_drop. replace (S g + j) with g' by lia. by rewrite Hy.
        - rewrite lookup_drop. by replace (S g + (g' - g)) with (S g') by lia. }
      rewrite (wbit_at _ (S g') k _ El Hk). rewrite N.lor_spec, tb_b2n, tb_u64, tb_shl by lia.
      destruct k as [|k].
      * rewrite (proj2 (N.leb_gt _ _)) by lia. cbn [andb orb N.of_nat N.eqb]. replace (64 * S g' + 0 - 1) with (64 * g' + 63) by lia.
        symmetry. apply (wbit_at _ g' 63 y); [done|lia].
      * rewrite (proj2 (N.leb_le _ _)), (proj2 (N.eqb_neq _ _)) by lia. cbn [andb]. rewrite orb_false_r.
        replace (64 * S g' + S k - 1) with (64 * S g' + k) by lia. rewrite (wbit_at _ _ k w) by (try done; lia). f_equal. lia.
Qed.

Lemma nth_insert_at (l : list bool) p i : p < length l ->
  nth i (take p l ++ false :: drop p l) false = if i <? p then nth i l false else if i =? p then false else nth (i - 1) l false.
Proof.
  intros Hp. destruct (Nat.ltb_spec i p).
  - rewrite app_nth1 by (rewrite take_length; lia). rewrite <-(take_drop p l) at 2. rewrite app_nth1 by (rewrite take_length; lia). done.
  - rewrite app_nth2 by (rewrite take_length; lia). rewrite take_length. replace (i - p `min` length l) with (i - p) by lia.
    destruct (Nat.eqb_spec i p) as [->|Hne]; [by rewrite Nat.sub_diag|].
    replace (i - p) with (S (i - 1 - p)) by lia. cbn [nth]. rewrite <-(take_drop p l) at 2.
    rewrite app_nth2 by (rewrite take_length; lia). rewrite take_length. f_equal. lia.
Qed.
Lemma nth_delete_at (l : list bool) p i : 1 <= p < length l ->
  nth i (take (p - 1) l ++ drop p l) false = if i <? p - 1 then nth i l false else nth (i + 1) l false.
Proof.
  intros Hp. destruct (Nat.ltb_spec i (p - 1)).
  - rewrite app_nth1 by (rewrite take_length; lia). rewrite <-(take_drop (p - 1) l) at 2. rewrite app_nth1 by (rewrite take_length; lia). done.
  - rewrite app_nth2 by (rewrite take_length; lia). rewrite take_length. rewrite <-(take_drop p l) at 3.
    rewrite app_nth2 by (rewrite take_length; lia). rewrite take_length. f_equal. lia.
Qed.

(** The words after making room for one more bit *)
Lemma border_push ws ns g n : border_rep ws ns -> ns !! g = Some n ->
  let size := cdiv (tot ns + length ns + 2) 64 in
  exists ws', border_insert (if cdiv (tot ns + length ns + 1) 64 <? size then take (size - 1) ws ++ [0%N] else ws) (upos ns g) size = Ok ws'
    /\ border_rep ws' (<[g := S n]> ns).
Proof.
  intros (HF & Hlen & Hb) Hg size. pose proof (lookup_lt_Some _ _ _ Hg) as Hgl. pose proof (upos_lt ns g Hgl) as Hu.
  rewrite ucode_length in Hu. pose proof (cdiv_ge (tot ns + length ns + 1) 64 ltac:(lia)) as Hc1.
  pose proof (cdiv_ge (tot ns + length ns + 2) 64 ltac:(lia)) as Hc2. fold size in Hc2.
  assert (Hstep : size = length ws \/ size = S (length ws)).
  { rewrite Hlen. subst size. unfold cdiv. set (x := tot ns + length ns).
    assert (H1 : (x + 1 + 64 - 1) / 64 <= (x + 2 + 64 - 1) / 64) by (apply Nat.div_le_mono; lia).
    assert (H2 : (x + 2 + 64 - 1) / 64 <= (x + 1 + 64 - 1 + 1 * 64) / 64) by (apply Nat.div_le_mono; lia).
    rewrite Nat.div_add in H2 by done. lia. }
  rewrite <-Hlen in Hc1 |- *.
  assert (Hex : exists ws1, (if length ws <? size then take (size - 1) ws ++ [0%N] else ws) = ws1 /\ length ws1 = size
     /\ Forall (fun w => (w < 2^64)%N) ws1 /\ forall i, wbit ws1 i = wbit ws i).
  { eexists. split; [done|]. destruct (Nat.ltb_spec (length ws) size).
    - rewrite take_ge by lia. split; [rewrite app_length; cbn [length]; lia|]. split.
      + apply Forall_app. split; [done|]. by constructor.
      + intros i. unfold wbit. destruct (Nat.lt_ge_cases (i / 64) (length ws)).
        * by rewrite lookup_app_l by done.
        * rewrite lookup_app_r by done. rewrite (lookup_ge_None_2 ws) by done. destruct (i / 64 - length ws); done.
    - split; [lia|done]. }
  destruct Hex as (ws1 & -> & Hl1 & HF1 & Hb1).
  destruct (border_insert_spec ws1 (upos ns g) HF1) as (ws' & Eq & Hl' & HF' & Hb'); [lia|].
  rewrite Hl1 in Eq. exists ws'. split; [done|]. pose proof (tot_update ns g n (S n) Hg) as Hsum.
  split; [done|]. split.
  - rewrite insert_length, Hl', Hl1. subst size. f_equal. lia.
  - intros i. rewrite (ucode_push ns g n Hg), nth_insert_at by (by apply upos_lt).
    destruct (Nat.lt_ge_cases i (64 * length ws1)) as [Hi|Hi].
    + rewrite Hb' by done. rewrite !Hb1, !Hb. done.
    + rewrite wbit_out by (by rewrite Hl'). rewrite Hl1 in Hi. rewrite (proj2 (Nat.ltb_ge _ _)), (proj2 (Nat.eqb_neq _ _)) by lia.
      symmetry. apply nth_overflow. rewrite ucode_length. lia.
Qed.

(** ** erase *)
Lemma border_shift_length ws : length (border_shift ws) = length ws.
Proof. induction ws as [|w ws IH]; [done|]. cbn [border_shift length]. by rewrite IH. Qed.
Lemma border_shift_lookup ws j w : ws !! j = Some w ->
  border_shift ws !! j = Some (N.lor (N.shiftr w 1) (N.shiftl (N.land (default 0%N (ws !! S j)) 1) 63)).
Proof.
  revert j. induction ws as [|y ws IH]; intros [|j] Hj; try done.
  - injection Hj as ->. cbn [border_shift]. destruct ws; done.
  - cbn [border_shift]. change ((?a :: ?l) !! S ?j) with (l !! j). by apply IH.
Qed.
Lemma shl63_bound x : (N.shiftl (N.land x 1) 63 < 2^64)%N.
Proof.
  apply tb_bound. intros r Hr. rewrite tb_shl, N.land_spec, tb_1. rewrite (proj2 (N.eqb_neq _ _)) by lia. by rewrite !andb_false_r.
Qed.
Lemma border_shift_bound ws : Forall (fun w => (w < 2^64)%N) ws -> Forall (fun w => (w < 2^64)%N) (border_shift ws).
Proof.
  induction 1 as [|w ws Hw _ IH]; constructor; [|done]. apply tb_lor_bound; [by apply tb_shr_bound|apply shl63_bound].
Qed.
(** The word below its successor's lowest bit, shifted down by one *)
Lemma tb_down w y k : k < 64 -> (w < 2^64)%N ->
  N.testbit (N.lor (N.shiftr w 1) (N.shiftl (N.land y 1) 63)) (N.of_nat k) =
    if k =? 63 then N.testbit y 0 else N.testbit w (N.of_nat (k + 1)).
Proof.
  intros Hk Hw. rewrite N.lor_spec, N.shiftr_spec', tb_shl, N.land_spec, tb_1. destruct (Nat.eqb_spec k 63) as [->|Hne].
  - rewrite tb_high by (try done; lia). cbn. by rewrite andb_true_r.
  - rewrite (proj2 (N.leb_gt _ _)), orb_false_r by lia. f_equal. lia.
Qed.

Lemma border_delete_spec ws ge : Forall (fun w => (w < 2^64)%N) ws -> 1 <= ge < 64 * length ws ->
  wbit ws ge = true -> wbit ws (ge - 1) = false ->
  exists ws', border_delete ws ge (length ws) = Ok ws' /\ length ws' = length ws /\ Forall (fun w => (w < 2^64)%N) ws'
    /\ forall i, i < 64 * length ws -> wbit ws' i = if i <? ge - 1 then wbit ws i else wbit ws (i + 1).
Proof.
  intros HF Hge Hone Hzero. unfold border_delete. rewrite (proj2 (Nat.ltb_ge _ _)) by lia.
  pose proof (Nat.div_mod ge 64 ltac:(lia)) as Hd. pose proof (Nat.mod_upper_bound ge 64 ltac:(lia)) as Hu.
  set (g := ge / 64) in *. set (r := ge mod 64) in *. assert (Hg : g < length ws) by lia.
  destruct (lookup_lt_is_Some_2 ws g Hg) as (cur & Hcur). rewrite Hcur. cbn [of_option mbind res_bind].
  assert (Hcb : (cur < 2^64)%N) by (by eapply Forall_lookup in HF).
  (* the two cases of 583-600 *)
  assert (Hst : exists ws1 cur', (if r =? 0 then
            match g with
            | O => Ub OobWrite
            | S g' => prev ← of_option OobRead (ws !! g'); Ok (<[g' := N.lor prev (N.shiftl 1 63)]> ws, N.shiftr cur 1)
            end
          else Ok (ws, N.lor (N.land cur (N.shiftl 1 (N.of_nat r) - 1)) (N.shiftr (N.land cur (u64 (N.shiftl ones64 (N.of_nat r)))) 1)))
          = Ok (ws1, cur') /\ length ws1 = length ws /\ Forall (fun w => (w < 2^64)%N) ws1 /\ (cur' < 2^63)%N
          /\ (forall j, g < j -> ws1 !! j = ws !! j)
          /\ (forall i, i < 64 * g -> wbit ws1 i = if i <? ge - 1 then wbit ws i else wbit ws (i + 1))
          /\ (forall k, k < 63 -> N.testbit cur' (N.of_nat k) = if 64 * g + k <? ge - 1 then N.testbit cur (N.of_nat k) else N.testbit cur (N.of_nat (k + 1)))).
  { assert (H63 : forall y, (y < 2^64)%N -> (N.shiftr y 1 < 2^63)%N).
    { intros y Hy. rewrite N.shiftr_div_pow2. apply N.div_lt_upper_bound; [done|]. exact Hy. }
    destruct (Nat.eqb_spec r 0) as [E|E].
    - destruct g as [|g'] eqn:Eg; [lia|]. destruct (lookup_lt_is_Some_2 ws g') as (prev & Hprev); [lia|]. rewrite Hprev.
      cbn [of_option mbind res_bind]. eexists _, _. split; [done|]. split; [by rewrite insert_length|]. split; [|split; [|split; [|split]]].
      + apply Forall_insert; [done|]. apply tb_lor_bound; [by eapply Forall_lookup in HF|done].
      + by apply H63.
      + intros j Hj. by rewrite list_lookup_insert_ne by lia.
      + intros i Hi. destruct (Nat.ltb_spec i (ge - 1)) as [Hc|Hc].
        * pose proof (Nat.div_mod i 64 ltac:(lia)). pose proof (Nat.mod_upper_bound i 64 ltac:(lia)).
          destruct (decide (i / 64 = g')) as [Ei|Ei].
          -- replace i with (64 * g' + i mod 64) by lia. rewrite (wbit_at _ g' _ (N.lor prev (N.shiftl 1 63))); [|by apply list_lookup_insert; lia|done].
             rewrite (wbit_at _ g' _ prev) by done. rewrite N.lor_spec, tb_shl. rewrite (proj2 (N.leb_gt _ _)) by lia. by rewrite orb_false_r.
          -- unfold wbit. by rewrite list_lookup_insert_ne by done.
        * assert (i = ge - 1) as -> by lia. replace (ge - 1 + 1) with ge by lia. rewrite Hone.
          replace (ge - 1) with (64 * g' + 63) by lia.
          rewrite (wbit_at _ g' _ (N.lor prev (N.shiftl 1 63))); [|by apply list_lookup_insert; lia|lia].
          rewrite N.lor_spec. apply orb_true_r.
      + intros k Hk. rewrite (proj2 (Nat.ltb_ge _ _)) by lia. rewrite N.shiftr_spec'. f_equal. lia.
    - eexists _, _. split; [done|]. split; [done|]. split; [done|]. split; [|split; [done|split]].
      + destruct (N.lt_ge_cases (N.lor (N.land cur (N.shiftl 1 (N.of_nat r) - 1)) (N.shiftr (N.land cur (u64 (N.shiftl ones64 (N.of_nat r)))) 1)) (2^63)) as [|Hge63]; [done|]. exfalso.
        set (z := N.lor _ _) in *.
        assert (Hz : forall i, (63 <= i)%N -> N.testbit z i = false).
        { intros i Hi. subst z. rewrite N.lor_spec, N.land_spec, tb_mask, N.shiftr_spec', N.land_spec.
          rewrite (proj2 (N.ltb_ge _ _)), andb_false_r by lia. rewrite tb_high by (try done; lia). done. }
        assert (H0 : z <> 0%N) by lia. assert (Hl : (63 <= N.log2 z)%N) by (apply N.log2_le_pow2; lia).
        specialize (Hz _ Hl). by rewrite N.bit_log2 in Hz.
      + intros i Hi. by rewrite (proj2 (Nat.ltb_lt _ _)) by lia.
      + intros k Hk. rewrite N.lor_spec, N.land_spec, tb_mask, N.shiftr_spec', N.land_spec, tb_u64, tb_shl, tb_ones64 by lia.
        destruct (Nat.ltb_spec (64 * g + k) (ge - 1)) as [Hc|Hc].
        * rewrite (proj2 (N.ltb_lt (N.of_nat k) _)) by lia. rewrite (proj2 (N.leb_gt _ _)) by lia.
          by rewrite andb_true_r, andb_false_r, orb_false_r.
        * rewrite (proj2 (N.leb_le _ _)), (proj2 (N.ltb_lt (_ - _) _)) by lia. rewrite !andb_true_r.
          replace (N.of_nat k + 1)%N with (N.of_nat (k + 1)) by lia. destruct (N.ltb_spec (N.of_nat k) (N.of_nat r)) as [Hk2|Hk2].
          -- assert (k = r - 1) as -> by lia. replace (ge - 1) with (64 * g + (r - 1)) in Hzero by lia.
             rewrite (wbit_at _ g _ cur) in Hzero by (try done; lia). rewrite Hzero. done.
          -- by rewrite andb_false_r. }
  destruct Hst as (ws1 & cur' & -> & Hl1 & HF1 & Hc63 & Habove & Hbelow & Hbits). cbn [mbind res_bind].
  assert (Hlow : exists y, (if g =? length ws - 1 then Ok 0%N else y ← of_option OobRead (ws1 !! S g); Ok (N.land y 1)) = Ok (N.land y 1)
    /\ N.testbit y 0 = wbit ws (64 * S g)).
  { destruct (Nat.eqb_spec g (length ws - 1)) as [E|E].
    - exists 0%N. split; [done|]. rewrite wbit_out by lia. done.
    - destruct (lookup_lt_is_Some_2 ws (S g)) as (y & Hy); [lia|]. exists y. rewrite Habove, Hy by lia. split; [done|].
      pose proof (wbit_at ws (S g) 0 y Hy ltac:(lia)) as Hb. rewrite Nat.add_0_r in Hb. by rewrite Hb. }
  destruct Hlow as (y & -> & Hy). cbn [mbind res_bind].
  rewrite <-Hl1. rewrite (take_ge (drop (S g) ws1)) by (rewrite drop_length; lia). rewrite (drop_ge ws1 (Nat.max _ _)) by lia. rewrite app_nil_r.
  assert (Hdrop : drop (S g) ws1 = drop (S g) ws).
  { apply list_eq. intros j. rewrite !lookup_drop. apply Habove. lia. }
  rewrite Hdrop. eexists. split; [done|]. split; [|split].
  - rewrite app_length, take_length. cbn [length]. rewrite border_shift_length, drop_length. lia.
  - apply Forall_app. split; [by apply Forall_take|]. constructor; [|by apply border_shift_bound, Forall_drop].
    apply tb_lor_bound; [lia|apply shl63_bound].
  - intros i Hi. destruct (div_cases i g) as [Hc|[(k & Hk & ->)|(g' & k & Hg' & Hk & ->)]].
    + rewrite <-Hbelow by done. apply (wbit_take _ _ g); [|done]. intros j Hj.
      rewrite lookup_app_l by (rewrite take_length; lia). by apply lookup_take.
    + erewrite (wbit_at _ g k); [|rewrite lookup_app_r by (rewrite take_length; lia); rewrite take_length; replace (g - g `min` length ws1) with 0 by lia; reflexivity|done].
      rewrite N.lor_spec, tb_shl, N.land_spec, tb_1. destruct (decide (k = 63)) as [->|Hne].
      * rewrite (proj2 (Nat.ltb_ge _ _)) by lia.
        assert (N.testbit cur' 63 = false) as Hz.
        { destruct (N.eq_dec cur' 0) as [->|H0]; [done|]. apply N.bits_above_log2. apply N.log2_lt_pow2 in Hc63; lia. }
        change (N.of_nat 63) with 63%N. rewrite Hz. change (63 <=? 63)%N with true. change (63 - 63)%N with 0%N. change (0 =? 0)%N with true. cbn [andb orb]. rewrite andb_true_r, Hy. f_equal. lia.
      * rewrite (proj2 (N.leb_gt _ _)) by lia. cbn [andb]. rewrite orb_false_r, Hbits by lia.
        destruct (64 * g + k <? ge - 1); [symmetry; by apply wbit_at|]. rewrite <-Nat.add_assoc. symmetry. apply wbit_at; [done|lia].
    + rewrite (proj2 (Nat.ltb_ge _ _)) by lia.
      destruct (lookup_lt_is_Some_2 ws (S g')) as (w & Hw); [lia|]. assert (Hwb : (w < 2^64)%N) by (by eapply Forall_lookup in HF).
      assert (El : forall c, (take g ws1 ++ c :: border_shift (drop (S g) ws)) !! S g' = Some (N.lor (N.shiftr w 1) (N.shiftl (N.land (default 0%N (ws !! S (S g'))) 1) 63))).
      { intros c. rewrite lookup_app_r by (rewrite take_length; lia). rewrite take_length. replace (S g' - g `min` length ws1) with (S (g' - g)) by lia.
        change ((?a :: ?l) !! S ?j) with (l !! j). rewrite (border_shift_lookup _ _ w).
        - rewrite lookup_drop. do 5 f_equal. f_equal. lia.
        - rewrite lookup_drop. by replace (S g + (g' - g)) with (S g') by lia. }
      rewrite (wbit_at _ (S g') k _ (El _) Hk), tb_down by done. destruct (Nat.eqb_spec k 63) as [->|Hne].
      * replace (64 * S g' + 63 + 1) with (64 * S (S g') + 0) by lia. destruct (ws !! S (S g')) as [z|] eqn:Ez.
        -- by rewrite (wbit_at _ _ 0 z) by (try done; lia).
        -- rewrite wbit_out by (apply lookup_ge_None in Ez; lia). done.
      * rewrite <-Nat.add_assoc. symmetry. apply wbit_at; [done|lia].
Qed.

Lemma border_pop ws ns g n : border_rep ws ns -> ns !! g = Some (S n) ->
  let old := cdiv (tot ns + length ns + 1) 64 in
  let new := cdiv (tot ns + length ns) 64 in
  exists ws', border_delete ws (upos ns g) old = Ok ws' /\ border_rep (if new <? old then take new ws' else ws') (<[g := n]> ns).
Proof.
  intros H Hg old new. pose proof H as (HF & Hlen & Hb). pose proof (lookup_lt_Some _ _ _ Hg) as Hgl. pose proof (upos_lt ns g Hgl) as Hu.
  destruct (ucode_pop ns g n Hg) as (Hu1 & Hz & Ec). destruct (ucode_one ns g Hgl) as [Ho _].
  pose proof (cdiv_ge (tot ns + length ns + 1) 64 ltac:(lia)) as Hc1. fold old in Hc1, Hlen.
  pose proof (cdiv_ge (tot ns + length ns) 64 ltac:(lia)) as Hc2. fold new in Hc2.
  assert (Hle : new <= old) by (apply cdiv_mono; lia). pose proof (ucode_length ns) as Hul.
  destruct (border_delete_spec ws (upos ns g) HF) as (ws' & Eq & Hl' & HF' & Hb').
  { lia. }
  { rewrite Hb. by apply nth_lookup_Some. }
  { rewrite Hb. by apply nth_lookup_Some. }
  rewrite Hlen in Eq. exists ws'. split; [done|]. pose proof (tot_update ns g (S n) n Hg) as Hsum.
  assert (Hbit : forall i, wbit ws' i = nth i (ucode (<[g := n]> ns)) false).
  { intros i. rewrite Ec, nth_delete_at by lia. destruct (Nat.lt_ge_cases i (64 * length ws)) as [Hi|Hi].
    - rewrite Hb' by done. by rewrite !Hb.
    - rewrite wbit_out by (by rewrite Hl'). rewrite (proj2 (Nat.ltb_ge _ _)) by lia. symmetry. apply nth_overflow. lia. }
  assert (Hlw : length ws' = old) by congruence.
  assert (Hnew : cdiv (tot (<[g := n]> ns) + length (<[g := n]> ns) + 1) 64 = new).
  { rewrite insert_length. subst new. f_equal. lia. }
  destruct (Nat.ltb_spec new old) as [Hc|Hc].
  - split; [by apply Forall_take|]. split; [rewrite take_length; lia|]. intros i. rewrite <-Hbit.
    destruct (Nat.lt_ge_cases i (64 * new)) as [Hi|Hi].
    + apply (wbit_take _ _ new); [|done]. intros j Hj. by apply lookup_take.
    + rewrite wbit_out by (rewrite take_length; lia). symmetry. rewrite Hbit. apply nth_overflow. rewrite ucode_length, insert_length. lia.
  - split; [done|]. split; [lia|done].
Qed.
