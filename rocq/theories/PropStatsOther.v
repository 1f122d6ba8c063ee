(** C121 for bucket_table, Xorshift and group tables with overflow; C123 size_in_bytes of the buckets. *)
From Verif Require DebugSlot.
From Verif Require Import StatsOther BucketProofs BtProofs PropBtCap TableConf GroupCore GroupTable GroupOvTable PropGroup PropGroupMem PropGroupOv PropStats.

(** bucket_table. *)
Theorem C121_bucket_table : forall pf c es ops t outs, bok pf c es -> Forall bt_has_op ops ->
  valid_ops (N.of_nat (bc_width c)) (N.of_nat es) 0 0 ops -> never_above (growth_limit (bc_strat c)) ∅ ops ->
  bt_run pf c bt_new ops = Ok (t, outs) ->
  exists cap, bt_stats c t = [SNum (N.of_nat (size (fst (spec_run ∅ ops)))); SNum (N.of_nat (bc_width c)); SNum cap; SNum cap]
    /\ N.of_nat (size (fst (spec_run ∅ ops))) <= cap < 2^32
    /\ (fst (spec_run ∅ ops) <> ∅ -> (N.to_nat cap <= PropBtCap.block_room (bc_width c) (bt_keys t))%nat).
Proof.
  intros pf c es ops t outs OK Hh Hv Hs Er. destruct (C96_capacity pf c es ops t outs OK Hh Hv Hs Er) as (H1 & H2 & H3).
  assert (Hlim : growth_limit (bc_strat c) < 2^32) by (by destruct (bc_strat c)).
  exists (bt_capacity c t). split; [|split; [lia|intros Hne; apply H3; done]].
  unfold bt_stats, bt_max_bucket, bt_size. fold (bt_capacity c t). unfold u32. rewrite N.mod_small by lia. do 2 f_equal.
  destruct (BtProofs.run_spec pf c es OK ops bt_new ∅ (mrep_new pf c es) Hh Hv Hs) as (t1 & E & Hr).
  rewrite E in Er. injection Er as <- _. f_equal. symmetry. by apply (mrep_size pf c es) in Hr as [? _].
Qed.
Print Assumptions C121_bucket_table.

(** Xorshift. *)
Theorem C121_xorshift : forall bits, 1 <= bits <= 64 -> xs_stats bits = Ok [SNum (2^bits - 1); SNum bits].
Proof.
  intros bits Hb. unfold xs_stats, xs_mask, shr64. rewrite (proj2 (N.ltb_ge _ _)) by lia.
  rewrite (proj2 (N.ltb_lt _ _)) by lia. cbn [mbind res_bind]. by rewrite DebugSlot.max_shift.
Qed.
Print Assumptions C121_xorshift.
Theorem C121_xorshift_zero : forall bits, bits = 0 \/ 64 < bits <-> xs_stats bits = Ub ShiftTooLarge.
Proof.
  intros bits. unfold xs_stats, xs_mask, shr64. destruct (N.ltb_spec 64 bits); cbn [mbind res_bind]; [split; [done|intros _; by right]|].
  destruct (N.ltb_spec (64 - bits) 64); cbn [mbind res_bind]; split; try done; intros; try lia; left; lia.
Qed.
Print Assumptions C121_xorshift_zero.

(** group_chaining_table with an overflow.  The sizes of all groups are the elements that are not in the overflow. *)
Lemma grep_sizes er pf c kw vw bmin t ess : group_ok c kw vw bmin -> grep er pf c kw vw bmin t ess ->
  sum_list_with (fun g => N.to_nat (g_size g)) (group_blocks t) = length (concat ess).
Proof.
  intros OK H. unfold group_blocks. pose proof (gr_bpg _ _ _ _ _ _ _ _ H) as Hbp. pose proof (gr_len _ _ _ _ _ _ _ _ H) as Hlen.
  destruct (gr_groups _ _ _ _ _ _ _ _ H) as (gs & -> & Hl & Hg). unfold gbpg in *.
  assert (Hle : (length ess <= length gs * N.to_nat (gt_bpg t))%nat).
  { enough (N.of_nat (length ess) <= N.of_nat (length gs) * gt_bpg t) by lia. rewrite Hlen, Hl. pose proof (N.mul_succ_div_gt (2 ^ gt_b t) (gt_bpg t) ltac:(lia)). lia. }
  rewrite <-(chunks_concat _ _ _ Hle). clear - Hg.
  assert (Hgen : forall o, (forall i g, gs !! i = Some g -> grepr er pf c kw vw (gt_b t) g (chunk (N.to_nat (gt_bpg t)) ess (o + i))) ->
    sum_list_with (fun g => N.to_nat (g_size g)) gs = length (concat (map (fun i => concat (chunk (N.to_nat (gt_bpg t)) ess i)) (seq o (length gs))))); [|by apply Hgen].
  clear Hg. induction gs as [|g gs IH]; intros o Hg; [done|]. cbn [sum_list_with length seq map concat]. rewrite app_length, (IH (S o)).
  - f_equal. specialize (Hg 0%nat g eq_refl). rewrite Nat.add_0_r in Hg. rewrite (grepr_size _ _ _ _ _ _ _ _ Hg). by rewrite Nat2N.id.
  - intros i g' Hi. replace (S o + i)%nat with (o + S i)%nat by lia. by apply Hg.
Qed.
Theorem C121_group_overflow : forall pf c kind kw vw bmin t m, go_reached pf c kind kw vw bmin t m -> N.of_nat (size m) < 2^64 ->
  exists gc q cap, go_stats c t = Ok [SNum (N.of_nat (size m)); SNum gc; SNum (go_bucket_count t); SNum (ov_size (go_ov t)); SNum (ov_capacity (go_ov t));
      SNum kw; SNum vw; SNum q; SFrac (N.of_nat (size m)) gc; SFrac (N.of_nat (size m)) (go_bucket_count t); SNum 255; SNum (gt_bpg (go_g t)); SNum cap]
    /\ gc = N.of_nat (length (group_blocks (go_g t))) /\ cap = (255 * gc) mod 2^64
    /\ N.of_nat (size m) = N.of_nat (sum_list_with (fun g => N.to_nat (g_size g)) (group_blocks (go_g t))) + ov_size (go_ov t).
Proof.
  intros pf c kind kw vw bmin t m (OK & [Hk _] & H)%go_reached_rep Hlt. unfold go_stats, g_capacity.
  destruct H as [[[(Hkw & Hvw & Hb & Hn & Hg & _) Ho] ->]|(ess & ovl & H & Hm)].
  - unfold g_group_count, group_blocks. rewrite Hg. cbn [mbind res_bind]. unfold go_size. rewrite Hn, Hkw, Hvw, map_size_empty.
    eexists 0, _, _. split; [reflexivity|]. split; [done|]. split; [done|].
    assert (Hz : ov_size (go_ov t) = 0); [|by rewrite Hz]. destruct (go_ov t); cbn in Ho; [done| |by destruct Ho as [-> _]].
    destruct Ho as [E _]. unfold arr_state in E. by injection E.
  - pose proof (or_g _ _ _ _ _ _ _ _ _ _ H) as HG. destruct (gr_groups _ _ _ _ _ _ _ _ HG) as (gs & Hgs & Hl & _).
    pose proof (ggroup_count _ _ _ _ _ _ OK _ _ _ HG Hgs Hl) as Hc. change (g_group_count (g_set_n ?a ?b)) with (g_group_count a) in Hc.
    rewrite Hc. cbn [mbind res_bind]. unfold go_size.
    assert (Hsz : N.of_nat (size m) = N.of_nat (length (concat ess ++ ovl))) by (rewrite <-Hm, emap_size by apply H; done).
    rewrite (or_n _ _ _ _ _ _ _ _ _ _ H), <-Hsz, N.mod_small by done.
    pose proof (gr_kw _ _ _ _ _ _ _ _ HG) as Ek. pose proof (gr_vw _ _ _ _ _ _ _ _ HG) as Ev. change (gt_kw (g_set_n ?a ?b)) with (gt_kw a) in Ek. change (gt_vw (g_set_n ?a ?b)) with (gt_vw a) in Ev.
    rewrite Ek, Ev. eexists _, _, _. split; [reflexivity|].
    assert (Hgb : group_blocks (go_g t) = gs) by (unfold group_blocks; change (gt_groups (g_set_n ?a ?b)) with (gt_groups a) in Hgs; by rewrite Hgs).
    split; [by rewrite Hgb|]. split; [unfold u64; by rewrite N.mul_comm|].
    pose proof (grep_sizes _ _ _ _ _ _ _ _ OK HG) as Hs. change (group_blocks (g_set_n ?a ?b)) with (group_blocks a) in Hs.
    rewrite Hs, (osize _ _ _ _ _ _ _ _ _ _ H), Hsz, app_length. lia.
Qed.
Print Assumptions C121_group_overflow.
(** The capacity that is logged does not count the overflow: it can be smaller than the size. *)
Theorem C121_group_capacity_refuted : exists pf c kind kw vw bmin t m s n cap, go_reached pf c kind kw vw bmin t m /\ go_stats c t = Ok s
  /\ s !! 0%nat = Some (SNum n) /\ s !! 12%nat = Some (SNum cap) /\ cap < n.
Proof.
  exists lax_pf, ex_gx, OvMap, 10, 4, 1, ex_go2, ex_gom2. eexists _, 257, 255. split; [apply ex_go2_reached|].
  split; [vm_compute; reflexivity|]. done.
Qed.
Print Assumptions C121_group_capacity_refuted.

(** C123.  The bytes of the block of a bucket. *)
Definition block_bytes (es : nat) (b : bucket) : nat :=
  match b with None => 0 | Some (_, Cells cs) => length cs * (es / 8) | Some (_, Bits bs) => length bs / 8 end%nat.
Definition elem_bits (kd : bkind) : nat := match kd with KPlain es | KClass es | KAvx es => es | KVar iw => iw | KNull => 0 end.

(** What size_in_bytes says is what initialize asks for. *)
Theorem C123_initialize : forall pf kd size w r, width_ok (elem_bits kd) -> N.of_nat size * 64 < 2^63 -> (w <= 64)%nat ->
  b_size_in_bytes kd (N.of_nat size) (N.of_nat w) = Some r ->
  exists n, r = Ok n /\ N.to_nat n = block_bytes (elem_bits kd) (b_initialize pf kd size w).
Proof.
  intros pf kd size w r Hw Hs Hw64 E.
  assert (Hcell : forall es, width_ok es -> N.to_nat (u64 (N.of_nat size * (N.of_nat es / 8))) = (size * (es / 8))%nat).
  { intros es He. unfold u64. rewrite N.mod_small; [rewrite N2Nat.inj_mul, N2Nat.inj_div, !Nat2N.id; done|].
    assert (N.of_nat es / 8 <= 8) by (destruct He as [->|[->|[->| ->]]]; vm_compute; done). nia. }
  destruct kd as [es|es|es|iw|]; try done; cbn in E; injection E as <-; cbn [elem_bits] in *.
  - eexists. split; [done|]. rewrite Hcell by done. unfold b_initialize, fresh_cells. cbn. by rewrite replicate_length.
  - eexists. split; [done|]. rewrite Hcell by done. unfold b_initialize, fresh_cells. cbn. by rewrite replicate_length.
  - pose proof (width_ok_pos _ Hw) as Hp. assert (Hiw : (iw <= 64)%nat) by (destruct Hw as [->|[->|[->| ->]]]; lia).
    assert (Eu : u64 (N.of_nat size * N.of_nat w) = N.of_nat (size * w)) by (unfold u64; rewrite N.mod_small by nia; lia).
    rewrite Eu. destruct (ceil_div_spec (N.of_nat (size * w)) (N.of_nat iw)) as (q & Eq & Hq1 & Hq2); [lia|nia|]. rewrite Eq. cbn [mbind res_bind].
    assert (Hq : N.to_nat q = cdiv (size * w) iw).
    { apply Nat.le_antisymm.
      - enough (q <= N.of_nat (cdiv (size * w) iw)) by lia. apply Hq2. pose proof (cdiv_ge (size * w) iw Hp). lia.
      - apply cdiv_least; [done|]. lia. }
    eexists. split; [done|]. unfold b_initialize, fresh_bits. cbn [block_bytes]. rewrite replicate_length, <- Hq.
    assert (H8 : (iw = 8 * (iw / 8))%nat) by (destruct Hw as [->|[->|[->| ->]]]; done).
    assert (Hle : q <= N.of_nat (size * w)) by (apply Hq2; nia).
    unfold u64. rewrite N.mod_small.
    + rewrite N2Nat.inj_mul, N2Nat.inj_div, Nat2N.id. change (N.to_nat 8) with 8%nat. rewrite H8 at 2. rewrite <- Nat.mul_assoc, (Nat.mul_comm 8), Nat.div_mul by lia. lia.
    + assert (Hb : q * N.of_nat iw < N.of_nat (size * w) + N.of_nat iw).
      { destruct (N.lt_ge_cases (q * N.of_nat iw) (N.of_nat (size * w) + N.of_nat iw)) as [|Hc]; [done|]. exfalso. specialize (Hq2 (q - 1)).
        assert (1 <= q) by nia. assert (N.of_nat (size * w) <= (q - 1) * N.of_nat iw) by nia. lia. }
      assert (Hd : N.of_nat iw / 8 <= N.of_nat iw) by (apply N.div_le_upper_bound; lia).
      assert (q * (N.of_nat iw / 8) <= q * N.of_nat iw) by (by apply N.mul_le_mono_l). assert (N.of_nat (size * w) < 2^63) by nia. lia.
Qed.
Print Assumptions C123_initialize.

(** resize leaves a block of that size too, except that a varwidth_bucket never gives words back: the block keeps the larger of both sizes. *)
Theorem C123_resize : forall pf kd old new w b', width_ok (elem_bits kd) -> (forall es, kd <> KClass es) ->
  b_resize pf kd (b_initialize pf kd old w) old new w = Ok b' ->
  block_bytes (elem_bits kd) b' =
    match kd with
    | KVar iw => Nat.max (block_bytes iw (b_initialize pf kd old w)) (block_bytes iw (b_initialize pf kd new w))
    | _ => block_bytes (elem_bits kd) (b_initialize pf kd new w)
    end.
Proof.
  intros pf kd old new w b' Hw Hc E. destruct kd as [es|es|es|iw|]; cbn [b_resize b_initialize kind_tag free_ok] in E; [..|by injection E as <-].
  - injection E as <-. unfold realloc_cells, fresh_cells. cbn [block_bytes elem_bits b_initialize kind_tag]. unfold fresh_cells. rewrite app_length, take_length, !replicate_length. f_equal. lia.
  - by destruct (Hc es).
  - unfold cells_prefix, fresh_cells in E. rewrite replicate_length, Nat.leb_refl in E. cbn [mbind res_bind] in E.
    destruct (Nat.ltb_spec new old); [done|]. cbn [negb orb andb] in E. injection E as <-. cbn [block_bytes elem_bits b_initialize kind_tag]. unfold fresh_cells. rewrite app_length, take_length, !replicate_length. f_equal. lia.
  - pose proof (width_ok_pos _ Hw) as Hp. cbn [elem_bits] in *. cbn [block_bytes b_initialize]. unfold fresh_bits in *. rewrite !replicate_length.
    assert (Hm : forall x y, (x <= y)%nat -> (iw * x / 8 <= iw * y / 8)%nat) by (intros x y Hxy; apply Nat.div_le_mono; [lia|]; by apply Nat.mul_le_mono_l).
    destruct (Nat.ltb_spec (cdiv (old * w) iw) (cdiv (new * w) iw)) as [Hlt|Hge]; injection E as <-; cbn [block_bytes].
    + unfold realloc_bits, fresh_bits. rewrite app_length, take_length, !replicate_length.
      pose proof (Hm (cdiv (old * w) iw) (cdiv (new * w) iw) ltac:(lia)). rewrite Nat.max_r by done. f_equal. nia.
    + unfold fresh_bits. rewrite replicate_length. pose proof (Hm (cdiv (new * w) iw) (cdiv (old * w) iw) Hge). by rewrite Nat.max_l by done.
Qed.
Print Assumptions C123_resize.
Theorem C123_shrink_refuted : forall pf iw old new w n, width_ok iw -> (cdiv (new * w) iw < cdiv (old * w) iw)%nat ->
  N.of_nat new * 64 < 2^63 -> (w <= 64)%nat -> b_size_in_bytes (KVar iw) (N.of_nat new) (N.of_nat w) = Some (Ok n) ->
  exists b', b_resize pf (KVar iw) (b_initialize pf (KVar iw) old w) old new w = Ok b' /\ (N.to_nat n < block_bytes iw b')%nat.
Proof.
  intros pf iw old new w n Hw Hlt Hs H64 E. destruct (C123_initialize pf (KVar iw) new w (Ok n) Hw Hs H64 E) as (n' & En & Hn). injection En as <-.
  cbn [b_resize b_initialize]. rewrite (proj2 (Nat.ltb_ge _ _)) by lia. eexists. split; [done|]. rewrite Hn. cbn [block_bytes elem_bits b_initialize]. unfold fresh_bits.
  rewrite !replicate_length. assert (H8 : (iw = 8 * (iw / 8) /\ 1 <= iw / 8)%nat) by (destruct Hw as [->|[->|[->| ->]]]; cbn; lia).
  destruct H8 as [H8 H1]. revert Hlt. generalize (cdiv (new * w) iw) (cdiv (old * w) iw). intros x y Hlt. rewrite H8.
  rewrite <- !Nat.mul_assoc, !(Nat.mul_comm 8), !Nat.div_mul by lia. nia.
Qed.
Print Assumptions C123_shrink_refuted.

(** In the debug build the members are counted as well; the count of a varwidth_bucket ignores the width. *)
Theorem C123_debug : forall pf kd size w, width_ok (elem_bits kd) -> N.of_nat size * 64 < 2^63 ->
  match kd with
  | KPlain _ | KAvx _ => exists n, db_size_in_bytes kd (N.of_nat size) (N.of_nat w) = Some n /\ N.to_nat n = (8 + block_bytes (elem_bits kd) (b_initialize pf kd size w))%nat
  | KVar iw => exists n, db_size_in_bytes kd (N.of_nat size) (N.of_nat w) = Some n
      /\ (N.to_nat n = (16 + block_bytes iw (b_initialize pf kd size w))%nat <-> cdiv (size * w) iw = size)
  | _ => db_size_in_bytes kd (N.of_nat size) (N.of_nat w) = None
  end.
Proof.
  intros pf kd size w Hw Hs.
  assert (Hcell : forall es c, width_ok es -> c <= 16 -> N.to_nat (u64 (N.of_nat size * (N.of_nat es / 8) + c)) = (N.to_nat c + size * (es / 8))%nat).
  { intros es c He Hc. unfold u64. rewrite N.mod_small; [rewrite N2Nat.inj_add, N2Nat.inj_mul, N2Nat.inj_div, !Nat2N.id; change (N.to_nat 8) with 8%nat; lia|].
    assert (N.of_nat es / 8 <= 8) by (destruct He as [->|[->|[->| ->]]]; vm_compute; done). nia. }
  destruct kd as [es|es|es|iw|]; try done; eexists; (split; [reflexivity|]); cbn [elem_bits] in *; rewrite Hcell by (done || lia);
    unfold b_initialize, fresh_cells, fresh_bits; cbn [block_bytes]; rewrite replicate_length; try done.
  assert (H8 : (iw = 8 * (iw / 8) /\ 1 <= iw / 8)%nat) by (destruct Hw as [->|[->|[->| ->]]]; cbn; lia).
  destruct H8 as [H8 H1]. rewrite H8 at 2. rewrite <- Nat.mul_assoc, (Nat.mul_comm 8), Nat.div_mul by lia. change (N.to_nat 16) with 16%nat.
  revert H1. generalize (iw / 8)%nat (cdiv (size * w) iw). intros. nia.
Qed.
Print Assumptions C123_debug.
Theorem C123_debug_refuted : exists pf iw size w n, width_ok iw /\ db_size_in_bytes (KVar iw) (N.of_nat size) (N.of_nat w) = Some n
  /\ (16 + block_bytes iw (b_initialize pf (KVar iw) size w) < N.to_nat n)%nat.
Proof. exists lax_pf, 64%nat, 100%nat, 9%nat. eexists. split; [by do 3 right|]. split; [reflexivity|]. vm_compute. lia. Qed.
Print Assumptions C123_debug_refuted.

Example C121_bucket_table_case : exists t outs, bok lax_pf (ex_bt BArb) 16 /\ bt_run lax_pf (ex_bt BArb) bt_new cap_ops = Ok (t, outs)
  /\ bt_stats (ex_bt BArb) t = [SNum 3; SNum 13; SNum 8; SNum 8].
Proof. eexists _, _. split; [apply ex_bt_ok|]. split; [vm_compute; reflexivity|]. vm_compute. reflexivity. Qed.
Example C121_group_overflow_case : go_reached lax_pf ex_gx OvMap 10 4 1 ex_go2 ex_gom2 /\ ov_size (go_ov ex_go2) = 2
  /\ sum_list_with (fun g => N.to_nat (g_size g)) (group_blocks (go_g ex_go2)) = 255%nat.
Proof. split; [apply ex_go2_reached|]. split; vm_compute; reflexivity. Qed.
Example C121_xorshift_case : xs_stats 20 = Ok [SNum 1048575; SNum 20] /\ xs_stats 64 = Ok [SNum 18446744073709551615; SNum 64].
Proof. done. Qed.
(** Ten elements of 9 bits: two words; twelve elements of 9 bits shrunk to five keep the second word. *)
Example C123_case : map (fun kd => b_size_in_bytes kd 10 9) [KPlain 16; KAvx 32; KVar 64; KVar 8] = [Some (Ok 20); Some (Ok 40); Some (Ok 16); Some (Ok 12)]
  /\ (cdiv (5 * 9) 64 < cdiv (12 * 9) 64)%nat /\ b_size_in_bytes (KVar 64) 5 9 = Some (Ok 8)
  /\ (b ← b_resize lax_pf (KVar 64) (b_initialize lax_pf (KVar 64) 12 9) 12 5 9; Ok (block_bytes 64 b)) = Ok 16%nat.
Proof. vm_compute. repeat split. lia. Qed.
