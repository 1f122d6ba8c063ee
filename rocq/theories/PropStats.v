(** C121: what print_stats logs. *)
From Verif Require Import StatsModel ExactModel CompactBits CompactProofs HashChain GroupSerial BytesProofs PropTable PropBytes PropCompact PropCompactMem PropLimits PropGroup PropGroupMem PropSerial.

(** ** separate_chaining_table.  Every table can be logged; size is the size of the map, and bucket_average_size is the fraction of the size, the
    elements in the overflow included, and the number of buckets. *)
Theorem C121_separate : forall pf c kw vw sz t m, params pf c kw vw -> width_ok (N.to_nat (c_keybits c)) -> reachable pf c kw vw t m ->
  let B := bucket_count t in
  sz_strategy sz * B + sz_members sz + ov_size_in_bytes c sz (t_ov t) + 4096 * B < 2^64 -> B + sz_pair sz * ov_capacity (t_ov t) < 2^64 -> N.of_nat (size m) < 2^64 ->
  exists bytes cap q, sc_stats c sz t = Ok [SNum (N.of_nat (size m)); SNum bytes; SNum B; SNum (ov_size (t_ov t)); SNum (ov_capacity (t_ov t));
      SFrac (N.of_nat (size m)) B; SNum cap; SNum kw; SNum vw; SNum q]
    /\ q = (match c_hash c with HBij _ => kw - N.log2 B | HAdapter _ => kw end)
    /\ (B <> 0 -> N.of_nat (length (slots_of t)) = B /\ N.of_nat (size m) = foldr (fun s a => s_size s + a) 0 (slots_of t) + ov_size (t_ov t)).
Proof.
  intros pf c kw vw sz t m P W Hr B H1 H2 H3.
  destruct (C64_size_in_bytes pf c kw vw sz t m P W Hr H1 H2) as (bytes & Eb & _).
  pose proof (reach_width_eq pf c kw vw t m (reach_ok0 _ _ _ _ P) (co_kw _ _ _ _ _ (co_base _ _ _ _ _ (proj1 P))) (reachable_rep _ _ _ _ P _ _ Hr)) as Hw.
  unfold sc_stats. rewrite Eb. cbn [mbind res_bind].
  destruct (reachable_rep pf c kw vw P t m Hr) as [[Hz ->]|(sl & ess & ovl & H & Hm)].
  - destruct Hz as (Hb & Hn & Hk & Hv & Ho & Hs). unfold capacity. rewrite Hb. cbn [N.eqb mbind res_bind]. unfold TableModel.size. rewrite Hn, Hk, Hv, map_size_empty.
    eexists bytes, 0, _. split; [reflexivity|]. split; [by rewrite Hb in Hw|]. unfold B, bucket_count. rewrite Hb. done.
  - destruct (tinv_bc _ _ _ _ _ _ _ (reach_ok0 pf c kw vw P) _ _ _ _ H) as [Hb0 Hbc]. unfold capacity. rewrite Hb0, (ti_slots _ _ _ _ _ _ _ _ _ _ _ H). cbn [mbind res_bind].
    assert (Hsz : N.of_nat (size m) = N.of_nat (length (concat ess ++ ovl))) by (rewrite <-Hm, emap_size by apply H; done).
    unfold TableModel.size. rewrite (ti_n _ _ _ _ _ _ _ _ _ _ _ H), (ti_kw _ _ _ _ _ _ _ _ _ _ _ H), (ti_vw _ _ _ _ _ _ _ _ _ _ _ H), <-Hsz, u64_small by done.
    eexists bytes, _, _. split; [reflexivity|]. split; [done|]. intros _. unfold slots_of. rewrite (ti_slots _ _ _ _ _ _ _ _ _ _ _ H).
    split; [unfold B; rewrite Hbc, (ti_len _ _ _ _ _ _ _ _ _ _ _ H); lia|].
    rewrite (sizes_sum pf c kw vw True _ _ _ (ti_repr _ _ _ _ _ _ _ _ _ _ _ H)), Hsz, app_length.
    rewrite (ov_size_spec _ _ _ _ _ _ (ti_ov _ _ _ _ _ _ _ _ _ _ _ H)). lia.
Qed.
Print Assumptions C121_separate.
(** So bucket_average_size is the mean of the bucket sizes exactly if the overflow is empty. *)
Theorem C121_average : forall pf c kw vw t m, params pf c kw vw -> reachable pf c kw vw t m -> bucket_count t <> 0 -> N.of_nat (size m) < 2^64 ->
  TableModel.size t * N.of_nat (length (slots_of t)) = foldr (fun s a => s_size s + a) 0 (slots_of t) * bucket_count t <-> ov_size (t_ov t) = 0.
Proof.
  intros pf c kw vw t m P Hr HB H3.
  destruct (reachable_rep pf c kw vw P t m Hr) as [[(Hb & _) _]|(sl & ess & ovl & H & Hm)]; [unfold bucket_count in HB; by rewrite Hb in HB|].
  destruct (tinv_bc _ _ _ _ _ _ _ (reach_ok0 pf c kw vw P) _ _ _ _ H) as [Hb0 Hbc].
  assert (Hsz : N.of_nat (size m) = N.of_nat (length (concat ess ++ ovl))) by (rewrite <-Hm, emap_size by apply H; done).
  unfold slots_of. rewrite (ti_slots _ _ _ _ _ _ _ _ _ _ _ H), (sizes_sum pf c kw vw True _ _ _ (ti_repr _ _ _ _ _ _ _ _ _ _ _ H)).
  rewrite (ov_size_spec _ _ _ _ _ _ (ti_ov _ _ _ _ _ _ _ _ _ _ _ H)), (ti_len _ _ _ _ _ _ _ _ _ _ _ H), <-Hbc.
  unfold TableModel.size. rewrite (ti_n _ _ _ _ _ _ _ _ _ _ _ H), <-Hsz, u64_small by done. rewrite Hsz, app_length. rewrite N.mul_cancel_r by done. lia.
Qed.
Print Assumptions C121_average.
Theorem C121_average_refuted : exists pf c kw vw t m s n B, params pf c kw vw /\ reachable pf c kw vw t m
  /\ sc_stats c ex_sz t = Ok s /\ s !! 5%nat = Some (SFrac n B) /\ foldr (fun s a => s_size s + a) 0 (slots_of t) * B < n * N.of_nat (length (slots_of t)).
Proof.
  exists lax_pf, ex_ov, 32, 16, (ex_hist ex_ov 32 16 (ex_fill 40)), (fst (spec_run ∅ (ex_fill 40))).
  exists (match sc_stats ex_ov ex_sz (ex_hist ex_ov 32 16 (ex_fill 40)) with Ok s => s | _ => [] end), 40, 16.
  split; [exact ex_ov_ok|]. split.
  { apply ex_hist_reach; [exact ex_ov_ok|discriminate|]. unfold ex_fill. apply Forall_map, Forall_forall. intros i Hi%elem_of_seq. cbn [valid_op].
    assert (2^32 = 4294967296) by reflexivity. assert (2^16 = 65536) by reflexivity. lia. }
  split; [vm_compute; reflexivity|]. split; vm_compute; reflexivity.
Qed.
Print Assumptions C121_average_refuted.
(** A table without buckets logs 0/0, which is not a number. *)
Theorem C121_new : forall pf c kw vw sz, exists s, sc_stats c sz (new_table pf c kw vw) = Ok s /\ s !! 5%nat = Some (SFrac 0 0).
Proof. intros. unfold sc_stats, size_in_bytes, capacity. cbn. eauto. Qed.
Print Assumptions C121_new.

(** ** compact_chaining_map.  Specification: the sum of the squares of the differences of the bucket sizes and their mean n/B, multiplied by B². *)
Definition scaled_deviation (l : list Z) : Z :=
  let B := Z.of_nat (length l) in let n := fold_right Z.add 0%Z l in fold_right (fun s a => (n - B * s) * (n - B * s) + a)%Z 0%Z l.
Definition sizes_z (t : cmap) : list Z := map (fun s => Z.of_N (cs_size s)) (cslots_of t).

Lemma fold_sq (q : Z) : forall l, fold_right (fun s a => (q - s) * (q - s) + a)%Z 0%Z l
  = (Z.of_nat (length l) * (q * q) - 2 * q * fold_right Z.add 0 l + fold_right (fun s a => s * s + a) 0 l)%Z.
Proof. induction l as [|s l IH]; cbn [fold_right length]; [lia|]. rewrite IH. nia. Qed.
Lemma fold_sc (n B : Z) : forall l, fold_right (fun s a => (n - B * s) * (n - B * s) + a)%Z 0%Z l
  = (Z.of_nat (length l) * (n * n) - 2 * n * B * fold_right Z.add 0 l + B * B * fold_right (fun s a => s * s + a) 0 l)%Z.
Proof. induction l as [|s l IH]; cbn [fold_right length]; [lia|]. rewrite IH. nia. Qed.
Lemma deviation_eq l : l <> [] -> let B := Z.of_nat (length l) in let n := fold_right Z.add 0%Z l in
  (B * B * fold_right (fun s a => (n / B - s) * (n / B - s) + a) 0 l = scaled_deviation l + B * (n mod B) * (n mod B))%Z.
Proof.
  intros Hl B n. unfold scaled_deviation. fold B n. rewrite fold_sq, fold_sc. fold B n. assert (HB : (0 < B)%Z) by (unfold B; destruct l; [done|cbn [length]; lia]).
  pose proof (Z.div_mod n B ltac:(lia)) as E. revert E. generalize (n / B)%Z (n mod B)%Z (fold_right (fun s a => s * s + a)%Z 0%Z l). clear. intros q r S E.
  generalize dependent n. intros n ->. ring.
Qed.
Lemma rfold_sum (F : Z -> nat -> res Z) (g : nat -> Z) : forall l a, (forall i d, i ∈ l -> F d i = Ok (d + g i)%Z) ->
  rfold F l a = Ok (a + fold_right (fun i b => g i + b) 0 l)%Z.
Proof.
  induction l as [|i l IH]; intros a H; cbn [rfold fold_right]; [f_equal; lia|]. rewrite (H i a (elem_of_list_here _ _)). cbn [mbind res_bind].
  rewrite IH by (intros j d Hj; apply H; by constructor). f_equal. lia.
Qed.
Lemma fold_seq {A} (f : A -> Z) (g : nat -> Z) : forall (l : list A) o, (forall i x, l !! i = Some x -> g (o + i)%nat = f x) ->
  fold_right (fun i b => g i + b)%Z 0%Z (seq o (length l)) = fold_right (fun s a => s + a)%Z 0%Z (map f l).
Proof.
  induction l as [|x l IH]; intros o H; cbn [length seq fold_right map]; [done|]. rewrite (IH (S o)).
  - specialize (H 0%nat x eq_refl). rewrite Nat.add_0_r in H. by rewrite H.
  - intros i y Hy. replace (S o + i)%nat with (o + S i)%nat by lia. by apply H.
Qed.

(** The logged deviation is never less than the sum of the squared differences from the mean, and more by exactly r²/B, where r is the rest of the
    division of the size by the number B of buckets: the mean is rounded down.  All sums stay below 65026 B, where doubles are exact up to 2^37 buckets. *)
Theorem C121_deviation : forall pf c kw vw bmin fuel t m, compact_ok pf c kw vw bmin -> (64 <= fuel)%nat -> c_after pf c kw vw bmin fuel t m -> N.of_nat (size m) < 2^64 ->
  exists d, c_stats t = Ok [SNum (N.of_nat (size m)); SNum (N.of_nat (length (cslots_of t))); SSum d; SNum kw; SNum vw; SNum vw; SNum 255; SNum (N.of_nat (size m))]
    /\ let B := Z.of_nat (length (cslots_of t)) in let r := (Z.of_nat (size m) mod B)%Z in
       (B * B * d = scaled_deviation (sizes_z t) + B * r * r /\ 0 <= d <= 65025 * B)%Z.
Proof.
  intros pf c kw vw bmin fuel t m OK Hf Ha Hlt. destruct (C115_capacity _ _ _ _ _ _ _ _ OK Hf Ha Hlt) as [Ec Es].
  unfold c_stats, c_deviation. rewrite Ec, Es.
  destruct (c_after_rep _ _ _ _ _ _ _ _ OK Hf Ha) as [[(Hk & Hv & Hb & _ & Hz) ->]|(ess & H & Hm)].
  - unfold c_bucket_count. rewrite Hb, Hk, Hv. cbn [N.eqb N.to_nat seq rfold mbind res_bind]. exists 0%Z. unfold sizes_z, cslots_of. rewrite Hz. split; [done|]. vm_compute. repeat split; discriminate.
  - destruct (cr_slots _ _ _ _ _ _ H) as (sl & Esl & HF). unfold sizes_z, cslots_of. rewrite Esl.
    assert (Hlen : N.of_nat (length sl) = 2^cm_b t) by (rewrite (Forall2_length _ _ _ HF); apply (cr_len _ _ _ _ _ _ H)).
    pose proof (cr_b _ _ _ _ _ _ H) as Hb. pose proof (ho_bmin _ _ _ _ _ (CompactProofs.co_hash _ _ _ _ _ OK)) as Hmin.
    assert (Hbc : c_bucket_count t = N.of_nat (length sl)) by (unfold c_bucket_count; destruct (N.eqb_spec (cm_b t) 0) as [|_]; [lia|done]).
    rewrite Hbc, Nat2N.id. assert (HB : (0 < length sl)%nat) by (pose proof (N.pow_nonzero 2 (cm_b t)); lia).
    rewrite (proj2 (N.eqb_neq _ _)) by lia. cbn [mbind res_bind].
    set (q := N.of_nat (size m) / N.of_nat (length sl)). set (sq := fun s => ((Z.of_N q - Z.of_N (cs_size s)) * (Z.of_N q - Z.of_N (cs_size s)))%Z).
    set (g := fun i => match sl !! i with Some s => sq s | None => 0%Z end).
    rewrite (rfold_sum _ g). 2: { intros i d Hi%elem_of_seq. destruct (lookup_lt_is_Some_2 sl i ltac:(lia)) as (s & Hl). unfold c_bucket_size, c_slot, g, sq. rewrite Esl.
      rewrite (proj2 (N.ltb_lt _ _)) by lia. by rewrite Nat2N.id, Hl. }
    rewrite (fold_seq sq g) by (intros i x Hx; unfold g; cbn [Nat.add]; by rewrite Hx). cbn [mbind res_bind].
    rewrite (cr_kw _ _ _ _ _ _ H), (cr_vw _ _ _ _ _ _ H). eexists. split; [reflexivity|]. cbv zeta.
    assert (Hsum : fold_right Z.add 0%Z (map (fun s => Z.of_N (cs_size s)) sl) = Z.of_nat (size m)).
    { rewrite <-Hm, emap_size by apply H. rewrite <-(sizes_total _ _ _ _ _ _ HF). clear. induction sl as [|s sl IH]; [done|]. cbn [map fold_right sum_list_with]. rewrite IH. lia. }
    assert (Hq : Z.of_N q = (Z.of_nat (size m) / Z.of_nat (length sl))%Z) by (unfold q; rewrite N2Z.inj_div, !nat_N_Z; done).
    assert (Hd : fold_right (fun s a => s + a)%Z 0%Z (map sq sl) = fold_right (fun s a => (Z.of_nat (size m) / Z.of_nat (length sl) - s) * (Z.of_nat (size m) / Z.of_nat (length sl) - s) + a)%Z 0%Z (map (fun s => Z.of_N (cs_size s)) sl)).
    { unfold sq. rewrite Hq. clear. generalize (Z.of_nat (size m) / Z.of_nat (length sl))%Z. intros z. induction sl as [|s sl IH]; [done|]. cbn [map fold_right]. by rewrite IH. }
    rewrite Z.add_0_l. split.
    + rewrite Hd. pose proof (deviation_eq (map (fun s => Z.of_N (cs_size s)) sl)) as E. cbv zeta in E. rewrite map_length, Hsum in E. apply E. destruct sl; [cbn in HB; lia|done].
    + assert (Hb255 : Forall (fun s => cs_size s <= 255) sl).
      { apply Forall_lookup. intros i s Hi. destruct (Forall2_lookup_l _ _ _ _ _ HF Hi) as (es & _ & (-> & Hl & _)). lia. }
      assert (Hn : (fold_right Z.add 0 (map (fun s => Z.of_N (cs_size s)) sl) <= 255 * Z.of_nat (length sl))%Z).
      { clear - Hb255. induction Hb255 as [|s sl Hs _ IH]; [cbn; lia|]. cbn [map fold_right length]. lia. }
      rewrite Hsum in Hn. assert (Hq0 : (0 <= Z.of_N q <= 255)%Z).
      { rewrite Hq. split; [apply Z.div_pos; lia|]. apply Z.div_le_upper_bound; lia. }
      assert (Hsq : forall s, cs_size s <= 255 -> (0 <= sq s <= 65025)%Z).
      { intros s Hs. unfold sq. assert (-255 <= Z.of_N q - Z.of_N (cs_size s) <= 255)%Z as Hz by lia.
        revert Hz. generalize (Z.of_N q - Z.of_N (cs_size s))%Z. clear. intros z Hz. nia. }
      clear - Hb255 Hsq. clearbody sq. clear q. induction Hb255 as [|s sl Hs _ IH]; [cbn; lia|]. cbn [map fold_right length]. specialize (Hsq s Hs). lia.
Qed.
Print Assumptions C121_deviation.
(** Two elements in four buckets: 2 is logged, the sum of the squared differences from the mean 1/2 is 1. *)
Theorem C121_deviation_refuted : exists pf c kw vw bmin t m s d, compact_ok pf c kw vw bmin /\ c_after pf c kw vw bmin 64 t m
  /\ c_stats t = Ok s /\ s !! 2%nat = Some (SSum d) /\ (scaled_deviation (sizes_z t) < Z.of_nat (length (cslots_of t)) * Z.of_nat (length (cslots_of t)) * d)%Z.
Proof.
  exists loose_pf, ex_c64, 20, 9, 1, (ex_lim 2), (fst (spec_run ∅ (take 2 ex_lim_ops))).
  exists (match c_stats (ex_lim 2) with Ok s => s | _ => [] end), 2%Z. split; [exact ex_c64_ok|].
  split; [exists (take 2 ex_lim_ops), (snd (spec_run ∅ (take 2 ex_lim_ops))); split; [valid_solve|split; vm_compute; reflexivity]|].
  split; [vm_compute; reflexivity|]. split; vm_compute; reflexivity.
Qed.
Print Assumptions C121_deviation_refuted.

(** ** group_chaining_table.  group_count is the number of allocated groups; the groups that have buckets are ⌈B/p⌉ for B buckets and p buckets per
    group, and one more is allocated exactly if p divides B.  It stays empty, so group_average_size is then less than the mean over the groups that have buckets. *)
Theorem C121_group : forall pf c kw vw bmin t m, g_reached pf c kw vw bmin t m -> N.of_nat (size m) < 2^64 ->
  let B := g_bucket_count t in let p := gt_bpg t in
  exists gc q cap, g_stats c t = Ok [SNum (N.of_nat (size m)); SNum gc; SNum B; SNum 0; SNum 0; SNum kw; SNum vw; SNum q;
      SFrac (N.of_nat (size m)) gc; SFrac (N.of_nat (size m)) B; SNum 255; SNum p; SNum cap]
    /\ gc = N.of_nat (length (group_blocks t)) /\ N.of_nat (size m) = N.of_nat (sum_list_with (fun g => N.to_nat (g_size g)) (group_blocks t))
    /\ (B <> 0 -> gc = (B + p - 1) / p + (if B mod p =? 0 then 1 else 0)
                  /\ (B mod p = 0 -> exists g, last (group_blocks t) = Some g /\ g_size g = 0)).
Proof.
  intros pf c kw vw bmin t m Hr Hlt B p. pose proof (group_sizes _ _ _ _ _ _ _ Hr) as Hsum. apply g_reached_rep in Hr as (OK & HR).
  unfold g_stats, group_blocks in *. destruct HR as [[(Hk & Hv & Hb & Hn & Hg & _) ->]|(ess & H & Hm)].
  { unfold g_capacity, g_group_count. rewrite Hg in *. cbn [mbind res_bind]. unfold g_size_of. rewrite Hn, Hk, Hv, map_size_empty. eexists 0, _, 0. split; [reflexivity|].
    split; [done|]. split; [done|]. unfold B, g_bucket_count. rewrite Hb. done. }
  destruct (gr_groups _ _ _ _ _ _ _ _ H) as (gs & Hgs & Hl & Hg). rewrite Hgs in *. unfold g_capacity. rewrite (ggroup_count _ _ _ _ _ _ OK _ _ _ H Hgs Hl). cbn [mbind res_bind].
  unfold g_size_of. assert (Hsz : N.of_nat (size m) = N.of_nat (length (concat ess))) by (rewrite <-Hm, emap_size by apply H; done).
  rewrite (gr_n _ _ _ _ _ _ _ _ H), <-Hsz, N.mod_small by done. rewrite (gr_kw _ _ _ _ _ _ _ _ H), (gr_vw _ _ _ _ _ _ _ _ H).
  eexists _, _, _. split; [reflexivity|]. split; [done|]. split; [by rewrite Hsum|]. intros _.
  assert (HB : B = 2^gt_b t) by (unfold B; apply (count_eq _ _ _ _ _ _ OK _ _ H)).
  pose proof (gr_bpg _ _ _ _ _ _ _ _ H) as Hp. fold p in Hp, Hl. rewrite <-HB in Hl. pose proof (N.div_mod B p ltac:(lia)) as E. pose proof (N.mod_lt B p ltac:(lia)) as Hmod.
  rewrite Hl. split.
  - destruct (N.eqb_spec (B mod p) 0) as [E0|E0].
    + f_equal. apply N.div_unique with (r := p - 1); lia.
    + rewrite N.add_0_r. apply N.div_unique with (r := B mod p - 1); lia.
  - intros E0. destruct (last gs) as [g|] eqn:El; [|apply last_None in El; subst gs; cbn in Hl; lia]. exists g. split; [done|].
    rewrite last_lookup in El. pose proof (Hg _ _ El) as Hgr. rewrite (grepr_size _ _ _ _ _ _ _ _ Hgr).
    assert (Hc : concat (chunk (gbpg t) ess (pred (length gs))) = []); [|by rewrite Hc].
    assert (Hge : (length ess <= pred (length gs) * gbpg t)%nat).
    { pose proof (gr_len _ _ _ _ _ _ _ _ H) as Hle. rewrite <-HB in Hle. unfold gbpg. fold p.
      assert (N.of_nat (pred (length gs)) = B / p) by lia. enough (N.of_nat (length ess) <= N.of_nat (pred (length gs)) * p) by lia. lia. }
    unfold chunk. clear - Hge. revert Hge. generalize (pred (length gs) * gbpg t)%nat as o. intros o Ho. induction (seq 0 (gbpg t)) as [|i l IH]; [done|].
    cbn [map concat]. rewrite IH, app_nil_r. unfold nthb. rewrite lookup_ge_None_2 by lia. done.
Qed.
Print Assumptions C121_group.
Theorem C121_group_average_refuted : exists pf c kw vw bmin t m s n gc, g_reached pf c kw vw bmin t m /\ g_stats c t = Ok s /\ s !! 8%nat = Some (SFrac n gc)
  /\ 0 < n /\ (g_bucket_count t + gt_bpg t - 1) / gt_bpg t < gc.
Proof.
  exists strict_pf, ex_gx, 20, 9, 1, (match m_run_ops (g_impl strict_pf ex_gx 64) (g_new 20 9) [OpInsert 5 7; OpReserve 64] with Ok (t, _) => t | _ => g_new 20 9 end).
  exists (fst (spec_run ∅ [OpInsert 5 7; OpReserve 64])).
  exists (match m_run_ops (g_impl strict_pf ex_gx 64) (g_new 20 9) [OpInsert 5 7; OpReserve 64] with Ok (t, _) => match g_stats ex_gx t with Ok s => s | _ => [] end | _ => [] end), 1, 2.
  split. { exists 64%nat, [OpInsert 5 7; OpReserve 64], (snd (spec_run ∅ [OpInsert 5 7; OpReserve 64])). split; [exact ex_gx_ok|]. split; [lia|]. split; [valid_solve|]. split; vm_compute; reflexivity. }
  split; [vm_compute; reflexivity|]. split; [vm_compute; reflexivity|]. split; vm_compute; reflexivity.
Qed.
Print Assumptions C121_group_average_refuted.
Example C121_case : g_stats ex_gx ex_g_tab = Ok [SNum 7; SNum 9; SNum 512; SNum 0; SNum 0; SNum 20; SNum 9; SNum 11; SFrac 7 9; SFrac 7 512; SNum 255; SNum 64; SNum 2295]
  /\ c_stats (ex_lim 3) = Ok [SNum 2; SNum 512; SSum 2; SNum 20; SNum 9; SNum 9; SNum 255; SNum 2]
  /\ sc_stats ex_var ex_sz ex_bytes_t = Ok [SNum 70; SNum 1648; SNum 64; SNum 0; SNum 0; SFrac 70 64; SNum 82; SNum 20; SNum 9; SNum 14].
Proof. split; [vm_compute; reflexivity|]. split; vm_compute; reflexivity. Qed.
