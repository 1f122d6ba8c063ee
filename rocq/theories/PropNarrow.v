(** C110: keyvalue_group with an internal_t other than uint64_t (the TODO of group_chaining.hpp:363). *)
From Verif Require Import NarrowKv PropBucket.
#[local] Open Scope nat_scope.

(** internal_t is uint8_t, uint16_t, uint32_t or uint64_t *)
Definition internal_width (ib : nat) : Prop := ib = 8 \/ ib = 16 \/ ib = 32 \/ ib = 64.
Lemma internal_iwidth ib : internal_width ib -> iwidth ib.
Proof. intros [->|[->|[->| ->]]]; (split; [lia|]); [by exists 8|by exists 4|by exists 2|by exists 1]. Qed.

(** The group is an array of lists for every internal_t, whatever lies behind its blocks, if a 64-bit word that begins in a block can be
    accessed as a whole: 7, 6, 4 or 0 bytes behind each block. *)
Theorem C110_any_internal_type : forall ib pf n kw vw ops, internal_width ib -> 64 <= ib + 8 * slack pf ->
  1 <= n <= 255 -> 1 <= kw <= 64 -> 1 <= vw <= 64 -> gvalid_ops kw vw (replicate n []) ops.*2 ->
  exists g, nrun ib pf n kw vw (nkv_init ib n kw vw) ops = Ok (g, snd (gspec_run (replicate n []) ops.*2)).
Proof.
  intros ib pf n kw vw ops Hib%internal_iwidth Hpf Hn Hk Hv Hval.
  destruct (nkv_history ib pf Hib Hpf kw vw Hk Hv ops _ _ (nkv_init_rep ib Hib kw vw n Hn) Hval) as (g & E & _).
  rewrite replicate_length in E. by exists g.
Qed.
Print Assumptions C110_any_internal_type.

(** Fewer accessible bytes do not suffice: find_group_position reads eight bytes of a smaller block, already in the first push_back. *)
Lemma position_oob ib pf junk g ws i : g_border g = Some ws -> ib * length ws + 8 * slack pf < 64 -> nkv_position ib pf junk g i = Ub OobRead.
Proof.
  intros Hg Hl. unfold nkv_position. rewrite Hg.
  assert (Hlen : length (nb_memory ib pf junk ws) = ib * length ws + 8 * slack pf)
    by (unfold nb_memory; rewrite app_length, nwbits_length, map_length, seq_length; done).
  rewrite Hlen. destruct (ib * length ws + 8 * slack pf) as [|m]; [done|]. cbn [nb_select]. by rewrite (proj2 (Nat.ltb_lt _ _)) by lia.
Qed.
Lemma nb_init_length ib n : internal_width ib -> length (nb_init ib n) = cdiv (n + 1) ib.
Proof.
  intros Hib%internal_iwidth. destruct (nborder_init ib Hib n) as (_ & -> & _). rewrite replicate_length. f_equal.
  assert (tot (replicate n 0) = 0) as ->; [|done]. clear. induction n; [done|]. exact IHn.
Qed.
Theorem C110_short_border_refuted : forall ib pf junk n kw vw i k v, internal_width ib -> ib * cdiv (n + 1) ib + 8 * slack pf < 64 ->
  nkv_push ib pf junk (nkv_init ib n kw vw) n i k kw v vw = Ub OobRead.
Proof.
  intros ib pf junk n kw vw i k v Hib Hl. unfold nkv_push.
  by rewrite (position_oob ib pf junk _ (nb_init ib n)) by (try done; by rewrite nb_init_length).
Qed.
Print Assumptions C110_short_border_refuted.

Lemma first_insert_oob ib pf l0 x w : internal_width ib -> 1 <= w -> ib * cdiv (w * 2) ib + 8 * slack pf < 64 ->
  nc_insert ib pf (Some l0) 0 x w 0 = Ub OobWrite.
Proof.
  intros HI%internal_iwidth Hw Hs. assert (1 <= ib) by apply HI.
  assert (E0 : cdiv (w * 0) ib = 0) by (unfold cdiv; rewrite Nat.mul_0_r, Nat.add_0_l; apply Nat.div_small; lia).
  assert (Hc : 1 <= cdiv (w * 2) ib) by (pose proof (cdiv_ge (w * 2) ib ltac:(lia)); destruct (cdiv (w * 2) ib); lia).
  unfold nc_insert. change (0 <? 0) with false. cbv iota. rewrite Nat.add_0_l, E0, (proj2 (Nat.ltb_lt 0 (cdiv (w * 2) ib))) by lia. cbn [mbind res_bind].
  change (insert_moves 0 w 0) with (@nil (nat * nat * nat)). cbn [rfold mbind res_bind]. unfold nc_put. rewrite Nat.mul_0_l, Nat.div_0_l, Nat.mod_0_l, Nat.mul_0_l by lia.
  unfold write_int, write_raw. rewrite map_length, bits_of_length. set (l := wrbits _ _ _).
  assert (Hlen : length l = ib * cdiv (w * 2) ib).
  { subst l. rewrite wrbits_length; rewrite rbits_length; [done|]. rewrite replicate_length.
    destruct (cdiv (w * 2) ib) as [|m]; [lia|]. rewrite Nat.sub_succ, Nat.sub_0_r, Nat.mul_succ_r. lia. }
  assert (Ha : accessible pf l (touched_end 0 0 w) = false).
  { unfold accessible. rewrite Hlen. apply Nat.leb_gt. unfold touched_end. destruct (64 <? 0 + w); lia. }
  by rewrite Ha.
Qed.
(** A border of 64 bits is read without harm, but then the first key is written with an access of eight bytes to a smaller block. *)
Theorem C110_short_keys_refuted : forall ib pf junk kw vw i k v, internal_width ib -> i < 63 -> 1 <= kw ->
  ib * cdiv (kw * 2) ib + 8 * slack pf < 64 ->
  nkv_push ib pf junk (nkv_init ib 63 kw vw) 63 i k kw v vw = Ub OobWrite.
Proof.
  intros ib pf junk kw vw i k v Hib Hi Hkw Hs. unfold nkv_push.
  pose proof (internal_iwidth ib Hib) as HI. pose proof (nborder_init ib HI 63) as Hb.
  assert (Hpos : nkv_position ib pf junk (nkv_init ib 63 kw vw) i = Ok i).
  { unfold nkv_position. cbn [g_border nkv_init]. rewrite Nat.mod_small by lia.
    destruct (nborder_bits ib HI _ _ Hb) as (z & E). rewrite ucode_zero in E.
    assert (Hz : z = 0).
    { pose proof (nwbits_length ib (nb_init ib 63)) as Hl. rewrite E, app_length, !replicate_length in Hl.
      rewrite nb_init_length in Hl by done. destruct Hib as [->|[->|[->| ->]]]; vm_compute in Hl; lia. }
    assert (Hm : nb_memory ib pf junk (nb_init ib 63) = replicate 64 true ++ map junk (seq 0 (8 * slack pf))).
    { unfold nb_memory. rewrite E, Hz. cbn [replicate]. by rewrite app_nil_r. }
    rewrite Hm. apply (nb_select_spec _ _ i 0 i).
    - rewrite lookup_app_l by (rewrite replicate_length; lia). apply lookup_replicate_2. lia.
    - rewrite take_app_le by (rewrite replicate_length; lia). rewrite take_replicate, Nat.min_l by lia. clear. induction i; [done|]. cbn in *. by f_equal.
    - rewrite Nat.div_small, app_length, replicate_length by lia. lia.
    - rewrite Nat.div_small, app_length, replicate_length by lia. lia. }
  rewrite Hpos. cbn [mbind res_bind g_keys g_size nkv_init]. rewrite Nat.sub_diag.
  unfold nc_init at 1. change (N.to_nat 0) with 0. by rewrite first_insert_oob.
Qed.
Print Assumptions C110_short_keys_refuted.

(** So the group works on a platform for every number of buckets, all widths and all histories exactly if 64 <= ib + 8*slack. *)
Theorem C110_exactly : forall ib pf, internal_width ib ->
  (64 <= ib + 8 * slack pf <->
   forall n kw vw ops, 1 <= n <= 255 -> 1 <= kw <= 64 -> 1 <= vw <= 64 -> gvalid_ops kw vw (replicate n []) ops.*2 ->
     exists g, nrun ib pf n kw vw (nkv_init ib n kw vw) ops = Ok (g, snd (gspec_run (replicate n []) ops.*2))).
Proof.
  intros ib pf Hib. split; [intros Hpf n kw vw ops; by apply C110_any_internal_type|]. intros H.
  destruct (Nat.le_gt_cases 64 (ib + 8 * slack pf)) as [|Hlt]; [done|]. exfalso.
  destruct (H 1 1 1 [(fun _ => true, GPush 0 1 1)]) as (g & E); [lia..| |].
  { split; [|exact I]. vm_compute. repeat split; try lia. discriminate. }
  cbn [nrun nrun_step] in E. rewrite C110_short_border_refuted in E; [discriminate|done|].
  assert (cdiv (1 + 1) ib = 1) as ->; [|lia]. destruct Hib as [->|[->|[->| ->]]]; reflexivity.
Qed.
Print Assumptions C110_exactly.

(** The answers are those of the default internal_t on strict C++. *)
Theorem C110_same_answers : forall ib pf pf' n kw vw g0 ops, internal_width ib -> 64 <= ib + 8 * slack pf ->
  1 <= n <= 255 -> 1 <= kw <= 64 -> 1 <= vw <= 64 -> gvalid_ops kw vw (replicate n []) ops.*2 ->
  exists g g' l, nrun ib pf n kw vw (nkv_init ib n kw vw) ops = Ok (g, l) /\ grun pf' n kw vw (kv_init g0 n kw vw) ops.*2 = Ok (g', l).
Proof.
  intros ib pf pf' n kw vw g0 ops Hib Hpf Hn Hk Hv Hval.
  destruct (C110_any_internal_type ib pf n kw vw ops Hib Hpf Hn Hk Hv Hval) as (g & E).
  assert (H : kv_rep True pf' kw vw (kv_init g0 n kw vw) (replicate n [])) by (apply kv_init_rep; lia).
  destruct (kv_history pf' kw vw Hk Hv ops.*2 _ _ H Hval) as (g' & E' & _). rewrite replicate_length in E'. by exists g, g', (snd (gspec_run (replicate n []) ops.*2)).
Qed.
Print Assumptions C110_same_answers.

(** "memory corruption with multiple hash tables": a write to a block that is followed by other blocks leaves their bits alone. *)
Theorem C110_neighbours_kept : forall ib pf pf' (l after : bits), internal_width ib -> 8 * slack pf <= length after ->
  (forall p w x d, nc_put ib pf (Some l) p w x = Ok d ->
     exists l', d = Some l' /\ length l' = length l /\ nc_put ib pf' (Some (l ++ after)) p w x = Ok (Some (l' ++ after)))
  /\ (forall f t n d, f + n <= length l -> nc_copy ib pf (Some l) (f, t, n) = Ok d ->
     exists l', d = Some l' /\ length l' = length l /\ nc_copy ib pf' (Some (l ++ after)) (f, t, n) = Ok (Some (l' ++ after))).
Proof.
  intros ib pf pf' l after Hib%internal_iwidth Ha.
  assert (Hw : forall word o c l', write_raw pf l word o c = Ok l' ->
    length l' = length l /\ write_raw pf' (l ++ after) word o c = Ok (l' ++ after)).
  { intros word o c l'. unfold write_raw, accessible. destruct (Nat.leb_spec (touched_end word o (length c)) (length l + 8 * slack pf)) as [H1|]; [|done].
    destruct (Nat.leb_spec (word + o + length c) (length l)) as [H2|]; [|done]. cbn [andb]. intros [= <-].
    rewrite !(proj2 (Nat.leb_le _ _)) by (rewrite app_length; lia). cbn [andb]. split; [by apply wrbits_length|]. f_equal.
    unfold wrbits. rewrite take_app_le, drop_app_le by lia. by rewrite <-!app_assoc. }
  split.
  - intros p w x d. unfold nc_put, write_int. destruct (write_raw pf l _ _ _) as [l'| | |] eqn:E; try done. intros [= <-].
    apply Hw in E as [Hl E]. exists l'. split; [done|]. split; [done|]. by rewrite E.
  - intros f t n d Hf. unfold nc_copy.
    assert (Hr : forall c, read_raw pf l (f / ib * ib) (f mod ib) n = Ok c -> read_raw pf' (l ++ after) (f / ib * ib) (f mod ib) n = Ok c).
    { intros c. unfold read_raw, accessible. destruct (Nat.leb_spec (touched_end (f / ib * ib) (f mod ib) n) (length l + 8 * slack pf)) as [H1|]; [|done].
      intros [= <-]. rewrite (proj2 (Nat.leb_le _ _)) by (rewrite app_length; lia). f_equal. rewrite (posib ib Hib).
      unfold rdbits. rewrite drop_app_le by lia. rewrite <-app_assoc, !take_app_le by (rewrite drop_length; lia). done. }
    destruct (read_raw pf l _ _ n) as [c| | |] eqn:Er; try done. rewrite (Hr _ eq_refl). cbn [mbind res_bind].
    destruct (write_raw pf l _ _ c) as [l'| | |] eqn:E; try done. intros [= <-]. apply Hw in E as [Hl E].
    exists l'. split; [done|]. split; [done|]. by rewrite E.
Qed.
Print Assumptions C110_neighbours_kept.

(** Non-trivial cases: uint8_t, buckets of different sizes, with ones behind the border *)
Definition ex_narrow_pf : platform := Platform 7 false false (fun x => x) (fun x _ => x).
Definition ex_narrow_ops : list ((nat -> bool) * gop) :=
  (fun o => (fun i => Nat.even i, o)) <$>
  [GPush 2 1000 77; GPush 0 5 6; GPush 2 1001 78; GPush 1 3 4; GPush 2 7 8; GSize 2; GFind 2 1001; GErase 2 0; GRead 2 0; GWrite 2 1 99; GRead 2 1;
   GFind 2 1000; GSize 0; GErase 0 0; GErase 2 1; GSize 2; GRead 1 0].
Example C110_case : internal_width 8 /\ 64 <= 8 + 8 * slack ex_narrow_pf /\ gvalid_ops 10 7 (replicate 12 []) ex_narrow_ops.*2
  /\ (exists g, nrun 8 ex_narrow_pf 12 10 7 (nkv_init 8 12 10 7) ex_narrow_ops =
       Ok (g, [GUnit; GUnit; GUnit; GUnit; GUnit; GNum 3; GPos (Some 1); GUnit; GPair (1001, 78)%N; GUnit; GPair (7, 99)%N; GPos None; GNum 1; GUnit; GUnit; GNum 1; GPair (3, 4)%N]))
  /\ 8 * cdiv (12 + 1) 8 + 8 * slack strict_pf < 64 /\ 8 * cdiv (10 * 2) 8 + 8 * slack strict_pf < 64
  /\ nkv_push 8 strict_pf (fun _ => true) (nkv_init 8 63 10 7) 63 5 1000 10 77 7 = Ub OobWrite.
Proof.
  split; [by left|]. split; [cbn; lia|]. split; [vm_compute; repeat split; try lia; discriminate|]. split.
  { eexists. vm_compute. reflexivity. }
  split; [vm_compute; lia|]. split; [vm_compute; lia|]. vm_compute. reflexivity.
Qed.
