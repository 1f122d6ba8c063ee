(** C114: how much memory the groups of group_chaining_table hold. *)
From Verif Require Import ExactModel GroupModel GroupCore GroupHist PropBucket PropSerial PropCompact PropGroup.
#[local] Open Scope nat_scope.

(** ** Specification: bits of the allocated blocks.  [packed 64 n w]: n elements of w bits in whole words. *)
Definition core_bits (d : core) : nat := match d with Some l => length l | None => 0 end.
Definition border_bits (g : kvgroup) : nat := match g_border g with Some ws => 64 * length ws | None => 0 end.
Definition no_erase (ops : list op) : Prop := forall k, OpErase k ∉ ops /\ OpEraseIt k ∉ ops.
(** A block for n elements: room for one more; if something was erased ([er]) possibly as much as for the 255 elements of a full group. *)
Definition room (er : Prop) (w n : nat) (d : core) : Prop :=
  core_bits d = packed 64 (n + 1) w \/ er /\ packed 64 (n + 1) w <= core_bits d <= packed 64 256 w.
Definition group_mem (er : Prop) (bpg q v : nat) (g : kvgroup) : Prop :=
  let n := N.to_nat (g_size g) in
  border_bits g = packed 64 (n + 1 + bpg) 1 /\ room er q n (g_keys g) /\ room er v n (g_vals g).

(** ** Lengths of blocks *)
Lemma pk_cdiv n w : packed 64 n w = 64 * cdiv (w * n) 64.
Proof. unfold packed, cdiv. by rewrite (Nat.mul_comm w). Qed.
Lemma pk_mono n m w : n <= m -> packed 64 n w <= packed 64 m w.
Proof. intros H. rewrite !pk_cdiv. apply Nat.mul_le_mono_l, cdiv_mono, Nat.mul_le_mono_l, H. Qed.
Section len.
Context (pf : platform).
Lemma copy_bits d m d' : cg_copy pf d m = Ok d' -> core_bits d' = core_bits d.
Proof. destruct m as [[f t] n]. destruct d as [l|]; [|done]. intros H. apply copy_outside in H as (m & -> & Hm & _). exact Hm. Qed.
Lemma copies_bits ms : forall d d', rfold (cg_copy pf) ms d = Ok d' -> core_bits d' = core_bits d.
Proof. induction ms as [|m ms IH]; intros d d' H; cbn [rfold] in H; [by injection H as <-|]. rinv H. apply IH in H. rewrite H. by eapply copy_bits. Qed.
Lemma put_bits d p w x d' : cg_put pf d p w x = Ok d' -> core_bits d' = core_bits d.
Proof.
  unfold cg_put, write_int. destruct d as [l|]; [|done]. intros H. rinv H. injection H as <-. apply write_raw_inv in E as (-> & Hl & _). cbn. by apply wrbits_length.
Qed.
Lemma insert_bits d i x w n d' : cg_insert pf d i x w n = Ok d' ->
  core_bits d' = if cdiv (w * n) 64 <? cdiv (w * (n + 2)) 64 then 64 * cdiv (w * (n + 2)) 64 else core_bits d.
Proof.
  unfold cg_insert. cbv zeta. destruct (n <? i); [done|]. destruct (Nat.ltb_spec (cdiv (w * n) 64) (cdiv (w * (n + 2)) 64)) as [Hlt|_]; cbn [mbind res_bind]; intros H.
  - rinv H. apply put_bits in H. apply copies_bits in E. rewrite H, E. cbn [core_bits]. rewrite wrbits_length; rewrite ?rbits_length, ?replicate_length; lia.
  - rinv H. apply put_bits in H. apply copies_bits in E. congruence.
Qed.
Lemma erase_bits d i w n d' : cg_erase pf d i w n = Ok d' -> core_bits d' = core_bits d.
Proof.
  unfold cg_erase. destruct (n <? i); [done|]. intros H. rinv H. apply copies_bits in E.
  assert (Hnm : cdiv (w * (n - 1)) 64 <= cdiv (w * n) 64) by (apply cdiv_mono, Nat.mul_le_mono_l; lia).
  rewrite (proj2 (Nat.ltb_ge _ _) Hnm), andb_false_r in H. injection H as <-. done.
Qed.
Lemma carry_length ws : forall hi, length (border_carry ws hi) = length ws.
Proof. induction ws as [|w ws IH]; intros hi; cbn [border_carry length]; [done|]. by rewrite IH. Qed.
Lemma shift_length ws : length (border_shift ws) = length ws.
Proof. induction ws as [|w ws IH]; cbn [border_shift length]; [done|]. by rewrite IH. Qed.
Lemma binsert_length ws ge size ws' : border_insert ws ge size = Ok ws' -> length ws' = length ws.
Proof.
  unfold border_insert. generalize (ge / 64) as g. intros g. destruct (Nat.ltb_spec (length ws) size) as [|Hs]; [done|]. intros H. rinv H. cbv zeta in H. injection H as <-.
  assert (Hg : g < length ws) by (destruct (ws !! g) eqn:E'; [by eapply lookup_lt_Some|done]).
  rewrite app_length. cbn [length]. rewrite app_length, carry_length, !take_length, !drop_length. lia.
Qed.
Lemma bdelete_length ws ge size ws' : border_delete ws ge size = Ok ws' -> length ws' = length ws.
Proof.
  unfold border_delete. generalize (ge / 64) as g. intros g. destruct (Nat.ltb_spec (length ws) size) as [|Hs]; [done|]. cbv zeta. intros H. rinv H.
  assert (Hg : g < length ws) by (destruct (ws !! g) eqn:E'; [by eapply lookup_lt_Some|done]).
  rinv H. destruct a0 as [ws1 cur]. assert (L1 : length ws1 = length ws).
  { destruct (ge mod 64 =? 0); [|by injection E0 as <- <-]. destruct g as [|g']; [done|]. rinv E0. injection E0 as <- <-. by rewrite insert_length. }
  rinv H. injection H as <-. rewrite app_length. cbn [length]. rewrite app_length, shift_length, !take_length, !drop_length. lia.
Qed.
Lemma border_words n bpg : (n <= 255)%N -> bpg <= 255 -> 64 * kv_border_words n bpg = packed 64 (N.to_nat n + 1 + bpg) 1.
Proof.
  intros Hn Hb. rewrite pk_cdiv. unfold kv_border_words. do 2 f_equal. unfold u32. rewrite N.mod_small by (change (2^32)%N with 4294967296%N; lia). lia.
Qed.
End len.

Section inv.
Context (pf : platform) (er : Prop).
Section group.
Context (bpg q v : nat).
Hypothesis Hbpg : bpg <= 255.
Definition gG (g : kvgroup) : Prop := g = kv_new \/ (1 <= g_size g <= 255)%N /\ group_mem er bpg q v g.

Lemma room_insert w n d i x d' : n <= 254 -> room er w n d -> cg_insert pf d i x w n = Ok d' -> room er w (n + 1) d'.
Proof.
  intros Hn Hr H. apply insert_bits in H. unfold room in *. rewrite H. replace (n + 1 + 1) with (n + 2) by lia. rewrite !pk_cdiv in *.
  pose proof (cdiv_mono (w * n) (w * (n + 1)) ltac:(apply Nat.mul_le_mono_l; lia)). pose proof (cdiv_mono (w * (n + 1)) (w * (n + 2)) ltac:(apply Nat.mul_le_mono_l; lia)).
  destruct (Nat.ltb_spec (cdiv (w * n) 64) (cdiv (w * (n + 2)) 64)) as [|Hge]; [by left|]. assert (E : cdiv (w * (n + 2)) 64 = cdiv (w * (n + 1)) 64) by lia. by rewrite E.
Qed.
Lemma room_erase w n d i d' : er -> 1 <= n <= 255 -> room er w n d -> cg_erase pf d i w n = Ok d' -> room er w (n - 1) d'.
Proof.
  intros He Hn Hr H. apply erase_bits in H. unfold room in *. rewrite H. replace (n - 1 + 1) with n by lia. right. split; [done|].
  pose proof (pk_mono n (n + 1) w ltac:(lia)). pose proof (pk_mono (n + 1) 256 w ltac:(lia)). destruct Hr as [Hr|[_ Hr]]; lia.
Qed.
Lemma init_mem g : group_mem er bpg q v (kv_init g bpg q v).
Proof.
  unfold group_mem, kv_init, border_bits, room. cbn [g_size g_keys g_vals g_border core_bits cg_init]. rewrite !replicate_length. split; [|split; left].
  - unfold border_init. rewrite app_length, replicate_length. cbn [length]. pose proof (cdiv_ge (bpg + 1) 64 ltac:(lia)). rewrite pk_cdiv. change (N.to_nat 0) with 0.
    rewrite Nat.mul_1_l. replace (0 + 1 + bpg) with (bpg + 1) by lia. lia.
  - rewrite pk_cdiv. change (N.to_nat 0) with 0. by rewrite Nat.add_0_l, Nat.mul_1_r.
  - rewrite pk_cdiv. change (N.to_nat 0) with 0. by rewrite Nat.add_0_l, Nat.mul_1_r.
Qed.
Lemma push_mem g i k x g' : (g_size g <= 254)%N -> group_mem er bpg q v g -> kv_push pf g bpg i k q x v = Ok g' -> gG g' /\ g_size g' = (g_size g + 1)%N.
Proof.
  intros Hn (Hb & Hk & Hv) H. unfold kv_push in H. rinv H. rinv H. rinv H. destruct (g_border g) as [ws|] eqn:Eb; [|done].
  cbv zeta in H. rinv H. injection H as <-. cbn [g_size].
  assert (Eu : u32 (g_size g + 1) = (g_size g + 1)%N) by (unfold u32; apply N.mod_small; change (2^32)%N with 4294967296%N; lia).
  rewrite Eu in *. split; [|done]. right. cbn [g_size]. split; [lia|].
  unfold group_mem, border_bits. cbn [g_size g_keys g_vals g_border]. replace (N.to_nat (g_size g + 1)) with (N.to_nat (g_size g) + 1) by lia.
  split; [|split; [eapply room_insert; [lia|exact Hk|done]|eapply room_insert; [lia|exact Hv|done]]].
  apply binsert_length in E2. unfold border_bits in Hb. rewrite Eb in Hb. rewrite <-(border_words (g_size g)) in Hb by lia.
  replace (N.to_nat (g_size g) + 1 + 1 + bpg) with (N.to_nat (g_size g + 1) + 1 + bpg) by lia. rewrite <-border_words by lia.
  assert (Hl : length ws = kv_border_words (g_size g) bpg) by lia. rewrite E2. f_equal.
  assert (Ew : cdiv (N.to_nat (u32 (g_size g + 1 + N.of_nat bpg))) 64 = kv_border_words (g_size g) bpg) by done. rewrite Ew.
  destruct (Nat.ltb_spec (kv_border_words (g_size g) bpg) (kv_border_words (g_size g + 1) bpg)) as [Hlt|Hge].
  - rewrite app_length, take_length, Hl. cbn [length].
    assert (kv_border_words (g_size g + 1) bpg <= kv_border_words (g_size g) bpg + 1); [|lia].
    pose proof (border_words (g_size g) bpg ltac:(lia) Hbpg) as P1. pose proof (border_words (g_size g + 1) bpg ltac:(lia) Hbpg) as P2. rewrite pk_cdiv in P1, P2.
    replace (N.to_nat (g_size g + 1) + 1 + bpg) with (N.to_nat (g_size g) + 1 + bpg + 1) in P2 by lia. revert P1 P2. generalize (N.to_nat (g_size g) + 1 + bpg). intros z P1 P2.
    assert (cdiv (1 * (z + 1)) 64 <= cdiv (1 * z) 64 + 1); [|lia]. unfold cdiv. transitivity ((1 * z + 64 - 1 + 1 * 64) / 64); [apply Nat.div_le_mono; lia|].
    rewrite Nat.div_add by lia. lia.
  - rewrite Hl. pose proof (border_words (g_size g) bpg ltac:(lia) Hbpg) as P1. pose proof (border_words (g_size g + 1) bpg ltac:(lia) Hbpg) as P2.
    pose proof (pk_mono (N.to_nat (g_size g) + 1 + bpg) (N.to_nat (g_size g + 1) + 1 + bpg) 1 ltac:(lia)). lia.
Qed.
Lemma erase_mem g i p g' : er -> gG g -> kv_erase pf g bpg i p q v = Ok g' -> gG (if kv_empty g' then kv_clear g' else g').
Proof.
  intros He [->|[Hn (Hb & Hk & Hv)]] H; unfold kv_erase in H.
  { exfalso. revert H. destruct i; cbn; done. }
  rinv H. rinv H. rinv H. rinv H. destruct (g_border g) as [ws|] eqn:Eb; [|done]. cbv zeta in H. rinv H.
  assert (Eu : u32 (g_size g + 2^32 - 1) = (g_size g - 1)%N).
  { unfold u32. replace (g_size g + 2^32 - 1)%N with (g_size g - 1 + 1 * 2^32)%N by lia. rewrite N.mod_add by done. apply N.mod_small. change (2^32)%N with 4294967296%N. lia. }
  rewrite Eu in H. injection H as <-. unfold kv_empty. cbn [g_size]. destruct (N.eqb_spec (g_size g - 1) 0) as [|Hne]; [by left|]. right. cbn [g_size]. split; [lia|].
  unfold group_mem, border_bits. cbn [g_size g_keys g_vals g_border]. replace (N.to_nat (g_size g - 1)) with (N.to_nat (g_size g) - 1) by lia.
  split; [|split; [eapply room_erase; [done|lia|exact Hk|done]|eapply room_erase; [done|lia|exact Hv|done]]].
  apply bdelete_length in E3. unfold border_bits in Hb. rewrite Eb in Hb.
  replace (N.to_nat (g_size g) - 1 + 1 + bpg) with (N.to_nat (g_size g - 1) + 1 + bpg) by lia. rewrite <-border_words by lia. f_equal.
  pose proof (border_words (g_size g) bpg ltac:(lia) Hbpg) as P1. pose proof (border_words (g_size g - 1) bpg ltac:(lia) Hbpg) as P2.
  pose proof (pk_mono (N.to_nat (g_size g - 1) + 1 + bpg) (N.to_nat (g_size g) + 1 + bpg) 1 ltac:(lia)).
  destruct (Nat.ltb_spec (kv_border_words (g_size g - 1) bpg) (kv_border_words (g_size g) bpg)) as [Hlt|Hge]; [rewrite take_length|]; lia.
Qed.
Lemma write_mem g i p x g' : gG g -> kv_write_value pf g i p x v = Ok g' -> gG g'.
Proof.
  intros Hg H. unfold kv_write_value in H. rinv H. rinv H. injection H as <-. destruct Hg as [->|[Hn (Hb & Hk & Hv)]]; [done|].
  right. cbn [g_size]. split; [done|]. unfold group_mem, border_bits in *. cbn [g_size g_keys g_vals g_border]. split; [done|]. split; [done|].
  unfold room in *. by rewrite (put_bits _ _ _ _ _ _ E0).
Qed.
End group.
Section table.
Context (c : gcfg).
Definition gI (t : gtable) : Prop :=
  gbpg t <= 255 /\ match gt_groups t with None => True | Some gs => Forall (gG (gbpg t) (gqw c t) (gvw t)) gs end.

Lemma alloc_mem t n t' : gbpg t <= 255 -> g_alloc t n = Ok t' -> gI t'.
Proof.
  intros Hb H. unfold g_alloc in H. rinv H. rinv H. injection H as <-. split; [done|]. cbn [gt_groups]. apply Forall_replicate. by left.
Qed.
Lemma group_in t bk g : g_group t bk = Ok g -> exists gs, gt_groups t = Some gs /\ g ∈ gs.
Proof.
  unfold g_group, g_at. intros H. rinv H. destruct (gt_groups t) as [gs|]; [|done]. destruct (_ <? _)%N; [|done]. exists gs. split; [done|].
  destruct (gs !! N.to_nat a) eqn:El; [|done]. injection H as <-. by eapply elem_of_list_lookup_2.
Qed.
Lemma group_mem_in t bk g : gI t -> g_group t bk = Ok g -> gG (gbpg t) (gqw c t) (gvw t) g.
Proof. intros [_ HI] (gs & E & Hin)%group_in. rewrite E in HI. by apply (proj1 (Forall_forall _ _) HI). Qed.
Lemma set_mem t bk g n : gI t -> gG (gbpg t) (gqw c t) (gvw t) g -> gI (g_set (g_set_n t n) bk g).
Proof. intros [Hb HI] Hg. split; [done|]. cbn. destruct (gt_groups t) as [gs|]; [|done]. cbn. by apply Forall_insert. Qed.
Lemma set_mem0 t bk g : gI t -> gG (gbpg t) (gqw c t) (gvw t) g -> gI (g_set t bk g).
Proof. intros HI Hg. by apply (set_mem t bk g (gt_n t)). Qed.
Lemma rfold_pres {A B} (P : A -> Prop) (f : A -> B -> res A) l : (forall a b a', P a -> f a b = Ok a' -> P a') -> forall a a', P a -> rfold f l a = Ok a' -> P a'.
Proof. intros Hf. induction l as [|b l IH]; intros a a' Ha H; cbn [rfold] in H; [by injection H as <-|]. rinv H. eapply IH; [|exact H]. by eapply Hf. Qed.
Lemma reserve_mem ins t n nkw t' : (forall t k v r, gI t -> ins t k v = Ok r -> gI (fst r)) -> gI t -> g_reserve_with pf c ins t n nkw = Ok t' -> gI t'.
Proof.
  intros Hi HI H. unfold g_reserve_with in H. cbv zeta in H. destruct (gt_b t =? 0)%N; [eapply alloc_mem; [|exact H]; apply HI|].
  rinv H. rinv H. apply alloc_mem in E0; [|cbn; lia]. rinv H. destruct (gt_groups t) as [gs|]; [|done]. destruct (_ <? _)%N; [done|].
  revert E0 H. apply rfold_pres. intros tmp [gi g] tmp' Ht H. unfold g_rehash_group in H. destruct (kv_empty g); [by injection H as <-|].
  revert Ht H. apply rfold_pres. clear tmp tmp'. intros tmp r tmp' Ht H. unfold g_rehash_bucket in H. rinv H. revert Ht H. apply rfold_pres.
  clear tmp tmp'. intros tmp j tmp' Ht H. cbn beta in H. rinv H. rinv H. rinv H. injection H as <-. by eapply Hi.
Qed.
Lemma insert_mem fuel : forall t k v r, gI t -> g_find_or_insert pf c fuel t k v = Ok r -> gI (fst r).
Proof.
  induction fuel as [|f IH]; intros t k v r HI H; [done|]. cbn [g_find_or_insert] in H. rinv H. rename a into t1.
  assert (HI1 : gI t1) by (destruct (gt_b t =? 0)%N; [eapply alloc_mem; [|exact E]; apply HI|by injection E as <-]). clear E HI t.
  rinv H. destruct a as [q bk]. rinv H. rename a into g. rinv H. rinv H. destruct a0 as [p|]; [injection H as <-; exact HI1|].
  destruct (N.eqb_spec (g_size g) g_max_group) as [_|Hne].
  - rinv H. rinv H. apply IH in H; [done|]. eapply reserve_mem; [|exact HI1|exact E4]. exact IH.
  - cbv zeta in H. rinv H. injection H as <-. cbn [fst]. apply set_mem; [done|]. pose proof (group_mem_in _ _ _ HI1 E0) as Hg.
    assert (Hm : (g_size (if kv_initialized g then g else kv_init g (gbpg t1) (gqw c t1) (gvw t1)) <= 254)%N
      /\ group_mem er (gbpg t1) (gqw c t1) (gvw t1) (if kv_initialized g then g else kv_init g (gbpg t1) (gqw c t1) (gvw t1))).
    { destruct Hg as [->|[Hn Hg]]; [split; [cbn; lia|apply init_mem, HI1]|]. assert (kv_initialized g = true) as ->; [|split; [unfold g_max_group in Hne; lia|done]].
      unfold kv_initialized. destruct (g_border g) eqn:Eb; [done|]. destruct Hg as [Hb _]. unfold border_bits in Hb. rewrite Eb, pk_cdiv in Hb.
      pose proof (cdiv_ge (1 * (N.to_nat (g_size g) + 1 + gbpg t1)) 64 ltac:(lia)). lia. }
    destruct Hm as [Hn Hm]. destruct HI1 as [Hb _]. by destruct (push_mem _ _ _ Hb _ _ _ _ _ Hn Hm E3).
Qed.
Lemma erase_at_mem t x r : er -> gI t -> g_erase_at pf c t x = Ok r -> gI (fst r).
Proof.
  destruct x as [bk pos]. intros He HI H. unfold g_erase_at in H. destruct (pos =? ones64)%N; [injection H as <-; done|]. rinv H. rinv H. cbv zeta in H. injection H as <-. cbn [fst].
  apply set_mem; [done|]. eapply erase_mem; [apply HI|done| |done]. by eapply group_mem_in.
Qed.
Lemma erase_key_mem t k r : er -> gI t -> g_erase pf c t k = Ok r -> gI (fst r).
Proof. intros He HI H. unfold g_erase in H. destruct (gt_b t =? 0)%N; [injection H as <-; done|]. rinv H. destruct a as [bk p]. by eapply erase_at_mem. Qed.
Lemma write_value_mem t x v t' : gI t -> g_write_value pf t x v = Ok t' -> gI t'.
Proof.
  destruct x as [bk pos]. intros HI H. unfold g_write_value in H. destruct (_ =? _)%N; [done|]. rinv H. rinv H. injection H as <-. apply set_mem0; [done|].
  eapply write_mem; [|done]. by eapply group_mem_in.
Qed.
Lemma run_mem fuel ops : (no_erase ops \/ er) -> forall t t' rs, gI t -> m_run_ops (g_impl pf c fuel) t ops = Ok (t', rs) -> gI t'.
Proof.
  intros Hne. assert (Hne' : forall o k, o ∈ ops -> o = OpErase k \/ o = OpEraseIt k -> er).
  { destruct Hne as [Hn|]; [|done]. intros o k Hin [->| ->]; by destruct (Hn k). }
  clear Hne. induction ops as [|o ops IH]; intros t t' rs HI H; cbn [m_run_ops] in H; [injection H as <- <-; done|].
  rinv H. destruct a as [t1 o1]. rinv H. destruct a as [t2 rs2]. injection H as <- <-. eapply IH; [|  |exact E0].
  { intros o' k' Hin. apply Hne'. by constructor. }
  clear IH E0. specialize (Hne' o). assert (Ho : forall k, o = OpErase k \/ o = OpEraseIt k -> er) by (intros k; apply Hne'; constructor). clear Hne'.
  destruct o; cbn [m_run_op g_impl i_find i_view i_insert i_write i_erase i_erase_at i_size i_reserve i_clear] in E;
    try (rinv E; rinv E; injection E as <- <-; exact HI).
  - rinv E. destruct a as [t3 x]. rinv E. injection E as <- <-. by apply (insert_mem _ _ _ _ _ HI) in E0.
  - rinv E. destruct a as [t3 x]. rinv E. injection E as <- <-. by apply (insert_mem _ _ _ _ _ HI) in E0.
  - rinv E. destruct a as [t3 x]. rinv E. injection E as <- <-. apply (insert_mem _ _ _ _ _ HI) in E0. by eapply write_value_mem.
  - rinv E. destruct a as [t3 x]. injection E as <- <-. apply erase_key_mem in E0; [done|by eapply Ho; left|done].
  - rinv E. rinv E. destruct a0 as [t3 y]. injection E as <- <-. apply erase_at_mem in E1; [done|by eapply Ho; right|done].
  - by injection E as <- <-.
  - by injection E as <- <-.
  - rinv E. injection E as <- <-. eapply reserve_mem; [|exact HI|exact E0]. apply insert_mem.
  - by injection E as <- <-.
  - rinv E. injection E as <- <-. unfold g_clear in E0. rinv E0. destruct (gt_groups t); [destruct (_ <? _)%N; [done|]|]; injection E0 as <-; (split; [apply HI|done]).
Qed.
End table.
End inv.

(** ** The theorems *)
Definition group_blocks (t : gtable) : list kvgroup := match gt_groups t with Some gs => gs | None => [] end.
(** Without erase every group holds exactly the words for its bit vector of borders and for one element more than it has; a group
    without elements holds nothing. *)
Theorem C114_exact : forall pf c fuel kw vw ops t rs, no_erase ops -> m_run_ops (g_impl pf c fuel) (g_new kw vw) ops = Ok (t, rs) ->
  forall g, g ∈ group_blocks t -> let n := N.to_nat (g_size g) in
  (n = 0 -> g = kv_new)
  /\ (0 < n -> n <= 255 /\ border_bits g = packed 64 (n + 1 + gbpg t) 1
       /\ core_bits (g_keys g) = packed 64 (n + 1) (gqw c t) /\ core_bits (g_vals g) = packed 64 (n + 1) (gvw t)).
Proof.
  intros pf c fuel kw vw ops t rs Hne H g Hg. assert (HI : gI False c (g_new kw vw)) by (split; [cbn; lia|done]).
  pose proof (run_mem pf False c fuel ops (or_introl Hne) _ _ _ HI H) as [_ HF]. unfold group_blocks in Hg. destruct (gt_groups t) as [gs|]; [|by apply elem_of_nil in Hg].
  apply (proj1 (Forall_forall _ _) HF) in Hg. cbv zeta. destruct Hg as [->|[Hn (Hb & Hk & Hv)]].
  - split; [done|]. change (N.to_nat (g_size kv_new)) with 0. lia.
  - split; [lia|]. intros _. split; [lia|]. split; [done|]. destruct Hk as [Hk|[[] _]], Hv as [Hv|[[] _]]. done.
Qed.
Print Assumptions C114_exact.
(** With erase the borders stay exact; the blocks of keys and values have at least that room and at most that of a full group. *)
Theorem C114_bounds : forall pf c fuel kw vw ops t rs, m_run_ops (g_impl pf c fuel) (g_new kw vw) ops = Ok (t, rs) ->
  forall g, g ∈ group_blocks t -> let n := N.to_nat (g_size g) in
  (n = 0 -> g = kv_new)
  /\ (0 < n -> n <= 255 /\ border_bits g = packed 64 (n + 1 + gbpg t) 1
       /\ packed 64 (n + 1) (gqw c t) <= core_bits (g_keys g) <= packed 64 256 (gqw c t)
       /\ packed 64 (n + 1) (gvw t) <= core_bits (g_vals g) <= packed 64 256 (gvw t)).
Proof.
  intros pf c fuel kw vw ops t rs H g Hg. assert (HI : gI True c (g_new kw vw)) by (split; [cbn; lia|done]).
  pose proof (run_mem pf True c fuel ops (or_intror I) _ _ _ HI H) as [_ HF]. unfold group_blocks in Hg. destruct (gt_groups t) as [gs|]; [|by apply elem_of_nil in Hg].
  apply (proj1 (Forall_forall _ _) HF) in Hg. cbv zeta. destruct Hg as [->|[Hn (Hb & Hk & Hv)]].
  - split; [done|]. change (N.to_nat (g_size kv_new)) with 0. lia.
  - split; [lia|]. intros _. split; [lia|]. split; [done|].
    assert (HR : forall w d, room True w (N.to_nat (g_size g)) d -> packed 64 (N.to_nat (g_size g) + 1) w <= core_bits d <= packed 64 256 w).
    { intros w d [E|[_ E]]; [|done]. rewrite E. split; [done|apply pk_mono; lia]. }
    split; by apply HR.
Qed.
Print Assumptions C114_bounds.

(** The whole table: with n elements, quotients of q bits and values of v bits the groups hold at least n*(q + v + 1) bits, and without
    erase at most the same plus q + v + 1 bits, the borders of its buckets and three words for each used group. *)
Definition group_bits (g : kvgroup) : nat := border_bits g + core_bits (g_keys g) + core_bits (g_vals g).
Definition gtotal (t : gtable) : nat := sum_list_with group_bits (group_blocks t).
Definition used_groups (t : gtable) : nat := length (List.filter (fun g => negb (g_size g =? 0)%N) (group_blocks t)).

Lemma group_sizes pf c kw vw bmin t m : g_reached pf c kw vw bmin t m -> sum_list_with (fun g => N.to_nat (g_size g)) (group_blocks t) = size m.
Proof.
  intros (OK & HR)%g_reached_rep. destruct HR as [[(_ & _ & _ & _ & Hz & _) ->]|(ess & H & <-)]; unfold group_blocks.
  { rewrite Hz. by rewrite map_size_empty. }
  rewrite emap_size by apply H. pose proof (gr_bpg _ _ _ _ _ _ _ _ H) as Hbp. pose proof (gr_len _ _ _ _ _ _ _ _ H) as Hlen.
  destruct (gr_groups _ _ _ _ _ _ _ _ H) as (gs & -> & Hl & Hg). unfold gbpg in *.
  assert (Hle : length ess <= length gs * N.to_nat (gt_bpg t)).
  { enough (N.of_nat (length ess) <= N.of_nat (length gs) * gt_bpg t)%N by lia. rewrite Hlen, Hl. pose proof (N.mul_succ_div_gt (2 ^ gt_b t) (gt_bpg t) ltac:(lia)). lia. }
  rewrite <-(chunks_concat _ _ _ Hle). clear - Hg.
  assert (Hgen : forall o, (forall i g, gs !! i = Some g -> grepr True pf c kw vw (gt_b t) g (chunk (N.to_nat (gt_bpg t)) ess (o + i))) ->
    sum_list_with (fun g => N.to_nat (g_size g)) gs = length (concat (map (fun i => concat (chunk (N.to_nat (gt_bpg t)) ess i)) (seq o (length gs))))); [|by apply Hgen].
  clear Hg. induction gs as [|g gs IH]; intros o Hg; [done|]. cbn [sum_list_with length seq map concat]. rewrite app_length, (IH (S o)).
  - f_equal. specialize (Hg 0 g eq_refl). rewrite Nat.add_0_r in Hg. destruct Hg as (_ & _ & [[-> ->]|(_ & -> & _)]); [done|].
    by rewrite Nat2N.id, qbss_concat, fmap_length.
  - intros i g' Hi. replace (S o + i) with (o + S i) by lia. by apply Hg.
Qed.
Lemma packed_le n w : n * w <= packed 64 n w <= n * w + 63.
Proof.
  unfold packed. pose proof (Nat.div_mod (n * w + 64 - 1) 64 ltac:(lia)) as E. pose proof (Nat.mod_upper_bound (n * w + 64 - 1) 64 ltac:(lia)).
  revert E. generalize (64 * ((n * w + 64 - 1) / 64)) ((n * w + 64 - 1) mod 64) (n * w). lia.
Qed.
Theorem C114_total : forall pf c kw vw bmin fuel ops t rs,
  group_ok c kw vw bmin -> 64 <= fuel -> valid_ops kw vw bmin (zbmax (gc_hash c) kw) ops -> m_run_ops (g_impl pf c fuel) (g_new kw vw) ops = Ok (t, rs) ->
  let w := gqw c t + gvw t + 1 in let m := fst (spec_run ∅ ops) in
  size m * w <= gtotal t /\ used_groups t <= size m
  /\ (no_erase ops -> gtotal t <= size m * w + used_groups t * (w + gbpg t + 3 * 63)).
Proof.
  intros pf c kw vw bmin fuel ops t rs OK Hf Hv E w m.
  pose proof (group_sizes pf c kw vw bmin t m) as Hs. rewrite <-Hs by (exists fuel, ops, rs; done). clear Hs m. unfold gtotal, used_groups.
  split; [|split].
  - pose proof (C114_bounds _ _ _ _ _ _ _ _ E) as HB. clear - HB. induction (group_blocks t) as [|g gs IH]; [cbn; lia|].
    specialize (IH (fun g' Hg => HB g' (elem_of_list_further _ _ _ Hg))). specialize (HB g (elem_of_list_here _ _)). cbv zeta in HB. cbn [sum_list_with].
    destruct HB as [_ HB]. unfold group_bits at 1. rewrite Nat.mul_add_distr_r. revert IH HB. generalize (N.to_nat (g_size g)). intros n IH HB.
    destruct (Nat.eq_dec n 0) as [->|Hn]; [lia|]. destruct (HB ltac:(lia)) as (_ & Hb & [Hk _] & [Hw _]). rewrite Hb. clear HB Hb.
    pose proof (packed_le (n + 1 + gbpg t) 1) as [P1 _]. pose proof (packed_le (n + 1) (gqw c t)) as [P2 _]. pose proof (packed_le (n + 1) (gvw t)) as [P3 _].
    unfold w in *. revert P1 P2 P3 Hk Hw IH. generalize (packed 64 (n + 1 + gbpg t) 1) (packed 64 (n + 1) (gqw c t)) (packed 64 (n + 1) (gvw t)) (gqw c t) (gvw t) (gbpg t).
    intros a b d q v bp. rewrite !Nat.mul_add_distr_r, !Nat.mul_add_distr_l. generalize (n * q) (n * v). lia.
  - clear. induction (group_blocks t) as [|g gs IH]; [cbn; lia|]. cbn [sum_list_with List.filter]. destruct (N.eqb_spec (g_size g) 0); cbn [negb length]; lia.
  - intros Hne. pose proof (C114_exact _ _ _ _ _ _ _ _ Hne E) as HB. clear - HB. induction (group_blocks t) as [|g gs IH]; [cbn; lia|].
    specialize (IH (fun g' Hg => HB g' (elem_of_list_further _ _ _ Hg))). specialize (HB g (elem_of_list_here _ _)). cbv zeta in HB. cbn [sum_list_with List.filter].
    destruct (N.eqb_spec (g_size g) 0) as [E0|E0]; cbn [negb length].
    + destruct HB as [HB _]. rewrite HB by lia. rewrite Nat.mul_add_distr_r. change (group_bits kv_new) with 0. lia.
    + destruct HB as [_ HB]. destruct (HB ltac:(lia)) as (_ & Hb & Hk & Hw). unfold group_bits at 1. rewrite Hb, Hk, Hw. clear HB Hb Hk Hw E0. revert IH. generalize (N.to_nat (g_size g)). intros n IH.
      pose proof (packed_le (n + 1 + gbpg t) 1) as [_ P1]. pose proof (packed_le (n + 1) (gqw c t)) as [_ P2]. pose proof (packed_le (n + 1) (gvw t)) as [_ P3].
      rewrite Nat.mul_add_distr_r. cbn [Nat.mul]. unfold w in *. revert P1 P2 P3 IH.
      generalize (packed 64 (n + 1 + gbpg t) 1) (packed 64 (n + 1) (gqw c t)) (packed 64 (n + 1) (gvw t)) (gqw c t) (gvw t) (gbpg t).
      intros a b d q v bp. rewrite !Nat.mul_add_distr_r, !Nat.mul_add_distr_l. generalize (n * q) (n * v).
      generalize (sum_list_with (λ g0, N.to_nat (g_size g0)) gs * (q + v + 1)) (length (List.filter (λ g0, negb (g_size g0 =? 0)%N) gs) * (q + v + 1 + bp + 3 * 63)). lia.
Qed.
Print Assumptions C114_total.

(** erase returns no memory: its blocks of keys and values keep their length until the group has no elements left.
    core_group::erase compares `oldblocksize < newblocksize` after removing an element, which never holds. *)
Theorem C114_erase_keeps : forall pf c t x t' y i g g', g_erase_at pf c t x = Ok (t', y) -> group_blocks t !! i = Some g -> group_blocks t' !! i = Some g' ->
  g' = kv_new \/ core_bits (g_keys g') = core_bits (g_keys g) /\ core_bits (g_vals g') = core_bits (g_vals g).
Proof.
  intros pf c t [bk pos] t' y i g g' H Hi Hi'. unfold g_erase_at in H. destruct (pos =? ones64)%N.
  { injection H as <- <-. rewrite Hi in Hi'. injection Hi' as <-. by right. }
  rinv H. rinv H. cbv zeta in H. injection H as <- <-. rename a into g0, a0 into g1.
  unfold group_blocks in *. cbn [gt_groups g_set g_set_n] in Hi'. unfold g_group, g_at in E. rinv E. destruct (gt_groups t) as [gs|]; [|done].
  cbn [fmap option_fmap option_map] in Hi'. unfold g_div in E1. destruct (gt_bpg t =? 0)%N; [done|]. injection E1 as <-.
  destruct (_ <? _)%N; [|done]. destruct (gs !! N.to_nat (bk / gt_bpg t)) as [gx|] eqn:Ex; [|done]. injection E as ->.
  destruct (Nat.eq_dec i (N.to_nat (bk / gt_bpg t))) as [->|Hd].
  2: { rewrite list_lookup_insert_ne in Hi' by done. rewrite Hi in Hi'. injection Hi' as <-. by right. }
  rewrite list_lookup_insert in Hi' by (by eapply lookup_lt_Some). rewrite Hi in Ex. injection Ex as ->. injection Hi' as <-.
  destruct (kv_empty g1); [by left|]. right. unfold kv_erase in E0. rinv E0. rinv E0. rinv E0. rinv E0. destruct (g_border g0); [|done]. cbv zeta in E0. rinv E0.
  injection E0 as <-. cbn [g_keys g_vals]. split; by eapply erase_bits.
Qed.
Print Assumptions C114_erase_keeps.

(** So C114_exact is false with erase, and so is the upper bound of C114_total: 8 elements in one group, 7 of them erased. *)
Definition ex_gm_keys : list N := [79; 190; 264; 375; 486; 560; 671; 856]%N.
Definition ex_gm_ops : list op := ((fun k => OpInsert k k) <$> ex_gm_keys) ++ (OpErase <$> take 7 ex_gm_keys).
Definition ex_gm_tab (ops : list op) : gtable := match m_run_ops (g_impl strict_pf ex_gx 64) (g_new 20 64) ops with Ok (t, _) => t | _ => g_new 20 64 end.
Theorem C114_erase_refuted : exists pf c kw vw bmin ops t rs g, group_ok c kw vw bmin /\ valid_ops kw vw bmin (zbmax (gc_hash c) kw) ops
  /\ m_run_ops (g_impl pf c 64) (g_new kw vw) ops = Ok (t, rs) /\ g ∈ group_blocks t
  /\ 0 < N.to_nat (g_size g) /\ packed 64 (N.to_nat (g_size g) + 1) (gvw t) < core_bits (g_vals g)
  /\ (let w := gqw c t + gvw t + 1 in size (fst (spec_run ∅ ops)) * w + used_groups t * (w + gbpg t + 3 * 63) < gtotal t).
Proof.
  exists strict_pf, ex_gx, 20%N, 64%N, 1%N, ex_gm_ops, (ex_gm_tab ex_gm_ops), (snd (spec_run ∅ ex_gm_ops)).
  exists (nth 1 (group_blocks (ex_gm_tab ex_gm_ops)) kv_new). split; [apply gx_ok; lia|]. split; [valid_solve|]. split; [vm_compute; reflexivity|].
  split; [apply elem_of_list_In, nth_In, Nat.ltb_lt; vm_compute; reflexivity|].
  split; [apply Nat.ltb_lt; vm_compute; reflexivity|]. split; [apply Nat.ltb_lt; vm_compute; reflexivity|]. apply Nat.ltb_lt. vm_compute. reflexivity.
Qed.
Print Assumptions C114_erase_refuted.
Example C114_case : group_ok ex_gx 20 64 1 /\ valid_ops 20 64 1 (zbmax (gc_hash ex_gx) 20) (take 8 ex_gm_ops) /\ no_erase (take 8 ex_gm_ops)
  /\ (let t := ex_gm_tab (take 8 ex_gm_ops) in (map (fun g => (g_size g, core_bits (g_keys g), core_bits (g_vals g))) (group_blocks t), gqw ex_gx t, gtotal t, used_groups t)) = ([(0%N, 0, 0); (8%N, 192, 576); (0%N, 0, 0)], 17, 832, 1).
Proof.
  split; [apply gx_ok; lia|]. split; [valid_solve|]. split.
  - intros k. split; intros Hin%elem_of_list_In; cbn in Hin; intuition discriminate.
  - vm_compute. reflexivity.
Qed.
