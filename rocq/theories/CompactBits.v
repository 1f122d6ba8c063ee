(** One bucket of compact_chaining_map: n quotients of q bits followed by n values of v bits in one block. *)
From Verif Require Export CompactModel BucketProofs HashChain.
#[local] Open Scope nat_scope.

Section moves.
Context (pf : platform) (sb : nat).
Hypothesis Hsb : width_ok sb.
Hypothesis Hacc : sb = 64 \/ 8 <= slack pf.

Lemma sb_range : 8 <= sb <= 64.
Proof. unfold width_ok in Hsb. lia. Qed.
Lemma acc_touched (l : bits) pos w : 1 <= w <= 64 -> length l mod sb = 0 -> pos + w <= length l ->
  touched_end (pos / sb * sb) (pos mod sb) w <= length l + 8 * slack pf.
Proof.
  intros Hw Hl Hp. pose proof sb_range. pose proof (Nat.div_mod pos sb ltac:(lia)).
  pose proof (Nat.mod_upper_bound pos sb ltac:(lia)).
  destruct Hacc as [E|Hs].
  - rewrite E in *. etrans; [|apply Nat.le_add_r]. apply touched_end_aligned; lia.
  - etrans; [apply touched_end_le; lia|]. lia.
Qed.
Lemma sb_pos pos : pos / sb * sb + pos mod sb = pos.
Proof. pose proof sb_range. pose proof (Nat.div_mod pos sb ltac:(lia)). lia. Qed.

Lemma c_read_ok (l : bits) pos w x : 1 <= w <= 64 -> length l mod sb = 0 -> pos + w <= length l -> rdbits l pos w = nbits w x ->
  c_read pf sb (Some l) pos w = Ok (x mod 2^N.of_nat w)%N.
Proof.
  intros Hw Hl Hp Hx. unfold c_read, read_int. rewrite read_raw_ok by (by apply acc_touched). cbn [mbind res_bind].
  rewrite sb_pos, Hx. apply raw_val_nbits.
Qed.
Lemma c_write_ok (l : bits) pos w x : 1 <= w <= 64 -> length l mod sb = 0 -> pos + w <= length l ->
  c_write pf sb (Some l) pos w x = Ok (Some (wrbits l pos (nbits w x))).
Proof.
  intros Hw Hl Hp. unfold c_write. rewrite write_int_ok by (rewrite ?sb_pos; try apply acc_touched; done).
  cbn [mbind res_bind]. by rewrite sb_pos.
Qed.

Lemma moves_spec w : 1 <= w <= 64 -> forall ms (l : bits), length l mod sb = 0 ->
  (forall i f t, ms !! i = Some (f, t) -> f + w <= length l /\ t + w <= length l /\ exists x, rdbits l f w = nbits w x) ->
  (forall i j f t f' t', i < j -> ms !! i = Some (f, t) -> ms !! j = Some (f', t') ->
     (f' + w <= t \/ t + w <= f') /\ (t' + w <= t \/ t + w <= t')) ->
  exists l', rfold (c_move pf sb w) ms (Some l) = Ok (Some l') /\ length l' = length l
    /\ (forall i f t, ms !! i = Some (f, t) -> rdbits l' t w = rdbits l f w)
    /\ (forall p n, (forall i f t, ms !! i = Some (f, t) -> p + n <= t \/ t + w <= p) -> rdbits l' p n = rdbits l p n).
Proof.
  intros Hw. induction ms as [|[f t] ms IH]; intros l Hl Hin Hdis.
  { exists l. split; [done|]. split; [done|]. split; [by intros i f t Hi; rewrite lookup_nil in Hi|]. done. }
  destruct (Hin 0 f t) as (Hf & Ht & x & Hx); [done|].
  assert (Emv : c_move pf sb w (Some l) (f, t) = Ok (Some (wrbits l t (nbits w (x mod 2^N.of_nat w)%N)))).
  { unfold c_move. cbn [fst snd]. rewrite (c_read_ok l f w x) by done. cbn [mbind res_bind]. by rewrite c_write_ok. }
  cbn [rfold]. rewrite Emv. cbn [mbind res_bind].
  assert (Ex : nbits w (x mod 2^N.of_nat w)%N = nbits w x) by (unfold nbits; by rewrite bits_of_mod).
  rewrite Ex. set (l1 := wrbits l t (nbits w x)).
  assert (Hl1 : length l1 = length l) by (unfold l1; apply wrbits_length; rewrite nbits_length; lia).
  assert (Hoth : forall p n, p + n <= t \/ t + w <= p -> rdbits l1 p n = rdbits l p n).
  { intros p n Hp. unfold l1. apply rdbits_wrbits_other; rewrite nbits_length; lia. }
  destruct (IH l1) as (l' & -> & Hl' & Hm & Ho).
  - by rewrite Hl1.
  - intros i f' t' Hi. destruct (Hin (S i) f' t' Hi) as (Hf' & Ht' & y & Hy). rewrite Hl1. split; [done|]. split; [done|].
    exists y. rewrite Hoth; [done|]. destruct (Hdis 0 (S i) f t f' t') as [? _]; [lia|done|done|]. done.
  - intros i j f1 t1 f2 t2 Hij Hi Hj. apply (Hdis (S i) (S j) f1 t1 f2 t2); [lia|done|done].
  - exists l'. split; [done|]. split; [congruence|]. split.
    + intros [|i] f' t' Hi.
      * cbn in Hi. injection Hi as <- <-. rewrite Ho.
        -- unfold l1. pose proof (rdbits_wrbits_same l t (nbits w x)) as Hs. rewrite nbits_length in Hs. rewrite Hs by done. done.
        -- intros i f' t' Hi. destruct (Hdis 0 (S i) f t f' t') as [_ ?]; [lia|done|done|]. lia.
      * rewrite (Hm i f' t' Hi). apply Hoth. destruct (Hdis 0 (S i) f t f' t') as [? _]; [lia|done|done|]. done.
    + intros p n Hp. rewrite Ho; [|intros i f' t' Hi; by apply (Hp (S i) f' t')]. apply Hoth. by apply (Hp 0 f t).
Qed.

(** ** The layout *)
Lemma field_le i n w : i < n -> i * w + w <= n * w.
Proof. nia. Qed.
Context (q v : nat).
Hypothesis Hq : 1 <= q <= 64.
Hypothesis Hv : 1 <= v <= 64.
Lemma next_block n : (n + 1) * (q + v) = n * q + n * v + q + v.
Proof. nia. Qed.

(** The block of a bucket with quotients qs and values vs. *)
Record fields (l : bits) (qs vs : list N) : Prop := {
  fd_len : length vs = length qs;
  fd_block : length l = sb * cdiv (length qs * (q + v)) sb;
  fd_q : forall i x, qs !! i = Some x -> rdbits l (i * q) q = nbits q x;
  fd_v : forall i x, vs !! i = Some x -> rdbits l (length qs * q + i * v) v = nbits v x
}.
Lemma fields_enough l qs vs : fields l qs vs -> length qs * q + length qs * v <= length l.
Proof. intros H. rewrite (fd_block _ _ _ H). pose proof sb_range. pose proof (cdiv_ge (length qs * (q + v)) sb ltac:(lia)). nia. Qed.
Lemma fields_mod l qs vs : fields l qs vs -> length l mod sb = 0.
Proof. intros H. rewrite (fd_block _ _ _ H), Nat.mul_comm. apply Nat.mod_mul. pose proof sb_range. lia. Qed.

Definition small (w : nat) (xs : list N) : Prop := Forall (fun x => (x < 2^N.of_nat w)%N) xs.
Lemma small_mod w xs i x : small w xs -> xs !! i = Some x -> (x mod 2^N.of_nat w = x)%N.
Proof. intros H Hi. apply N.mod_small. by apply (Forall_lookup_1 _ _ _ _ H Hi). Qed.

Lemma fields_read_q l qs vs i x s : fields l qs vs -> small q qs -> qs !! i = Some x -> cs_data s = Some l ->
  c_read pf sb (cs_data s) (i * q) q = Ok x.
Proof.
  intros H Hs Hi ->. pose proof (fields_enough _ _ _ H). pose proof (lookup_lt_Some _ _ _ Hi).
  rewrite (c_read_ok l _ _ x); [by rewrite (small_mod _ _ _ _ Hs Hi)|done|by eapply fields_mod|nia|by eapply fd_q].
Qed.
Lemma fields_read_v l qs vs i x s : fields l qs vs -> small v vs -> vs !! i = Some x -> cs_data s = Some l ->
  cs_size s = N.of_nat (length qs) -> c_read pf sb (cs_data s) (N.to_nat (cs_size s) * q + i * v) v = Ok x.
Proof.
  intros H Hs Hi -> ->. pose proof (fields_enough _ _ _ H). pose proof (lookup_lt_Some _ _ _ Hi). pose proof (fd_len _ _ _ H).
  rewrite Nat2N.id.
  rewrite (c_read_ok l _ _ x); [by rewrite (small_mod _ _ _ _ Hs Hi)|done|by eapply fields_mod|nia|by eapply fd_v].
Qed.
(** Overwriting a value *)
Lemma fields_write_v l qs vs i x : fields l qs vs -> i < length qs ->
  exists l', c_write pf sb (Some l) (length qs * q + i * v) v x = Ok (Some l') /\ fields l' qs (<[i := x]> vs).
Proof.
  intros H Hi. pose proof (fields_enough _ _ _ H) as He. pose proof (fd_len _ _ _ H) as Hlen.
  eexists. split; [apply c_write_ok; [done|by eapply fields_mod|nia]|].
  assert (Hw : forall p n, p + n <= length qs * q + i * v \/ length qs * q + i * v + v <= p ->
    rdbits (wrbits l (length qs * q + i * v) (nbits v x)) p n = rdbits l p n).
  { intros p n Hp. apply rdbits_wrbits_other; rewrite nbits_length; [nia|done]. }
  constructor.
  - by rewrite insert_length.
  - rewrite wrbits_length by (rewrite nbits_length; nia). apply H.
  - intros j y Hj. rewrite Hw; [by eapply fd_q|]. left. pose proof (lookup_lt_Some _ _ _ Hj). nia.
  - intros j y Hj. apply list_lookup_insert_Some in Hj as [(-> & -> & _)|[Hne Hj]].
    + pose proof (rdbits_wrbits_same l (length qs * q + j * v) (nbits v y)) as Hs. rewrite nbits_length in Hs. apply Hs. nia.
    + rewrite Hw; [by eapply fd_v|]. destruct (decide (i < j)); nia.
Qed.

(** Growing by one element *)
Lemma cdiv_pos a : 0 < a -> 0 < cdiv a sb.
Proof. intros Ha. pose proof sb_range. pose proof (cdiv_ge a sb ltac:(lia)). nia. Qed.
Lemma cdiv_0 : cdiv 0 sb = 0.
Proof. pose proof sb_range. unfold cdiv. apply Nat.div_small. lia. Qed.
Lemma rdbits_take (l : bits) n p w : p + w <= n -> p + w <= length l -> rdbits (take n l) p w = rdbits l p w.
Proof.
  intros H1 H2. apply list_eq. intros i. rewrite !rdbits_lookup. case_decide; [|done]. by rewrite lookup_take by lia.
Qed.
Lemma rdbits_app_l (l1 l2 : bits) p w : p + w <= length l1 -> rdbits (l1 ++ l2) p w = rdbits l1 p w.
Proof.
  intros H1. apply list_eq. intros i. rewrite !rdbits_lookup. case_decide; [|done]. by rewrite lookup_app_l by lia.
Qed.
Lemma realloc_bits_length (l : bits) n : length (realloc_bits pf l n) = n.
Proof. unfold realloc_bits, fresh_bits. rewrite app_length, take_length, replicate_length. lia. Qed.
Lemma realloc_bits_rd (l : bits) n p w : p + w <= n -> p + w <= length l -> rdbits (realloc_bits pf l n) p w = rdbits l p w.
Proof. intros H1 H2. unfold realloc_bits. rewrite rdbits_app_l by (rewrite take_length; lia). by apply rdbits_take. Qed.

(** A bucket with the given contents. *)
Definition slot_fields (s : cslot) (qs vs : list N) : Prop :=
  cs_size s = N.of_nat (length qs) /\ length qs <= 255 /\ small q qs /\ small v vs /\
  match cs_data s with None => qs = [] /\ vs = [] | Some l => qs <> [] /\ fields l qs vs end.

(** A block for n + 1 elements whose first n quotients and old values are in place. *)
Lemma enlarge_realloc c s qs vs : cc_sb c = sb -> slot_fields s qs vs -> length qs < 255 ->
  exists l, cs_realloc pf c (CSlot (cs_data s) (N.of_nat (length qs + 1))) (length qs) (q + v) = CSlot (Some l) (N.of_nat (length qs + 1))
    /\ length l = sb * cdiv ((length qs + 1) * (q + v)) sb
    /\ (forall i x, qs !! i = Some x -> rdbits l (i * q) q = nbits q x)
    /\ (forall i x, vs !! i = Some x -> rdbits l (length qs * q + i * v) v = nbits v x).
Proof.
  intros Ec (Hn & H255 & Hsq & Hsv & Hd) Hlt. unfold cs_realloc. rewrite Ec. cbn [cs_size cs_data]. rewrite Nat2N.id.
  pose proof sb_range. pose proof (cdiv_pos ((length qs + 1) * (q + v)) ltac:(nia)) as Hp.
  destruct (cs_data s) as [l|].
  - destruct Hd as [Hne Hf]. pose proof (fields_enough _ _ _ Hf). pose proof (fd_len _ _ _ Hf).
    destruct (Nat.eqb_spec (cdiv (length qs * (q + v)) sb) (cdiv ((length qs + 1) * (q + v)) sb)) as [E|E].
    + exists l. split; [done|]. split; [rewrite <-E; apply Hf|]. split; [apply Hf|apply Hf].
    + rewrite (proj2 (Nat.eqb_neq _ _)) by lia. cbn [default from_option id]. eexists. split; [done|]. split; [apply realloc_bits_length|].
      pose proof (cdiv_ge ((length qs + 1) * (q + v)) sb ltac:(lia)) as Hcd. pose proof (next_block (length qs)).
      split; intros i x Hi; pose proof (lookup_lt_Some _ _ _ Hi);
        pose proof (field_le i (length qs) q ltac:(lia)); pose proof (field_le i (length qs) v ltac:(lia));
        (rewrite realloc_bits_rd; [by eapply Hf|lia|lia]).
  - destruct Hd as [-> ->]. cbn [length] in *. rewrite Nat.mul_0_l, cdiv_0.
    rewrite (proj2 (Nat.eqb_neq _ _)) by lia. rewrite (proj2 (Nat.eqb_neq _ _)) by lia.
    eexists. split; [done|]. split; [apply realloc_bits_length|]. split; intros i x Hi; by rewrite lookup_nil in Hi.
Qed.

Lemma lookup_map_seq {A} (g : nat -> A) a n i y : map g (seq a n) !! i = Some y <-> y = g (a + i) /\ i < n.
Proof.
  rewrite list_lookup_fmap. split.
  - intros H. destruct (seq a n !! i) as [z|] eqn:E; [|done]. apply lookup_seq in E as [-> Hi]. cbn in H. by simplify_eq.
  - intros [-> Hi]. by rewrite lookup_seq_lt by done.
Qed.

Lemma lookup_snoc_cases {A} (l : list A) x i y : (l ++ [x]) !! i = Some y -> (i < length l /\ l !! i = Some y) \/ (i = length l /\ x = y).
Proof.
  intros H. destruct (decide (i < length l)) as [Hi|Hi].
  - left. by rewrite lookup_app_l in H by done.
  - right. rewrite lookup_app_r in H by lia. destruct (i - length l) eqn:E; [|done]. cbn in H. split; [lia|congruence].
Qed.
Lemma push_fields c s qs vs x y : cc_sb c = sb -> slot_fields s qs vs -> length qs < 255 ->
  (x < 2^N.of_nat q)%N -> (y < 2^N.of_nat v)%N ->
  exists s', (s ← cs_enlarge pf c s q v; s ← cs_set_quot pf c s (length qs) q x; cs_set_value pf c s (length qs) q v y) = Ok s'
    /\ slot_fields s' (qs ++ [x]) (vs ++ [y]).
Proof.
  intros Ec Hs Hlt Hx Hy. pose proof Hs as (Hn & H255 & Hsq & Hsv & Hd). set (n := length qs) in *.
  assert (Hvn : length vs = n).
  { destruct (cs_data s); [apply Hd|]. destruct Hd as [-> ->]. done. }
  destruct (enlarge_realloc c s qs vs Ec Hs Hlt) as (l & Hr & Hl & Hlq & Hlv).
  unfold cs_enlarge. rewrite Hn, u8_small by lia. cbn [cs_size cs_data].
  replace (N.of_nat n + 1)%N with (N.of_nat (n + 1)) by lia. rewrite sub64_small by lia.
  replace (N.to_nat (N.of_nat (n + 1) - 1)) with n by lia. fold n in Hr. rewrite Hr. cbn [cs_size cs_data]. rewrite !Nat2N.id, Ec.
  pose proof sb_range. pose proof (cdiv_ge ((n + 1) * (q + v)) sb ltac:(lia)) as Hcd.
  pose proof (next_block n) as Enb. assert (Enq : (n + 1) * q = n * q + q) by nia.
  assert (Hcl : n * q + n * v + q + v <= length l) by (rewrite Hl, <-Enb; exact Hcd). clear Hcd. rewrite Enq.
  assert (Hmod : length l mod sb = 0) by (rewrite Hl, Nat.mul_comm; apply Nat.mod_mul; lia).
  destruct (moves_spec v Hv (map (fun i => (n * q + (n - i) * v, n * q + q + (n - i) * v)) (seq 1 n)) l Hmod)
    as (l1 & -> & Hl1 & Hm1 & Ho1).
  { intros i f t Hi. apply lookup_map_seq in Hi as [Hi Hin]. injection Hi as -> ->. pose proof (field_le (n - (1 + i)) n v ltac:(lia)). split; [lia|]. split; [lia|].
    destruct (lookup_lt_is_Some_2 vs (n - (1 + i))) as (z & Hz); [lia|]. exists z. by apply Hlv. }
  { intros i j f t f' t' Hij Hi Hj. apply lookup_map_seq in Hi as [Hi Hin]. apply lookup_map_seq in Hj as [Hj Hjn].
    injection Hi as -> ->. injection Hj as -> ->.
    pose proof (field_le (n - (1 + j)) (n - (1 + i)) v ltac:(lia)). split; left; lia. }
  cbn [mbind res_bind]. unfold cs_set_quot. cbn [cs_data cs_size]. rewrite Ec, c_write_ok; [|done|by rewrite Hl1|lia].
  cbn [mbind res_bind]. unfold cs_set_value. cbn [cs_data cs_size]. rewrite Ec, Nat2N.id, Enq.
  set (l2 := wrbits l1 (n * q) (nbits q x)).
  assert (Hl2 : length l2 = length l) by (unfold l2; rewrite wrbits_length; [done|rewrite nbits_length; lia]).
  rewrite c_write_ok; [|done|by rewrite Hl2|lia]. cbn [mbind res_bind].
  set (l3 := wrbits l2 (n * q + q + n * v) (nbits v y)).
  eexists. split; [done|].
  assert (Ho2 : forall p w, p + w <= n * q \/ n * q + q <= p -> rdbits l2 p w = rdbits l1 p w).
  { intros p w Hp. unfold l2. apply rdbits_wrbits_other; rewrite nbits_length; [lia|done]. }
  assert (Ho3 : forall p w, p + w <= n * q + q + n * v -> rdbits l3 p w = rdbits l2 p w).
  { intros p w Hp. unfold l3. apply rdbits_wrbits_other; rewrite nbits_length; [lia|by left]. }
  assert (Hnq : length (qs ++ [x]) = n + 1) by (rewrite app_length; done).
  unfold slot_fields. cbn [cs_size cs_data]. rewrite Hnq. split; [done|]. split; [lia|].
  split; [apply Forall_app; split; [done|by constructor]|]. split; [apply Forall_app; split; [done|by constructor]|].
  split; [by destruct qs|]. constructor; rewrite ?Hnq.
  - rewrite app_length, Hvn. done.
  - unfold l3. rewrite wrbits_length; [rewrite Hl2; exact Hl|rewrite nbits_length; lia].
  - intros i z Hi. apply lookup_snoc_cases in Hi as [[Hin Hi]|[-> <-]].
    + fold n in Hin. pose proof (field_le i n q Hin). rewrite Ho3 by lia. rewrite Ho2 by lia. rewrite Ho1; [by apply Hlq|].
      intros j f t Hj. apply lookup_map_seq in Hj as [Hj Hjn]. injection Hj as -> ->. left. pose proof (Nat.le_0_l ((n - (1 + j)) * v)). lia.
    + fold n. rewrite Ho3 by lia. unfold l2.
      pose proof (rdbits_wrbits_same l1 (n * q) (nbits q x)) as Hss. rewrite nbits_length in Hss. apply Hss. lia.
  - intros i z Hi. apply lookup_snoc_cases in Hi as [[Hin Hi]|[-> <-]].
    + rewrite Hvn in Hin. pose proof (field_le i n v Hin). rewrite Enq. rewrite Ho3 by lia. rewrite Ho2 by lia.
      rewrite (Hm1 (n - 1 - i) (n * q + i * v)); [by apply Hlv|]. apply lookup_map_seq. split; [|lia].
      replace (n - (1 + (n - 1 - i))) with i by lia. done.
    + rewrite Hvn, Enq. unfold l3. pose proof (rdbits_wrbits_same l2 (n * q + q + n * v) (nbits v y)) as Hss.
      rewrite nbits_length in Hss. apply Hss. lia.
Qed.

(** Erasing *)
Lemma erase_fields c s qs vs p : cc_sb c = sb -> slot_fields s qs vs -> p < length qs ->
  exists s', cs_erase pf c s p q v = Ok s' /\ slot_fields s' (delete p qs) (delete p vs).
Proof.
  intros Ec Hs Hp. pose proof Hs as (Hn & H255 & Hsq & Hsv & Hd). set (n := length qs) in *.
  destruct (cs_data s) as [l|] eqn:Edata; [|destruct Hd as [-> ->]; unfold n in *; cbn in Hp; lia].
  destruct Hd as [Hne Hf]. pose proof (fields_enough _ _ _ Hf) as Henough. pose proof (fd_len _ _ _ Hf) as Hvn.
  pose proof (fields_mod _ _ _ Hf) as Hmod. fold n in Henough, Hvn. pose proof sb_range.
  unfold cs_erase. rewrite Edata, Hn, Nat2N.id, Ec.
  destruct (moves_spec q Hq (map (fun i => (i * q, (i - 1) * q)) (seq (p + 1) (n - (p + 1)))) l Hmod) as (l1 & -> & Hl1 & Hm1 & Ho1).
  { intros i f t Hi. apply lookup_map_seq in Hi as [Hi Hin]. injection Hi as -> ->. split; [nia|]. split; [nia|].
    destruct (lookup_lt_is_Some_2 qs (p + 1 + i)) as (z & Hz); [fold n; lia|]. exists z. by apply (fd_q _ _ _ Hf). }
  { intros i j f t f' t' Hij Hi Hj. apply lookup_map_seq in Hi as [Hi Hin]. apply lookup_map_seq in Hj as [Hj Hjn].
    injection Hi as -> ->. injection Hj as -> ->. split; right; nia. }
  cbn [mbind res_bind].
  assert (Hv1 : forall i x, vs !! i = Some x -> rdbits l1 (n * q + i * v) v = nbits v x).
  { intros i x Hi. rewrite Ho1; [by apply (fd_v _ _ _ Hf)|]. intros j f t Hj. apply lookup_map_seq in Hj as [Hj Hjn].
    injection Hj as -> ->. right. nia. }
  destruct (moves_spec v Hv (map (fun i => (n * q + i * v, (n - 1) * q + i * v)) (seq 0 p)) l1) as (l2 & -> & Hl2 & Hm2 & Ho2).
  { by rewrite Hl1. }
  { intros i f t Hi. apply lookup_map_seq in Hi as [Hi Hin]. injection Hi as -> ->. rewrite Hl1. split; [nia|]. split; [nia|].
    destruct (lookup_lt_is_Some_2 vs (0 + i)) as (z & Hz); [lia|]. exists z. by apply Hv1. }
  { intros i j f t f' t' Hij Hi Hj. apply lookup_map_seq in Hi as [Hi Hin]. apply lookup_map_seq in Hj as [Hj Hjn].
    injection Hi as -> ->. injection Hj as -> ->. split; right; nia. }
  cbn [mbind res_bind].
  destruct (moves_spec v Hv (map (fun i => (n * q + i * v, (n - 1) * q + (i - 1) * v)) (seq (p + 1) (n - (p + 1)))) l2) as (l3 & -> & Hl3 & Hm3 & Ho3).
  { by rewrite Hl2, Hl1. }
  { intros i f t Hi. apply lookup_map_seq in Hi as [Hi Hin]. injection Hi as -> ->. rewrite Hl2, Hl1. split; [nia|]. split; [nia|].
    destruct (lookup_lt_is_Some_2 vs (p + 1 + i)) as (z & Hz); [lia|]. exists z. rewrite Ho2; [by apply Hv1|].
    intros j f t Hj. apply lookup_map_seq in Hj as [Hj Hjn]. injection Hj as -> ->. right. nia. }
  { intros i j f t f' t' Hij Hi Hj. apply lookup_map_seq in Hi as [Hi Hin]. apply lookup_map_seq in Hj as [Hj Hjn].
    injection Hi as -> ->. injection Hj as -> ->. split; right; nia. }
  cbn [mbind res_bind]. rewrite sub8_small by lia. replace (N.of_nat n - 1)%N with (N.of_nat (n - 1)) by lia. rewrite Nat2N.id. replace (n - 1 + 1) with n by lia.
  assert (Hdq : length (delete p qs) = n - 1) by (rewrite length_delete; [done|by apply lookup_lt_is_Some_2]).
  assert (Hdv : length (delete p vs) = n - 1) by (rewrite length_delete; [lia|apply lookup_lt_is_Some_2; lia]).
  assert (Hq3 : forall i x, delete p qs !! i = Some x -> rdbits l3 (i * q) q = nbits q x).
  { intros i x Hi. pose proof (lookup_lt_Some _ _ _ Hi) as Hin. rewrite Hdq in Hin.
    rewrite Ho3; [|intros j f t Hj; apply lookup_map_seq in Hj as [Hj Hjn]; injection Hj as -> ->; left; nia].
    rewrite Ho2; [|intros j f t Hj; apply lookup_map_seq in Hj as [Hj Hjn]; injection Hj as -> ->; left; nia].
    destruct (decide (i < p)) as [Hip|Hip].
    - rewrite lookup_delete_lt in Hi by done. rewrite Ho1; [by apply (fd_q _ _ _ Hf)|].
      intros j f t Hj; apply lookup_map_seq in Hj as [Hj Hjn]; injection Hj as -> ->; left; nia.
    - rewrite lookup_delete_ge in Hi by lia. rewrite (Hm1 (i - p) (S i * q)); [by apply (fd_q _ _ _ Hf)|].
      apply lookup_map_seq. split; [|lia]. f_equal; f_equal; lia. }
  assert (Hv3 : forall i x, delete p vs !! i = Some x -> rdbits l3 ((n - 1) * q + i * v) v = nbits v x).
  { intros i x Hi. pose proof (lookup_lt_Some _ _ _ Hi) as Hin. rewrite Hdv in Hin.
    destruct (decide (i < p)) as [Hip|Hip].
    - rewrite lookup_delete_lt in Hi by done.
      rewrite Ho3; [|intros j f t Hj; apply lookup_map_seq in Hj as [Hj Hjn]; injection Hj as -> ->; left; nia].
      rewrite (Hm2 i (n * q + i * v)); [by apply Hv1|]. apply lookup_map_seq. split; [done|lia].
    - rewrite lookup_delete_ge in Hi by lia.
      rewrite (Hm3 (i - p) (n * q + S i * v)).
      + rewrite Ho2; [by apply Hv1|]. intros j f t Hj; apply lookup_map_seq in Hj as [Hj Hjn]; injection Hj as -> ->; right; nia.
      + apply lookup_map_seq. split; [|lia]. f_equal; f_equal; f_equal; lia. }
  assert (Hsq' : small q (delete p qs)).
  { apply Forall_forall. intros x Hx. apply elem_of_list_lookup in Hx as (i & Hi). rewrite delete_lookup in Hi.
    case_decide; eapply (Forall_lookup_1 _ _ _ _ Hsq Hi). }
  assert (Hsv' : small v (delete p vs)).
  { apply Forall_forall. intros x Hx. apply elem_of_list_lookup in Hx as (i & Hi). rewrite delete_lookup in Hi.
    case_decide; eapply (Forall_lookup_1 _ _ _ _ Hsv Hi). }
  assert (Hlen3 : length l3 = sb * cdiv (n * (q + v)) sb) by (rewrite Hl3, Hl2, Hl1; apply Hf).
  unfold cs_realloc. cbn [cs_size cs_data]. rewrite Nat2N.id, Ec. cbn [default from_option id].
  destruct (decide (n = 1)) as [En|En].
  - rewrite En in *. change (1 - 1) with 0. rewrite Nat.mul_0_l, cdiv_0.
    pose proof (cdiv_pos (1 * (q + v)) ltac:(lia)). rewrite (proj2 (Nat.eqb_neq _ _)) by lia. cbn.
    eexists. split; [done|]. unfold slot_fields. cbn [cs_size cs_data].
    assert (delete p qs = []) as -> by (apply length_zero_iff_nil; lia).
    assert (delete p vs = []) as -> by (apply length_zero_iff_nil; lia).
    split; [done|]. split; [cbn; lia|]. split; [constructor|]. split; [constructor|]. done.
  - assert (Hne' : delete p qs <> []) by (intros E; rewrite E in Hdq; cbn in Hdq; lia).
    destruct (Nat.eqb_spec (cdiv (n * (q + v)) sb) (cdiv ((n - 1) * (q + v)) sb)) as [E|E].
    + cbn [cs_size]. rewrite (proj2 (N.eqb_neq _ _)) by lia. eexists. split; [done|].
      unfold slot_fields. cbn [cs_size cs_data]. rewrite Hdq. split; [done|]. split; [lia|]. split; [done|]. split; [done|].
      split; [done|]. constructor; rewrite ?Hdq; try done. by rewrite Hlen3, E.
    + pose proof (cdiv_pos ((n - 1) * (q + v)) ltac:(nia)). rewrite (proj2 (Nat.eqb_neq _ _)) by lia.
      cbn [cs_size]. rewrite (proj2 (N.eqb_neq _ _)) by lia. eexists. split; [done|].
      pose proof (cdiv_ge ((n - 1) * (q + v)) sb ltac:(lia)).
      unfold slot_fields. cbn [cs_size cs_data]. rewrite Hdq. split; [done|]. split; [lia|]. split; [done|]. split; [done|].
      split; [done|]. constructor; rewrite ?Hdq; try done; try apply realloc_bits_length.
      * intros i x Hi. pose proof (lookup_lt_Some _ _ _ Hi) as Hin. rewrite Hdq in Hin. rewrite realloc_bits_rd; [by apply Hq3|nia|nia].
      * intros i x Hi. pose proof (lookup_lt_Some _ _ _ Hi) as Hin. rewrite Hdv in Hin. rewrite realloc_bits_rd; [by apply Hv3|nia|nia].
Qed.
End moves.
