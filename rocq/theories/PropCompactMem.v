(** C113: how much memory the buckets of compact_chaining_map hold and how a bucket is laid out (README: one bucket for keys and
    values, first the keys, then the values; the most space efficient layout). *)
From Verif Require Import CompactProofs ExactModel PropBucket PropSerial PropCompact TableReach.

(** ** Specification: bits of a block of whole units, and the bits of the remainder that is stored for a key. *)
Definition cslots_of (t : cmap) : list cslot := match cm_slots t with Some sl => sl | None => [] end.
Definition cblock_len (s : cslot) : nat := match cs_data s with Some l => length l | None => 0%nat end.
Definition ctotal (t : cmap) : nat := sum_list_with cblock_len (cslots_of t).
Definition rem_bits (hk : hkind) (kw b : N) : nat := N.to_nat (match hk with HBij _ => kw - b | HAdapter _ => kw end).
Definition used_buckets (t : cmap) : nat := length (List.filter (fun s => negb (cs_size s =? 0)) (cslots_of t)).

Lemma crep_width pf c kw vw bmin t ess : compact_ok pf c kw vw bmin -> crep c kw vw bmin t ess ->
  N.to_nat (zw (cc_hash c) (cc_keybits c) (cc_hbits c) kw (cm_b t)) = rem_bits (cc_hash c) kw (cm_b t) /\ (1 <= rem_bits (cc_hash c) kw (cm_b t) <= 64)%nat.
Proof.
  intros OK H. pose proof (cr_b _ _ _ _ _ _ H) as Hb. pose proof (CompactProofs.co_hash _ _ _ _ _ OK) as Hh. pose proof (ho_kw _ _ _ _ _ Hh) as Hk.
  pose proof (zw_range _ _ _ _ _ Hh (cm_b t) Hb) as Hw.
  assert (E : zw (cc_hash c) (cc_keybits c) (cc_hbits c) kw (cm_b t) = match cc_hash c with HBij _ => kw - cm_b t | HAdapter _ => kw end).
  { unfold zw, remainder_width. cbn [h_kind h_width zm]. destruct (cc_hash c); [|done]. unfold zbmax in Hb. apply sub8_small; [lia|]. change (2^8) with 256. lia. }
  unfold rem_bits. rewrite E in *. split; [done|]. lia.
Qed.
Lemma history_crep pf c kw vw bmin fuel ops t rs : compact_ok pf c kw vw bmin -> (64 <= fuel)%nat -> valid_ops kw vw bmin (zbmax (cc_hash c) kw) ops ->
  m_run_ops (c_impl pf c fuel) (c_new kw vw) ops = Ok (t, rs) ->
  (czero kw vw t /\ fst (spec_run ∅ ops) = ∅) \/ exists ess, crep c kw vw bmin t ess /\ emap (concat ess) = fst (spec_run ∅ ops).
Proof.
  intros OK Hf Hv E.
  destruct (m_run_rep _ _ _ _ _ _ _ _ _ _ _ _ _ _ (compact_chain pf c kw vw bmin OK fuel Hf) ops (c_new kw vw) ∅) as (t' & rs' & E' & _ & Hm); [by left|done|].
  rewrite E in E'. injection E' as <- <-. exact Hm.
Qed.
Lemma take_sum {A} (l : list A) a b : take (a + b) l = take a l ++ take b (drop a l).
Proof. revert l. induction a as [|a IH]; intros [|x l]; cbn; [done|done|by rewrite take_nil|by rewrite IH]. Qed.
Lemma bits_all (l : bits) (w n : nat) (xs : list N) (p : nat) : length xs = n -> (forall i x, xs !! i = Some x -> rdbits l (p + i * w) w = nbits w x) -> (p + n * w <= length l)%nat ->
  take (n * w) (drop p l) = concat (map (nbits w) xs).
Proof.
  revert n p. induction xs as [|x xs IH]; intros n p Hn Hx Hl; cbn in Hn; subst n; [done|]. cbn [map concat].
  rewrite <-(IH (length xs) (p + w)%nat); [|done| |lia].
  - pose proof (Hx 0%nat x eq_refl) as H0. rewrite Nat.mul_0_l, Nat.add_0_r in H0. rewrite <-H0. unfold rdbits. change (S (length xs) * w)%nat with (w + length xs * w)%nat.
    rewrite take_sum, drop_drop. f_equal. rewrite take_app_le by (rewrite drop_length; lia). done.
  - intros i y Hi. rewrite <-(Hx (S i) y Hi). f_equal. lia.
Qed.

(** Every bucket is a single block of exactly as many units as its remainders and values need, and empty buckets have no block.
    The block starts with the remainders, followed by the values; they are those of the keys of the map. *)
Theorem C113_exact_layout : forall pf c kw vw bmin fuel ops t rs,
  compact_ok pf c kw vw bmin -> (64 <= fuel)%nat -> valid_ops kw vw bmin (zbmax (cc_hash c) kw) ops ->
  m_run_ops (c_impl pf c fuel) (c_new kw vw) ops = Ok (t, rs) ->
  forall bk s, cslots_of t !! bk = Some s ->
  let q := rem_bits (cc_hash c) kw (cm_b t) in let v := N.to_nat vw in let n := N.to_nat (cs_size s) in
  cblock_len s = packed (cc_sb c) n (q + v)
  /\ match cs_data s with
     | None => n = 0%nat
     | Some l => exists es, length es = n /\ (0 < n)%nat
         /\ take (n * (q + v)) l = concat (map (nbits q) (map fst es)) ++ concat (map (nbits v) (map snd es))
         /\ Forall (fun e => exists k, hash_inv_map (chm c kw) (fst e) (N.of_nat bk) (cm_b t) = Ok k /\ fst (spec_run ∅ ops) !! k = Some (snd e)) es
     end.
Proof.
  intros pf c kw vw bmin fuel ops t rs OK Hf Hv E bk s Hs. destruct (history_crep _ _ _ _ _ _ _ _ _ OK Hf Hv E) as [[(_ & _ & _ & _ & Hz) _]|(ess & H & Hm)].
  { unfold cslots_of in Hs. by rewrite Hz in Hs. }
  destruct (crep_width _ _ _ _ _ _ _ OK H) as [Hw Hq]. destruct (cr_slots _ _ _ _ _ _ H) as (sl & Hsl & HF). unfold cslots_of in Hs. rewrite Hsl in Hs.
  destruct (Forall2_lookup_l _ _ _ _ _ HF Hs) as (es & He & Hr). unfold crepr in Hr. rewrite Hw in Hr. destruct Hr as (Hn & H255 & Hsq & Hsv & Hd).
  cbv zeta. set (q := rem_bits _ _ _) in *. rewrite !fmap_length in Hn. rewrite Hn, Nat2N.id. pose proof (CompactProofs.co_sb _ _ _ _ _ OK) as Hsb.
  assert (0 < cc_sb c)%nat by (unfold width_ok in Hsb; lia). unfold cblock_len.
  destruct (cs_data s) as [l|].
  - destruct Hd as [Hne HD]. assert (Hvr : (1 <= N.to_nat vw <= 64)%nat) by (pose proof (CompactProofs.co_vw _ _ _ _ _ OK); lia).
    pose proof (fields_enough pf _ Hsb (co_acc _ _ _ _ _ OK) _ _ Hq Hvr _ _ _ HD) as Hen. pose proof (fd_block _ _ _ _ _ _ HD) as Hbl. pose proof (fd_len _ _ _ _ _ _ HD) as Hlv.
    rewrite !fmap_length in *. split; [done|]. exists (zip (zq (cc_hash c) (cc_keybits c) (cc_hbits c) kw (cm_b t) <$> keys_of es) (vals_of es)).
    rewrite fst_zip, snd_zip by (rewrite !fmap_length; lia). rewrite zip_with_length, !fmap_length. split; [lia|].
    assert (0 < length es)%nat by (destruct es; [done|cbn; lia]). split; [done|]. split.
    + rewrite Nat.mul_add_distr_l. rewrite <-(bits_all l q (length es) _ 0); [| |exact (fd_q _ _ _ _ _ _ HD)|lia].
      * rewrite <-(bits_all l (N.to_nat vw) (length es) _ (length es * q)); [| | |lia].
        -- by rewrite drop_0, take_sum.
        -- by rewrite !fmap_length.
        -- intros i x Hi. pose proof (fd_v _ _ _ _ _ _ HD i x Hi) as Hx. by rewrite !fmap_length in Hx.
      * by rewrite !fmap_length.
    + apply Forall_lookup. intros i [r v] Hi. apply lookup_zip_with_Some in Hi as (r' & v' & Hrv & Hi1 & Hi2). injection Hrv as -> ->.
      apply list_lookup_fmap_inv in Hi1 as (k & -> & Hk). apply list_lookup_fmap_inv in Hk as ([k0 v0] & -> & Hk).
      apply list_lookup_fmap_inv in Hi2 as ([k1 v1] & -> & Hk1). rewrite Hk in Hk1. injection Hk1 as <- <-. cbn [fst snd].
      pose proof (elem_of_list_lookup_2 _ _ _ Hk) as Hin. pose proof (elem_of_list_lookup_2 _ _ _ He) as Hine.
      assert (Hc : (k0, v0) ∈ concat ess) by (apply elem_of_list_In, in_concat; exists es; split; by apply elem_of_list_In).
      exists k0. split.
      * destruct (z_map _ _ _ _ _ (CompactProofs.co_hash _ _ _ _ _ OK) (cm_b t) k0 (cr_b _ _ _ _ _ _ H)) as (_ & _ & _ & Hinv); [exact (proj1 (cr_range _ _ _ _ _ _ H _ _ Hc))|].
        pose proof (cr_placed _ _ _ _ _ _ H _ _ _ _ He Hin) as Hpl. rewrite <-Hpl. apply Hinv.
      * rewrite <-Hm. apply emap_Some; [apply H|done].
  - destruct Hd as [Hd _]. apply (f_equal length) in Hd. rewrite fmap_length in Hd. cbn in Hd. rewrite fmap_length in Hd. rewrite Hd.
    split; [|done]. unfold packed. rewrite Nat.mul_0_l, Nat.add_0_l, Nat.div_small by lia. lia.
Qed.
Print Assumptions C113_exact_layout.

(** ** The whole map: the blocks hold the remainders and values of the map, and less than one unit more for each used bucket. *)
Lemma packed_bounds sb n w : (0 < sb)%nat -> (n * w <= packed sb n w <= n * w + (sb - 1))%nat /\ (n = 0 -> packed sb n w = 0)%nat.
Proof.
  intros H. unfold packed. split.
  - pose proof (Nat.div_mod (n * w + sb - 1) sb ltac:(lia)) as E. pose proof (Nat.mod_upper_bound (n * w + sb - 1) sb ltac:(lia)).
    revert E. generalize (sb * ((n * w + sb - 1) / sb))%nat ((n * w + sb - 1) mod sb)%nat (n * w)%nat. lia.
  - intros ->. rewrite Nat.mul_0_l, Nat.add_0_l, Nat.div_small by lia. lia.
Qed.
Lemma sum_bounds (sb w : nat) (sl : list cslot) : (0 < sb)%nat -> (forall s, s ∈ sl -> cblock_len s = packed sb (N.to_nat (cs_size s)) w) ->
  (sum_list_with (fun s => N.to_nat (cs_size s)) sl * w <= sum_list_with cblock_len sl
     <= sum_list_with (fun s => N.to_nat (cs_size s)) sl * w + length (List.filter (fun s => negb (cs_size s =? 0)%N) sl) * (sb - 1))%nat.
Proof.
  intros Hsb. induction sl as [|s sl IH]; intros H; [cbn; lia|]. specialize (IH (fun s' Hs => H s' (elem_of_list_further _ _ _ Hs))).
  pose proof (H s (elem_of_list_here _ _)) as Hs. destruct (packed_bounds sb (N.to_nat (cs_size s)) w Hsb) as [Hp H0]. cbn [sum_list_with List.filter].
  rewrite Nat.mul_add_distr_r. destruct (N.eqb_spec (cs_size s) 0) as [E|E]; cbn [negb length]; [rewrite H0 in Hs by lia|]; lia.
Qed.
Lemma sizes_total c kw vw b sl ess : Forall2 (crepr c kw vw b) sl ess -> sum_list_with (fun s => N.to_nat (cs_size s)) sl = length (concat ess).
Proof.
  induction 1 as [|s es sl ess Hs _ IH]; [done|]. cbn [sum_list_with concat]. rewrite app_length, <-IH. destruct Hs as [-> _]. rewrite !fmap_length. lia.
Qed.
Theorem C113_total : forall pf c kw vw bmin fuel ops t rs,
  compact_ok pf c kw vw bmin -> (64 <= fuel)%nat -> valid_ops kw vw bmin (zbmax (cc_hash c) kw) ops ->
  m_run_ops (c_impl pf c fuel) (c_new kw vw) ops = Ok (t, rs) ->
  let w := (rem_bits (cc_hash c) kw (cm_b t) + N.to_nat vw)%nat in let m := fst (spec_run ∅ ops) in
  (size m * w <= ctotal t <= size m * w + used_buckets t * (cc_sb c - 1))%nat /\ (used_buckets t <= size m)%nat.
Proof.
  intros pf c kw vw bmin fuel ops t rs OK Hf Hv E w m.
  assert (Hl : forall s, s ∈ cslots_of t -> cblock_len s = packed (cc_sb c) (N.to_nat (cs_size s)) w).
  { intros s [bk Hs]%elem_of_list_lookup. exact (proj1 (C113_exact_layout _ _ _ _ _ _ _ _ _ OK Hf Hv E bk s Hs)). }
  assert (Hsz : sum_list_with (fun s => N.to_nat (cs_size s)) (cslots_of t) = size m).
  { destruct (history_crep _ _ _ _ _ _ _ _ _ OK Hf Hv E) as [[(_ & _ & _ & _ & Hz) Hm]|(ess & H & Hm)]; unfold m, cslots_of.
    - rewrite Hz, Hm. by rewrite map_size_empty.
    - destruct (cr_slots _ _ _ _ _ _ H) as (sl & -> & HF). rewrite <-Hm, emap_size by apply H. by eapply sizes_total. }
  pose proof (CompactProofs.co_sb _ _ _ _ _ OK) as Hsb. pose proof (sum_bounds (cc_sb c) w (cslots_of t) ltac:(unfold width_ok in Hsb; lia) Hl) as HB.
  rewrite Hsz in HB. split; [exact HB|]. rewrite <-Hsz. unfold used_buckets. clear. induction (cslots_of t) as [|s sl IH]; [cbn; lia|].
  cbn [sum_list_with List.filter]. destruct (N.eqb_spec (cs_size s) 0); cbn [negb length]; lia.
Qed.
Print Assumptions C113_total.

(** ** No separate_chaining_table needs less for the same map.
    The table has the same hash mapping, the same bucket count and the same map, and its buckets are made of units that storage_t divides
    (always so for uint8_t); the elements of its buckets have room for the remainders and the values. *)
Definition unit_bits (kd : bkind) : nat := match kd with KVar iw => iw | _ => kind_bits kd end.
Definition block_bits (kd : bkind) (b : bucket) : nat :=
  match b with None => 0%nat | Some (_, Cells cs) => (kind_bits kd * length cs)%nat | Some (_, Bits bs) => length bs end.
Definition table_bits (c : cfg) (t : table) : nat :=
  sum_list_with (fun s => block_bits (c_key c) (s_keys s) + block_bits (c_val c) (s_vals s))%nat (slots_of t).

Lemma placed_filter bo ess i es : placed bo ess -> ess !! i = Some es -> List.filter (fun e => bo (fst e) =? N.of_nat i) (concat ess) = es.
Proof.
  assert (G : forall (off : nat) (ess : list entries) i es, (forall i es k v, ess !! i = Some es -> (k, v) ∈ es -> bo k = N.of_nat (off + i)) -> ess !! i = Some es ->
     List.filter (fun e => bo (fst e) =? N.of_nat (off + i)) (concat ess) = es).
  { assert (A : forall (l : entries) j, (forall k v, (k, v) ∈ l -> bo k = j) -> List.filter (fun e => bo (fst e) =? j) l = l).
    { induction l as [|[k v] l IH]; intros j Hl; [done|]. cbn [List.filter fst]. rewrite (Hl k v) by constructor. rewrite N.eqb_refl. f_equal. apply IH.
      intros k' v' Hin. apply (Hl k' v'). by constructor. }
    assert (B : forall (l : entries) j, (forall k v, (k, v) ∈ l -> bo k <> j) -> List.filter (fun e => bo (fst e) =? j) l = []).
    { induction l as [|[k v] l IH]; intros j Hl; [done|]. cbn [List.filter fst]. destruct (N.eqb_spec (bo k) j) as [E|_].
      - exfalso. apply (Hl k v); [constructor|done].
      - apply IH. intros k' v' Hin. apply (Hl k' v'). by constructor. }
    intros off ess0. revert off. induction ess0 as [|e0 ess0 IH]; intros off j es0 Hpl Hj; [done|]. cbn [concat]. rewrite List.filter_app.
    destruct j as [|j]; cbn in Hj.
    - injection Hj as ->. rewrite A by (intros k v Hin; exact (Hpl 0%nat es0 k v eq_refl Hin)). rewrite B, app_nil_r; [done|].
      intros k v Hin Hk. apply elem_of_list_In, in_concat in Hin as (e1 & [i1 H1]%elem_of_list_In%elem_of_list_lookup & Hin%elem_of_list_In).
      pose proof (Hpl (S i1) e1 k v H1 Hin). lia.
    - rewrite B by (intros k v Hin Hk; pose proof (Hpl 0%nat e0 k v eq_refl Hin); lia). cbn [app].
      replace (off + S j)%nat with (S off + j)%nat by lia. apply IH; [|done]. intros i1 e1 k v H1 Hin. rewrite (Hpl (S i1) e1 k v H1 Hin). f_equal. lia. }
  intros Hpl Hi. exact (G 0%nat ess i es Hpl Hi).
Qed.
Lemma filter_perm {A} (f : A -> bool) l l' : l ≡ₚ l' -> List.filter f l ≡ₚ List.filter f l'.
Proof.
  induction 1 as [|x l l' _ IH|x y l|l l2 l' _ IH1 _ IH2]; cbn [List.filter]; [done| | |by etransitivity].
  - destruct (f x); [by f_equiv|done].
  - destruct (f x), (f y); try done. apply Permutation_swap.
Qed.
Lemma packed_split sb n q v a b : (0 < sb)%nat -> Nat.divide sb a -> Nat.divide sb b -> (n * q <= a)%nat -> (n * v <= b)%nat -> (packed sb n (q + v) <= a + b)%nat.
Proof.
  intros Hsb [x ->] [y ->] Ha Hb. unfold packed. rewrite Nat.mul_add_distr_l. rewrite (Nat.mul_comm sb). rewrite <-Nat.mul_add_distr_r. apply Nat.mul_le_mono_r.
  apply Nat.lt_succ_r, Nat.div_lt_upper_bound; [lia|]. revert Ha Hb. generalize (n * q)%nat (n * v)%nat. intros p1 p2 H1 H2. nia.
Qed.
Lemma block_room pf kd w cap b xs n sb : brepr pf kd w cap b xs -> kd <> KNull -> (w <= kind_bits kd)%nat -> Nat.divide sb (unit_bits kd) -> (0 < unit_bits kd)%nat -> (n <= cap)%nat ->
  Nat.divide sb (block_bits kd b) /\ (n * w <= block_bits kd b)%nat.
Proof.
  intros H Hk Hw Hd Hu Hn. destruct kd as [es|es|es|iw|]; try done; destruct H as (tg & [cs|bs] & -> & _ & Hr); try done; cbn [block_bits kind_bits unit_bits drepr] in *.
  1-3: destruct Hr as (Hc & _); split; [by apply Nat.divide_mul_l|rewrite (Nat.mul_comm es); apply Nat.mul_le_mono; lia].
  destruct Hr as (Hc & _ & Hm & _). split; [|etransitivity; [|exact Hc]; by apply Nat.mul_le_mono_r]. etransitivity; [exact Hd|]. apply Nat.mod_divide; lia.
Qed.

Lemma sum_le {A B} (f : A -> nat) (g : B -> nat) l l' : length l = length l' -> (forall i x y, l !! i = Some x -> l' !! i = Some y -> (f x <= g y)%nat) ->
  (sum_list_with f l <= sum_list_with g l')%nat.
Proof.
  revert l'. induction l as [|x l IH]; intros [|y l'] Hl H; try done. cbn [sum_list_with]. pose proof (H 0%nat x y eq_refl eq_refl).
  specialize (IH l' ltac:(by injection Hl) (fun i => H (S i))). lia.
Qed.
Theorem C113_not_larger : forall pf cc kw vw bmin fuel ops t rs pf' c T,
  compact_ok pf cc kw vw bmin -> (64 <= fuel)%nat -> valid_ops kw vw bmin (zbmax (cc_hash cc) kw) ops ->
  m_run_ops (c_impl pf cc fuel) (c_new kw vw) ops = Ok (t, rs) ->
  params pf' c kw vw -> c_val c <> KNull -> c_ov c = OvDummy -> reachable pf' c kw vw T (fst (spec_run ∅ ops)) ->
  t_b T = cm_b t -> c_hash c = cc_hash cc -> c_keybits c = cc_keybits cc -> N.of_nat (kind_bits (c_key c)) = cc_hbits cc ->
  Nat.divide (cc_sb cc) (unit_bits (c_key c)) -> Nat.divide (cc_sb cc) (unit_bits (c_val c)) ->
  (rem_bits (cc_hash cc) kw (cm_b t) <= kind_bits (c_key c))%nat -> (N.to_nat vw <= kind_bits (c_val c))%nat ->
  (ctotal t <= table_bits c T)%nat.
Proof.
  intros pf cc kw vw bmin fuel ops t rs pf' c T OK Hf Hv E P Hnn Hov Hr Hb Eh Ek Ehb Dk Dv Wk Wv.
  destruct (history_crep _ _ _ _ _ _ _ _ _ OK Hf Hv E) as [[(_ & _ & _ & _ & Hz) _]|(ess & H & Hm)].
  { unfold ctotal, cslots_of. rewrite Hz. cbn. lia. }
  destruct (crep_width _ _ _ _ _ _ _ OK H) as [Hw Hq]. pose proof (b_range _ _ _ _ _ OK _ _ H) as Hbr. pose proof (CompactProofs.co_sb _ _ _ _ _ OK) as Hsb.
  assert (Hl : forall s, s ∈ cslots_of t -> cblock_len s = packed (cc_sb cc) (N.to_nat (cs_size s)) (rem_bits (cc_hash cc) kw (cm_b t) + N.to_nat vw)).
  { intros s [bk Hs]%elem_of_list_lookup. exact (proj1 (C113_exact_layout _ _ _ _ _ _ _ _ _ OK Hf Hv E bk s Hs)). }
  apply (reachable_rep _ _ _ _ P) in Hr as [[Hz _]|(sl & ess' & ovl & H' & Hm')]; [destruct Hz as (Hz & _); lia|].
  destruct (cr_slots _ _ _ _ _ _ H) as (csl & Ecs & HF). pose proof (ti_repr _ _ _ _ _ _ _ _ _ _ _ H') as HF'. unfold table_bits, ctotal, slots_of.
  rewrite (ti_slots _ _ _ _ _ _ _ _ _ _ _ H'). unfold cslots_of in *. rewrite Ecs in *.
  destruct (dummy_nil _ _ _ _ _ _ _ _ _ _ _ H' Hov) as [_ ->]. rewrite app_nil_r in Hm'.
  assert (Hperm : concat ess ≡ₚ concat ess').
  { pose proof (ti_nodup _ _ _ _ _ _ _ _ _ _ _ H') as Hnd'. rewrite app_nil_r in Hnd'. pose proof (cr_nodup _ _ _ _ _ _ H) as Hnd.
    apply NoDup_Permutation; [by eapply NoDup_fmap_1|by eapply NoDup_fmap_1|]. intros [k v].
    rewrite <-(emap_Some _ k v Hnd), <-(emap_Some _ k v Hnd'). by rewrite Hm, Hm'. }
  assert (Hbo : forall k, hb c kw (t_b T) k = zb (cc_hash cc) (cc_keybits cc) (cc_hbits cc) kw (cm_b t) k).
  { intros k. unfold hb, zb, hmk, zm. by rewrite Hb, Eh, Ek, Ehb. }
  assert (Hsz : forall i es es', ess !! i = Some es -> ess' !! i = Some es' -> length es = length es').
  { intros i es es' Hi Hi'. rewrite <-(placed_filter _ _ _ _ (cr_placed _ _ _ _ _ _ H) Hi), <-(placed_filter _ _ _ _ (ti_placed _ _ _ _ _ _ _ _ _ _ _ H') Hi').
    rewrite (filter_perm _ _ _ Hperm). f_equal. apply List.filter_ext. intros e. by rewrite Hbo. }
  assert (Hlen : length csl = length sl).
  { pose proof (cr_len _ _ _ _ _ _ H). pose proof (ti_len _ _ _ _ _ _ _ _ _ _ _ H') as L. rewrite Hb in L. apply Forall2_length in HF. lia. }
  assert (Hqw : qw c kw (t_b T) = rem_bits (cc_hash cc) kw (cm_b t)) by (rewrite <-Hw; unfold qw, zw, hmk, zm; by rewrite Hb, Eh, Ek, Ehb).
  pose proof (reach_ok0 _ _ _ _ P) as OK0. pose proof (ok_key _ _ _ _ _ _ OK0) as Hkn.
  assert (HU : forall kd w, kind_ok kd w -> (0 < unit_bits kd)%nat) by (intros [] w Hk; cbn in Hk |- *; unfold width_ok in Hk; lia).
  pose proof (HU _ _ (proj1 (ok_kind _ _ _ _ _ _ OK0 _ (ti_b _ _ _ _ _ _ _ _ _ _ _ H')))) as Huk. pose proof (HU _ _ (ok_val _ _ _ _ _ _ OK0)) as Huv.
  apply sum_le; [done|]. intros i s s' Hi Hi'. destruct (Forall2_lookup_l _ _ _ _ _ HF Hi) as (es & He & Hs). destruct (Forall2_lookup_l _ _ _ _ _ HF' Hi') as (es' & He' & Hs').
  rewrite Hl by (by eapply elem_of_list_lookup_2). pose proof (Hsz i es es' He He') as Hn. destruct Hs as (Hs & _). rewrite !fmap_length in Hs. rewrite Hs, Nat2N.id, Hn.
  destruct Hs' as (_ & _ & Hs' & _). assert (0 < cc_sb cc)%nat by (unfold width_ok in Hsb; lia). destruct es' as [|e es'].
  { cbn [length]. destruct (packed_bounds (cc_sb cc) 0 (rem_bits (cc_hash cc) kw (cm_b t) + N.to_nat vw) ltac:(done)) as [_ ->]; [lia|done]. }
  cbv zeta in Hs'. destruct Hs' as [HK HV]. rewrite Hqw in HK.
  destruct (block_room _ _ _ _ _ _ (length (e :: es')) (cc_sb cc) HK Hkn Wk Dk Huk ltac:(lia)) as [D1 L1].
  destruct (block_room _ _ _ _ _ _ (length (e :: es')) (cc_sb cc) HV Hnn Wv Dv Huv ltac:(lia)) as [D2 L2].
  by apply packed_split.
Qed.
Print Assumptions C113_not_larger.

(** Forty keys, two of them erased again; a map with units of a byte and three tables: packed buckets of bytes, packed buckets of words that
    grow exactly, plain buckets of 64-bit words. *)
Definition ex_m8 : ccfg := CCfg (HBij Xorshift) 64 64 8.
Lemma ex_m8_ok : compact_ok loose_pf ex_m8 20 9 1.
Proof. compact_solve. Qed.
Definition ex_m_ops : list op := map (fun i => OpInsert (N.of_nat (7 * i)) (N.of_nat i)) (seq 0 40) ++ [OpErase 7; OpErase 14].
Definition ex_m_map : cmap := match m_run_ops (c_impl loose_pf ex_m8 64) (c_new 20 9) ex_m_ops with Ok (t, _) => t | _ => c_new 20 9 end.
Definition ex_m_cfg (k v : bkind) (arb : bool) : cfg := Cfg k v (HBij Xorshift) 64 arb 255 OvDummy.
Lemma ex_m_valid b : 1 <= b -> valid_ops 20 9 1 b ex_m_ops.
Proof.
  intros Hb. unfold ex_m_ops. apply List.Forall_app. split.
  - apply List.Forall_map, List.Forall_forall. intros i Hi%in_seq. cbn [valid_op]. change (2^20) with 1048576. change (2^9) with 512. lia.
  - repeat (apply List.Forall_cons; [cbn [valid_op]; change (2^20) with 1048576; lia|]). apply List.Forall_nil.
Qed.
Lemma ex_m_run : exists rs, m_run_ops (c_impl loose_pf ex_m8 64) (c_new 20 9) ex_m_ops = Ok (ex_m_map, rs).
Proof.
  destruct (m_run_ops (c_impl loose_pf ex_m8 64) (c_new 20 9) ex_m_ops) as [[t rs]| | |] eqn:E; [|exfalso; revert E; vm_compute; discriminate..].
  exists rs. unfold ex_m_map. by rewrite E.
Qed.
Definition ex_m_tab (k v : bkind) (arb : bool) : table := ex_hist (ex_m_cfg k v arb) 20 9 ex_m_ops.
Example C113_case :
  (cm_b ex_m_map = 4 /\ map (fun s => (cs_size s, cblock_len s)) (take 4 (cslots_of ex_m_map)) = [(3, 80%nat); (3, 80%nat); (2, 56%nat); (2, 56%nat)]
   /\ ctotal ex_m_map = 1040%nat /\ used_buckets ex_m_map = 16%nat /\ size (fst (spec_run ∅ ex_m_ops)) = 38%nat)
  /\ (950 <= ctotal ex_m_map <= 950 + 16 * 7)%nat
  /\ Forall (fun p => params lax_pf (ex_m_cfg (fst (fst p)) (snd (fst p)) (snd p)) 20 9 /\ t_b (ex_m_tab (fst (fst p)) (snd (fst p)) (snd p)) = 4
       /\ (ctotal ex_m_map <= table_bits (ex_m_cfg (fst (fst p)) (snd (fst p)) (snd p)) (ex_m_tab (fst (fst p)) (snd (fst p)) (snd p)))%nat)
     [(KVar 8, KVar 8, true); (KVar 64, KVar 8, false); (KPlain 64, KPlain 16, false)].
Proof.
  split; [vm_compute; done|]. destruct ex_m_run as (rs & E).
  pose proof (ex_m_valid (zbmax (cc_hash ex_m8) 20) ltac:(vm_compute; congruence)) as Hv. split.
  - pose proof (proj1 (C113_total _ _ _ _ _ 64 _ _ _ ex_m8_ok (le_n 64) Hv E)) as H. revert H. vm_compute. lia.
  - assert (G : forall k v arb, params lax_pf (ex_m_cfg k v arb) 20 9 -> v <> KNull -> kind_bits k = 64%nat -> (N.to_nat 9 <= kind_bits v)%nat ->
      Nat.divide 8 (unit_bits k) -> Nat.divide 8 (unit_bits v) -> t_b (ex_m_tab k v arb) = 4 -> (ctotal ex_m_map <= table_bits (ex_m_cfg k v arb) (ex_m_tab k v arb))%nat).
    { intros k v arb P Hvn Hk Hw Dk Dv Hb. assert (Hb4 : cm_b ex_m_map = 4) by (vm_compute; reflexivity).
      assert (Hr : reachable lax_pf (ex_m_cfg k v arb) 20 9 (ex_m_tab k v arb) (fst (spec_run ∅ ex_m_ops))).
      { apply ex_hist_reach; [exact P|exact Hvn|]. apply ex_m_valid. vm_compute. congruence. }
      refine (C113_not_larger _ _ _ _ _ 64 _ _ _ lax_pf (ex_m_cfg k v arb) _ ex_m8_ok (le_n 64) Hv E P Hvn eq_refl Hr _ eq_refl eq_refl _ Dk Dv _ Hw).
      - by rewrite Hb4.
      - cbn [c_key ex_m_cfg]. by rewrite Hk.
      - cbn [c_key ex_m_cfg]. rewrite Hk, Hb4. vm_compute. lia. }
    clear E Hv. 
    repeat apply List.Forall_cons; [..|apply List.Forall_nil]; cbn [fst snd].
    1-3: match goal with |- ?A /\ ?B /\ _ => assert A as P by params_solve; assert B as Hb by (vm_compute; reflexivity); split; [exact P|]; split; [exact Hb|]; apply G; [exact P|done|done| | | |exact Hb] end.
    all: try (cbn; lia).
    all: apply Nat.mod_divide; [lia|reflexivity].
Qed.
