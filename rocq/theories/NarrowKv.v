(** keyvalue_group with any internal_t: an array of buckets, stored one after the other. *)
From Verif Require Export NarrowBorder.
#[local] Open Scope nat_scope.

Definition nkv_rep (ib qw vw : nat) (g : kvgroup) (bss : list entries) : Prop :=
  1 <= length bss <= 255
  /\ g_size g = N.of_nat (length (concat bss))
  /\ (N.of_nat (length (concat bss)) + 512 <= 2^32)%N
  /\ ncore_rep ib qw (g_keys g) (concat bss).*1
  /\ ncore_rep ib vw (g_vals g) (concat bss).*2
  /\ exists ws, g_border g = Some ws /\ nborder_rep ib ws (lens bss).

Section kv.
Context (ib : nat) (pf : platform).
Hypothesis IB : iwidth ib.
Hypothesis PF : roomy ib pf.
Notation nkv_rep := (nkv_rep ib).
Lemma nkv_init_rep qw vw n : 1 <= n <= 255 -> nkv_rep qw vw (nkv_init ib n qw vw) (replicate n []).
Proof.
  intros Hn. split; [by rewrite replicate_length|]. rewrite concat_replicate_nil. do 2 (split; [done|]).
  split; [by apply ncore_init|]. split; [by apply ncore_init|]. eexists. split; [done|].
  replace (lens (replicate n [])) with (replicate n 0); [by apply nborder_init|]. unfold lens. by rewrite fmap_replicate.
Qed.
Section call.
Context (junk : nat -> bool).
Notation nkv_position := (nkv_position ib pf junk).
Lemma nkv_position_spec qw vw g bss i : nkv_rep qw vw g bss -> i < length bss -> nkv_position g i = Ok (off bss (S i) + i).
Proof.
  intros (Hb & _ & _ & _ & _ & ws & Hws & Hr) Hi. unfold NarrowModel.nkv_position. rewrite Hws, Nat.mod_small by lia.
  rewrite (nborder_pos ib pf IB PF junk _ _ _ Hr) by (by rewrite lens_length). unfold upos. by rewrite off_tot.
Qed.
Lemma nkv_begin_spec qw vw g bss i : nkv_rep qw vw g bss -> i < length bss -> nkv_begin ib pf junk g i = Ok (off bss i + i).
Proof.
  intros H Hi. unfold nkv_begin. destruct i as [|i]; [done|]. rewrite (nkv_position_spec qw vw g bss) by (try done; lia).
  cbn [mbind res_bind]. f_equal. lia.
Qed.
Lemma nkv_empty_spec qw vw g bss : nkv_rep qw vw g bss -> kv_empty g = true -> concat bss = [].
Proof. intros (_ & Hs & _) H. unfold kv_empty in H. rewrite Hs in H. apply N.eqb_eq in H. apply nil_length_inv. lia. Qed.
Lemma nkv_bucketsize_spec qw vw g bss i es : nkv_rep qw vw g bss -> bss !! i = Some es -> nkv_bucketsize ib pf junk g i = Ok (length es).
Proof.
  intros H Hi. pose proof (lookup_lt_Some _ _ _ Hi) as Hlt. unfold nkv_bucketsize. destruct (kv_empty g) eqn:E.
  { apply (nkv_empty_spec _ _ _ _ H) in E. pose proof (concat_length_pos _ _ _ Hi) as Hp. rewrite E in Hp. cbn in Hp. f_equal. lia. }
  assert (Hprev : match i with O => Ok 0 | S i' => p ← nkv_position g i'; Ok (p - i') end = Ok (off bss i)).
  { destruct i as [|i]; [done|]. rewrite (nkv_position_spec qw vw g bss) by (try done; lia). cbn [mbind res_bind]. f_equal. lia. }
  rewrite Hprev. cbn [mbind res_bind]. rewrite (nkv_position_spec qw vw g bss) by done. cbn [mbind res_bind].
  rewrite (off_S _ _ _ Hi). f_equal. lia.
Qed.
Lemma nkv_read_spec qw vw g bss i es p q v : 1 <= qw <= 64 -> 1 <= vw <= 64 -> nkv_rep qw vw g bss -> bss !! i = Some es -> es !! p = Some (q, v) ->
  nkv_read ib pf junk g i p qw vw = Ok (q, v).
Proof.
  intros Hq Hvw H Hi Hp. unfold nkv_read. rewrite (nkv_begin_spec qw vw g bss) by (try done; by eapply lookup_lt_Some). cbn [mbind res_bind].
  destruct H as (_ & _ & _ & Hk & Hv & _). replace (off bss i + i + p - i) with (off bss i + p) by lia.
  assert (Hl : concat bss !! (off bss i + p) = Some (q, v)) by (rewrite (concat_lookup _ _ es) by (try done; by eapply lookup_lt_Some); done).
  rewrite (ncore_read ib pf IB PF qw (g_keys g) _ _ q Hq Hk) by (by rewrite list_lookup_fmap, Hl). cbn [mbind res_bind].
  by rewrite (ncore_read ib pf IB PF vw (g_vals g) _ _ v Hvw Hv) by (by rewrite list_lookup_fmap, Hl).
Qed.
Lemma nkv_write_spec qw vw g bss i es p q v v' : 1 <= vw <= 64 -> nkv_rep qw vw g bss -> bss !! i = Some es -> es !! p = Some (q, v) ->
  (v' < 2^N.of_nat vw)%N ->
  exists g', nkv_write_value ib pf junk g i p v' vw = Ok g' /\ nkv_rep qw vw g' (<[i := <[p := (q, v')]> es]> bss).
Proof.
  intros Hq H Hi Hp Hv'. unfold nkv_write_value. rewrite (nkv_begin_spec qw vw g bss) by (try done; by eapply lookup_lt_Some). cbn [mbind res_bind].
  pose proof (lookup_lt_Some _ _ _ Hp) as Hlt. pose proof (concat_lookup _ _ _ p Hi Hlt) as Hcl. rewrite Hp in Hcl.
  destruct H as (Hb & Hs & Hbd & Hk & Hv & ws & Hws & Hr). replace (off bss i + i + p - i) with (off bss i + p) by lia.
  destruct (ncore_write ib pf IB PF vw (g_vals g) _ (off bss i + p) v' Hq Hv) as (d' & -> & Hd'); [|done|].
  { rewrite fmap_length. by eapply lookup_lt_Some. }
  cbn [mbind res_bind]. eexists. split; [done|]. unfold NarrowKv.nkv_rep. cbn [g_size g_keys g_vals g_border].
  rewrite insert_length, (concat_set _ _ _ _ _ Hi Hlt), insert_length. do 3 (split; [done|]). rewrite !list_fmap_insert. cbn [fst snd].
  split; [|split; [done|]].
  - rewrite list_insert_id; [done|]. by rewrite list_lookup_fmap, Hcl.
  - exists ws. split; [done|]. rewrite lens_insert, insert_length. by rewrite list_insert_id by (by apply lens_lookup).
Qed.
Lemma nkv_find_spec qw vw g bss i es x : 1 <= qw <= 64 -> nkv_rep qw vw g bss -> bss !! i = Some es ->
  nkv_find ib pf junk g i x qw = Ok (first_index x es.*1).
Proof.
  intros Hq H Hi. pose proof (lookup_lt_Some _ _ _ Hi) as Hlt. unfold nkv_find. rewrite (nkv_begin_spec qw vw g bss) by done. cbn [mbind res_bind].
  rewrite (nkv_position_spec qw vw g bss) by done. cbn [mbind res_bind]. rewrite (off_S _ _ _ Hi).
  destruct (Nat.eqb_spec (off bss i + length es + i) (off bss i + i)) as [E|E].
  { assert (length es = 0) as Hz by lia. by apply nil_length_inv in Hz as ->. }
  replace (off bss i + i - i) with (off bss i) by lia. replace (off bss i + length es + i - i - off bss i) with (length es) by lia.
  destruct H as (_ & _ & _ & Hk & _). rewrite (ncore_find ib pf IB PF qw (g_keys g) (concat bss).*1 x _ _ Hq Hk).
  - cbn [mbind res_bind]. rewrite <-fmap_drop, <-fmap_take, (concat_seg _ _ _ Hi). destruct (first_index x es.*1) as [j|]; [|done].
    cbn [fmap option_fmap option_map]. do 2 f_equal. lia.
  - rewrite fmap_length. rewrite <-(off_S _ _ _ Hi). apply off_le.
Qed.
Lemma nkv_words_spec (bss : list entries) n k : length bss <= 255 -> (n + 512 <= 2^32)%N -> N.to_nat (n + 1) = k ->
  nkv_words ib n (length bss) = cdiv (k + length bss) ib.
Proof. intros Hb Hn Hk. unfold nkv_words, u32. rewrite N.mod_small by lia. f_equal. lia. Qed.
Lemma nkv_push_spec qw vw g bss i es q v : 1 <= qw <= 64 -> 1 <= vw <= 64 -> nkv_rep qw vw g bss -> bss !! i = Some es ->
  (q < 2^N.of_nat qw)%N -> (v < 2^N.of_nat vw)%N -> (g_size g + 513 <= 2^32)%N ->
  exists g', nkv_push ib pf junk g (length bss) i q qw v vw = Ok g' /\ nkv_rep qw vw g' (<[i := es ++ [(q, v)]]> bss).
Proof.
  intros Hqw Hvw H Hi Hq Hv Hsz. pose proof (lookup_lt_Some _ _ _ Hi) as Hlt. unfold nkv_push.
  rewrite (nkv_position_spec qw vw g bss) by done. cbn [mbind res_bind]. pose proof (off_le bss (S i)) as Hoff.
  destruct H as (Hb & Hs & Hbd & Hk & Hva & ws & Hws & Hr).
  replace (off bss (S i) + i - i) with (off bss (S i)) by lia. rewrite Hs, Nat2N.id, Hws in *.
  destruct (ncore_insert ib pf IB PF qw (g_keys g) _ (off bss (S i)) q Hqw Hk) as (d1 & E1 & Hd1); [by rewrite fmap_length|done|].
  destruct (ncore_insert ib pf IB PF vw (g_vals g) _ (off bss (S i)) v Hvw Hva) as (d2 & E2 & Hd2); [by rewrite fmap_length|done|].
  rewrite fmap_length in E1, E2. rewrite E1. cbn [mbind res_bind]. rewrite E2. cbn [mbind res_bind].
  assert (Hu : u32 (N.of_nat (length (concat bss)) + 1) = N.of_nat (S (length (concat bss)))) by (unfold u32; rewrite N.mod_small; lia).
  rewrite Hu. rewrite (nkv_words_spec _ _ (S (S (length (concat bss))))) by lia.
  assert (Hold : cdiv (N.to_nat (u32 (N.of_nat (S (length (concat bss))) + N.of_nat (length bss)))) ib = cdiv (length (concat bss) + length bss + 1) ib).
  { unfold u32. rewrite N.mod_small by lia. f_equal. lia. }
  rewrite Hold. destruct (nborder_push ib IB ws (lens bss) i (length es) Hr (lens_lookup _ _ _ Hi)) as (ws' & E3 & Hr').
  cbv zeta in E3. rewrite tot_lens, lens_length in E3. unfold upos in E3. rewrite off_tot in E3.
  replace (S (S (length (concat bss))) + length bss) with (length (concat bss) + length bss + 2) by lia.
  rewrite E3. cbn [mbind res_bind]. eexists. split; [done|].
  unfold NarrowKv.nkv_rep. cbn [g_size g_keys g_vals g_border]. rewrite insert_length. rewrite (concat_push _ _ _ _ Hi).
  assert (Hlen : length (take (off bss (S i)) (concat bss) ++ (q, v) :: drop (off bss (S i)) (concat bss)) = S (length (concat bss))).
  { rewrite app_length. cbn [length]. rewrite take_length, drop_length. lia. }
  rewrite Hlen. split; [done|]. split; [done|]. split; [lia|]. rewrite !fmap_ins. split; [done|]. split; [done|].
  exists ws'. split; [done|]. rewrite lens_insert, app_length. cbn [length]. by rewrite Nat.add_1_r.
Qed.
Lemma nkv_erase_spec qw vw g bss i es p : 1 <= qw <= 64 -> 1 <= vw <= 64 -> nkv_rep qw vw g bss -> bss !! i = Some es ->
  p < length es ->
  exists g', nkv_erase ib pf junk g (length bss) i p qw vw = Ok g' /\ nkv_rep qw vw g' (<[i := delete p es]> bss).
Proof.
  intros Hqw Hvw H Hi Hp. pose proof (lookup_lt_Some _ _ _ Hi) as Hlt. unfold nkv_erase.
  assert (Hprev : exists b, match i with O => Ok 0 | S i' => nkv_position g i' end = Ok b /\ b - match i with O => 0 | S i' => i' end = off bss i).
  { destruct i as [|i]; [by exists 0|]. rewrite (nkv_position_spec qw vw g bss) by (try done; lia). eexists. split; [done|]. lia. }
  destruct Hprev as (b & -> & Hbo). cbn [mbind res_bind]. rewrite Hbo.
  rewrite (nkv_position_spec qw vw g bss) by done. cbn [mbind res_bind].
  pose proof (concat_length_pos _ _ _ Hi) as Hcl. pose proof (off_le bss (S i)) as Hoff. rewrite (off_S _ _ _ Hi) in Hoff.
  destruct H as (Hb & Hs & Hbd & Hk & Hva & ws & Hws & Hr). rewrite Hs, Nat2N.id, Hws in *.
  destruct (ncore_erase ib pf IB PF qw (g_keys g) _ (off bss i + p) Hqw Hk) as (d1 & E1 & Hd1); [rewrite fmap_length; lia|].
  destruct (ncore_erase ib pf IB PF vw (g_vals g) _ (off bss i + p) Hvw Hva) as (d2 & E2 & Hd2); [rewrite fmap_length; lia|].
  rewrite fmap_length in E1, E2. rewrite E1. cbn [mbind res_bind]. rewrite E2. cbn [mbind res_bind].
  rewrite (nkv_words_spec _ (N.of_nat (length (concat bss))) (S (length (concat bss)))) by lia.
  assert (Hu : u32 (N.of_nat (length (concat bss)) + 2^32 - 1) = N.of_nat (length (concat bss) - 1)).
  { unfold u32. replace (N.of_nat (length (concat bss)) + 2^32 - 1)%N with (N.of_nat (length (concat bss) - 1) + 1 * 2^32)%N by lia.
    rewrite N.mod_add by done. rewrite N.mod_small; lia. }
  rewrite Hu. rewrite (nkv_words_spec _ _ (length (concat bss))) by lia.
  destruct es as [|e es]; [cbn in Hp; lia|]. cbn [length] in *.
  destruct (nborder_pop ib IB ws (lens bss) i (length es) Hr (lens_lookup _ _ _ Hi)) as (ws' & E3 & Hr').
  cbv zeta in E3, Hr'. rewrite tot_lens, lens_length in E3, Hr'. unfold upos in E3. rewrite off_tot in E3.
  replace (S (length (concat bss)) + length bss) with (length (concat bss) + length bss + 1) by lia.
  rewrite E3. cbn [mbind res_bind]. eexists. split; [done|].
  pose proof (length_delete (concat bss) (off bss i + p) ltac:(apply lookup_lt_is_Some_2; lia)) as Hlen.
  unfold NarrowKv.nkv_rep. cbn [g_size g_keys g_vals g_border]. rewrite insert_length. rewrite (concat_delete _ _ _ p Hi) by (cbn [length]; lia).
  rewrite Hlen. split; [done|]. split; [done|]. split; [lia|]. rewrite !fmap_del. split; [done|]. split; [done|].
  eexists. split; [done|]. rewrite lens_insert. rewrite length_delete by (apply lookup_lt_is_Some_2; cbn [length]; lia).
  cbn [length]. by rewrite Nat.sub_succ, Nat.sub_0_r.
Qed.
End call.

(** ** Histories.  Each call comes with what is behind m_border at that time. *)
Definition nrun_step (bpg kw vw : nat) (g : kvgroup) (jo : (nat -> bool) * gop) : res (kvgroup * gout) :=
  let '(junk, o) := jo in
  match o with
  | GPush i k v => g ← nkv_push ib pf junk g bpg i k kw v vw; Ok (g, GUnit)
  | GErase i p => g ← nkv_erase ib pf junk g bpg i p kw vw; Ok (g, GUnit)
  | GWrite i p v => g ← nkv_write_value ib pf junk g i p v vw; Ok (g, GUnit)
  | GRead i p => e ← nkv_read ib pf junk g i p kw vw; Ok (g, GPair e)
  | GSize i => n ← nkv_bucketsize ib pf junk g i; Ok (g, GNum n)
  | GFind i k => p ← nkv_find ib pf junk g i k kw; Ok (g, GPos p)
  end.
Fixpoint nrun (bpg kw vw : nat) (g : kvgroup) (ops : list ((nat -> bool) * gop)) : res (kvgroup * list gout) :=
  match ops with
  | [] => Ok (g, [])
  | o :: ops =>
      r ← nrun_step bpg kw vw g o;
      let '(g, x) := (r : kvgroup * gout) in
      rs ← nrun bpg kw vw g ops;
      let '(g, xs) := (rs : kvgroup * list gout) in Ok (g, x :: xs)
  end.
Lemma nkv_history kw vw : 1 <= kw <= 64 -> 1 <= vw <= 64 -> forall ops g bss, nkv_rep kw vw g bss ->
  gvalid_ops kw vw bss ops.*2 ->
  exists g', nrun (length bss) kw vw g ops = Ok (g', snd (gspec_run bss ops.*2))
    /\ nkv_rep kw vw g' (fst (gspec_run bss ops.*2)).
Proof.
  intros Hk Hv. induction ops as [|[junk o] ops IH]; intros g bss H Hval; [by exists g|]. cbn [fmap list_fmap snd gvalid_ops gspec_run length] in *.
  destruct (gspec_step bss o) as [bss' r] eqn:Es. destruct Hval as [Ho HP]. cbn [fst snd] in *.
  assert (Hstep : exists g', nrun_step (length bss) kw vw g (junk, o) = Ok (g', r) /\ nkv_rep kw vw g' bss' /\ length bss' = length bss).
  { destruct o as [i k v|i p|i p v|i p|i|i k]; cbn [gspec_step gvalid nrun_step] in *; injection Es as <- <-.
    - destruct Ho as (Hi & Hkk & Hvv & Hn). apply nth_bucket in Hi.
      destruct (nkv_push_spec junk kw vw g bss i _ k v Hk Hv H Hi Hkk Hvv) as (g' & -> & Hg); [destruct H as (_ & -> & _); done|]. exists g'.
      split; [done|]. split; [done|]. apply insert_length.
    - destruct Ho as (Hi & Hp). apply nth_bucket in Hi.
      destruct (nkv_erase_spec junk kw vw g bss i _ p Hk Hv H Hi Hp) as (g' & -> & Hg). exists g'.
      split; [done|]. split; [done|]. apply insert_length.
    - destruct Ho as (Hi & Hp & Hvv). apply nth_bucket in Hi. apply nth_pair in Hp.
      destruct (nth p (nth i bss []) (0, 0)%N) as [q v0] eqn:Ee.
      destruct (nkv_write_spec junk kw vw g bss i _ p q v0 v Hv H Hi Hp Hvv) as (g' & -> & Hg). exists g'.
      split; [done|]. split; [done|]. apply insert_length.
    - destruct Ho as (Hi & Hp). apply nth_bucket in Hi. apply nth_pair in Hp. destruct (nth p (nth i bss []) (0, 0)%N) as [q v0] eqn:Ee.
      rewrite (nkv_read_spec junk kw vw g bss i _ p q v0 Hk Hv H Hi Hp). by exists g.
    - apply nth_bucket in Ho. rewrite (nkv_bucketsize_spec junk kw vw g bss i _ H Ho). by exists g.
    - apply nth_bucket in Ho. rewrite (nkv_find_spec junk kw vw g bss i _ k Hk H Ho). by exists g. }
  destruct Hstep as (g' & E & Hg & Hl). cbn [nrun]. rewrite E. cbn [mbind res_bind].
  destruct (IH g' bss' Hg) as (g2 & E2 & H2); [done|]. destruct (gspec_run bss' ops.*2) as [css rs]. cbn [fst snd] in *. rewrite <-Hl, E2. cbn [mbind res_bind]. by exists g2.
Qed.
End kv.
