(** The debug members of keyvalue_group agree with the data, and no check fails on valid calls. *)
From Verif Require Export DebugGroupRep.
#[local] Open Scope nat_scope.

(** m_border_array: where the buckets end *)
Definition barr (bss : list entries) : list N := (fun j => N.of_nat (off bss (S j))) <$> seq 0 (length bss).
(** m_blocksize does not wrap *)
Definition bs_small (d : dcore) : Prop := exists bs, c_bs d = Some bs /\ (bs < 2^64)%N.
Definition dkv_rep (pf : platform) (qw vw : nat) (g : dkv) (bss : list entries) : Prop :=
  kv_rep True pf qw vw (kstrip g) bss
  /\ dcore_rep pf qw (k_keys g) (concat bss).*1
  /\ dcore_rep pf vw (k_vals g) (concat bss).*2
  /\ k_blen g = Some (N.of_nat (cdiv (length (concat bss) + length bss + 1) 64))
  /\ k_barr g = barr bss
  /\ k_gs g = N.of_nat (length bss)
  /\ bs_small (k_keys g) /\ bs_small (k_vals g).

Lemma dc_init_bs d w d' : dc_init d w = Ok d' -> c_bs d' = Some (N.of_nat (cdiv w 64)).
Proof. unfold dc_init. intros H. repeat dinv1 H. by injection H as <-. Qed.
Lemma dc_insert_bs pf d i x w n d' : dc_insert pf d i x w n = Ok d' -> c_bs d' = Some (N.of_nat (cdiv (w * (n + 2)) 64)).
Proof. unfold dc_insert. intros H. cbv zeta in H. repeat dinv1 H. by injection H as <-. Qed.
Lemma dc_erase_bs pf d i w n d' : dc_erase pf d i w n = Ok d' -> c_bs d' = c_bs d.
Proof. unfold dc_erase. intros H. cbv zeta in H. repeat dinv1 H. by injection H as <-. Qed.
Lemma dc_write_bs pf d i x w d' : dc_write pf d i x w = Ok d' -> c_bs d' = c_bs d.
Proof. unfold dc_write. intros H. cbv zeta in H. repeat dinv1 H. by injection H as <-. Qed.
Lemma bs_small_insert pf d i x w n d' : w <= 64 -> (N.of_nat n + 512 <= 2^32)%N -> dc_insert pf d i x w n = Ok d' -> bs_small d'.
Proof.
  intros Hw Hn H. eexists. split; [by eapply dc_insert_bs|].
  assert (cdiv (w * (n + 2)) 64 <= w * (n + 2) + 63) by (unfold cdiv; apply Nat.div_le_upper_bound; lia).
  assert (w * (n + 2) <= 64 * (n + 2)) by (apply Nat.mul_le_mono_r; lia). assert (2^64 = 2^32 * 2^32)%N by done. assert (2^32 = 4294967296)%N by done. lia.
Qed.
Lemma bs_small_init d w d' : w <= 64 -> dc_init d w = Ok d' -> bs_small d'.
Proof.
  intros Hw H. eexists. split; [by eapply dc_init_bs|]. assert (cdiv w 64 <= w + 63) by (unfold cdiv; apply Nat.div_le_upper_bound; lia).
  assert (2^64 = 18446744073709551616)%N by done. lia.
Qed.
Lemma bs_small_eq d d' : c_bs d' = c_bs d -> bs_small d -> bs_small d'.
Proof. intros E (bs & H1 & H2). exists bs. by rewrite E. Qed.

(** ** m_border_array *)
Lemma off_upd bss i es es' j : bss !! i = Some es ->
  off (<[i := es']> bss) j + (if i <? j then length es else 0) = off bss j + (if i <? j then length es' else 0).
Proof.
  intros H. rewrite <-!off_tot, lens_insert. pose proof (lens_lookup _ _ _ H) as Hl. destruct (Nat.ltb_spec i j) as [Hj|Hj].
  - rewrite take_insert_lt by done. apply tot_update. by rewrite lookup_take.
  - by rewrite take_insert by done.
Qed.
Lemma barr_length bss : length (barr bss) = length bss.
Proof. unfold barr. by rewrite fmap_length, seq_length. Qed.
Lemma barr_lookup bss j : j < length bss -> barr bss !! j = Some (N.of_nat (off bss (S j))).
Proof. intros H. unfold barr. rewrite list_lookup_fmap, lookup_seq_lt by done. done. Qed.
Lemma barr_upd (f : N -> N) bss i es es' : bss !! i = Some es ->
  (forall j, i <= j < length bss -> f (N.of_nat (off bss (S j))) = N.of_nat (off bss (S j) + length es' - length es)) ->
  take i (barr bss) ++ map f (drop i (barr bss)) = barr (<[i := es']> bss).
Proof.
  intros H Hf. pose proof (lookup_lt_Some _ _ _ H) as Hi. apply list_eq. intros j. destruct (Nat.lt_ge_cases j (length bss)) as [Hj|Hj].
  - rewrite (barr_lookup (<[i := es']> bss)) by (by rewrite insert_length). pose proof (off_upd bss i es es' (S j) H) as Ho.
    destruct (Nat.lt_ge_cases j i) as [Hc|Hc].
    + rewrite lookup_app_l by (rewrite take_length, barr_length; lia). rewrite lookup_take, barr_lookup by done.
      rewrite (proj2 (Nat.ltb_ge _ _)) in Ho by lia. do 2 f_equal. lia.
    + rewrite lookup_app_r by (rewrite take_length, barr_length; lia). rewrite take_length, barr_length.
      change (map f (drop i (barr bss))) with (f <$> drop i (barr bss)). rewrite list_lookup_fmap, lookup_drop.
      replace (i + (j - i `min` length bss)) with j by lia. rewrite barr_lookup by done. cbn [fmap option_fmap option_map]. rewrite Hf by lia.
      rewrite (proj2 (Nat.ltb_lt _ _)) in Ho by lia. do 2 f_equal. lia.
  - rewrite !lookup_ge_None_2; [done|by rewrite barr_length, insert_length|].
    rewrite app_length, map_length, take_length, drop_length, barr_length. lia.
Qed.
Lemma off_mono bss i j : i <= j -> off bss i <= off bss j.
Proof.
  intros H. rewrite <-!off_tot. replace i with (i `min` j) by lia. rewrite <-take_take. apply tot_take_le.
Qed.

(** ** m_border *)
Lemma dborder_ok blen : forall ws idx rem sum p, border_select ws rem sum = Ok p -> (idx + N.of_nat (length ws) <= blen)%N ->
  dborder_select blen idx ws rem sum = Ok p.
Proof.
  induction ws as [|w ws IH]; intros idx rem sum p; [discriminate|]. rewrite dborder_cons, border_cons. cbn [length]. intros H Hb.
  rewrite (proj2 (N.ltb_lt _ _)) by lia. cbn [chk mbind res_bind]. destruct (popcount w <=? rem); [|exact H]. apply IH; [exact H|lia].
Qed.
Lemma popcount_ones w : popcount w = ones (bits_of 64 w).
Proof. unfold popcount, ones. reflexivity. Qed.
Lemma popcounts ws : fold_right (fun w s => popcount w + s) 0 ws = ones (wbits ws).
Proof.
  induction ws as [|w ws IH]; [done|]. cbn [fold_right]. rewrite IH, popcount_ones. unfold wbits. cbn [map concat]. by rewrite ones_app.
Qed.
Lemma ones_ucode ns : ones (ucode ns) = length ns + 1.
Proof.
  induction ns as [|n ns IH]; [done|]. cbn [ucode length]. rewrite ones_app, ones_false. unfold ones in *. cbn [List.filter length]. lia.
Qed.
Lemma border_count_ok ws ns : border_rep ws ns -> border_count (Some ws) (N.of_nat (cdiv (tot ns + length ns + 1) 64)) (length ns + 1) = Ok tt.
Proof.
  intros H. unfold border_count. cbn [of_option mbind res_bind]. pose proof H as (_ & Hl & _). rewrite (proj2 (N.ltb_ge _ _)) by lia. cbn [mbind res_bind].
  rewrite Nat2N.id, take_ge by lia. rewrite popcounts. destruct (border_rep_bits _ _ H) as (k & ->). rewrite ones_app, ones_false, ones_ucode.
  rewrite Nat.add_0_r, Nat.eqb_refl. done.
Qed.

Section kv.
Context (pf : platform).
Notation rep := (dkv_rep pf).
Lemma dkv_position_spec qw vw g bss i : rep qw vw g bss -> i < length bss -> dkv_position g i = Ok (off bss (S i) + i).
Proof.
  intros ((Hb & _ & _ & _ & _ & ws & Hws & Hr) & _ & _ & Hbl & Ha & _) Hi. unfold dkv_position. rewrite Hbl, Ha. cbn [known of_option mbind res_bind].
  pose proof (cdiv_ge (length (concat bss) + length bss + 1) 64 ltac:(lia)). rewrite (proj2 (N.ltb_lt _ _)) by lia. cbn [chk mbind res_bind].
  cbn [kstrip g_border] in Hws. rewrite Hws. cbn [of_option mbind res_bind]. rewrite Nat.mod_small by lia.
  rewrite (dborder_ok _ ws 0 i 0 (upos (lens bss) i)).
  - cbn [mbind res_bind]. rewrite barr_lookup by done. cbn [of_option mbind res_bind]. unfold upos. rewrite off_tot.
    rewrite (proj2 (N.eqb_eq _ _)) by lia. done.
  - apply border_select_pos; [done|]. by rewrite lens_length.
  - destruct Hr as (_ & Hl & _). rewrite Hl, tot_lens, lens_length. lia.
Qed.
Lemma dkv_begin_spec qw vw g bss i : rep qw vw g bss -> i < length bss -> dkv_begin g i = Ok (off bss i + i).
Proof.
  intros H Hi. unfold dkv_begin. destruct i as [|i]; [done|]. rewrite (dkv_position_spec qw vw g bss) by (try done; lia).
  cbn [mbind res_bind]. f_equal. lia.
Qed.
Lemma dkv_bucketsize_spec qw vw g bss i es : rep qw vw g bss -> bss !! i = Some es -> dkv_bucketsize g i = Ok (length es).
Proof.
  intros H Hi. pose proof (lookup_lt_Some _ _ _ Hi) as Hlt. unfold dkv_bucketsize.
  pose proof (kv_empty_spec pf True qw vw (kstrip g) bss (proj1 H)) as He. unfold kv_empty in He. cbn [kstrip g_size] in He.
  destruct (k_size g =? 0)%N.
  { specialize (He eq_refl). pose proof (concat_length_pos _ _ _ Hi) as Hp. rewrite He in Hp. cbn in Hp. f_equal. lia. }
  assert (Hprev : match i with O => Ok 0 | S i' => p ← dkv_position g i'; Ok (p - i') end = Ok (off bss i)).
  { destruct i as [|i]; [done|]. rewrite (dkv_position_spec qw vw g bss) by (try done; lia). cbn [mbind res_bind]. f_equal. lia. }
  rewrite Hprev. cbn [mbind res_bind]. rewrite (dkv_position_spec qw vw g bss) by done. cbn [mbind res_bind].
  pose proof (off_S _ _ _ Hi) as Ho. pose proof H as ((_ & _ & Hbd & _) & _ & _ & _ & Ha & _). rewrite Ha, barr_lookup by done.
  rewrite (proj2 (Nat.leb_le _ _)) by lia. cbn [chk of_option mbind res_bind].
  assert (Hp : match i with O => Ok 0%N | S i' => of_option OobRead (barr bss !! i') end = Ok (N.of_nat (off bss i))).
  { destruct i as [|i]; [done|]. by rewrite barr_lookup by lia. }
  rewrite Hp. cbn [mbind res_bind]. pose proof (off_le bss (S i)). rewrite sub64_small by lia.
  rewrite (proj2 (N.eqb_eq _ _)) by lia. cbn [chk mbind res_bind]. f_equal. lia.
Qed.
Lemma dkv_index_ok qw vw g bss i : rep qw vw g bss -> i < length bss -> dkv_index g i = Ok tt.
Proof. intros (_ & _ & _ & _ & _ & E & _) Hi. unfold dkv_index. rewrite E, (proj2 (N.ltb_lt _ _)) by lia. done. Qed.
Lemma dkv_read_key_spec qw vw g bss i es p q v : 1 <= qw <= 64 -> rep qw vw g bss -> bss !! i = Some es -> es !! p = Some (q, v) ->
  dkv_read_key pf g i p qw = Ok q.
Proof.
  intros Hq H Hi Hp. pose proof (lookup_lt_Some _ _ _ Hi) as Hlt. unfold dkv_read_key. rewrite (dkv_index_ok _ _ _ _ _ H Hlt). cbn [mbind res_bind].
  rewrite (dkv_begin_spec _ _ _ _ _ H Hlt). cbn [mbind res_bind]. destruct H as (_ & Hk & _). replace (off bss i + i + p - i) with (off bss i + p) by lia.
  eapply dcore_read; [done|exact Hk|]. rewrite list_lookup_fmap, (concat_lookup _ _ es) by (try done; by eapply lookup_lt_Some). by rewrite Hp.
Qed.
Lemma dkv_read_value_spec qw vw g bss i es p q v : 1 <= vw <= 64 -> rep qw vw g bss -> bss !! i = Some es -> es !! p = Some (q, v) ->
  dkv_read_value pf g i p vw = Ok v.
Proof.
  intros Hq H Hi Hp. pose proof (lookup_lt_Some _ _ _ Hi) as Hlt. unfold dkv_read_value. rewrite (dkv_index_ok _ _ _ _ _ H Hlt). cbn [mbind res_bind].
  rewrite (dkv_begin_spec _ _ _ _ _ H Hlt). cbn [mbind res_bind]. destruct H as (_ & _ & Hk & _). replace (off bss i + i + p - i) with (off bss i + p) by lia.
  eapply dcore_read; [done|exact Hk|]. rewrite list_lookup_fmap, (concat_lookup _ _ es) by (try done; by eapply lookup_lt_Some). by rewrite Hp.
Qed.
Lemma dkv_read_spec qw vw g bss i es p q v : 1 <= qw <= 64 -> 1 <= vw <= 64 -> rep qw vw g bss -> bss !! i = Some es -> es !! p = Some (q, v) ->
  dkv_read pf g i p qw vw = Ok (q, v).
Proof.
  intros Hq Hv H Hi Hp. pose proof (lookup_lt_Some _ _ _ Hi) as Hlt. pose proof (lookup_lt_Some _ _ _ Hp) as Hpl.
  pose proof (dkv_read_key_spec _ _ _ _ _ _ _ _ _ Hq H Hi Hp) as E1. pose proof (dkv_read_value_spec _ _ _ _ _ _ _ _ _ Hv H Hi Hp) as E2.
  unfold dkv_read_key, dkv_read_value, dkv_read in *. rewrite (dkv_index_ok _ _ _ _ _ H Hlt) in *. cbn [mbind res_bind] in *.
  rewrite (dkv_begin_spec _ _ _ _ _ H Hlt) in *. cbn [mbind res_bind] in *. rewrite (dkv_position_spec _ _ _ _ _ H Hlt). cbn [mbind res_bind].
  rewrite (off_S _ _ _ Hi), (proj2 (Nat.ltb_lt _ _)) by lia. cbn [chk mbind res_bind]. rewrite E1. cbn [mbind res_bind]. by rewrite E2.
Qed.
Lemma dkv_write_spec qw vw g bss i es p q v v' : 1 <= vw <= 64 -> rep qw vw g bss -> bss !! i = Some es -> es !! p = Some (q, v) ->
  (v' < 2^N.of_nat vw)%N ->
  exists g', dkv_write_value pf g i p v' vw = Ok g' /\ rep qw vw g' (<[i := <[p := (q, v')]> es]> bss) /\ k_size g' = k_size g.
Proof.
  intros Hq H Hi Hp Hv'. pose proof (lookup_lt_Some _ _ _ Hi) as Hlt. pose proof (lookup_lt_Some _ _ _ Hp) as Hpl.
  destruct (kv_write_spec pf True qw vw (kstrip g) bss i es p q v v' Hq (proj1 H) Hi Hp Hv') as (g0 & E0 & H0 & _).
  cut (exists g', dkv_write_value pf g i p v' vw = Ok g' /\ dcore_rep pf qw (k_keys g') (concat (<[i := <[p := (q, v')]> es]> bss)).*1
    /\ dcore_rep pf vw (k_vals g') (concat (<[i := <[p := (q, v')]> es]> bss)).*2 /\ k_size g' = k_size g /\ k_blen g' = k_blen g
    /\ k_barr g' = k_barr g /\ k_gs g' = k_gs g /\ bs_small (k_keys g') /\ bs_small (k_vals g')).
  { intros (g' & E & Hk' & Hv1 & Es & Eb & Ea & Eg & Hsm). exists g'. split; [done|]. split; [|done]. pose proof (dkv_write_value_eq _ _ _ _ _ _ _ E) as E'.
    rewrite E' in E0. injection E0 as <-. destruct H as (_ & _ & _ & Hbl & Hba & Hgs & _).
    split; [done|]. split; [done|]. split; [done|]. rewrite Eb, Ea, Eg, Hbl, Hba, Hgs. rewrite insert_length, (concat_set _ _ _ _ _ Hi Hpl), insert_length.
    split; [done|]. split; [|by split]. rewrite <-(barr_upd (fun x => x) bss i es (<[p := (q, v')]> es) Hi).
    - change (map (fun x => x) ?l) with ((fun x : N => x) <$> l). rewrite list_fmap_id. by rewrite take_drop.
    - intros j _. rewrite insert_length. f_equal. lia. }
  clear E0 H0 g0. unfold dkv_write_value. rewrite (dkv_index_ok _ _ _ _ _ H Hlt). cbn [mbind res_bind].
  rewrite (dkv_begin_spec _ _ _ _ _ H Hlt). cbn [mbind res_bind]. destruct H as (_ & Hk & Hv & _ & _ & _ & Hsk & Hsv). replace (off bss i + i + p - i) with (off bss i + p) by lia.
  pose proof (concat_lookup _ _ _ p Hi Hpl) as Hcl. rewrite Hp in Hcl.
  destruct (dcore_write pf vw (k_vals g) _ (off bss i + p) v' Hq Hv) as (d' & Ed & Hd'); [|done|].
  { rewrite fmap_length. by eapply lookup_lt_Some. }
  rewrite Ed. cbn [mbind res_bind]. eexists. split; [done|]. cbn [k_keys k_vals k_size k_blen k_barr k_gs]. rewrite (concat_set _ _ _ _ _ Hi Hpl).
  rewrite !list_fmap_insert. cbn [fst snd]. split; [|split; [done|]; do 4 (split; [done|]); split; [done|eapply bs_small_eq; [by eapply dc_write_bs|done]]].
  rewrite list_insert_id; [done|]. by rewrite list_lookup_fmap, Hcl.
Qed.
Lemma dkv_find_spec qw vw g bss i es x : 1 <= qw <= 64 -> rep qw vw g bss -> bss !! i = Some es ->
  dkv_find pf g i x qw = Ok (first_index x es.*1).
Proof.
  intros Hq H Hi. pose proof (lookup_lt_Some _ _ _ Hi) as Hlt. unfold dkv_find. rewrite (dkv_index_ok _ _ _ _ _ H Hlt). cbn [mbind res_bind].
  rewrite (dkv_begin_spec _ _ _ _ _ H Hlt). cbn [mbind res_bind]. rewrite (dkv_position_spec _ _ _ _ _ H Hlt). cbn [mbind res_bind].
  rewrite (off_S _ _ _ Hi), (proj2 (Nat.leb_le _ _)) by lia. cbn [chk mbind res_bind].
  destruct (Nat.eqb_spec (off bss i + length es + i) (off bss i + i)) as [E|E].
  { assert (length es = 0) as Hz by lia. by apply nil_length_inv in Hz as ->. }
  replace (off bss i + i - i) with (off bss i) by lia. replace (off bss i + length es + i - i - off bss i) with (length es) by lia.
  destruct H as (_ & Hk & _). rewrite (dcore_find pf qw (k_keys g) (concat bss).*1 x _ _ Hq Hk).
  - cbn [mbind res_bind]. rewrite <-fmap_drop, <-fmap_take, (concat_seg _ _ _ Hi). destruct (first_index x es.*1) as [j|]; [|done].
    cbn [fmap option_fmap option_map]. do 2 f_equal. lia.
  - lia.
  - rewrite fmap_length. rewrite <-(off_S _ _ _ Hi). apply off_le.
Qed.
Lemma dkv_check_ok qw vw g bss : rep qw vw g bss -> dkv_check g (length bss + 1) = Ok tt.
Proof.
  intros H. unfold dkv_check. rewrite rfold_tt.
  - cbn [mbind res_bind]. destruct H as ((_ & _ & _ & _ & _ & ws & Hws & Hr) & _ & _ & -> & _). cbn [known of_option mbind res_bind].
    cbn [kstrip g_border] in Hws. rewrite Hws. pose proof (border_count_ok _ _ Hr) as Hc. by rewrite tot_lens, lens_length in Hc.
  - intros _ i Hi. apply elem_of_seq in Hi. pose proof H as (_ & _ & _ & _ & Ha & _). rewrite Ha, barr_length in Hi.
    rewrite (dkv_position_spec _ _ _ _ i H) by lia. cbn [mbind res_bind]. rewrite Ha, barr_lookup by lia. cbn [of_option mbind res_bind].
    rewrite (proj2 (N.eqb_eq _ _)) by lia. done.
Qed.
Lemma dkv_init_spec qw vw g n : 1 <= n <= 255 -> 1 <= qw <= 64 -> 1 <= vw <= 64 -> k_border g = None -> Forall (fun a => a = 0%N) (k_barr g) ->
  c_d (k_keys g) = None -> c_plain (k_keys g) = None -> c_d (k_vals g) = None -> c_plain (k_vals g) = None ->
  exists g', dkv_init g n qw vw = Ok g' /\ rep qw vw g' (replicate n []) /\ k_size g' = 0%N.
Proof.
  intros Hn Hq Hv Hb Ha K1 K2 V1 V2. unfold dkv_init. rewrite Hb. cbn [chk mbind res_bind].
  destruct (dcore_init pf qw (k_keys g) (proj1 Hq) K2 K1) as (d1 & E1 & Hd1). destruct (dcore_init pf vw (k_vals g) (proj1 Hv) V2 V1) as (d2 & E2 & Hd2).
  rewrite E1. cbn [mbind res_bind]. rewrite E2. cbn [mbind res_bind].
  rewrite (proj2 (Nat.leb_le _ _)) by lia. cbn [chk mbind res_bind]. cbv zeta. cbn [k_border].
  assert (Ez : take n (k_barr g) ++ replicate (n - length (k_barr g)) 0%N = replicate n 0%N).
  { clear -Ha. revert n. induction Ha as [|a l -> _ IH]; intros n; [by rewrite take_nil, Nat.sub_0_r|].
    destruct n as [|n]; [done|]. cbn [take length Nat.sub app replicate]. by rewrite IH. }
  rewrite Ez.
  pose proof (border_init_rep n) as Hbr. pose proof (border_count_ok _ _ Hbr) as Hc. rewrite replicate_length in Hc.
  assert (Ht : tot (replicate n 0) = 0). { clear. induction n; [done|]. cbn. exact IHn. } rewrite Ht in Hc. cbn [Nat.add] in Hc.
  rewrite Hc. cbn [mbind res_bind]. eexists. split; [done|]. split; [|done].
  pose proof (dc_init_eq _ _ _ E1) as F1. pose proof (dc_init_eq _ _ _ E2) as F2.
  split. { unfold kstrip. cbn [k_size k_keys k_vals k_border]. rewrite F1, F2. apply (kv_init_rep pf True qw vw (kstrip g) n); lia. }
  cbn [k_keys k_vals k_blen k_barr k_gs]. rewrite concat_replicate_nil, replicate_length. do 2 (split; [done|]). split; [done|]. split; [|split; [done|]; split; eapply bs_small_init; [|done| |done]; lia].
  apply list_eq. intros j. destruct (Nat.lt_ge_cases j n) as [Hj|Hj].
  - rewrite lookup_replicate_2, barr_lookup by (rewrite ?replicate_length; done). do 2 f_equal. unfold off. rewrite take_replicate, concat_replicate_nil. done.
  - rewrite !lookup_ge_None_2; [done|by rewrite barr_length, replicate_length|by rewrite replicate_length].
Qed.
Lemma dkv_push_spec qw vw g bss i es q v : 1 <= qw <= 64 -> 1 <= vw <= 64 -> rep qw vw g bss -> bss !! i = Some es ->
  (q < 2^N.of_nat qw)%N -> (v < 2^N.of_nat vw)%N -> (k_size g + 513 <= 2^32)%N ->
  exists g', dkv_push pf g (length bss) i q qw v vw = Ok g' /\ rep qw vw g' (<[i := es ++ [(q, v)]]> bss)
    /\ k_size g' = (k_size g + 1)%N.
Proof.
  intros Hqw Hvw H Hi Hq Hv Hsz. pose proof (lookup_lt_Some _ _ _ Hi) as Hlt. unfold dkv_push.
  rewrite (proj2 (N.ltb_lt _ _)) by lia. cbn [chk mbind res_bind].
  rewrite (dkv_position_spec _ _ _ _ _ H Hlt). cbn [mbind res_bind]. pose proof (off_le bss (S i)) as Hoff.
  destruct H as ((Hb & Hs & Hbd & Hk0 & Hva0 & ws & Hws & Hr) & Hk & Hva & Hbl & Hba & Hgs & Hsk & Hsv).
  cbn [kstrip g_size g_border] in Hs, Hws.
  replace (off bss (S i) + i - i) with (off bss (S i)) by lia. rewrite Hs, Nat2N.id, Hws in *.
  destruct (dcore_insert pf qw (k_keys g) _ (off bss (S i)) q Hqw Hk) as (d1 & E1 & Hd1); [by rewrite fmap_length|done|].
  destruct (dcore_insert pf vw (k_vals g) _ (off bss (S i)) v Hvw Hva) as (d2 & E2 & Hd2); [by rewrite fmap_length|done|].
  rewrite fmap_length in E1, E2. rewrite E1. cbn [mbind res_bind]. rewrite E2. cbn [mbind res_bind]. cbv zeta. cbn [of_option mbind res_bind].
  rewrite Hbl. cbn [known of_option mbind res_bind].
  assert (Hu : u32 (N.of_nat (length (concat bss)) + 1) = N.of_nat (S (length (concat bss)))) by (unfold u32; rewrite N.mod_small; lia).
  rewrite Hu. rewrite (kv_words_spec _ _ (S (S (length (concat bss))))) by lia.
  assert (Hold : cdiv (N.to_nat (u32 (N.of_nat (S (length (concat bss))) + N.of_nat (length bss)))) 64 = cdiv (length (concat bss) + length bss + 1) 64).
  { unfold u32. rewrite N.mod_small by lia. f_equal. lia. }
  rewrite Hold. destruct (border_push ws (lens bss) i (length es) Hr (lens_lookup _ _ _ Hi)) as (ws' & E3 & Hr').
  cbv zeta in E3. rewrite tot_lens, lens_length in E3. unfold upos in E3. rewrite off_tot in E3.
  replace (S (S (length (concat bss))) + length bss) with (length (concat bss) + length bss + 2) by lia.
  assert (Hstep : (if cdiv (length (concat bss) + length bss + 1) 64 <? cdiv (length (concat bss) + length bss + 2) 64
      then (N.of_nat (cdiv (length (concat bss) + length bss + 1) 64) + 1)%N else N.of_nat (cdiv (length (concat bss) + length bss + 1) 64))
      = N.of_nat (cdiv (length (concat bss) + length bss + 2) 64)).
  { unfold cdiv. set (x := length (concat bss) + length bss).
    assert (H1 : (x + 1 + 64 - 1) / 64 <= (x + 2 + 64 - 1) / 64) by (apply Nat.div_le_mono; lia).
    assert (H2 : (x + 2 + 64 - 1) / 64 <= (x + 1 + 64 - 1 + 1 * 64) / 64) by (apply Nat.div_le_mono; lia).
    rewrite Nat.div_add in H2 by done. destruct (Nat.ltb_spec ((x + 1 + 64 - 1) / 64) ((x + 2 + 64 - 1) / 64)); lia. }
  rewrite Hstep, N.eqb_refl. cbn [chk mbind res_bind].
  rewrite E3. cbn [mbind res_bind]. rewrite Hba.
  match goal with |- context [dkv_check ?g] => set (g' := g) end.
  assert (Hg' : rep qw vw g' (<[i := es ++ [(q, v)]]> bss)).
  { assert (Hlen : length (concat (<[i := es ++ [(q, v)]]> bss)) = S (length (concat bss))).
    { rewrite (concat_push _ _ _ _ Hi), app_length. cbn [length]. rewrite take_length, drop_length. lia. }
    assert (Hk' : dcore_rep pf qw d1 (concat (<[i := es ++ [(q, v)]]> bss)).*1) by (by rewrite (concat_push _ _ _ _ Hi), fmap_ins).
    assert (Hv' : dcore_rep pf vw d2 (concat (<[i := es ++ [(q, v)]]> bss)).*2) by (by rewrite (concat_push _ _ _ _ Hi), fmap_ins).
    split; [|split; [done|split; [done|]]].
    - unfold kv_rep. subst g'. cbn [kstrip g_size g_keys g_vals g_border k_size k_keys k_vals k_border]. rewrite insert_length, Hlen.
      split; [done|]. split; [done|]. split; [lia|]. split; [apply Hk'|]. split; [apply Hv'|].
      exists ws'. split; [done|]. rewrite lens_insert, app_length. cbn [length]. by rewrite Nat.add_1_r.
    - subst g'. cbn [k_blen k_barr k_gs]. rewrite insert_length, Hlen. split; [do 3 f_equal; lia|]. split; [|split; [done|]; cbn [k_keys k_vals]; split; eapply bs_small_insert; [| |exact E1| | |exact E2]; lia].
      apply (barr_upd _ _ _ es); [done|]. intros j Hj. rewrite app_length. cbn [length]. lia. }
  pose proof (dkv_check_ok _ _ _ _ Hg') as Hc. rewrite insert_length in Hc. rewrite Hc. cbn [mbind res_bind]. exists g'. split; [done|]. split; [done|].
  subst g'. cbn [k_size]. lia.
Qed.
Lemma wbit_word (ws : list N) ge w : ws !! (ge / 64) = Some w -> N.testbit w (N.of_nat (ge mod 64)) = wbit ws ge.
Proof. intros H. unfold wbit. by rewrite H. Qed.
Lemma border_bits_ok ws ns i n : border_rep ws ns -> ns !! i = Some (S n) -> border_bits ws (upos ns i) = Ok tt.
Proof.
  intros (HF & Hl & Hb) Hi. destruct (ucode_pop _ _ _ Hi) as (H1 & H2 & _). pose proof (lookup_lt_Some _ _ _ Hi) as Hlt.
  destruct (ucode_one ns i Hlt) as [H3 _]. pose proof (upos_lt ns i Hlt) as Hu. rewrite ucode_length in Hu.
  pose proof (cdiv_ge (tot ns + length ns + 1) 64 ltac:(lia)) as Hc. rewrite <-Hl in Hc. set (ge := upos ns i) in *.
  pose proof (Hb ge) as B1. rewrite (nth_lookup_Some _ _ _ _ H3) in B1. pose proof (Hb (ge - 1)) as B2. rewrite (nth_lookup_Some _ _ _ _ H2) in B2.
  pose proof (Nat.div_mod ge 64 ltac:(lia)) as Hd. pose proof (Nat.mod_upper_bound ge 64 ltac:(lia)) as Hm.
  assert (Hg : ge / 64 < length ws) by (apply Nat.div_lt_upper_bound; lia). unfold border_bits.
  destruct (lookup_lt_is_Some_2 ws (ge / 64) Hg) as (cur & Hcur). rewrite Hcur. cbn [of_option mbind res_bind].
  set (a := ge / 64) in *. set (r := ge mod 64) in *.
  destruct (Nat.eqb_spec r 0) as [E|E].
  - destruct a as [|a]; [lia|]. destruct (lookup_lt_is_Some_2 ws a) as (prev & Hprev); [lia|]. rewrite Hprev. cbn [of_option mbind res_bind].
    replace (ge - 1) with (64 * a + 63) in B2 by lia. rewrite (wbit_at _ _ _ _ Hprev) in B2 by lia. change (N.of_nat 63) with 63%N in B2. rewrite B2.
    cbn [negb chk mbind res_bind]. replace ge with (64 * S a + 0) in B1 by lia. rewrite (wbit_at _ _ _ _ Hcur) in B1 by lia. change (N.of_nat 0) with 0%N in B1. by rewrite B1.
  - replace ge with (64 * a + r) in B1 by lia. rewrite (wbit_at _ _ _ _ Hcur) in B1 by lia. rewrite B1. cbn [chk mbind res_bind].
    replace (ge - 1) with (64 * a + (r - 1)) in B2 by lia. rewrite (wbit_at _ _ _ _ Hcur) in B2 by lia. by rewrite B2.
Qed.
Lemma dkv_erase_spec qw vw g bss i es p : 1 <= qw <= 64 -> 1 <= vw <= 64 -> rep qw vw g bss -> bss !! i = Some es -> p < length es ->
  exists g', dkv_erase pf g (length bss) i p qw vw = Ok g' /\ rep qw vw g' (<[i := delete p es]> bss) /\ k_size g = (k_size g' + 1)%N.
Proof.
  intros Hqw Hvw H Hi Hp. pose proof (lookup_lt_Some _ _ _ Hi) as Hlt. unfold dkv_erase.
  assert (Hprev : exists b, match i with O => Ok 0 | S i' => dkv_position g i' end = Ok b /\ b - match i with O => 0 | S i' => i' end = off bss i /\ b <= off bss i + i).
  { destruct i as [|i]; [by exists 0|]. rewrite (dkv_position_spec _ _ _ _ i H) by lia. eexists. split; [done|]. lia. }
  destruct Hprev as (b & -> & Hbo & Hbi). cbn [mbind res_bind]. cbv zeta. rewrite Hbo.
  rewrite (dkv_position_spec _ _ _ _ _ H Hlt). cbn [mbind res_bind]. pose proof (off_S _ _ _ Hi) as HoS.
  rewrite (proj2 (Nat.ltb_lt (b + p) _)) by lia. cbn [chk mbind res_bind].
  pose proof (concat_length_pos _ _ _ Hi) as Hcl. pose proof (off_le bss (S i)) as Hoff.
  destruct H as ((Hb & Hs & Hbd & Hk0 & Hva0 & ws & Hws & Hr) & Hk & Hva & Hbl & Hba & Hgs & Hsk & Hsv).
  cbn [kstrip g_size g_border] in Hs, Hws. rewrite Hs, Nat2N.id, Hws in *.
  destruct (dcore_erase pf qw (k_keys g) _ (off bss i + p) Hqw Hk) as (d1 & E1 & Hd1); [rewrite fmap_length; lia|].
  destruct (dcore_erase pf vw (k_vals g) _ (off bss i + p) Hvw Hva) as (d2 & E2 & Hd2); [rewrite fmap_length; lia|].
  rewrite fmap_length in E1, E2. rewrite E1. cbn [mbind res_bind]. rewrite E2. cbn [of_option mbind res_bind].
  rewrite Hbl. cbn [known of_option mbind res_bind].
  rewrite (kv_words_spec _ (N.of_nat (length (concat bss))) (S (length (concat bss)))) by lia.
  assert (Hu : u32 (N.of_nat (length (concat bss)) + 2^32 - 1) = N.of_nat (length (concat bss) - 1)).
  { unfold u32. replace (N.of_nat (length (concat bss)) + 2^32 - 1)%N with (N.of_nat (length (concat bss) - 1) + 1 * 2^32)%N by lia.
    rewrite N.mod_add by done. rewrite N.mod_small; lia. }
  rewrite Hu. rewrite (kv_words_spec _ _ (length (concat bss))) by lia.
  destruct es as [|e es]; [cbn in Hp; lia|]. cbn [length] in *.
  replace (S (length (concat bss)) + length bss) with (length (concat bss) + length bss + 1) by lia.
  rewrite N.eqb_refl. cbn [chk mbind res_bind].
  assert (Hup : upos (lens bss) i = off bss (S i) + i) by (unfold upos; by rewrite off_tot).
  pose proof (upos_lt (lens bss) i ltac:(by rewrite lens_length)) as Hul. rewrite ucode_length, tot_lens, lens_length, Hup in Hul.
  pose proof (cdiv_ge (length (concat bss) + length bss + 1) 64 ltac:(lia)) as Hcg.
  rewrite (proj2 (Nat.ltb_lt ((off bss (S i) + i) / 64) _)) by (apply Nat.div_lt_upper_bound; lia). cbn [chk mbind res_bind].
  pose proof (border_bits_ok ws (lens bss) i (length es) Hr (lens_lookup _ _ _ Hi)) as Hbits. rewrite Hup in Hbits. rewrite Hbits. cbn [mbind res_bind].
  destruct (border_pop ws (lens bss) i (length es) Hr (lens_lookup _ _ _ Hi)) as (ws' & E3 & Hr').
  cbv zeta in E3, Hr'. rewrite tot_lens, lens_length in E3, Hr'. rewrite Hup in E3.
  rewrite E3. cbn [mbind res_bind].
  assert (Hstep : (if cdiv (length (concat bss) + length bss) 64 <? cdiv (length (concat bss) + length bss + 1) 64
      then sub64 (N.of_nat (cdiv (length (concat bss) + length bss + 1) 64)) 1 else N.of_nat (cdiv (length (concat bss) + length bss + 1) 64))
      = N.of_nat (cdiv (length (concat bss) + length bss) 64)).
  { assert (Hsm : cdiv (length (concat bss) + length bss + 1) 64 <= length (concat bss) + length bss + 1).
    { unfold cdiv. apply Nat.div_le_upper_bound; lia. }
    rewrite sub64_small by lia. unfold cdiv. set (x := length (concat bss) + length bss).
    assert (H1 : (x + 64 - 1) / 64 <= (x + 1 + 64 - 1) / 64) by (apply Nat.div_le_mono; lia).
    assert (H2 : (x + 1 + 64 - 1) / 64 <= (x + 64 - 1 + 1 * 64) / 64) by (apply Nat.div_le_mono; lia).
    rewrite Nat.div_add in H2 by done. destruct (Nat.ltb_spec ((x + 64 - 1) / 64) ((x + 1 + 64 - 1) / 64)); lia. }
  rewrite Hstep, N.eqb_refl. cbn [chk mbind res_bind]. rewrite Hba.
  match goal with |- context [dkv_check ?g] => set (g' := g) end.
  assert (Hg' : rep qw vw g' (<[i := delete p (e :: es)]> bss)).
  { pose proof (concat_delete _ _ _ p Hi ltac:(cbn [length]; lia)) as Hcd.
    assert (Hlen : length (concat (<[i := delete p (e :: es)]> bss)) = length (concat bss) - 1).
    { rewrite Hcd. apply length_delete. apply lookup_lt_is_Some_2. lia. }
    assert (Hk' : dcore_rep pf qw d1 (concat (<[i := delete p (e :: es)]> bss)).*1) by (by rewrite Hcd, fmap_del).
    assert (Hv' : dcore_rep pf vw d2 (concat (<[i := delete p (e :: es)]> bss)).*2) by (by rewrite Hcd, fmap_del).
    assert (Hdl : length (delete p (e :: es)) = length es).
    { rewrite length_delete by (apply lookup_lt_is_Some_2; cbn [length]; lia). cbn [length]. lia. }
    split; [|split; [done|split; [done|]]].
    - unfold kv_rep. subst g'. cbn [kstrip g_size g_keys g_vals g_border k_size k_keys k_vals k_border]. rewrite insert_length, Hlen.
      split; [done|]. split; [done|]. split; [lia|]. split; [apply Hk'|]. split; [apply Hv'|].
      eexists. split; [done|]. rewrite lens_insert, Hdl. done.
    - subst g'. cbn [k_blen k_barr k_gs]. rewrite insert_length, Hlen. split; [do 3 f_equal; lia|]. split; [|split; [done|]; cbn [k_keys k_vals]; split; (eapply bs_small_eq; [by eapply dc_erase_bs|done])].
      apply (barr_upd _ _ _ (e :: es)); [done|]. intros j Hj. rewrite Hdl. cbn [length].
      pose proof (off_mono bss (S i) (S j) ltac:(lia)). pose proof (off_le bss (S j)). rewrite sub64_small by lia. lia. }
  pose proof (dkv_check_ok _ _ _ _ Hg') as Hc. rewrite insert_length in Hc. pose proof Hg' as (_ & _ & _ & _ & _ & Egs & _). rewrite insert_length in Egs.
  rewrite Egs, Nat2N.id, Hc. cbn [mbind res_bind]. exists g'. split; [done|]. split; [done|]. subst g'. cbn [k_size]. lia.
Qed.
End kv.
