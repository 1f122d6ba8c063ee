(** keyvalue_group: an array of buckets, stored one after the other. *)
From Verif Require Export GroupBorder.
#[local] Open Scope nat_scope.

(** Where bucket i begins *)
Definition off (bss : list entries) (i : nat) : nat := length (concat (take i bss)).
Definition lens (bss : list entries) : list nat := length <$> bss.

Definition kv_rep (er : Prop) (pf : platform) (qw vw : nat) (g : kvgroup) (bss : list entries) : Prop :=
  1 <= length bss <= 255
  /\ g_size g = N.of_nat (length (concat bss))
  /\ (N.of_nat (length (concat bss)) + 512 <= 2^32)%N
  /\ core_rep er pf qw (g_keys g) (concat bss).*1
  /\ core_rep er pf vw (g_vals g) (concat bss).*2
  /\ exists ws, g_border g = Some ws /\ border_rep ws (lens bss).

(** ** Flattened buckets *)
Lemma tot_lens bss : tot (lens bss) = length (concat bss).
Proof. induction bss as [|es bss IH]; [done|]. cbn [lens fmap list_fmap tot concat]. rewrite app_length. unfold lens in IH. by rewrite IH. Qed.
Lemma off_tot bss i : tot (take i (lens bss)) = off bss i.
Proof. unfold off, lens. rewrite <-fmap_take. apply tot_lens. Qed.
Lemma off_S bss i es : bss !! i = Some es -> off bss (S i) = off bss i + length es.
Proof. intros H. unfold off. rewrite (take_S_r _ _ _ H), concat_app, app_length. cbn [concat]. rewrite app_nil_r. lia. Qed.
Lemma off_le bss i : off bss i <= length (concat bss).
Proof. rewrite <-off_tot, <-tot_lens. apply tot_take_le. Qed.
Lemma concat_lookup bss i es p : bss !! i = Some es -> p < length es -> concat bss !! (off bss i + p) = es !! p.
Proof.
  intros H Hp. rewrite (concat_split _ _ _ H). unfold off. rewrite lookup_app_r by lia. rewrite lookup_app_l by lia. f_equal. lia.
Qed.
Lemma concat_seg bss i es : bss !! i = Some es -> take (length es) (drop (off bss i) (concat bss)) = es.
Proof. intros H. rewrite (concat_split _ _ _ H). unfold off. by rewrite drop_app, take_app. Qed.
Lemma concat_push bss i es x : bss !! i = Some es ->
  concat (<[i := es ++ [x]]> bss) = take (off bss (S i)) (concat bss) ++ x :: drop (off bss (S i)) (concat bss).
Proof.
  intros H. rewrite (concat_upd _ _ _ _ H), (off_S _ _ _ H), (concat_split _ _ _ H). unfold off. rewrite !app_assoc.
  rewrite <-!app_length. rewrite take_app_alt, drop_app_alt by (by rewrite app_length). rewrite <-!app_assoc. done.
Qed.
Lemma concat_delete bss i es p : bss !! i = Some es -> p < length es ->
  concat (<[i := delete p es]> bss) = delete (off bss i + p) (concat bss).
Proof.
  intros H Hp. rewrite (concat_upd _ _ _ _ H), (concat_split _ _ _ H). unfold off. rewrite !delete_take_drop.
  rewrite take_add_app by done. rewrite take_app_le by lia. rewrite <-!app_assoc. do 2 f_equal.
  replace (S (length (concat (take i bss)) + p)) with (length (concat (take i bss)) + S p) by lia.
  rewrite drop_add_app by done. by rewrite drop_app_le by lia.
Qed.
Lemma concat_set bss i es p x : bss !! i = Some es -> p < length es ->
  concat (<[i := <[p := x]> es]> bss) = <[off bss i + p := x]> (concat bss).
Proof.
  intros H Hp. rewrite (concat_upd _ _ _ _ H), (concat_split _ _ _ H). unfold off. rewrite insert_app_r, insert_app_l by done. done.
Qed.
Lemma lens_insert bss i es : lens (<[i := es]> bss) = <[i := length es]> (lens bss).
Proof. apply list_fmap_insert. Qed.
Lemma lens_lookup bss i es : bss !! i = Some es -> lens bss !! i = Some (length es).
Proof. intros H. unfold lens. by rewrite list_lookup_fmap, H. Qed.
Lemma lens_length bss : length (lens bss) = length bss.
Proof. apply fmap_length. Qed.
Lemma fmap_ins {A B} (f : A -> B) (l : list A) i x : f <$> (take i l ++ x :: drop i l) = take i (f <$> l) ++ f x :: drop i (f <$> l).
Proof. by rewrite fmap_app, fmap_take, fmap_cons, fmap_drop. Qed.
Lemma fmap_del {A B} (f : A -> B) (l : list A) i : f <$> delete i l = delete i (f <$> l).
Proof. rewrite !delete_take_drop. by rewrite fmap_app, fmap_take, fmap_drop. Qed.

Section kv.
Context (pf : platform).
Lemma kv_weaken (er er' : Prop) qw vw g bss : (er' -> er) -> kv_rep er pf qw vw g bss -> kv_rep er' pf qw vw g bss.
Proof. intros H (? & ? & ? & ? & ? & ?). do 3 (split; [done|]). split; [by eapply core_weaken|]. split; [by eapply core_weaken|done]. Qed.
Lemma kv_init_rep er qw vw g n : 1 <= n <= 255 -> 1 <= qw -> 1 <= vw ->
  kv_rep er pf qw vw (kv_init g n qw vw) (replicate n []).
Proof.
  intros Hn Hq Hv. split; [by rewrite replicate_length|]. rewrite concat_replicate_nil. do 2 (split; [done|]).
  split; [by apply core_init|]. split; [by apply core_init|]. eexists. split; [done|].
  replace (lens (replicate n [])) with (replicate n 0); [apply border_init_rep|]. unfold lens. by rewrite fmap_replicate.
Qed.
Lemma kv_position_spec er qw vw g bss i : kv_rep er pf qw vw g bss -> i < length bss -> kv_position g i = Ok (off bss (S i) + i).
Proof.
  intros (Hb & _ & _ & _ & _ & ws & Hws & Hr) Hi. unfold kv_position. rewrite Hws, Nat.mod_small by lia.
  rewrite (border_select_pos _ _ _ Hr) by (by rewrite lens_length). unfold upos. by rewrite off_tot.
Qed.
Lemma kv_begin_spec er qw vw g bss i : kv_rep er pf qw vw g bss -> i < length bss -> kv_begin g i = Ok (off bss i + i).
Proof.
  intros H Hi. unfold kv_begin. destruct i as [|i]; [done|]. rewrite (kv_position_spec er qw vw g bss) by (try done; lia).
  cbn [mbind res_bind]. f_equal. lia.
Qed.
Lemma kv_empty_spec er qw vw g bss : kv_rep er pf qw vw g bss -> kv_empty g = true -> concat bss = [].
Proof. intros (_ & Hs & _) H. unfold kv_empty in H. rewrite Hs in H. apply N.eqb_eq in H. apply nil_length_inv. lia. Qed.
Lemma kv_bucketsize_spec er qw vw g bss i es : kv_rep er pf qw vw g bss -> bss !! i = Some es -> kv_bucketsize g i = Ok (length es).
Proof.
  intros H Hi. pose proof (lookup_lt_Some _ _ _ Hi) as Hlt. unfold kv_bucketsize. destruct (kv_empty g) eqn:E.
  { apply (kv_empty_spec _ _ _ _ _ H) in E. pose proof (concat_length_pos _ _ _ Hi) as Hp. rewrite E in Hp. cbn in Hp. f_equal. lia. }
  assert (Hprev : match i with O => Ok 0 | S i' => p ← kv_position g i'; Ok (p - i') end = Ok (off bss i)).
  { destruct i as [|i]; [done|]. rewrite (kv_position_spec er qw vw g bss) by (try done; lia). cbn [mbind res_bind]. f_equal. lia. }
  rewrite Hprev. cbn [mbind res_bind]. rewrite (kv_position_spec er qw vw g bss) by done. cbn [mbind res_bind].
  rewrite (off_S _ _ _ Hi). f_equal. lia.
Qed.
Lemma kv_read_key_spec er qw vw g bss i es p q v : 1 <= qw <= 64 -> kv_rep er pf qw vw g bss -> bss !! i = Some es -> es !! p = Some (q, v) ->
  kv_read_key pf g i p qw = Ok q.
Proof.
  intros Hq H Hi Hp. unfold kv_read_key. rewrite (kv_begin_spec er qw vw g bss) by (try done; by eapply lookup_lt_Some). cbn [mbind res_bind].
  destruct H as (_ & _ & _ & Hk & _). replace (off bss i + i + p - i) with (off bss i + p) by lia.
  eapply core_read; [done|exact Hk|]. rewrite list_lookup_fmap, (concat_lookup _ _ es) by (try done; by eapply lookup_lt_Some). by rewrite Hp.
Qed.
Lemma kv_read_value_spec er qw vw g bss i es p q v : 1 <= vw <= 64 -> kv_rep er pf qw vw g bss -> bss !! i = Some es -> es !! p = Some (q, v) ->
  kv_read_value pf g i p vw = Ok v.
Proof.
  intros Hq H Hi Hp. unfold kv_read_value. rewrite (kv_begin_spec er qw vw g bss) by (try done; by eapply lookup_lt_Some). cbn [mbind res_bind].
  destruct H as (_ & _ & _ & _ & Hv & _). replace (off bss i + i + p - i) with (off bss i + p) by lia.
  eapply core_read; [done|exact Hv|]. rewrite list_lookup_fmap, (concat_lookup _ _ es) by (try done; by eapply lookup_lt_Some). by rewrite Hp.
Qed.
Lemma kv_read_spec er qw vw g bss i es p q v : 1 <= qw <= 64 -> 1 <= vw <= 64 -> kv_rep er pf qw vw g bss -> bss !! i = Some es -> es !! p = Some (q, v) ->
  kv_read pf g i p qw vw = Ok (q, v).
Proof.
  intros Hq Hv H Hi Hp. unfold kv_read. erewrite kv_read_key_spec by done. cbn [mbind res_bind]. by erewrite kv_read_value_spec by done.
Qed.
Lemma kv_write_spec er qw vw g bss i es p q v v' : 1 <= vw <= 64 -> kv_rep er pf qw vw g bss -> bss !! i = Some es -> es !! p = Some (q, v) ->
  (v' < 2^N.of_nat vw)%N ->
  exists g', kv_write_value pf g i p v' vw = Ok g' /\ kv_rep er pf qw vw g' (<[i := <[p := (q, v')]> es]> bss) /\ g_size g' = g_size g.
Proof.
  intros Hq H Hi Hp Hv'. unfold kv_write_value. rewrite (kv_begin_spec er qw vw g bss) by (try done; by eapply lookup_lt_Some). cbn [mbind res_bind].
  pose proof (lookup_lt_Some _ _ _ Hp) as Hlt. pose proof (concat_lookup _ _ _ p Hi Hlt) as Hcl. rewrite Hp in Hcl.
  destruct H as (Hb & Hs & Hbd & Hk & Hv & ws & Hws & Hr). replace (off bss i + i + p - i) with (off bss i + p) by lia.
  destruct (core_write pf er vw (g_vals g) _ (off bss i + p) v' Hq Hv) as (d' & -> & Hd'); [|done|].
  { rewrite fmap_length. by eapply lookup_lt_Some. }
  cbn [mbind res_bind]. eexists. split; [done|]. cbn [g_size]. split; [|done]. unfold kv_rep. cbn [g_size g_keys g_vals g_border].
  rewrite insert_length, (concat_set _ _ _ _ _ Hi Hlt), insert_length. do 3 (split; [done|]). rewrite !list_fmap_insert. cbn [fst snd].
  split; [|split; [done|]].
  - rewrite list_insert_id; [done|]. by rewrite list_lookup_fmap, Hcl.
  - exists ws. split; [done|]. rewrite lens_insert, insert_length. by rewrite list_insert_id by (by apply lens_lookup).
Qed.
Lemma kv_find_spec er qw vw g bss i es x : 1 <= qw <= 64 -> kv_rep er pf qw vw g bss -> bss !! i = Some es ->
  kv_find pf g i x qw = Ok (first_index x es.*1).
Proof.
  intros Hq H Hi. pose proof (lookup_lt_Some _ _ _ Hi) as Hlt. unfold kv_find. rewrite (kv_begin_spec er qw vw g bss) by done. cbn [mbind res_bind].
  rewrite (kv_position_spec er qw vw g bss) by done. cbn [mbind res_bind]. rewrite (off_S _ _ _ Hi).
  destruct (Nat.eqb_spec (off bss i + length es + i) (off bss i + i)) as [E|E].
  { assert (length es = 0) as Hz by lia. by apply nil_length_inv in Hz as ->. }
  replace (off bss i + i - i) with (off bss i) by lia. replace (off bss i + length es + i - i - off bss i) with (length es) by lia.
  destruct H as (_ & _ & _ & Hk & _). rewrite (core_find pf er qw (g_keys g) (concat bss).*1 x Hq Hk).
  - cbn [mbind res_bind]. rewrite <-fmap_drop, <-fmap_take, (concat_seg _ _ _ Hi). destruct (first_index x es.*1) as [j|]; [|done].
    cbn [fmap option_fmap option_map]. do 2 f_equal. lia.
  - rewrite fmap_length. rewrite <-(off_S _ _ _ Hi). apply off_le.
Qed.
Lemma kv_words_spec (bss : list entries) n k : length bss <= 255 -> (n + 512 <= 2^32)%N -> N.to_nat (n + 1) = k ->
  kv_border_words n (length bss) = cdiv (k + length bss) 64.
Proof. intros Hb Hn Hk. unfold kv_border_words, u32. rewrite N.mod_small by lia. f_equal. lia. Qed.
Lemma kv_push_spec er er' qw vw g bss i es q v : 1 <= qw <= 64 -> 1 <= vw <= 64 -> kv_rep er pf qw vw g bss -> bss !! i = Some es ->
  (q < 2^N.of_nat qw)%N -> (v < 2^N.of_nat vw)%N -> (g_size g + 513 <= 2^32)%N ->
  exists g', kv_push pf g (length bss) i q qw v vw = Ok g' /\ kv_rep er' pf qw vw g' (<[i := es ++ [(q, v)]]> bss)
    /\ g_size g' = (g_size g + 1)%N.
Proof.
  intros Hqw Hvw H Hi Hq Hv Hsz. pose proof (lookup_lt_Some _ _ _ Hi) as Hlt. unfold kv_push.
  rewrite (kv_position_spec er qw vw g bss) by done. cbn [mbind res_bind]. pose proof (off_le bss (S i)) as Hoff.
  destruct H as (Hb & Hs & Hbd & Hk & Hva & ws & Hws & Hr).
  replace (off bss (S i) + i - i) with (off bss (S i)) by lia. rewrite Hs, Nat2N.id, Hws in *.
  destruct (core_insert pf er er' qw (g_keys g) _ (off bss (S i)) q Hqw Hk) as (d1 & E1 & Hd1); [by rewrite fmap_length|done|].
  destruct (core_insert pf er er' vw (g_vals g) _ (off bss (S i)) v Hvw Hva) as (d2 & E2 & Hd2); [by rewrite fmap_length|done|].
  rewrite fmap_length in E1, E2. rewrite E1. cbn [mbind res_bind]. rewrite E2. cbn [mbind res_bind].
  assert (Hu : u32 (N.of_nat (length (concat bss)) + 1) = N.of_nat (S (length (concat bss)))) by (unfold u32; rewrite N.mod_small; lia).
  rewrite Hu. rewrite (kv_words_spec _ _ (S (S (length (concat bss))))) by lia.
  assert (Hold : cdiv (N.to_nat (u32 (N.of_nat (S (length (concat bss))) + N.of_nat (length bss)))) 64 = cdiv (length (concat bss) + length bss + 1) 64).
  { unfold u32. rewrite N.mod_small by lia. f_equal. lia. }
  rewrite Hold. destruct (border_push ws (lens bss) i (length es) Hr (lens_lookup _ _ _ Hi)) as (ws' & E3 & Hr').
  cbv zeta in E3. rewrite tot_lens, lens_length in E3. unfold upos in E3. rewrite off_tot in E3.
  replace (S (S (length (concat bss))) + length bss) with (length (concat bss) + length bss + 2) by lia.
  rewrite E3. cbn [mbind res_bind]. eexists. split; [done|]. split.
  - unfold kv_rep. cbn [g_size g_keys g_vals g_border]. rewrite insert_length. rewrite (concat_push _ _ _ _ Hi).
    assert (Hlen : length (take (off bss (S i)) (concat bss) ++ (q, v) :: drop (off bss (S i)) (concat bss)) = S (length (concat bss))).
    { rewrite app_length. cbn [length]. rewrite take_length, drop_length. lia. }
    rewrite Hlen. split; [done|]. split; [done|]. split; [lia|]. rewrite !fmap_ins. split; [done|]. split; [done|].
    exists ws'. split; [done|]. rewrite lens_insert, app_length. cbn [length]. by rewrite Nat.add_1_r.
  - cbn [g_size]. lia.
Qed.
Lemma kv_erase_spec (er : Prop) qw vw g bss i es p : er -> 1 <= qw <= 64 -> 1 <= vw <= 64 -> kv_rep er pf qw vw g bss -> bss !! i = Some es ->
  p < length es ->
  exists g', kv_erase pf g (length bss) i p qw vw = Ok g' /\ kv_rep er pf qw vw g' (<[i := delete p es]> bss)
    /\ g_size g = (g_size g' + 1)%N.
Proof.
  intros He Hqw Hvw H Hi Hp. pose proof (lookup_lt_Some _ _ _ Hi) as Hlt. unfold kv_erase.
  assert (Hprev : exists b, match i with O => Ok 0 | S i' => kv_position g i' end = Ok b /\ b - match i with O => 0 | S i' => i' end = off bss i).
  { destruct i as [|i]; [by exists 0|]. rewrite (kv_position_spec er qw vw g bss) by (try done; lia). eexists. split; [done|]. lia. }
  destruct Hprev as (b & -> & Hbo). cbn [mbind res_bind]. rewrite Hbo.
  rewrite (kv_position_spec er qw vw g bss) by done. cbn [mbind res_bind].
  pose proof (concat_length_pos _ _ _ Hi) as Hcl. pose proof (off_le bss (S i)) as Hoff. rewrite (off_S _ _ _ Hi) in Hoff.
  destruct H as (Hb & Hs & Hbd & Hk & Hva & ws & Hws & Hr). rewrite Hs, Nat2N.id, Hws in *.
  destruct (core_erase pf er qw (g_keys g) _ (off bss i + p) He Hqw Hk) as (d1 & E1 & Hd1); [rewrite fmap_length; lia|].
  destruct (core_erase pf er vw (g_vals g) _ (off bss i + p) He Hvw Hva) as (d2 & E2 & Hd2); [rewrite fmap_length; lia|].
  rewrite fmap_length in E1, E2. rewrite E1. cbn [mbind res_bind]. rewrite E2. cbn [mbind res_bind].
  rewrite (kv_words_spec _ (N.of_nat (length (concat bss))) (S (length (concat bss)))) by lia.
  assert (Hu : u32 (N.of_nat (length (concat bss)) + 2^32 - 1) = N.of_nat (length (concat bss) - 1)).
  { unfold u32. replace (N.of_nat (length (concat bss)) + 2^32 - 1)%N with (N.of_nat (length (concat bss) - 1) + 1 * 2^32)%N by lia.
    rewrite N.mod_add by done. rewrite N.mod_small; lia. }
  rewrite Hu. rewrite (kv_words_spec _ _ (length (concat bss))) by lia.
  destruct es as [|e es]; [cbn in Hp; lia|]. cbn [length] in *.
  destruct (border_pop ws (lens bss) i (length es) Hr (lens_lookup _ _ _ Hi)) as (ws' & E3 & Hr').
  cbv zeta in E3, Hr'. rewrite tot_lens, lens_length in E3, Hr'. unfold upos in E3. rewrite off_tot in E3.
  replace (S (length (concat bss)) + length bss) with (length (concat bss) + length bss + 1) by lia.
  rewrite E3. cbn [mbind res_bind]. eexists. split; [done|].
  pose proof (length_delete (concat bss) (off bss i + p) ltac:(apply lookup_lt_is_Some_2; lia)) as Hlen.
  split; [|cbn [g_size]; lia].
  unfold kv_rep. cbn [g_size g_keys g_vals g_border]. rewrite insert_length. rewrite (concat_delete _ _ _ p Hi) by (cbn [length]; lia).
  rewrite Hlen. split; [done|]. split; [done|]. split; [lia|]. rewrite !fmap_del. split; [done|]. split; [done|].
  eexists. split; [done|]. rewrite lens_insert. rewrite length_delete by (apply lookup_lt_is_Some_2; cbn [length]; lia).
  cbn [length]. by rewrite Nat.sub_succ, Nat.sub_0_r.
Qed.
End kv.
