(** No check of the hash mapping, of the overflows and of the buckets fails where the release build is well defined. *)
From Verif Require Export DebugTrans TableConf TableOps.

Lemma chk_ok b : b = true -> chk b = Ok ().
Proof. by intros ->. Qed.
Lemma msb_le x n : x < 2^64 -> x < 2^n -> (most_significant_bit x <= Z.of_N n)%Z.
Proof.
  intros H64 Hn. destruct (N.eq_dec x 0) as [->|Hx]; [cbn; lia|]. rewrite most_significant_bit_log2 by lia.
  assert (N.log2 x < n) by (apply N.log2_lt_pow2; lia). lia.
Qed.

(** ** Hash mapping *)
Section hash.
Lemma bmask_leb w x : 1 <= w <= 64 -> x < 2^w -> (x <=? bmask w) = true.
Proof. intros Hw Hx. apply N.leb_le. rewrite mask_ones, N.ones_equiv by done. lia. Qed.
Lemma dbij_hash_ok f w x : 1 <= w <= 64 -> x < 2^w -> dbij_hash f w x = Ok (bij_hash f w x).
Proof.
  intros Hw Hx. unfold dbij_hash. rewrite bmask_leb by done. cbn [chk mbind res_bind]. destruct f; [|done].
  unfold dxs_hash1. rewrite bmask_leb by done. cbn [chk mbind res_bind].
  rewrite bmask_leb by (done || by apply xs_hash1_lt). cbn [chk mbind res_bind].
  rewrite bmask_leb by (done || by apply xs_hash1_lt). done.
Qed.
Lemma dbij_hash_inv_ok f w x : 1 <= w <= 64 -> x < 2^w -> dbij_hash_inv f w x = Ok (bij_hash_inv f w x).
Proof. intros Hw Hx. unfold dbij_hash_inv. by rewrite bmask_leb. Qed.
End hash.

(** ** Overflow *)
Section overflow.
Context (pf : platform) (kb vb : nat) (fair : ovkind -> Prop) (bo : N -> N) (nbk : N).
Notation ovrel := (ovrel pf fair bo nbk).

Lemma um_len_le nb els p : NoDup (map (fun e => um_bucket pf nb (fst e)) els) -> (um_len pf nb els p <= 1)%nat.
Proof.
  intros Hnd. unfold um_len. destruct (um_chain pf nb els p) as [|[k v] r] eqn:E; [cbn; lia|].
  assert (Hin : (k, v) ∈ um_chain pf nb els p) by (rewrite E; by constructor).
  apply um_chain_elem in Hin as [Hin Hp]. cbn [fst] in Hp. rewrite <-Hp in E. rewrite (um_chain_single pf _ _ _ _ Hnd Hin) in E. by injection E as <-.
Qed.
Lemma um_len_entry nb els p k v r : NoDup (map (fun e => um_bucket pf nb (fst e)) els) -> um_chain pf nb els p = (k, v) :: r -> um_len pf nb els p = 1%nat.
Proof.
  intros Hnd E. pose proof (um_len_le nb els p Hnd) as Hl. unfold um_len in *. rewrite E in *. cbn [length] in *. lia.
Qed.
Lemma arr_len_state ovl full : (length ovl <= 256)%nat ->
  match arr_state pf ovl full with OArray ks vs _ _ => arr_len ks = 256 /\ arr_len vs = 256 | _ => False end.
Proof.
  intros Hl. unfold arr_state, arr_len. rewrite !app_length, !map_length, !replicate_length.
  lia.
Qed.

Lemma dov_entry_ok o ovl p k v : ovrel o ovl -> ov_entry pf o p = Some (k, v) -> dov_key pf kb o p = Ok k /\ dov_get pf vb o p = Ok v.
Proof.
  intros Ho He. destruct (ov_entry_spec pf kb vb _ _ _ _ _ _ _ _ Ho He) as (_ & _ & Hk & Hv).
  unfold dov_key, dov_get. rewrite Hk, Hv. destruct o as [|ks vs e full|nb els full]; [done| |].
  - destruct Ho as (E & _ & Hl & _). pose proof (arr_len_state ovl full Hl) as HL. rewrite <-E in HL. destruct HL as [-> ->].
    rewrite E in He. change (arr_entry (arr_state pf ovl full) p = Some (k, v)) in He. rewrite arr_entry_lookup in He. apply lookup_lt_Some in He.
    change ARRAY_OVERFLOW_LENGTH with 256. rewrite !(proj2 (N.ltb_lt p 256)) by lia. done.
  - destruct Ho as (-> & _ & Hnd & _). cbn [ov_entry] in He. destruct (N.ltb_spec p nb); [|done].
    destruct (um_chain pf nb els p) as [|[k' v'] r] eqn:E; [done|]. rewrite (um_len_entry nb els p _ _ _ Hnd E). done.
Qed.
Lemma dov_find_ok o ovl k : ovrel o ovl -> dov_find pf kb o k = ov_find pf kb o k.
Proof.
  intros Ho. unfold dov_find. destruct o as [|ks vs e full|nb els full]; [done|done|].
  destruct Ho as (-> & _ & Hnd & _). rewrite (proj2 (Nat.leb_le _ _)) by (by apply um_len_le). done.
Qed.
Lemma dov_need_ok o ovl bk : ovrel o ovl -> bk < nbk -> dov_need_consult o bk = ov_need_consult o bk.
Proof.
  intros Ho Hb. unfold dov_need_consult. destruct o as [|ks vs e full|nb els full]; [done|..].
  - destruct Ho as (_ & _ & _ & Hl & _). rewrite (proj2 (N.ltb_lt _ _)) by lia. done.
  - destruct Ho as (_ & _ & _ & Hl & _). rewrite (proj2 (N.ltb_lt _ _)) by lia. done.
Qed.
Lemma dov_next_ok o ovl p e : ovrel o ovl -> ov_entry pf o p = Some e -> dov_next pf o p = Ok (ov_next pf o p).
Proof.
  intros Ho He. unfold dov_next. destruct o as [|ks vs n full|nb els full]; [done| |].
  - destruct Ho as (E & _ & Hl & _). rewrite E in He. change (arr_entry (arr_state pf ovl full) p = Some e) in He.
    rewrite arr_entry_lookup in He. apply lookup_lt_Some in He. change ARRAY_OVERFLOW_LENGTH with 256. by rewrite (proj2 (N.ltb_lt _ _)) by lia.
  - cbn [ov_entry] in He. by destruct (N.ltb_spec p nb).
Qed.
Lemma dov_erase_ok o ovl p e : ~ fair OvArray -> ovrel o ovl -> ov_entry pf o p = Some e -> dov_erase pf o p = ov_erase pf o p.
Proof.
  intros Hna Ho He. unfold dov_erase. destruct o as [|ks vs n full|nb els full]; [done|by destruct Ho as (_ & ? & _)|].
  cbn [ov_entry] in He. by destruct (N.ltb_spec p nb).
Qed.
Lemma dov_set_ok o ovl p k v v' : ovrel o ovl -> ov_entry pf o p = Some (k, v) -> dov_set pf vb o p v' = ov_set pf vb o p v'.
Proof.
  intros Ho He. unfold dov_set. destruct o as [|ks vs e full|nb els full]; [done| |].
  - destruct Ho as (E & _ & Hl & _). pose proof (arr_len_state ovl full Hl) as HL. rewrite <-E in HL. destruct HL as [_ ->].
    rewrite E in He. change (arr_entry (arr_state pf ovl full) p = Some (k, v)) in He. rewrite arr_entry_lookup in He. apply lookup_lt_Some in He.
    change ARRAY_OVERFLOW_LENGTH with 256. rewrite !(proj2 (N.ltb_lt p 256)) by lia. done.
  - destruct Ho as (-> & _ & Hnd & _). cbn [ov_entry] in He. destruct (N.ltb_spec p nb); [|done].
    destruct (um_chain pf nb els p) as [|[k' v0] r] eqn:E; [done|]. rewrite (um_len_entry nb els p _ _ _ Hnd E). done.
Qed.
Lemma dov_insert_ok o ovl k v : ovrel o ovl -> bo k < nbk -> k ∉ keys_of ovl -> ov_size o < ov_capacity o ->
  key_ok pf kb fair k -> (fair OvArray -> v < 2^N.of_nat vb) -> dov_insert pf kb vb o (bo k) k v = ov_insert pf kb vb o (bo k) k v.
Proof.
  intros Ho Hb Hk Hsz Hkey Hval. destruct (ov_insert_spec pf kb vb fair bo nbk o ovl k v Ho Hb Hk Hsz Hkey Hval) as (o' & r & E & Hr).
  unfold dov_insert. rewrite E.
  assert (E0 : (match o with OArray ks vs e _ => _ ← chk (e <? ARRAY_OVERFLOW_LENGTH); _ ← chk (e <? arr_len ks); chk (e <? arr_len vs) | _ => Ok () end) = Ok ()).
  { destruct o as [|ks vs e full|nb els full]; [done| |done]. rewrite (ov_size_spec _ _ _ _ _ _ Ho) in Hsz. destruct Ho as (Eo & _ & Hl & _). pose proof (arr_len_state ovl full Hl) as HL. rewrite <-Eo in HL.
    destruct HL as [-> ->]. unfold arr_state in Eo. injection Eo as _ _ ->. change (N.of_nat (length ovl) < 256) in Hsz.
    change ARRAY_OVERFLOW_LENGTH with 256. rewrite !(proj2 (N.ltb_lt _ 256)) by lia. done. }
  rewrite E0. cbn [mbind res_bind]. destruct o' as [| |nb els full]; [done|done|]. destruct r as [p|]; [|done].
  destruct Hr as [Hr He]. destruct (dov_entry_ok _ _ _ _ _ Hr He) as [-> ->]. cbn [mbind res_bind]. rewrite !N.eqb_refl. cbn [chk mbind res_bind].
  destruct Hr as (Eo & _ & Hnd & _). cbn [ov_entry] in He. destruct (N.ltb_spec p nb); [|done].
  destruct (um_chain pf nb els p) as [|[k' v'] r] eqn:Ec; [done|]. rewrite (um_len_entry nb els p _ _ _ Hnd Ec). done.
Qed.
Lemma dov_resize_ok o n : ovzero pf fair o -> (fair OvMap -> um_fair pf) -> n <= 2^63 -> dov_resize_buckets pf o n = Ok (ov_resize_buckets pf o n).
Proof.
  intros Ho Hf Hn. unfold dov_resize_buckets. destruct o as [|ks vs e full|nb els full]; [done|done|]. cbn [ov_resize_buckets].
  destruct Ho as [_ Hm]. destruct (Hf Hm nb n Hn) as (H1 & _). rewrite (proj2 (N.leb_le _ _)) by done. done.
Qed.
End overflow.

(** ** Buckets *)
Section bucket.
Context (pf : platform).
(** The debug members of bucket b allow m elements of width w. *)
Definition bgood (kd : bkind) (w m : nat) (b : dbk) : Prop :=
  match kd with
  | KNull => True
  | KVar iw => exists l z, k_len b = Some l /\ k_sz b = Some z /\ N.of_nat m <= l < 2^64 /\ N.of_nat (m * w) <= z * N.of_nat iw /\ z * N.of_nat iw < 2^64
  | _ => exists l, k_len b = Some l /\ N.of_nat m <= l < 2^64
  end.
Lemma knull_dec (kd : bkind) : kd = KNull \/ kd <> KNull.
Proof. destruct kd; auto. Qed.
Lemma bgood_len kd w m b : kd <> KNull -> bgood kd w m b -> exists l, k_len b = Some l /\ N.of_nat m <= l.
Proof. destruct kd; try done; intros _; [by intros (l & ? & ? & ?); exists l..|]. intros (l & z & ? & _ & [? _] & _). by exists l. Qed.
Lemma bgood_mono kd w w' m m' b b' : k_len b' = k_len b -> k_sz b' = k_sz b -> (w' <= w)%nat -> (m' <= m)%nat -> bgood kd w m b -> bgood kd w' m' b'.
Proof.
  intros El Ez Hw Hm. destruct kd; cbn [bgood]; rewrite ?El, ?Ez; try done; [intros (l & ? & ?); exists l; split; [done|lia]..|].
  intros (l & z & ? & ? & ? & H & ?). exists l, z. split; [done|]. split; [done|]. split; [lia|]. split; [|done].
  etrans; [|exact H]. assert (m' * w' <= m * w)%nat by (apply Nat.mul_le_mono; lia). lia.
Qed.
Lemma bgood_made kd w m l b' : kd = KNull \/ k_len b' = Some (N.of_nat l) -> (m <= l)%nat -> (l <= 255)%nat -> (w <= 64)%nat ->
  (match kd with KVar iw => k_sz b' = Some (N.of_nat (cdiv (l * w) iw)) /\ width_ok iw | _ => True end) -> bgood kd w m b'.
Proof.
  intros [->|Hl] Hm H255 H64 Hz; [done|]. destruct kd; cbn [bgood]; try (eexists; split; [exact Hl|lia]); [|done].
  destruct Hz as [Hz Hiw]. eexists _, _. split; [exact Hl|]. split; [exact Hz|]. split; [lia|].
  pose proof (BucketProofs.width_ok_pos _ Hiw) as Hp. pose proof (cdiv_ge (l * w) iw Hp) as Hc.
  assert (m * w <= l * w)%nat by (apply Nat.mul_le_mono_r; lia). split; [lia|].
  assert (Hu : (iw * cdiv (l * w) iw <= l * w + iw)%nat).
  { unfold cdiv. pose proof (Nat.mul_div_le (l * w + iw - 1) iw ltac:(lia)). lia. }
  assert (l * w <= 255 * 64)%nat by (apply Nat.mul_le_mono; lia). assert (iw <= 64)%nat by (unfold width_ok in Hiw; lia).
  change (2^64) with 18446744073709551616. lia.
Qed.

Lemma db_initialize_ok kd b len w : k_b b = None -> exists b', db_initialize pf kd b len w = Ok b' /\ k_b b' = b_initialize pf kd len w
  /\ (kd = KNull \/ k_len b' = Some (N.of_nat len)) /\ match kd with KVar iw => k_sz b' = Some (N.of_nat (cdiv (len * w) iw)) | _ => True end.
Proof.
  intros Hb. unfold db_initialize. rewrite Hb. destruct kd; cbn [chk mbind res_bind]; eexists; (split; [done|]); split; try done; split; auto.
Qed.
Lemma db_clear_ok kd b : b_clear pf kd (k_b b) = Ok None -> exists b', db_clear pf kd b = Ok b' /\ k_b b' = None
  /\ match kd with KVar _ => k_len b' = Some 0 /\ k_sz b' = Some 0 | _ => True end.
Proof. intros H. unfold db_clear. rewrite H. cbn [mbind res_bind]. eexists; split; [done|]. split; [done|]. by destruct kd. Qed.
Lemma db_resize_ok kd b old new w b' : (old <= new)%nat -> (kd = KNull \/ k_b b <> None) -> b_resize pf kd (k_b b) old new w = Ok b' ->
  exists b1, db_resize pf kd b old new w = Ok b1 /\ k_b b1 = b'
  /\ (kd = KNull \/ k_len b1 = Some (N.of_nat new)) /\ match kd with KVar iw => k_sz b1 = Some (N.of_nat (cdiv (new * w) iw)) | _ => True end.
Proof.
  intros Ho Hb E. unfold db_resize. rewrite E. destruct kd; cbn [mbind res_bind].
  3: rewrite (proj2 (Nat.leb_le _ _)) by done; cbn [chk mbind res_bind].
  2,3: destruct Hb as [?|Hb]; [done|]; destruct (k_b b) as [x|]; [|done]; cbn [chk mbind res_bind].
  all: eexists; (split; [done|]); split; try done; split; auto.
Qed.
Lemma db_write_ok kd b m i v w b' : bgood kd w m b -> (i < m)%nat -> b_write pf kd (k_b b) i v w = Ok b' ->
  match kd with KVar _ => v < 2^64 /\ v < 2^N.of_nat w /\ b_read pf kd b' i w = Ok v | _ => True end ->
  db_write pf kd b i v w = Ok (Dbk b' (k_len b) (k_sz b)).
Proof.
  intros Hg Hi E Hv. unfold db_write. rewrite E.
  destruct (knull_dec kd) as [->|Hk]; [done|]. destruct (bgood_len _ _ _ _ Hk Hg) as (l & El & Hl). rewrite El.
  change (known (Some l)) with (Ok l). cbn [mbind res_bind].
  destruct kd; rewrite ?(proj2 (N.ltb_lt (N.of_nat i) l)) by lia; cbn [chk mbind res_bind]; try done.
  destruct Hv as (H64 & Hw & Hr). rewrite (proj2 (Z.leb_le _ _)) by (pose proof (msb_le v (N.of_nat w) H64 Hw); lia).
  cbn [chk mbind res_bind]. rewrite Hr. cbn [mbind res_bind]. by rewrite N.eqb_refl.
Qed.
Lemma db_read_ok kd b m i w : bgood kd w m b -> (i < m)%nat -> db_read pf kd b i w = b_read pf kd (k_b b) i w.
Proof.
  intros Hg Hi. unfold db_read. destruct (knull_dec kd) as [->|Hk]; [done|]. destruct (bgood_len _ _ _ _ Hk Hg) as (l & El & Hl). rewrite El.
  change (known (Some l)) with (Ok l). cbn [mbind res_bind]. destruct kd; by rewrite ?(proj2 (N.ltb_lt (N.of_nat i) l)) by lia.
Qed.
Lemma db_erase_ok kd b m i n w b' : bgood kd w m b -> (i < n)%nat -> (n <= m)%nat -> b_erase pf kd (k_b b) i n w = Ok b' ->
  db_erase pf kd b i n w = Ok (Dbk b' (k_len b) (k_sz b)).
Proof.
  intros Hg Hi Hn E. unfold db_erase. rewrite E. destruct (knull_dec kd) as [->|Hk]; [done|]. destruct (bgood_len _ _ _ _ Hk Hg) as (l & El & Hl). rewrite El.
  change (known (Some l)) with (Ok l). cbn [mbind res_bind]. destruct kd; by rewrite ?(proj2 (N.leb_le (N.of_nat n) l)), ?(proj2 (N.ltb_lt (N.of_nat i) l)) by lia.
Qed.
Lemma db_find_ok kd b m key n w : bgood kd w m b -> (n <= m)%nat -> db_find pf kd b key n w = b_find pf kd (k_b b) key n w.
Proof.
  intros Hg Hn. unfold db_find. destruct kd; try done. destruct Hg as (l & z & -> & -> & Hl & Hz & H64).
  unfold known, of_option. cbn [mbind res_bind]. rewrite (proj2 (N.leb_le (N.of_nat n) l)) by lia. cbn [chk mbind res_bind].
  assert (n * w <= m * w)%nat by (apply Nat.mul_le_mono_r; lia).
  rewrite !u64_small by lia. rewrite (proj2 (N.leb_le _ _)) by lia. done.
Qed.
Lemma db_find_empty kd b key w : match kd with KVar _ => exists l z, k_len b = Some l /\ k_sz b = Some z | _ => True end ->
  db_find pf kd b key 0 w = b_find pf kd (k_b b) key 0 w.
Proof.
  intros Hg. unfold db_find. destruct kd; try done. destruct Hg as (l & z & -> & ->).
  unfold known, of_option. cbn [mbind res_bind]. rewrite (proj2 (N.leb_le (N.of_nat 0) l)) by lia. cbn [chk mbind res_bind Nat.mul].
  change (u64 (N.of_nat 0)) with 0. rewrite (proj2 (N.leb_le _ _)) by lia. done.
Qed.
End bucket.
