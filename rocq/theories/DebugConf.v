(** Template arguments and widths for which no check of the debug build fails in valid histories. *)
From Verif Require Export DebugHist ArrayTable.

(** What the checks of the constructor demand (bijective_hash.hpp:84-86, 141-143, separate_chaining_table.hpp:322-326), and that
    the members m_length and m_size of a default-constructed varwidth_bucket can be read. *)
Record debug_ok (c : cfg) (junk : option N) (kw vw : N) : Prop := {
  de_kw : 2 <= kw <= c_keybits c;
  de_vw : 1 <= vw <= value_bits c;
  de_junk : match c_key c with KVar _ => junk <> None | _ => True end
}.

Lemma dhash_inv_map_bij f w kb sb q bk b key : 1 <= w <= 64 -> b < w -> q < 2^(w - b) -> bk < 2^b ->
  hash_inv_map (HMap (HBij f) w kb sb) q bk b = Ok key -> dhash_inv_map (HMap (HBij f) w kb sb) q bk b = Ok key.
Proof.
  intros Hw Hb Hq Hbk. unfold dhash_inv_map, hash_inv_map. cbn [h_kind h_width h_keybits]. rewrite (proj2 (N.leb_le 1 w)), (proj2 (N.leb_le w 64)) by lia. cbn [andb].
  assert (Hlt : q * 2^b + bk < 2^w).
  { assert (H : 2^w = 2^(w-b) * 2^b) by (rewrite <-N.pow_add_r; f_equal; lia). rewrite H.
    assert (q * 2^b + 2^b <= 2^(w-b) * 2^b) by (rewrite <-(N.mul_1_l (2^b)) at 2; rewrite <-N.mul_add_distr_r; apply N.mul_le_mono_r; lia). lia. }
  assert (2^w <= 2^64) by (apply N.pow_le_mono_r; lia).
  unfold shl64. rewrite (proj2 (N.ltb_lt b 64)) by lia. cbn [mbind res_bind]. rewrite N.shiftl_mul_pow2, (u64_small (q * 2^b)), u64_small by lia.
  rewrite dbij_hash_inv_ok by done. done.
Qed.
Lemma dhash_map_bij f w kb sb key b : 1 <= w <= 64 -> w <= kb -> b < w -> w - b <= sb -> key < 2^w ->
  exists q bk, hash_map (HMap (HBij f) w kb sb) key b = Ok (q, bk) /\ dhash_map (HMap (HBij f) w kb sb) key b = Ok (q, bk)
    /\ q < 2^(w-b) /\ bk < 2^b /\ dhash_inv_map (HMap (HBij f) w kb sb) q bk b = Ok key.
Proof.
  intros Hw Hkb Hb Hsb Hk. destruct (quotient_roundtrip f w kb sb key b) as (q & bk & E & Hq & Hbk & Hi); try lia.
  exists q, bk. pose proof (dhash_inv_map_bij f w kb sb q bk b key Hw Hb Hq Hbk Hi) as Hdi. split; [done|]. split; [|done].
  unfold hash_map in E. unfold dhash_map. cbn [h_kind h_width h_storebits] in *. rewrite (proj2 (N.leb_le 1 w)), (proj2 (N.leb_le w 64)) in E |- * by lia. cbn [andb] in *.
  pose proof (bij_hash_lt f w key Hw) as Hh. rewrite dbij_hash_ok by done. cbn [mbind res_bind]. rewrite dbij_hash_inv_ok by done. cbn [mbind res_bind].
  rewrite bij_left, N.eqb_refl by done. cbn [chk mbind res_bind]. unfold shr64, shl64 in *. rewrite (proj2 (N.ltb_lt b 64)) in E |- * by lia. cbn [mbind res_bind] in *.
  assert (Hs : N.shiftr (bij_hash f w key) b < 2^(w - b)) by (rewrite N.shiftr_div_pow2; apply quot_lt; [done|lia]).
  assert (2^(w-b) <= 2^sb) by (apply N.pow_le_mono_r; lia).
  rewrite (proj2 (N.leb_le _ _)) by lia. cbn [chk mbind res_bind]. injection E as E1 E2. subst q bk. change (N.pos (Pos.shiftl 1 b)) with (N.shiftl 1 b) in *. cbv zeta. cbn [fst snd]. rewrite Hdi. cbn [mbind res_bind]. rewrite N.eqb_refl. done.
Qed.

Lemma debug_dbg_ok pf c junk kw vw bmin : cfg_core pf c kw vw bmin -> debug_ok c junk kw vw -> dbg_ok c junk kw vw bmin (bits_max c kw).
Proof.
  intros [Hkw Hbmin Hmaxb Hkey Hval Hhash] [Hk Hv Hj].
  assert (Hrw : forall b, bmin <= b <= bits_max c kw -> remainder_width (hmk c kw) b = match c_hash c with HBij _ => kw - b | HAdapter _ => kw end
    /\ 1 <= remainder_width (hmk c kw) b <= kw).
  { intros b Hb. unfold remainder_width, hmk. cbn [h_kind h_width]. unfold bits_max in *. destruct (c_hash c); [|lia]. rewrite sub8_small by lia. lia. }
  constructor.
  - unfold dhash_new. destruct (c_hash c); [|done]. rewrite (proj2 (N.ltb_lt 0 kw)), (proj2 (N.leb_le kw 64)) by lia. cbn [chk mbind res_bind].
    rewrite mask_ones, N.ones_equiv by lia. assert (2^1 <= 2^kw) by (apply N.pow_le_mono_r; lia). rewrite (proj2 (N.ltb_lt _ _)); [done|]. change (2^1) with 2 in *. lia.
  - done.
  - done.
  - intros b Hb. destruct (Hrw b Hb) as [_ H2]. split; [|done]. unfold dremainder_width, hmk in *. cbn [h_kind h_width] in *. unfold bits_max in Hb.
    destruct (c_hash c); [|done]. rewrite (proj2 (N.ltb_lt b kw)) by lia. done.
  - intros b k Hb [Hkk _]. destruct (Hrw b Hb) as [H1 H2]. unfold qw. rewrite H1, N2Nat.id. unfold hq, hb, hmk in *. unfold bits_max in *. destruct (c_hash c) as [f|f].
    + destruct Hhash as [Hkb Hst]. destruct (dhash_map_bij f kw (c_keybits c) (N.of_nat (kind_bits (c_key c))) k b) as (q & bk & -> & -> & Hq & _ & Hi); try lia. done.
    + unfold dhash_map, dhash_inv_map. cbn [h_kind]. rewrite hash_map_adapter by lia. done.
  - destruct (c_key c); try done. destruct junk as [j|]; [by exists j|done].
Qed.

(** ** Histories from a new table *)
Definition any_params (pf : platform) (c : cfg) (kw vw : N) : Prop := params pf c kw vw \/ arr_params pf c kw vw.
Lemma any_facts pf c junk kw vw : any_params pf c kw vw -> debug_ok c junk kw vw ->
  table_ok0 pf c kw vw 1 (bits_max c kw) /\ table_spread c kw 1 (bits_max c kw) /\ dbg_ok c junk kw vw 1 (bits_max c kw) /\ init_ok kw 1 (bits_max c kw)
  /\ cfg_core pf c kw vw 1 /\ table_ok pf c kw vw 1 (bits_max c kw).
Proof.
  intros [P|P] D.
  - split; [exact (reach_ok0 _ _ _ _ P)|]. split; [apply (ok_spread _ _ _ _ _ _ (reach_ok _ _ _ _ P))|].
    split; [exact (debug_dbg_ok _ _ _ _ _ _ (co_core _ _ _ _ _ (proj1 P)) D)|]. split; [exact (params_init _ _ _ _ P)|]. split; [apply P|exact (reach_ok _ _ _ _ P)].
  - split; [apply (arr_ok _ _ _ _ P)|]. split; [apply (ok_spread _ _ _ _ _ _ (arr_ok _ _ _ _ P))|].
    split; [exact (debug_dbg_ok _ _ _ _ _ _ (ca_core _ _ _ _ _ (proj1 P)) D)|]. split; [exact (arr_init _ _ _ _ P)|]. split; [apply P|exact (arr_ok _ _ _ _ P)].
Qed.
Lemma debug_map_run pf c junk kw vw fuel : any_params pf c kw vw -> debug_ok c junk kw vw -> (64 <= fuel)%nat -> c_val c <> KNull ->
  exists d, dnew_table pf c kw vw = Ok d /\ forall ops, valid_ops kw vw 1 (bits_max c kw) ops -> (c_ov c = OvArray -> Forall grow_op ops) ->
  exists d', drun_ops pf c junk fuel d ops = Ok (d', snd (spec_run ∅ ops)) /\ dpart pf c kw vw True d'
    /\ trep pf c kw vw 1 (bits_max c kw) True (strip d') (fst (spec_run ∅ ops)).
Proof.
  intros P D Hf Hv. destruct (any_facts _ _ _ _ _ P D) as (OK & SP & DOK & Hi & Hc & _).
  destruct (dnew_rep pf c junk kw vw 1 (bits_max c kw) True OK DOK) as (d & E & Hd & Hr). exists d. split; [done|]. intros ops Hops Hg.
  apply (drun_ok pf c junk kw vw 1 (bits_max c kw) True OK DOK fuel SP Hf ops d ∅); try done.
  intros v Hlt. eapply cfg_values; [exact Hc|done|done].
Qed.
Lemma no_false_alarm pf c junk kw vw fuel : any_params pf c kw vw -> debug_ok c junk kw vw -> (64 <= fuel)%nat ->
  exists d, dnew_table pf c kw vw = Ok d
  /\ (c_val c <> KNull -> forall ops, valid_ops kw vw 1 (bits_max c kw) ops -> (c_ov c = OvArray -> Forall grow_op ops) ->
      exists d', drun_ops pf c junk fuel d ops = Ok (d', snd (spec_run ∅ ops)))
  /\ (c_val c = KNull -> forall ops, Forall (valid_sop kw 1 (bits_max c kw)) ops ->
      exists d', drun_sops pf c junk fuel d ops = Ok (d', snd (set_run ∅ ops))).
Proof.
  intros P D Hf. destruct (any_facts _ _ _ _ _ P D) as (OK & SP & DOK & Hi & Hc & TOK).
  destruct (dnew_rep pf c junk kw vw 1 (bits_max c kw) True OK DOK) as (d & E & Hd & Hr). exists d. split; [done|]. split.
  - intros Hv ops Hops Hg. destruct (debug_map_run _ _ _ _ _ _ P D Hf Hv) as (d0 & E0 & H). rewrite E in E0. injection E0 as <-.
    destruct (H ops Hops Hg) as (d' & E' & _). by exists d'.
  - intros Hv ops Hops. destruct (dset_run_ok pf c junk kw vw 1 (bits_max c kw) True OK DOK fuel SP Hf ops d ∅) as (d' & E' & _); try done.
    + exists ∅. split; [done|]. set_solver.
    + by exists d'.
Qed.

(** ** Keys that do not fit *)
Lemma drun_ops_app pf c junk fuel : forall ops1 ops2 d, drun_ops pf c junk fuel d (ops1 ++ ops2) =
  (r ← drun_ops pf c junk fuel d ops1; let '(d1, o1) := (r : dtable * list out) in
   r2 ← drun_ops pf c junk fuel d1 ops2; let '(d2, o2) := (r2 : dtable * list out) in Ok (d2, o1 ++ o2)).
Proof.
  induction ops1 as [|o ops1 IH]; intros ops2 d; cbn [app drun_ops].
  - cbn [mbind res_bind]. by destruct (drun_ops pf c junk fuel d ops2) as [[]| | |].
  - destruct (drun_op pf c junk fuel d o) as [[d1 x]| | |]; cbn [mbind res_bind]; [|done..]. rewrite IH.
    destruct (drun_ops pf c junk fuel d1 ops1) as [[d2 xs]| | |]; cbn [mbind res_bind]; [|done..].
    by destruct (drun_ops pf c junk fuel d2 ops2) as [[]| | |].
Qed.
Lemma dmap_wide c d k f : c_hash c = HBij f -> 1 <= d_kw d <= 64 -> 2^(d_kw d) <= k -> dmap c d k = Throw.
Proof.
  intros Hh Hw Hk. unfold dmap, dhash_map, dhm, hm. cbn [h_kind h_width]. change (t_kw (strip d)) with (d_kw d). rewrite Hh.
  rewrite (proj2 (N.leb_le 1 _)), (proj2 (N.leb_le _ 64)) by lia. cbn [andb]. unfold dbij_hash. rewrite mask_ones, N.ones_equiv by done.
  rewrite (proj2 (N.leb_gt _ _)) by lia. done.
Qed.
Lemma wide_key_caught pf c junk kw vw fuel ops k v f d : params pf c kw vw -> debug_ok c junk kw vw -> c_hash c = HBij f -> c_val c <> KNull -> (64 <= fuel)%nat ->
  valid_ops kw vw 1 (bits_max c kw) ops -> 2^kw <= k < 2^64 -> dnew_table pf c kw vw = Ok d ->
  drun_ops pf c junk fuel d (ops ++ [OpInsert k v]) = Throw.
Proof.
  intros P D Hh Hv Hf Hops [Hk _] E. destruct (any_facts _ _ _ _ _ (or_introl P) D) as (OK & _ & DOK & Hi & Hc & _).
  destruct (debug_map_run pf c junk kw vw fuel (or_introl P) D Hf Hv) as (d0 & E0 & H). rewrite E in E0. injection E0 as <-.
  destruct (H ops Hops (noarr_ops _ _ _ _ P ops)) as (d1 & Er & Hd & Hr). rewrite drun_ops_app, Er. cbn [mbind res_bind drun_ops drun_op].
  pose proof (de_kw _ _ _ _ D) as Hkw. pose proof (co_kw _ _ _ _ _ Hc) as Hk64.
  assert (Hgo : forall d2 g, d_kw d2 = kw -> (d_b d2 =? 0) = false -> dfind_or_insert pf c junk (S g) d2 k v = Throw).
  { intros d2 g Hk2 Hb2. cbn [dfind_or_insert]. rewrite Hb2, Hk2, (proj2 (N.ltb_lt 1 kw)) by lia. cbn [chk mbind res_bind].
    rewrite (dmap_wide _ _ _ _ Hh) by (rewrite Hk2; lia). done. }
  assert (Hins : dfind_or_insert pf c junk fuel d1 k v = Throw); [|by rewrite Hins].
  destruct fuel as [|g]; [lia|]. destruct Hr as [[Hz _]|(sl & ess & ovl & Hinv & _)].
  - destruct (dfoi_zero pf c junk kw vw 1 (bits_max c kw) True OK DOK (S g) Hf g d1 k v Hz (dpart_zero _ _ _ _ _ _ Hz Hd) Hi) as (d2 & sl & ess & -> & Hinv & _).
    apply Hgo; [apply (ti_kw _ _ _ _ _ _ _ _ _ _ _ Hinv)|apply (tinv_bc _ _ _ _ _ _ _ OK _ _ _ _ Hinv)].
  - apply Hgo; [apply (ti_kw _ _ _ _ _ _ _ _ _ _ _ Hinv)|apply (tinv_bc _ _ _ _ _ _ _ OK _ _ _ _ Hinv)].
Qed.

(** ** Writes that lose bits *)
Lemma det_length {A} : forall (l : list (option A)) r, det l = Some r -> length r = length l.
Proof. induction l as [|[a|] l IH]; intros r E; cbn in E; [by injection E as <-| |done]. destruct (det l) as [r'|]; [|done]. injection E as <-. cbn. by rewrite (IH r'). Qed.
Lemma bits_val_bound : forall l, bits_val l < 2^N.of_nat (length l).
Proof.
  induction l as [|b l IH]; [done|]. cbn [bits_val foldr length]. change (foldr _ 0 l) with (bits_val l). rewrite Nat2N.inj_succ, N.pow_succ_r' by lia. destruct b; cbn [N.b2n]; lia.
Qed.
Lemma read_int_bound pf l word off len x : read_int pf l word off len = Ok x -> x < 2^N.of_nat len.
Proof.
  unfold read_int, read_raw, raw_val. destruct (accessible _ _ _); [|done]. cbn [mbind res_bind].
  destruct (det (rdbits l (word + off) len)) as [bs|] eqn:E; [|done]. intros H. injection H as <-. apply det_length in E.
  pose proof (bits_val_bound bs) as Hb. rewrite E in Hb. eapply N.lt_le_trans; [exact Hb|]. apply N.pow_le_mono_r; [done|]. unfold rdbits. rewrite take_length. lia.
Qed.
Lemma lossy_write pf iw b i v w b' : db_write pf (KVar iw) b i v w = Ok b' -> v < 2^N.of_nat w /\ db_read pf (KVar iw) b' i w = Ok v.
Proof.
  unfold db_write, db_read. intros H. destruct (k_len b) as [l|] eqn:El; [|done]. cbn [known of_option mbind res_bind] in H.
  destruct (N.of_nat i <? l) eqn:Ei; [|done]. cbn [chk mbind res_bind] in H. destruct (most_significant_bit v <=? Z.of_nat w)%Z; [|done]. cbn [chk mbind res_bind] in H.
  destruct (b_write pf (KVar iw) (k_b b) i v w) as [b1| | |] eqn:Ew; [|done..]. cbn [mbind res_bind] in H.
  destruct (b_read pf (KVar iw) b1 i w) as [r| | |] eqn:Er; [|done..]. cbn [mbind res_bind] in H. destruct (N.eqb_spec r v) as [->|]; [|done]. cbn [chk mbind res_bind] in H.
  injection H as <-. cbn [k_len k_b]. cbn [known of_option mbind res_bind]. rewrite Ei. cbn [chk mbind res_bind]. split; [|done].
  unfold b_read in Er. destruct b1 as [[t [cs|bs]]|]; [done| |done]. by apply read_int_bound in Er.
Qed.

(** ** The members no constructor sets *)
Lemma uninitialised_find pf c kw vw fuel k v iw : params pf c kw vw -> 3 <= kw <= c_keybits c -> 1 <= vw <= value_bits c -> c_key c = KVar iw -> (64 <= fuel)%nat ->
  k < 2^kw -> exists d, dnew_table pf c kw vw = Ok d /\ dfind_or_insert pf c None fuel d k v = Ub Indeterminate.
Proof.
  intros P Hkw Hvw Hkey Hf Hk. assert (D : debug_ok c (Some 0) kw vw) by (split; [lia|done|by rewrite Hkey]).
  destruct (any_facts _ _ _ _ _ (or_introl P) D) as (OK & _ & DOK & [_ Hi] & Hc & _).
  destruct (dnew_ok pf c (Some 0) kw vw 1 (bits_max c kw) DOK) as (d & E & Hrs & Es). exists d. split; [done|]. pose proof (co_kw _ _ _ _ _ Hc) as Hk64.
  pose proof (new_table_zero pf c kw vw 1 (bits_max c kw) OK) as Hz. rewrite <-Es in Hz. pose proof Hz as (Hb & _ & Hkd & _ & Ho & _).
  change (t_b (strip d)) with (d_b d) in Hb. change (t_kw (strip d)) with (d_kw d) in Hkd. change (t_ov (strip d)) with (d_ov d) in Ho.
  destruct fuel as [|g]; [lia|]. cbn [dfind_or_insert]. rewrite Hkd, Hb, (proj2 (N.ltb_lt 1 kw)), sub64_small by lia. cbn [chk mbind res_bind N.eqb].
  set (n := N.min (kw - 1) 16) in *. unfold dalloc_table. rewrite reserve_bits_spec by lia. cbn [mbind res_bind]. set (b := N.log2_up n) in *.
  assert (Ec : (if c_arb c then chk (match d_rs d with None => true | Some _ => false end) else Ok ()) = Ok ()) by (rewrite Hrs; by destruct (c_arb c)).
  rewrite Ec. cbn [mbind res_bind]. pose proof (ok_bounds _ _ _ _ _ _ OK _ Hi) as Hb63.
  rewrite (dov_resize_ok pf _ (d_ov d) (2^b) Ho); [|by intros (_ & _ & ?)|apply pow2_le_63; lia]. cbn [mbind res_bind].
  set (d1 := DTable _ _ _ _ _ _ _). assert (Hhm : dhm c d1 = hmk c kw) by (unfold dhm, hm, d1; cbn; by rewrite Hkd).
  assert (Hkd1 : kdom c kw k) by (apply kdom_intro; [apply (noarr _ _ _ _ P)|done]).
  destruct (do_map _ _ _ _ _ _ DOK b k Hi Hkd1) as (Hm1 & Hm2 & Hq). unfold dmap. rewrite Hhm. change (d_b d1) with b. rewrite Hm1. cbn [mbind res_bind fst snd].
  rewrite Hm2. cbn [mbind res_bind]. rewrite N.eqb_refl. cbn [chk mbind res_bind].
  assert (Hbk : hb c kw b k < 2^b) by (apply (hb_lt pf c kw vw 1 (bits_max c kw)); done).
  assert (Hg : dget_slot d1 (hb c kw b k) = Ok (fresh_dslot None)).
  { unfold dget_slot, d1. cbn [d_slots]. rewrite replicate_length, N2Nat.id, (proj2 (N.ltb_lt _ _)) by done. rewrite lookup_replicate_2 by lia. done. }
  rewrite Hg. cbn [mbind res_bind]. unfold dlocate_q. rewrite (dwidth_ok c (Some 0) kw vw 1 (bits_max c kw) DOK d1 Hhm Hi Hkd). cbn [mbind res_bind].
  assert (Hmsb : (most_significant_bit (hq c kw b k) <=? Z.of_nat (qw c kw (d_b d1)))%Z = true).
  { apply Z.leb_le. change (d_b d1) with b. rewrite <-nat_N_Z. apply msb_le; [|done]. by apply (hq_lt pf c (Some 0) kw vw 1 (bits_max c kw) OK DOK). }
  rewrite Hmsb, Hg. cbn [chk mbind res_bind]. cbn [fresh_dslot ds_size ds_keys N.to_nat plain_loop mbind res_bind]. unfold db_find. rewrite Hkey. done.
Qed.

(** ** Iteration *)
Section iter.
Context (pf : platform) (c : cfg) (junk : option N) (kw vw bmin bmax : N) (strict : Prop).
Hypothesis OK : table_ok0 pf c kw vw bmin bmax.
Hypothesis DOK : dbg_ok c junk kw vw bmin bmax.
Notation tinv := (tinv pf c kw vw bmin bmax strict).
Notation trep := (trep pf c kw vw bmin bmax strict).
Notation dgood := (dgood pf c kw vw strict).
Notation dpart := (dpart pf c kw vw strict).
Implicit Types (d : dtable).

Lemma nav_eq_false_valid t x : nav_eq pf t x end_nav = Ok false -> nav_invalid pf t end_nav = Ok true -> nav_invalid pf t x = Ok false.
Proof. unfold nav_eq. intros H E. rewrite E in H. destruct (nav_invalid pf t x) as [[|]| | |]; done. Qed.
Lemma dnav_step_ok d sl ess ovl x : tinv (strip d) sl ess ovl -> dgood d -> nav_invalid pf (strip d) x = Ok false ->
  (exists k v, dnav_key pf c d x = Ok k /\ dnav_value pf c d x = Ok v) /\ dnav_next pf d x = nav_next pf (strip d) x /\ dnav_prev pf d x = nav_prev pf (strip d) x.
Proof.
  intros H G Hx. destruct (nav_valid_entry pf c kw vw bmin bmax strict OK _ _ _ _ _ H Hx) as ([k v] & He).
  split; [exists k, v; exact (dnav_read pf c junk kw vw bmin bmax strict OK DOK d sl ess ovl H G x k v He)|].
  destruct x as [bk p]. unfold dnav_next, dnav_prev, nav_next, nav_prev. change (t_ov (strip d)) with (d_ov d). change (bucket_count (strip d)) with (dbucket_count d).
  pose proof (proj2 (dt_bc pf c kw vw bmin bmax strict OK d sl ess ovl H)) as Hbc.
  destruct ((0 <? ov_size (d_ov d)) && (bk =? dbucket_count d)) eqn:Eo.
  - apply andb_true_iff in Eo as [_ Eb%N.eqb_eq]. subst bk. unfold nav_entry in He. cbn [fst snd] in He. rewrite Hbc in He. change (t_b (strip d)) with (d_b d) in He.
    rewrite N.eqb_refl in He. split.
    + by rewrite (dov_next_ok pf _ _ _ _ _ _ _ (dt_ov pf c kw vw bmin bmax strict d sl ess ovl H) He).
    + destruct (0 <? p) eqn:Ep; [|done]. unfold dov_prev. by destruct (d_ov d); rewrite ?Ep.
  - assert (Hlt : bk <? dbucket_count d = true).
    { apply N.ltb_lt. unfold nav_invalid in Hx. change (t_ov (strip d)) with (d_ov d) in Hx. change (bucket_count (strip d)) with (dbucket_count d) in Hx.
      rewrite Eo in Hx. cbn [andb] in Hx. by destruct (N.leb_spec (dbucket_count d) bk). }
    rewrite Hlt. done.
Qed.
Lemma diterate_ok d sl ess ovl : tinv (strip d) sl ess ovl -> dgood d -> forall f x,
  (forall l, iterate pf c f (strip d) x = Ok l -> diterate pf c f d x = Ok l) /\ (forall l, iterate_rev pf c f (strip d) x = Ok l -> diterate_rev pf c f d x = Ok l).
Proof.
  intros H G. pose proof (end_nav_invalid pf c kw vw bmin bmax strict OK _ _ _ _ H) as Hend. induction f as [|f IH]; intros x.
  - split; intros l; cbn [iterate diterate iterate_rev diterate_rev]; by destruct (nav_eq _ _ _ _) as [[]| | |].
  - split; intros l; cbn [iterate diterate iterate_rev diterate_rev]; destruct (nav_eq pf (strip d) x end_nav) as [[|]| | |] eqn:Ee; cbn [mbind res_bind]; try done;
      destruct (dnav_step_ok d sl ess ovl x H G (nav_eq_false_valid _ _ Ee Hend)) as ((k & v & Ek & Ev) & En & Ep); rewrite Ek, Ev; cbn [mbind res_bind];
      apply dnav_key_eq in Ek; apply dnav_value_eq in Ev; unfold nav_read; rewrite Ek; cbn [mbind res_bind]; rewrite Ev; cbn [mbind res_bind].
    + rewrite En. destruct (nav_next pf (strip d) x) as [y| | |]; try done. cbn [mbind res_bind].
      destruct (iterate pf c f (strip d) y) as [l'| | |] eqn:El; try done. apply IH in El. rewrite El. done.
    + rewrite Ep. destruct (nav_prev pf (strip d) x) as [y| | |]; try done. cbn [mbind res_bind].
      destruct (iterate_rev pf c f (strip d) y) as [l'| | |] eqn:El; try done. apply IH in El. rewrite El. done.
Qed.
Lemma nav_eq_zero d x : tzero pf c kw vw (strip d) -> nav_eq pf (strip d) x end_nav = Ok true.
Proof.
  intros (Hb & _ & _ & _ & Ho & _).
  assert (E : forall y, nav_invalid pf (strip d) y = Ok true).
  { intros [bk p]. unfold nav_invalid, bucket_count. rewrite Hb, (ov_zero_size _ _ _ Ho). cbn [N.eqb N.ltb andb]. by rewrite (proj2 (N.leb_le 0 bk)) by lia. }
  unfold nav_eq. by rewrite !E.
Qed.
Lemma dforward_ok d m f l : trep (strip d) m -> dpart d -> forward pf c f (strip d) = Ok l -> dforward pf c f d = Ok l.
Proof.
  intros [[Hz _]|(sl & ess & ovl & H & _)] Hd; unfold forward, dforward; destruct (begin_nav (strip d)) as [x| | |]; try done; cbn [mbind res_bind].
  - assert (E : nav_eq pf (strip d) x end_nav = Ok true) by exact (nav_eq_zero d x Hz).
    destruct f; cbn [iterate diterate]; by rewrite E.
  - intros E. destruct (dpart_full pf c kw vw bmin bmax strict OK d sl ess ovl H) as [Hg _]. by apply (diterate_ok d sl ess ovl H (Hg Hd) f x).
Qed.
Lemma dbackward_ok d m f l : trep (strip d) m -> dpart d -> backward pf c f (strip d) = Ok l -> dbackward pf c f d = Ok l.
Proof.
  intros [[Hz _]|(sl & ess & ovl & H & _)] Hd; unfold backward, dbackward; destruct (rbegin_nav (strip d)) as [x| | |]; try done; cbn [mbind res_bind].
  - assert (E : nav_eq pf (strip d) x end_nav = Ok true) by exact (nav_eq_zero d x Hz).
    destruct f; cbn [iterate_rev diterate_rev]; by rewrite E.
  - intros E. destruct (dpart_full pf c kw vw bmin bmax strict OK d sl ess ovl H) as [Hg _]. by apply (diterate_ok d sl ess ovl H (Hg Hd) f x).
Qed.
End iter.

Lemma debug_iteration pf c junk kw vw fuel ops d d' outs : any_params pf c kw vw -> debug_ok c junk kw vw -> (64 <= fuel)%nat -> c_val c <> KNull ->
  valid_ops kw vw 1 (bits_max c kw) ops -> (c_ov c = OvArray -> Forall grow_op ops) -> dnew_table pf c kw vw = Ok d -> drun_ops pf c junk fuel d ops = Ok (d', outs) ->
  forall f l, (dforward pf c f d' = Ok l <-> forward pf c f (strip d') = Ok l) /\ (dbackward pf c f d' = Ok l <-> backward pf c f (strip d') = Ok l).
Proof.
  intros P D Hf Hv Hops Hg E Er f l. destruct (any_facts _ _ _ _ _ P D) as (OK & _ & DOK & _).
  destruct (debug_map_run pf c junk kw vw fuel P D Hf Hv) as (d0 & E0 & H). rewrite E in E0. injection E0 as <-.
  destruct (H ops Hops Hg) as (d1 & Er' & Hd & Hr). rewrite Er in Er'. injection Er' as <- _. split; split.
  - apply dforward_eq.
  - by apply (dforward_ok pf c junk kw vw 1 (bits_max c kw) True OK DOK d' _ f l Hr).
  - apply dbackward_eq.
  - by apply (dbackward_ok pf c junk kw vw 1 (bits_max c kw) True OK DOK d' _ f l Hr).
Qed.
