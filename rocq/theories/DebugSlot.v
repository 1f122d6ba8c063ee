(** No check of the debug build fails on one bucket of a table in a well-defined state. *)
From Verif Require Export DebugHash.

Lemma max_shift w : 1 <= w <= 64 -> N.shiftr ones64 (64 - w) = 2^w - 1.
Proof. intros Hw. change (N.shiftr ones64 (64 - w)) with (bmask w). rewrite mask_ones by done. rewrite N.ones_equiv. lia. Qed.

Section slot.
Context (pf : platform) (c : cfg) (junk : option N) (kw vw bmin bmax : N) (strict : Prop).
Notation hq := (hq c kw). Notation hb := (hb c kw). Notation qw := (qw c kw). Notation nv := (nv c vw).
Notation hmk := (hmk c kw).
Notation srepr := (slot_repr pf c kw vw strict).
Notation kdom := (kdom c kw).

(** What the checks need on top of [table_ok0]. *)
Record dbg_ok : Prop := {
  do_new : dhash_new (c_hash c) kw = Ok ();
  do_kw : 2 <= kw <= c_keybits c;
  do_vw : 1 <= vw <= value_bits c;
  do_w : forall b, bmin <= b <= bmax -> dremainder_width hmk b = Ok (remainder_width hmk b) /\ 1 <= remainder_width hmk b <= kw;
  do_map : forall b k, bmin <= b <= bmax -> kdom k ->
    dhash_map hmk k b = Ok (hq b k, hb b k) /\ dhash_inv_map hmk (hq b k) (hb b k) b = Ok k
    /\ hq b k < 2^N.of_nat (qw b);
  do_junk : match c_key c with KVar _ => exists j, junk = Some j | _ => True end
}.
Hypothesis OK : table_ok0 pf c kw vw bmin bmax.
Hypothesis DOK : dbg_ok.

Implicit Types (s : dslot) (es : entries) (d : dtable).

Lemma qw_pos b : bmin <= b <= bmax -> (1 <= qw b <= N.to_nat kw)%nat.
Proof. intros Hb. destruct (do_w DOK b Hb) as [_ ?]. unfold TableProofs.qw. lia. Qed.
Lemma vw_le : 1 <= vw <= 64.
Proof.
  pose proof (do_vw DOK) as Hv. pose proof (ok_val _ _ _ _ _ _ OK) as Hk. unfold value_bits in Hv.
  destruct (c_val c); cbn [kind_bits kind_ok] in *; try lia; unfold width_ok in Hk; lia.
Qed.
Lemma hq_lt b k : bmin <= b <= bmax -> kdom k -> hq b k < 2^N.of_nat (qw b) /\ hq b k < 2^64 /\ hq b k < 2^(c_keybits c).
Proof.
  intros Hb Hk. destruct (do_map DOK b k Hb Hk) as (_ & _ & H). pose proof (qw_pos b Hb). pose proof (ok_kw _ _ _ _ _ _ OK). pose proof (do_kw DOK).
  split; [done|]. split; (eapply N.lt_le_trans; [exact H|]; apply N.pow_le_mono_r; lia).
Qed.
Lemma nv_lt v : (exists iw, c_val c = KVar iw) -> nv v = v -> v < 2^N.of_nat (N.to_nat vw) /\ v < 2^64.
Proof.
  intros [iw E] Hv. unfold TableProofs.nv in Hv. rewrite E in Hv. cbn [norm] in Hv. pose proof vw_le as Hw.
  assert (H : v < 2^N.of_nat (N.to_nat vw)) by (rewrite <-Hv; apply N.mod_lt, N.pow_nonzero; lia).
  split; [done|]. eapply N.lt_le_trans; [exact H|]. apply N.pow_le_mono_r; lia.
Qed.

(** ** The debug members of a bucket *)
Definition in_bk (b bk : N) es : Prop := forall k v, (k, v) ∈ es -> kdom k /\ hb b k = bk.
Definition plain_es s es : Prop :=
  exists l, ds_plain s = Some l /\ (length es <= length l)%nat /\ forall j e, es !! j = Some e -> l !! j = Some (Some (fst e)).
Definition sgood (b : N) s es : Prop :=
  match es with
  | [] => match c_key c with KVar _ => exists l z, k_len (ds_keys s) = Some l /\ k_sz (ds_keys s) = Some z | _ => True end
  | _ => let m := Nat.max (length es) (N.to_nat (ds_cap s)) in
      bgood (c_key c) (qw b) m (ds_keys s) /\ bgood (c_val c) (N.to_nat vw) m (ds_vals s) /\ plain_es s es
  end.
Definition sg (b bk : N) s : Prop := exists es, srepr b (sstrip s) es /\ in_bk b bk es /\ sgood b s es.

Lemma sgood_nonnil b s es : es <> [] -> sgood b s es -> let m := Nat.max (length es) (N.to_nat (ds_cap s)) in
  bgood (c_key c) (qw b) m (ds_keys s) /\ bgood (c_val c) (N.to_nat vw) m (ds_vals s) /\ plain_es s es.
Proof. by destruct es. Qed.
Lemma sgood_intro b s es : es <> [] -> (let m := Nat.max (length es) (N.to_nat (ds_cap s)) in
  bgood (c_key c) (qw b) m (ds_keys s) /\ bgood (c_val c) (N.to_nat vw) m (ds_vals s) /\ plain_es s es) -> sgood b s es.
Proof. by destruct es. Qed.
Lemma in_bk_nil b bk : in_bk b bk [].
Proof. intros k v H. by apply elem_of_nil in H. Qed.
Lemma sg_fresh b bk : sg b bk (fresh_dslot junk).
Proof.
  exists []. split; [apply slot_repr_empty|]. split; [apply in_bk_nil|]. cbn [sgood fresh_dslot fresh_dbk ds_keys k_len k_sz].
  pose proof (do_junk DOK) as H. destruct (c_key c); try done. destruct H as [j ->]. eauto.
Qed.

Lemma brepr_some kd w m b xs : brepr pf kd w m b xs -> kd = KNull \/ b <> None.
Proof. destruct kd; cbn [brepr]; [intros (t & d & -> & _); by right..|by left]. Qed.

(** ** Search *)
Lemma plain_loop_ok d b bk s es k : bmin <= b <= bmax -> dhm c d = hmk -> d_b d = b -> srepr b (sstrip s) es -> in_bk b bk es -> sgood b s es ->
  kdom k -> hb b k = bk ->
  forall n i, (i + n = length es)%nat ->
  plain_loop pf c d s bk (hq b k) (qw b) i n = Ok (option_map (fun p => N.of_nat (i + p)) (first_index k (keys_of (drop i es)))).
Proof.
  intros Hb Hhm Hdb Hr Hin Hg Hk Hbk. destruct (decide (es = [])) as [->|Hne].
  { intros n i Hn. cbn [length] in Hn. assert (n = 0%nat) as -> by lia. assert (i = 0%nat) as -> by lia. done. }
  destruct (sgood_nonnil _ _ _ Hne Hg) as (Hgk & _ & l & Hl & _ & Hpl).
  induction n as [|n IH]; intros i Hi.
  - rewrite drop_ge by lia. done.
  - destruct (lookup_lt_is_Some_2 es i ltac:(lia)) as [[k' v'] Hp]. cbn [plain_loop]. rewrite (drop_S _ _ _ Hp). cbn [fmap list_fmap first_index fst].
    rewrite (db_read_ok pf (c_key c) (ds_keys s) _ i (qw b) Hgk) by lia.
    pose proof (slot_read_key pf c kw vw bmin bmax strict OK _ _ _ _ _ _ Hb Hr Hp) as Er. change (s_keys (sstrip s)) with (k_b (ds_keys s)) in Er.
    rewrite Er. cbn [mbind res_bind]. destruct (Hin k' v' ltac:(by eapply elem_of_list_lookup_2)) as [Hk' Hbk'].
    destruct (hq_lt b k' Hb Hk') as (_ & _ & Hkb). rewrite N.mod_small by done. rewrite Hhm, Hdb.
    destruct (do_map DOK b k' Hb Hk') as (_ & Hinv & _). rewrite Hbk' in Hinv. rewrite Hinv. cbn [mbind res_bind].
    unfold plain_at. rewrite Hl. unfold cell_read. rewrite (Hpl _ _ Hp). cbn [mbind res_bind fst]. rewrite N.eqb_refl. cbn [chk mbind res_bind].
    destruct (N.eqb_spec (hq b k') (hq b k)) as [E|E].
    + assert (k' = k) as -> by (eapply (hq_inj _ _ _ _ _ _ OK b); try done; congruence).
      cbn. rewrite N.eqb_refl. cbn. do 2 f_equal. lia.
    + assert (k' <> k) as Hne' by (intros ->; done). cbn. rewrite (proj2 (N.eqb_neq k' k)) by done.
      rewrite IH by lia. destruct (first_index k (keys_of (drop (S i) es))) as [p|] eqn:Ef; cbn; [|].
      all: change (list_fmap _ _ ?f ?l) with (f <$> l); rewrite ?Ef; try done; cbn; do 2 f_equal; lia.
Qed.

Lemma dwidth_ok d : dhm c d = hmk -> bmin <= d_b d <= bmax -> d_kw d = kw -> dwidth c d = Ok (qw (d_b d)).
Proof.
  intros Hhm Hb Hk. unfold dwidth. rewrite Hhm, Hk. destruct (do_w DOK _ Hb) as [-> Hw]. cbn [mbind res_bind].
  rewrite (proj2 (N.ltb_lt _ _)), (proj2 (N.leb_le _ _)) by lia. done.
Qed.
Lemma dlocate_q_ok d s k : dhm c d = hmk -> bmin <= d_b d <= bmax -> d_kw d = kw -> kdom k ->
  dget_slot d (hb (d_b d) k) = Ok s -> sg (d_b d) (hb (d_b d) k) s -> exists pos, dlocate_q pf c d (hb (d_b d) k) (hq (d_b d) k) = Ok pos
    /\ match pos with Some p => p < ds_size s | None => True end.
Proof.
  intros Hhm Hb Hkw Hk Hs (es & Hr & Hin & Hg). set (b := d_b d) in *. unfold dlocate_q. rewrite dwidth_ok by done. cbn [mbind res_bind]. fold b.
  destruct (hq_lt b k Hb Hk) as (Hq1 & Hq2 & _).
  rewrite (proj2 (Z.leb_le _ _)) by (pose proof (msb_le _ _ Hq2 Hq1); lia). cbn [chk mbind res_bind]. rewrite Hs. cbn [mbind res_bind].
  pose proof Hr as (Hsz & _). change (ds_size s = N.of_nat (length es)) in Hsz. rewrite Hsz, Nat2N.id.
  rewrite (plain_loop_ok d b (hb b k) s es k Hb Hhm eq_refl Hr Hin Hg Hk eq_refl (length es) 0 ltac:(lia)). cbn [mbind res_bind].
  pose proof (slot_find pf c kw vw bmin bmax strict OK b (sstrip s) es k Hb Hr Hk Hin) as Hf.
  change (s_size (sstrip s)) with (ds_size s) in Hf. rewrite Hsz, Nat2N.id in Hf. change (s_keys (sstrip s)) with (k_b (ds_keys s)) in Hf.
  assert (Ef : db_find pf (c_key c) (ds_keys s) (hq b k) (length es) (qw b) = Ok (first_index k (keys_of es))).
  { rewrite <-Hf. destruct (decide (es = [])) as [->|Hne]; [by apply db_find_empty|].
    destruct (sgood_nonnil _ _ _ Hne Hg) as (Hgk & _). eapply db_find_ok; [exact Hgk|lia]. }
  rewrite Ef. cbn [mbind res_bind]. rewrite drop_0. cbn [Nat.add].
  change (option_map (fun p => N.of_nat p) (first_index k (keys_of es))) with (option_map N.of_nat (first_index k (keys_of es))).
  rewrite bool_decide_true by done. cbn [chk mbind res_bind]. destruct (first_index k (keys_of es)) as [p|] eqn:Ep; cbn [option_map].
  - apply fi_Some in Ep. rewrite list_lookup_fmap in Ep. destruct (es !! p) as [e|] eqn:Ee; [|done]. apply lookup_lt_Some in Ee.
    rewrite (proj2 (N.ltb_lt _ _)) by lia. cbn [chk mbind res_bind]. eexists; split; [done|]. cbv beta iota. lia.
  - cbn [mbind res_bind]. by eexists.
Qed.

(** ** Clearing *)
Lemma dclear_slot_ok d b bk i s es : srepr b (sstrip s) es -> (c_arb c = true -> exists n, d_rs d = Some n /\ i < n) -> es <> [] ->
  exists s', dclear_slot pf c d i s = Ok s' /\ sg b bk s' /\ sstrip s' = empty_slot.
Proof.
  intros Hr Hrs Hne. pose proof (slot_repr_nonnil _ _ _ _ _ _ _ _ Hne Hr) as [Hks Hvs]. unfold dclear_slot.
  destruct (db_clear_ok pf (c_val c) (ds_vals s) (b_clear_spec _ _ _ _ _ _ Hvs)) as (v & -> & Hv & _). cbn [mbind res_bind].
  destruct (db_clear_ok pf (c_key c) (ds_keys s) (b_clear_spec _ _ _ _ _ _ Hks)) as (k & -> & Hk & Hk2). cbn [mbind res_bind].
  assert (E : rs_assign_chk c d i = Ok ()).
  { unfold rs_assign_chk. destruct (c_arb c); [|done]. destruct Hrs as (n & -> & Hn); [done|]. by rewrite (proj2 (N.ltb_lt _ _)). }
  rewrite E. cbn [mbind res_bind]. eexists; split; [done|].
  assert (Es : sstrip (DSlot k v 0 0 None) = empty_slot) by (unfold sstrip; cbn; by rewrite Hk, Hv).
  split; [|done]. exists []. split; [rewrite Es; apply slot_repr_empty|]. split; [apply in_bk_nil|]. cbn [sgood ds_keys].
  destruct (c_key c); try done. destruct Hk2. eauto.
Qed.

(** ** Appending *)
Lemma chk_addr i w n : (1 <= w)%nat -> (i < n)%nat -> (i * w / 64 + i * w mod 64 <? 64 * cdiv (n * w) 64)%nat = true.
Proof.
  intros Hw Hi. apply Nat.ltb_lt. pose proof (cdiv_ge (n * w) 64 ltac:(lia)) as Hc.
  pose proof (Nat.div_mod (i * w) 64 ltac:(lia)) as Hd. assert (i * w < n * w)%nat by (apply Nat.mul_lt_mono_pos_r; lia).
  generalize dependent (i * w / 64)%nat. intros a Ha. lia.
Qed.
Lemma rs_new_bounds sz : 1 <= sz <= 255 -> sz <= rs_size_after c sz <= 255 /\ (N.to_nat sz <= N.to_nat (rs_size_after c sz))%nat
  /\ (N.to_nat (rs_store c (rs_size_after c sz)) <= N.to_nat (rs_size_after c sz))%nat.
Proof.
  intros Hsz. assert (H : sz <= rs_size_after c sz <= 255).
  { unfold rs_size_after. destruct (c_arb c); [|unfold inc_size_after_increment; lia]. apply arb_size_after_increment_bounds. lia. }
  split; [done|]. split; [lia|]. unfold rs_store. destruct (c_arb c); [|lia]. rewrite u8_small by lia. lia.
Qed.
Lemma rs_after_chk_ok d i sz : 1 <= sz <= 255 -> (c_arb c = true -> exists n, d_rs d = Some n /\ i < n) -> rs_after_chk c d i sz = Ok ().
Proof.
  intros Hsz Hrs. unfold rs_after_chk. destruct (c_arb c); [|done]. destruct Hrs as (n & -> & Hn); [done|].
  rewrite (proj2 (N.ltb_lt _ _)) by done. cbn [chk mbind res_bind]. rewrite u8_small by lia.
  rewrite (proj2 (N.leb_le sz 255)) by lia. cbn [chk mbind res_bind]. pose proof (arb_resize_bounds sz ltac:(lia)).
  by rewrite (proj2 (N.leb_le _ _)) by lia.
Qed.

Lemma dpush_ok d s k v : let b := d_b d in bmin <= b <= bmax -> dhm c d = hmk -> d_kw d = kw -> d_vw d = vw ->
  sg b (hb b k) s -> ds_size s < c_maxb c -> kdom k -> nv v = v \/ c_val c = KNull ->
  (c_arb c = true -> exists n, d_rs d = Some n /\ hb b k < n) ->
  exists s', dpush_slot pf c d (hb b k) s k (hq b k) v = Ok s' /\ sg b (hb b k) s'.
Proof.
  intros b Hb Hhm Hkw Hvw (es & Hr & Hin & Hg) Hlt Hk Hv Hrs. pose proof (ok_maxb _ _ _ _ _ _ OK) as Hmax. pose proof vw_le as Hvle.
  pose proof Hr as (Hsz & _). change (ds_size s = N.of_nat (length es)) in Hsz. rewrite Hsz in Hlt.
  destruct (push_slot_spec pf c kw vw bmin bmax strict OK (strip d) b (sstrip s) es k v Hb eq_refl Hkw Hvw Hr Hlt Hk) as (s2 & Ep & Hr2 & Hsz2).
  pose proof (qw_pos b Hb) as Hqw. pose proof (ok_kw _ _ _ _ _ _ OK) as Hkw64. pose proof (do_kw DOK) as Hkb.
  assert (Hq : qwidth c (strip d) = qw b) by (unfold qwidth, TableProofs.qw; change (hm c (strip d)) with (dhm c d); by rewrite Hhm).
  assert (Hvv : vwidth (strip d) = N.to_nat vw) by (unfold vwidth; cbn [strip t_vw]; by rewrite Hvw).
  unfold push_slot in Ep. cbv zeta in Ep. rewrite Hq, Hvv in Ep. change (t_kw (strip d)) with (d_kw d) in Ep. rewrite Hkw in Ep.
  rinv Ep. rename a into s1, E into Eg. rinv Ep. rename a into ks, E into Ek. rinv Ep. rename a into vs, E into Ev. injection Ep as <-.
  unfold dpush_slot. rewrite dwidth_ok by done. cbn [mbind res_bind]. fold b. unfold dvwidth. rewrite Hvw, Hkw.
  assert (Hsz1 : s_size s1 = N.of_nat (length es) + 1) by exact Hsz2.
  set (n := length es) in *.
  (* growing *)
  match goal with |- exists s', mbind _ ?g = _ /\ _ => assert (Hgr : exists ds, g = Ok ds /\ sstrip ds = s1
    /\ bgood (c_key c) (qw b) (Nat.max (n + 1) (N.to_nat (s_cap s1))) (ds_keys ds)
    /\ bgood (c_val c) (N.to_nat vw) (Nat.max (n + 1) (N.to_nat (s_cap s1))) (ds_vals ds)
    /\ exists l, ds_plain ds = Some l /\ length l = (n + 1)%nat /\ forall j e, es !! j = Some e -> l !! j = Some (Some (fst e))) end.
  { destruct (decide (es = [])) as [->|Hne].
    - change (s_size (sstrip s)) with (ds_size s) in Eg. rewrite Hsz in *. change (N.of_nat n) with 0 in *. rewrite N.eqb_refl in *. injection Eg as <-.
      pose proof Hr as (_ & _ & Hes & _). injection Hes as Hk0 Hv0 _ _.
      destruct (db_initialize_ok pf (c_key c) (ds_keys s) 1 (N.to_nat kw) Hk0) as (dk & -> & Hdk & Hdl & Hdz). cbn [mbind res_bind].
      destruct (db_initialize_ok pf (c_val c) (ds_vals s) 1 (N.to_nat vw) Hv0) as (dv & -> & Hdv & Hvl & Hvz). cbn [mbind res_bind].
      assert (E : rs_assign_chk c d (hb b k) = Ok ()).
      { unfold rs_assign_chk. destruct (c_arb c); [|done]. destruct Hrs as (m & -> & Hm); [done|]. by rewrite (proj2 (N.ltb_lt _ _)). }
      rewrite E. cbn [mbind res_bind]. eexists; split; [done|]. split; [unfold sstrip; cbn; by rewrite Hdk, Hdv|].
      cbn [ds_keys ds_vals s_cap].
      assert (Hc1 : (Nat.max (n + 1) (N.to_nat (rs_store c 1)) <= 1)%nat).
      { change n with 0%nat. unfold rs_store. destruct (c_arb c); [change (u8 1) with 1|]; lia. }
      split; [|split].
      + apply (bgood_mono _ (N.to_nat kw) _ 1 _ dk); [done|done|lia|done|]. eapply bgood_made; [exact Hdl|lia|lia|lia|].
        pose proof (ok_kind _ _ _ _ _ _ OK b Hb) as [Hkd _]. destruct (c_key c); try done. split; [done|]. by destruct Hkd.
      + apply (bgood_mono _ (N.to_nat vw) _ 1 _ dv); [done|done|lia|done|]. eapply bgood_made; [exact Hvl|lia|lia|lia|].
        pose proof (ok_val _ _ _ _ _ _ OK) as Hkd. destruct (c_val c); try done. split; [done|]. by destruct Hkd.
      + exists [None]. split; [done|]. split; [done|]. intros j e He. by destruct j.
    - destruct (sgood_nonnil _ _ _ Hne Hg) as (Hgk & Hgv & l & Hl & Hll & Hpl). fold n in Hgk, Hgv, Hll.
      assert (Hn0 : (0 < n)%nat) by (unfold n; destruct es; [done|cbn; lia]).
      pose proof (slot_repr_nonnil _ _ _ _ _ _ _ _ Hne Hr) as [Hks Hvs].
      change (s_size (sstrip s)) with (ds_size s) in Eg. change (s_cap (sstrip s)) with (ds_cap s) in Eg. rewrite Hsz in *.
      rewrite (proj2 (N.eqb_neq _ _)) in Eg |- * by lia.
      rewrite u8_small in Eg |- * by lia. rewrite sub64_small in Eg |- * by lia. replace (N.to_nat (N.of_nat n + 1 - 1)) with n in Eg |- * by lia. rewrite Hl.
      assert (Hplain : exists l', take (N.to_nat (N.of_nat n + 1)) l ++ replicate (N.to_nat (N.of_nat n + 1) - length l) None = l'
        /\ length l' = (n + 1)%nat /\ forall j e, es !! j = Some e -> l' !! j = Some (Some (fst e))).
      { eexists; split; [done|]. split; [rewrite app_length, take_length, replicate_length; lia|]. intros j e He.
        pose proof (lookup_lt_Some _ _ _ He). fold n in H. rewrite lookup_app_l by (rewrite take_length; lia). rewrite lookup_take by lia. by apply Hpl. }
      destruct Hplain as (l' & El' & Hl1 & Hl2). rewrite El'.
      destruct (rs_new_bounds (N.of_nat n + 1) ltac:(lia)) as (Hb1 & Hb2 & Hb3).
      destruct (rs_needs_resize c (ds_cap s) (N.of_nat n + 1)) eqn:Hres.
      + rinv Eg. rename a into k1, E into Ek1. rinv Eg. rename a into v1, E into Ev1. injection Eg as <-.
        rewrite rs_after_chk_ok by (done || lia). cbn [mbind res_bind].
        destruct (db_resize_ok pf (c_key c) (ds_keys s) n (N.to_nat (rs_size_after c (N.of_nat n + 1))) _ _ ltac:(lia) (brepr_some _ _ _ _ _ Hks) Ek1) as (dk & -> & Hdk & Hdl & Hdz). cbn [mbind res_bind].
        destruct (db_resize_ok pf (c_val c) (ds_vals s) n (N.to_nat (rs_size_after c (N.of_nat n + 1))) _ _ ltac:(lia) (brepr_some _ _ _ _ _ Hvs) Ev1) as (dv & -> & Hdv & Hvl & Hvz). cbn [mbind res_bind].
        eexists; split; [done|]. split; [unfold sstrip; cbn; by rewrite Hdk, Hdv|]. cbn [ds_keys ds_vals s_cap ds_plain].
        split; [|split; [|by exists l']].
        * eapply bgood_made; [exact Hdl|lia|lia|lia|]. pose proof (ok_kind _ _ _ _ _ _ OK b Hb) as [Hkd _]. destruct (c_key c); try done. split; [done|]. by destruct Hkd.
        * eapply bgood_made; [exact Hvl|lia|lia|lia|]. pose proof (ok_val _ _ _ _ _ _ OK) as Hkd. destruct (c_val c); try done. split; [done|]. by destruct Hkd.
      + injection Eg as <-. eexists; split; [done|]. split; [done|]. cbn [ds_keys ds_vals s_cap ds_plain].
        assert (Hc : N.of_nat n + 1 < ds_cap s).
        { unfold rs_needs_resize in Hres. destruct (c_arb c); [|done]. unfold arb_needs_resize in Hres. rewrite u8_small in Hres by lia. lia. }
        split; [|split; [|by exists l']].
        * eapply bgood_mono; [done|done|done| |exact Hgk]. lia.
        * eapply bgood_mono; [done|done|done| |exact Hgv]. lia. }
  destruct Hgr as (ds & -> & Hstrip & Hgk & Hgv & l & Hl & Hll & Hpl). cbn [mbind res_bind].
  assert (Hmk : (k <=? max_key (strip d)) = true).
  { apply N.leb_le. unfold max_key. cbn [strip t_kw]. rewrite Hkw, max_shift by lia. pose proof (kdom_lt _ _ _ Hk). lia. }
  rewrite Hmk. cbn [chk mbind res_bind]. subst s1. cbn [sstrip s_keys s_vals s_size s_cap] in *. rewrite Hsz1 in *.
  rewrite sub64_small in * by lia. replace (N.to_nat (N.of_nat n + 1 - 1)) with n in * by lia. rewrite Hl.
  rewrite (proj2 (Nat.ltb_lt n (length l))) by lia. cbn [mbind res_bind].
  rewrite chk_addr by lia. cbn [chk mbind res_bind]. rewrite (proj2 (N.leb_le (N.of_nat (qw b)) _)) by lia. cbn [chk mbind res_bind].
  assert (Hlast : (es ++ [(k, nv v)]) !! n = Some (k, nv v)) by (unfold n; by rewrite list_lookup_middle).
  pose proof (slot_read_key pf c kw vw bmin bmax strict OK _ _ _ _ _ _ Hb Hr2 Hlast) as Erk. cbn [s_keys] in Erk.
  pose proof (slot_read_val pf c kw vw bmin bmax strict OK _ _ _ _ _ _ Hr2 Hlast) as Erv. cbn [s_vals] in Erv.
  destruct (hq_lt b k Hb Hk) as (Hq1 & Hq2 & _).
  erewrite (db_write_ok pf (c_key c) (ds_keys ds)); [|exact Hgk|lia|exact Ek|by destruct (c_key c)]. cbn [mbind res_bind].
  erewrite (db_read_ok pf (c_key c) (Dbk ks _ _)); [|eapply bgood_mono; [..|exact Hgk]; done|lia]. cbn [k_b]. rewrite Erk. cbn [mbind res_bind].
  rewrite Hhm. fold b. destruct (do_map DOK b k Hb Hk) as (_ & -> & _). cbn [mbind res_bind]. rewrite N.eqb_refl. cbn [chk mbind res_bind].
  erewrite (db_write_ok pf (c_val c) (ds_vals ds)); [|exact Hgv|lia|exact Ev|].
  2:{ destruct Hv as [Hv|Hv]; [|by rewrite Hv]. pose proof (nv_lt v) as Hlt'. rewrite Hv in Erv. destruct (c_val c); try done.
      destruct Hlt' as [? ?]; [by eexists|done|]. done. }
  cbn [mbind res_bind]. eexists; split; [done|]. exists (es ++ [(k, nv v)]). split; [exact Hr2|]. split.
  - intros k' v' Hin'. apply elem_of_app in Hin' as [Hin'|Hin']; [by apply (Hin k' v')|]. apply elem_of_list_singleton in Hin'. injection Hin' as -> ->. done.
  - apply sgood_intro; [by destruct es|]. cbn [ds_keys ds_vals ds_cap]. rewrite app_length. cbn [length]. fold n.
    split; [by eapply bgood_mono; [..|exact Hgk]|]. split; [by eapply bgood_mono; [..|exact Hgv]|].
    exists (<[n := Some k]> l). split; [done|]. split; [rewrite insert_length, app_length; cbn [length]; fold n; lia|]. intros j e He.
    apply lookup_app_Some in He as [He|[Hge He]].
    + pose proof (lookup_lt_Some _ _ _ He). fold n in H. rewrite list_lookup_insert_ne by lia. by apply Hpl.
    + fold n in Hge, He. destruct (j - n)%nat eqn:Ej; [|done]. injection He as <-. replace j with n by lia. rewrite list_lookup_insert by lia. done.
Qed.

(** ** Removing *)
Lemma dplain_erase_ok s es p e : plain_es s es -> ds_size s = N.of_nat (length es) -> es !! p = Some e ->
  exists l, dplain_erase s p = Ok (Some l) /\ (length (delete p es) <= length l)%nat
    /\ forall j e, delete p es !! j = Some e -> l !! j = Some (Some (fst e)).
Proof.
  intros (l & Hl & Hll & Hpl) Hsz Hp. pose proof (lookup_lt_Some _ _ _ Hp) as Hlt. unfold dplain_erase. rewrite Hl, Hsz, Nat2N.id.
  destruct (cells_erase_loop_spec (length es - (p + 1)) l (p + 1)) as (l' & -> & Hlen & Hlk); [lia|lia|]. cbn [mbind res_bind].
  exists l'. split; [done|]. split; [rewrite length_delete by (by eexists); lia|]. intros j e' He. rewrite Hlk.
  rewrite delete_lookup in He. case_decide.
  - pose proof (lookup_lt_Some _ _ _ He). rewrite decide_False by lia. by apply Hpl.
  - pose proof (lookup_lt_Some _ _ _ He). rewrite decide_True by lia. replace (j + 1)%nat with (S j) by lia. by apply Hpl.
Qed.
Lemma derase_slot_ok d s p e es b bk : bmin <= b <= bmax -> srepr b (sstrip s) es -> in_bk b bk es -> sgood b s es -> es !! p = Some e ->
  (c_arb c = true -> exists n, d_rs d = Some n /\ bk < n) ->
  exists l ks vs plain, k_len (ds_keys s) = Some l /\ ds_size s <= l
    /\ db_erase pf (c_key c) (ds_keys s) p (N.to_nat (ds_size s)) (qw b) = Ok ks
    /\ db_erase pf (c_val c) (ds_vals s) p (N.to_nat (ds_size s)) (N.to_nat vw) = Ok vs
    /\ dplain_erase s p = Ok plain
    /\ let s' := DSlot ks vs (sub8 (ds_size s) 1) (ds_cap s) plain in
       if ds_size s' =? 0 then exists s2, dclear_slot pf c d bk s' = Ok s2 /\ sg b bk s2 else sg b bk s'.
Proof.
  intros Hb Hr Hin Hg Hp Hrs. assert (Hne : es <> []) by (intros ->; done).
  destruct (sgood_nonnil _ _ _ Hne Hg) as (Hgk & Hgv & Hpl). pose proof Hr as (Hsz & Hle & _). change (ds_size s = N.of_nat (length es)) in Hsz.
  pose proof (ok_maxb _ _ _ _ _ _ OK) as Hmax. pose proof (lookup_lt_Some _ _ _ Hp) as Hlt.
  destruct (bgood_len _ _ _ _ (ok_key _ _ _ _ _ _ OK) Hgk) as (l & Hl & Hll).
  destruct (erase_slot_spec pf c kw vw bmin bmax strict OK b (sstrip s) es p e Hb Hr Hp) as (ks & vs & Ek & Ev & Hres).
  cbn [sstrip s_keys s_vals s_size s_cap] in Ek, Ev, Hres. rewrite Hsz, Nat2N.id in *.
  destruct (dplain_erase_ok s es p e Hpl Hsz Hp) as (pl & Epl & Hpl1 & Hpl2).
  exists l, (Dbk ks (k_len (ds_keys s)) (k_sz (ds_keys s))), (Dbk vs (k_len (ds_vals s)) (k_sz (ds_vals s))), (Some pl).
  split; [done|]. split; [lia|].
  split; [by eapply db_erase_ok; [exact Hgk|lia|lia|]|]. split; [by eapply db_erase_ok; [exact Hgv|lia|lia|]|]. split; [done|].
  cbn [ds_size]. rewrite sub8_small in * by lia. destruct (N.eqb_spec (N.of_nat (length es) - 1) 0) as [E|E].
  - destruct Hres as [Hd Hcl]. unfold clear_slot in Hcl. cbn [s_vals s_keys] in Hcl. rinv Hcl. rename a into a1, E0 into E1. rinv Hcl. rename a into a2, E0 into E2. injection Hcl as -> ->.
    unfold dclear_slot. cbn [ds_vals ds_keys].
    destruct (db_clear_ok pf (c_val c) (Dbk vs (k_len (ds_vals s)) (k_sz (ds_vals s))) E1) as (v & -> & Hv & _). cbn [mbind res_bind].
    destruct (db_clear_ok pf (c_key c) (Dbk ks (k_len (ds_keys s)) (k_sz (ds_keys s))) E2) as (k & -> & Hk & Hk2). cbn [mbind res_bind].
    assert (Ea : rs_assign_chk c d bk = Ok ()).
    { unfold rs_assign_chk. destruct (c_arb c); [|done]. destruct Hrs as (n & -> & Hn); [done|]. by rewrite (proj2 (N.ltb_lt _ _)). }
    rewrite Ea. cbn [mbind res_bind]. eexists; split; [done|].
    exists []. split; [unfold sstrip; cbn; rewrite Hk, Hv; apply slot_repr_empty|]. split; [apply in_bk_nil|]. cbn [sgood ds_keys].
    destruct (c_key c); try done. destruct Hk2. eauto.
  - exists (delete p es). split; [done|]. assert (Hdl : length (delete p es) = (length es - 1)%nat) by (apply length_delete; by eexists).
    split.
    { intros k v Hkv. apply (Hin k v). apply elem_of_list_lookup in Hkv as [j Hj]. rewrite delete_lookup in Hj. case_decide; by eapply elem_of_list_lookup_2. }
    apply sgood_intro; [intros Hd; rewrite Hd in Hdl; cbn in Hdl; lia|]. cbn [ds_keys ds_vals ds_cap]. rewrite Hdl.
    split; [eapply bgood_mono; [..|exact Hgk]; [done|done|done|lia]|]. split; [eapply bgood_mono; [..|exact Hgv]; [done|done|done|lia]|].
    exists pl. done.
Qed.

(** ** Writing a value *)
Lemma dwrite_slot_ok s p k v v' es b bk : bmin <= b <= bmax -> srepr b (sstrip s) es -> in_bk b bk es -> sgood b s es -> es !! p = Some (k, v) -> nv v' = v' ->
  exists vs, db_write pf (c_val c) (ds_vals s) p v' (N.to_nat vw) = Ok vs /\ sg b bk (DSlot (ds_keys s) vs (ds_size s) (ds_cap s) (ds_plain s)).
Proof.
  intros Hb Hr Hin Hg Hp Hv. assert (Hne : es <> []) by (intros ->; done). destruct (sgood_nonnil _ _ _ Hne Hg) as (Hgk & Hgv & Hpl).
  pose proof (lookup_lt_Some _ _ _ Hp) as Hlt.
  destruct (write_slot_spec pf c kw vw bmin bmax strict OK b (sstrip s) es p k v v' Hr Hp) as (vs & Ev & Hr').
  cbn [sstrip s_keys s_vals s_size s_cap] in Ev, Hr'. rewrite Hv in Hr'.
  assert (Hp' : (<[p := (k, v')]> es) !! p = Some (k, v')) by (by apply list_lookup_insert).
  pose proof (slot_read_val pf c kw vw bmin bmax strict OK _ _ _ _ _ _ Hr' Hp') as Erv. cbn [s_vals] in Erv.
  eexists. split.
  - eapply db_write_ok; [exact Hgv|lia|exact Ev|]. pose proof (nv_lt v') as Hl. destruct (c_val c); try done. destruct Hl; [by eexists|done|done].
  - exists (<[p := (k, v')]> es). split; [exact Hr'|]. split.
    + intros k1 v1 Hkv. apply elem_of_list_lookup in Hkv as [j Hj]. apply list_lookup_insert_Some in Hj as [(-> & Ex & _)|[_ Hj]].
      * injection Ex as <- <-. apply (Hin k v). by eapply elem_of_list_lookup_2.
      * apply (Hin k1 v1). by eapply elem_of_list_lookup_2.
    + apply sgood_intro; [intros Hd; apply (f_equal length) in Hd; rewrite insert_length in Hd; cbn in Hd; lia|].
      cbn [ds_keys ds_vals ds_cap]. rewrite insert_length. split; [done|]. split; [by eapply bgood_mono; [..|exact Hgv]|].
      destruct Hpl as (l & Hl & Hll & Hpl). exists l. split; [done|]. split; [by rewrite insert_length|]. intros j e He.
      apply list_lookup_insert_Some in He as [(-> & <- & _)|[_ He]]; [|by apply Hpl]. by apply (Hpl _ (k, v)).
Qed.

(** ** Shrinking *)
Lemma dshrink_slot_ok d bk s : let b := d_b d in bmin <= b <= bmax -> dhm c d = hmk -> d_kw d = kw -> d_vw d = vw -> sg b bk s ->
  (c_arb c = true -> exists n, d_rs d = Some n /\ bk < n) -> exists s', dshrink_slot pf c d bk s = Ok s' /\ sg b bk s'.
Proof.
  intros b Hb Hhm Hkw Hvw (es & Hr & Hin & Hg) Hrs. pose proof vw_le as Hvle. pose proof (ok_kw _ _ _ _ _ _ OK) as Hk64. pose proof (qw_pos b Hb) as Hqw.
  pose proof (ok_maxb _ _ _ _ _ _ OK) as Hmax.
  destruct (shrink_slot_spec pf c kw vw bmin bmax strict OK (strip d) b (sstrip s) es Hb eq_refl Hkw Hvw Hr) as (s2 & Es & Hr2 & _).
  unfold dshrink_slot. rewrite dwidth_ok by done. cbn [mbind res_bind]. fold b. unfold dvwidth. rewrite Hvw.
  unfold shrink_slot in Es. change (s_size (sstrip s)) with (ds_size s) in Es. change (s_cap (sstrip s)) with (ds_cap s) in Es.
  assert (Hq : qwidth c (strip d) = qw b) by (unfold qwidth, TableProofs.qw; change (hm c (strip d)) with (dhm c d); by rewrite Hhm).
  assert (Hvv : vwidth (strip d) = N.to_nat vw) by (unfold vwidth; cbn [strip t_vw]; by rewrite Hvw). rewrite Hq, Hvv in Es.
  pose proof Hr as (Hsz & Hle & _). change (ds_size s = N.of_nat (length es)) in Hsz.
  destruct (N.eqb_spec (ds_size s) 0) as [E0|E0]; [exists s; split; [done|]; by exists es|].
  destruct (rs_can_shrink c (ds_cap s) (ds_size s)) eqn:Hsh; [|exists s; split; [done|]; by exists es].
  assert (Hne : es <> []) by (intros ->; done). destruct (sgood_nonnil _ _ _ Hne Hg) as (Hgk & Hgv & Hpl).
  pose proof (slot_repr_nonnil _ _ _ _ _ _ _ _ Hne Hr) as [Hks Hvs].
  rinv Es. rename a into k1, E into Ek1. rinv Es. rename a into v1, E into Ev1. injection Es as <-.
  rewrite Hsz, Nat2N.id in *.
  destruct (db_resize_ok pf (c_key c) (ds_keys s) (length es) (length es) _ _ ltac:(lia) (brepr_some _ _ _ _ _ Hks) Ek1) as (dk & -> & Hdk & Hdl & Hdz). cbn [mbind res_bind].
  destruct (db_resize_ok pf (c_val c) (ds_vals s) (length es) (length es) _ _ ltac:(lia) (brepr_some _ _ _ _ _ Hvs) Ev1) as (dv & -> & Hdv & Hvl & Hvz). cbn [mbind res_bind].
  assert (Ea : rs_assign_chk c d bk = Ok ()).
  { unfold rs_assign_chk. destruct (c_arb c); [|done]. destruct Hrs as (n & -> & Hn); [done|]. by rewrite (proj2 (N.ltb_lt _ _)). }
  rewrite Ea. cbn [mbind res_bind]. eexists; split; [done|]. exists es.
  split; [unfold sstrip; cbn; rewrite Hdk, Hdv; exact Hr2|]. split; [done|]. apply sgood_intro; [done|]. cbn [ds_keys ds_vals ds_cap].
  assert (Hc1 : (Nat.max (length es) (N.to_nat (rs_store c (N.of_nat (length es)))) <= length es)%nat).
  { unfold rs_store. destruct (c_arb c); [rewrite u8_small by lia|]; lia. }
  split; [|split; [|done]].
  - eapply bgood_made; [exact Hdl|lia|lia|lia|]. pose proof (ok_kind _ _ _ _ _ _ OK b Hb) as [Hkd _]. destruct (c_key c); try done. split; [done|]. by destruct Hkd.
  - eapply bgood_made; [exact Hvl|lia|lia|lia|]. pose proof (ok_val _ _ _ _ _ _ OK) as Hkd. destruct (c_val c); try done. split; [done|]. by destruct Hkd.
Qed.
End slot.
