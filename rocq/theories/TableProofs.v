(** Invariant of separate_chaining_table and correctness of its operations on entries. *)
From Verif Require Export TableModel Chain OverflowProofs ArithProofs HashProofs.

Lemma u64_small x : x < 2^64 -> u64 x = x.
Proof. intros. by apply N.mod_small. Qed.
Lemma u8_small x : x < 2^8 -> u8 x = x.
Proof. intros. by apply N.mod_small. Qed.
Lemma sub64_small a b : b <= a -> a < 2^64 -> sub64 a b = a - b.
Proof.
  intros. unfold sub64. rewrite (u64_small b) by lia. unfold u64.
  replace (a + 2^64 - b) with (a - b + 1 * 2^64) by lia. rewrite N.mod_add by done. apply N.mod_small. lia.
Qed.
Lemma sub8_small a b : b <= a -> a < 2^8 -> sub8 a b = a - b.
Proof.
  intros. unfold sub8. rewrite (u8_small b) by lia. unfold u8.
  replace (a + 2^8 - b) with (a - b + 1 * 2^8) by lia. rewrite N.mod_add by done. apply N.mod_small. lia.
Qed.
Lemma u64_add a : u64 (u64 a + 1) = u64 (a + 1).
Proof. unfold u64. rewrite N.add_mod_idemp_l by done. done. Qed.
Lemma u64_sub a : 1 <= a -> sub64 (u64 a) 1 = u64 (a - 1).
Proof.
  intros. unfold sub64. rewrite (u64_small 1) by done. unfold u64.
  replace (a mod 2^64 + 2^64 - 1) with (a mod 2^64 + (2^64 - 1)) by lia.
  rewrite N.add_mod_idemp_l by done.
  replace (a + (2^64 - 1)) with (a - 1 + 1 * 2^64) by lia. by rewrite N.mod_add.
Qed.
Lemma pow2_le_63 b : b <= 63 -> 2^b <= 2^63.
Proof. intros. by apply N.pow_le_mono_r. Qed.
Lemma shl64_1 b : b < 64 -> shl64 1 b = Ok (2^b).
Proof.
  intros. unfold shl64. rewrite (proj2 (N.ltb_lt _ _)) by done. rewrite N.shiftl_1_l, u64_small; [done|].
  by apply N.pow_lt_mono_r.
Qed.

(** Bits of a reservation. *)
Lemma reserve_bits_spec n : 1 <= n <= 2^63 -> reserve_bits n = Ok (N.log2_up n).
Proof.
  intros Hn. unfold reserve_bits. rewrite most_significant_bit_log2 by lia.
  pose proof (log2_lt_64 n ltac:(lia)) as Hl.
  rewrite Z.mod_small by lia. rewrite N2Z.id. rewrite shl64_1 by lia. cbn [mbind res_bind].
  pose proof (N.log2_spec n ltac:(lia)) as [Hlo Hhi].
  assert (Hup : N.log2_up n <= 63) by (apply N.log2_up_le_pow2; lia).
  destruct (N.eqb_spec (2^N.log2 n) n) as [E|Hne].
  - rewrite shl64_1 by lia. cbn. f_equal. rewrite <-E at 2. rewrite N.log2_up_pow2; [done|lia].
  - assert (Hu : N.log2_up n = N.log2 n + 1).
    { destruct (N.eq_dec n 1) as [->|]; [by cbn in Hne|]. rewrite N.log2_up_eqn by lia.
      f_equal. rewrite N.add_1_r. f_equal.
      apply N.le_antisymm; [apply N.log2_le_mono; lia|].
      apply N.log2_le_pow2; lia. }
    rewrite u8_small by lia. rewrite shl64_1 by lia. cbn. by f_equal.
Qed.

Section proofs.
Context (pf : platform) (c : cfg) (kw vw bmin bmax : N) (strict : Prop).

(** Quotient and bucket of a key as functions of the number of bucket bits. *)
Definition hmk : hmap := HMap (c_hash c) kw (c_keybits c) (N.of_nat (kind_bits (c_key c))).
Definition hq (b k : N) : N := match hash_map hmk k b with Ok (q, _) => q | _ => 0 end.
Definition hb (b k : N) : N := match hash_map hmk k b with Ok (_, bk) => bk | _ => 0 end.
Definition qw (b : N) : nat := N.to_nat (remainder_width hmk b).
Definition nv (v : N) : N := norm (c_val c) (N.to_nat vw) v.

(** Keys: an array_overflow must not be used with key 0. *)
Definition kdom (k : N) : Prop := k < 2^kw /\ (c_ov c = OvArray -> k <> 0).
(** What the overflow needs from the table and from the platform. *)
Definition ov_side (o : ovkind) : Prop :=
  c_ov c = o /\
  match o with
  | OvDummy => True
  | OvArray => c_val c <> KNull /\ zero_fresh pf = true /\ kw <= c_keybits c
  | OvMap => c_val c <> KNull /\ um_fair pf
  end.
Lemma kdom_lt k : kdom k -> k < 2^kw.
Proof. by intros [? _]. Qed.
Lemma kdom_intro k : c_ov c <> OvArray -> k < 2^kw -> kdom k.
Proof. done. Qed.
Lemma ov_side_arr : c_ov c <> OvArray -> ~ ov_side OvArray.
Proof. intros H [? _]. done. Qed.
Lemma kdom_key_ok k : kdom k -> key_ok pf (kbn c) ov_side k.
Proof.
  intros [Hk H0] (E & _ & Hz & Hkw). split; [done|]. split; [by apply H0|]. eapply N.lt_le_trans; [exact Hk|].
  apply N.pow_le_mono_r; [done|]. unfold kbn. lia.
Qed.

(** What the table needs from its template arguments and from the platform. *)
Record table_ok0 : Prop := {
  ok_b : 1 <= bmin /\ bmin <= bmax /\ bmax <= 63;
  ok_kw : 1 <= kw <= 64;
  ok_maxb : 1 <= c_maxb c <= 255;
  ok_key : c_key c <> KNull;
  ok_pfk : pf_ok pf (c_key c);
  ok_pfv : pf_ok pf (c_val c);
  ok_kind : forall b, bmin <= b <= bmax -> kind_ok (c_key c) (qw b) /\ (qw b <= N.to_nat kw)%nat;
  ok_val : kind_ok (c_val c) (N.to_nat vw);
  ok_map : forall b k, bmin <= b <= bmax -> kdom k ->
    hash_map hmk k b = Ok (hq b k, hb b k) /\ hb b k < 2^b
    /\ norm (c_key c) (qw b) (hq b k) = hq b k /\ hash_inv_map hmk (hq b k) (hb b k) b = Ok k;
  ok_ov : ov_side (c_ov c)
}.
(** More keys than fit into one bucket can be told apart by more bucket bits. *)
Definition table_spread : Prop :=
  forall b ks, bmin <= b <= bmax -> NoDup ks -> N.of_nat (length ks) = c_maxb c + 1 ->
    (forall k, k ∈ ks -> kdom k) -> (forall k k', k ∈ ks -> k' ∈ ks -> hb b k = hb b k') -> b < bmax.
Record table_ok : Prop := { ok_base :> table_ok0; ok_spread : table_spread }.
Hypothesis OK : table_ok0.

Lemma hb_lt b k : bmin <= b <= bmax -> kdom k -> hb b k < 2^b.
Proof. intros Hb Hk. by destruct (ok_map OK b k Hb Hk) as (_ & ? & _). Qed.
Lemma hq_inj b k k' : bmin <= b <= bmax -> kdom k -> kdom k' -> hb b k = hb b k' -> hq b k = hq b k' -> k = k'.
Proof.
  intros Hb Hk Hk' E1 E2. destruct (ok_map OK b k Hb Hk) as (_ & _ & _ & I1).
  destruct (ok_map OK b k' Hb Hk') as (_ & _ & _ & I2). rewrite E1, E2 in I1. congruence.
Qed.
Lemma nv_idem v : nv (nv v) = nv v.
Proof. apply norm_idem. Qed.

(** ** One bucket *)
Definition slot_repr (b : N) (s : slot) (es : entries) : Prop :=
  s_size s = N.of_nat (length es) /\ N.of_nat (length es) <= c_maxb c
  /\ (match es with
      | [] => s = empty_slot
      | _ => let cap := Nat.max (length es) (N.to_nat (s_cap s)) in
          brepr pf (c_key c) (qw b) cap (s_keys s) (map (fun e => hq b (fst e)) es)
          /\ brepr pf (c_val c) (N.to_nat vw) cap (s_vals s) (map snd es)
      end)
  /\ s_cap s <= 255 /\ (c_arb c = false -> s_cap s = 0)
  /\ (strict -> c_arb c = true -> s_size s <= s_cap s).

Lemma slot_repr_empty b : slot_repr b empty_slot [].
Proof. unfold slot_repr. cbn. repeat split; lia. Qed.

Lemma slot_repr_nonnil b s es : es <> [] -> slot_repr b s es ->
  let cap := Nat.max (length es) (N.to_nat (s_cap s)) in
  brepr pf (c_key c) (qw b) cap (s_keys s) (map (fun e => hq b (fst e)) es)
  /\ brepr pf (c_val c) (N.to_nat vw) cap (s_vals s) (map snd es).
Proof. intros Hne (_ & _ & H & _). by destruct es. Qed.

Lemma slot_find b s es k : bmin <= b <= bmax -> slot_repr b s es -> kdom k ->
  (forall k' v, (k', v) ∈ es -> kdom k' /\ hb b k' = hb b k) ->
  b_find pf (c_key c) (s_keys s) (hq b k) (N.to_nat (s_size s)) (qw b) = Ok (first_index k (keys_of es)).
Proof.
  intros Hb Hs Hk Hes. destruct (decide (es = [])) as [->|Hne].
  - destruct Hs as (-> & _ & -> & _). cbn. pose proof (ok_key OK). by destruct (c_key c).
  - pose proof (slot_repr_nonnil _ _ _ Hne Hs) as [Hks _]. destruct Hs as (Hsz & _).
    rewrite Hsz, Nat2N.id.
    destruct (ok_map OK b k Hb Hk) as (_ & _ & Hnorm & _).
    destruct (ok_kind OK b Hb) as [Hkd _].
    pose proof (b_find_spec _ _ _ _ _ _ (hq b k) Hkd (ok_pfk OK) Hks (ok_key OK) Hnorm) as E.
    rewrite map_length in E. rewrite E. f_equal.
    rewrite <-(fi_map (hq b) k (keys_of es)).
    + f_equal. rewrite <-list_fmap_compose. done.
    + intros x Hx Ex. apply keys_elem in Hx as (v & Hx). destruct (Hes _ _ Hx) as [Hx1 Hx2].
      by apply (hq_inj b).
Qed.

Lemma slot_read_key b s es p k v : bmin <= b <= bmax -> slot_repr b s es -> es !! p = Some (k, v) ->
  b_read pf (c_key c) (s_keys s) p (qw b) = Ok (hq b k).
Proof.
  intros Hb Hs Hp. assert (Hne : es <> []) by (intros ->; done).
  pose proof (slot_repr_nonnil _ _ _ Hne Hs) as [Hks _].
  destruct (ok_kind OK b Hb) as [Hkd _].
  eapply b_read_spec; [done|apply (ok_pfk OK)|exact Hks|].
  rewrite list_lookup_fmap, Hp. done.
Qed.
Lemma slot_read_val b s es p k v : slot_repr b s es -> es !! p = Some (k, v) ->
  b_read pf (c_val c) (s_vals s) p (N.to_nat vw) = Ok v.
Proof.
  intros Hs Hp. assert (Hne : es <> []) by (intros ->; done).
  pose proof (slot_repr_nonnil _ _ _ Hne Hs) as [_ Hvs].
  eapply b_read_spec; [apply (ok_val OK)|apply (ok_pfv OK)|exact Hvs|].
  rewrite list_lookup_fmap, Hp. done.
Qed.

Lemma slot_clear b s es : slot_repr b s es -> clear_slot pf c s = Ok empty_slot.
Proof.
  intros Hs. unfold clear_slot. destruct (decide (es = [])) as [->|Hne].
  - destruct Hs as (_ & _ & -> & _). cbn. done.
  - pose proof (slot_repr_nonnil _ _ _ Hne Hs) as [Hks Hvs].
    rewrite (b_clear_spec _ _ _ _ _ _ Hvs). cbn. rewrite (b_clear_spec _ _ _ _ _ _ Hks). done.
Qed.
Lemma slot_free b s es : slot_repr b s es ->
  b_free pf (c_key c) (s_keys s) = Ok () /\ b_free pf (c_val c) (s_vals s) = Ok ().
Proof.
  intros Hs. pose proof (slot_clear _ _ _ Hs) as H. unfold clear_slot, b_clear in H.
  destruct (b_free pf (c_val c) (s_vals s)) as [[]| | |]; try done. cbn in H.
  destruct (b_free pf (c_key c) (s_keys s)) as [[]| | |]; done.
Qed.

(** Appending an entry. *)
Lemma push_slot_spec t b s es k v : bmin <= b <= bmax -> t_b t = b -> t_kw t = kw -> t_vw t = vw ->
  slot_repr b s es -> N.of_nat (length es) < c_maxb c -> kdom k ->
  exists s', push_slot pf c t s (hq b k) v = Ok s' /\ slot_repr b s' (es ++ [(k, nv v)])
    /\ s_size s' = N.of_nat (length es) + 1.
Proof.
  intros Hb Etb Etk Etv Hs Hlt Hk. pose proof (ok_maxb OK) as Hmax.
  destruct (ok_map OK b k Hb Hk) as (_ & _ & Hnorm & _). destruct (ok_kind OK b Hb) as [Hkd Hqw].
  assert (Hq : qwidth c t = qw b) by (unfold qwidth, hm, qw, hmk; by rewrite Etb, Etk).
  assert (Hv : vwidth t = N.to_nat vw) by (unfold vwidth; by rewrite Etv).
  unfold push_slot. cbv zeta. rewrite Hq, Hv, Etk.
  set (cap2 := fun cap => Nat.max (length es + 1) (N.to_nat cap)).
  assert (Hstep : exists s1, 
    (if s_size s =? 0 then
         Ok (Slot (b_initialize pf (c_key c) 1 (N.to_nat kw)) (b_initialize pf (c_val c) 1 (N.to_nat vw)) 1 (rs_store c 1))
       else
         if rs_needs_resize c (s_cap s) (u8 (s_size s + 1)) then
           k ← b_resize pf (c_key c) (s_keys s) (N.to_nat (sub64 (u8 (s_size s + 1)) 1)) (N.to_nat (rs_size_after c (u8 (s_size s + 1)))) (qw b);
           v ← b_resize pf (c_val c) (s_vals s) (N.to_nat (sub64 (u8 (s_size s + 1)) 1)) (N.to_nat (rs_size_after c (u8 (s_size s + 1)))) (N.to_nat vw);
           Ok (Slot k v (u8 (s_size s + 1)) (rs_store c (rs_size_after c (u8 (s_size s + 1)))))
         else Ok (Slot (s_keys s) (s_vals s) (u8 (s_size s + 1)) (s_cap s))) = Ok s1
    /\ s_size s1 = N.of_nat (length es) + 1 /\ s_cap s1 <= 255 /\ (c_arb c = false -> s_cap s1 = 0)
    /\ (c_arb c = true -> s_size s1 <= s_cap s1)
    /\ brepr pf (c_key c) (qw b) (cap2 (s_cap s1)) (s_keys s1) (map (fun e => hq b (fst e)) es)
    /\ brepr pf (c_val c) (N.to_nat vw) (cap2 (s_cap s1)) (s_vals s1) (map snd es)).
  { destruct (decide (es = [])) as [->|Hne].
    - destruct Hs as (Hsz & _ & -> & _). cbn [s_size empty_slot]. rewrite N.eqb_refl.
      eexists; split; [done|]. cbn [s_size s_cap s_keys s_vals length map]. unfold rs_store, u8, cap2.
      destruct (c_arb c); cbn [length]; change (1 mod 2^8) with 1.
      all: change (N.to_nat 1) with 1%nat; change (N.to_nat 0) with 0%nat; cbn [Nat.max Nat.add]; 
        split; [lia|]; split; [lia|]; split; [done|]; split; [done|]; split.
      1,3: by apply b_initialize_spec. 1,2: apply b_initialize_spec; [apply (ok_val OK)|done].
    - pose proof (slot_repr_nonnil _ _ _ Hne Hs) as [Hks Hvs].
      destruct Hs as (Hsz & _ & _ & Hcap & Hinc & _).
      assert (Hpos : (0 < length es)%nat) by (destruct es; [done|cbn; lia]).
      rewrite (proj2 (N.eqb_neq _ _)) by lia. rewrite Hsz.
      rewrite u8_small by lia. rewrite sub64_small by lia.
      replace (N.to_nat (N.of_nat (length es) + 1 - 1)) with (length es) by lia.
      set (sz := N.of_nat (length es) + 1).
      assert (Hnew : sz <= rs_size_after c sz <= 255 /\ (c_arb c = false -> rs_size_after c sz = sz)).
      { unfold rs_size_after. destruct (c_arb c); [|unfold inc_size_after_increment; split; [lia|done]].
        split; [|done]. apply arb_size_after_increment_bounds. lia. }
      destruct (rs_needs_resize c (s_cap s) sz) eqn:Hres.
      + pose proof (b_resize_spec pf (c_key c) (qw b) _ _ _ (N.to_nat (rs_size_after c sz)) Hkd Hks) as HK.
        rewrite map_length in HK. destruct HK as (ks & -> & HK); [lia|]. cbn [mbind res_bind].
        pose proof (b_resize_spec pf (c_val c) (N.to_nat vw) _ _ _ (N.to_nat (rs_size_after c sz)) (ok_val OK) Hvs) as HV.
        rewrite map_length in HV. destruct HV as (vs & -> & HV); [lia|]. cbn [mbind res_bind].
        eexists; split; [done|]. cbn [s_size s_cap s_keys s_vals].
        unfold rs_store in *. split; [done|].
        assert (Hu : (c_arb c = true -> u8 (rs_size_after c sz) = rs_size_after c sz)) by (intros _; apply u8_small; lia).
        split; [destruct (c_arb c); [rewrite Hu by done; lia|lia]|].
        split; [by intros ->|]. split; [intros E; rewrite E in *; rewrite Hu by done; lia|].
        split; (eapply brepr_cap; [|eassumption]); unfold cap2; destruct (c_arb c); rewrite ?Hu by done; 
          [lia| |lia|]; destruct Hnew as [? Hnew]; rewrite Hnew by done; lia.
      + assert (Harb : c_arb c = true /\ sz < s_cap s).
        { unfold rs_needs_resize in Hres. destruct (c_arb c); [|done]. split; [done|].
          unfold arb_needs_resize in Hres. rewrite u8_small in Hres by lia. lia. }
        destruct Harb as [Harb Hsc]. eexists; split; [done|]. cbn [s_size s_cap s_keys s_vals].
        split; [done|]. split; [done|]. split; [done|]. split; [lia|].
        split; (eapply brepr_cap; [|eassumption]); unfold cap2; lia. }
  destruct Hstep as (s1 & -> & Hsz1 & Hcap1 & Hinc1 & Harb1 & HK & HV). cbn [mbind res_bind].
  rewrite Hsz1. rewrite sub64_small by lia.
  replace (N.to_nat (N.of_nat (length es) + 1 - 1)) with (length es) by lia.
  pose proof (b_write_push pf (c_key c) (qw b) _ _ _ (hq b k) Hkd (ok_pfk OK) HK) as HK'.
  rewrite map_length in HK'. destruct HK' as (ks & -> & HK'); [unfold cap2; lia|]. cbn [mbind res_bind].
  pose proof (b_write_push pf (c_val c) (N.to_nat vw) _ _ _ v (ok_val OK) (ok_pfv OK) HV) as HV'.
  rewrite map_length in HV'. destruct HV' as (vs & -> & HV'); [unfold cap2; lia|]. cbn [mbind res_bind].
  eexists; split; [done|]. split; [|done].
  unfold slot_repr. cbn [s_size s_cap s_keys s_vals]. rewrite app_length. cbn [length].
  split; [lia|]. split; [lia|]. split.
  { rewrite Hnorm in HK'. fold (nv v) in HV'. rewrite !map_app. cbn [map fst snd].
    destruct (es ++ [(k, nv v)]) eqn:E; [by destruct es|]. split; eapply brepr_cap; [|exact HK'| |exact HV']; unfold cap2; lia. }
  split; [done|]. split; [done|]. intros _ Ha. specialize (Harb1 Ha). lia.
Qed.

(** Removing an entry. *)
Lemma erase_slot_spec b s es p e : bmin <= b <= bmax -> slot_repr b s es -> es !! p = Some e ->
  exists ks vs,
    b_erase pf (c_key c) (s_keys s) p (N.to_nat (s_size s)) (qw b) = Ok ks
    /\ b_erase pf (c_val c) (s_vals s) p (N.to_nat (s_size s)) (N.to_nat vw) = Ok vs
    /\ (if sub8 (s_size s) 1 =? 0
        then delete p es = [] /\ clear_slot pf c (Slot ks vs (sub8 (s_size s) 1) (s_cap s)) = Ok empty_slot
        else slot_repr b (Slot ks vs (sub8 (s_size s) 1) (s_cap s)) (delete p es)).
Proof.
  intros Hb Hs Hp. pose proof (ok_maxb OK) as Hmax. assert (Hne : es <> []) by (intros ->; done).
  pose proof (slot_repr_nonnil _ _ _ Hne Hs) as [Hks Hvs].
  destruct (ok_kind OK b Hb) as [Hkd _]. pose proof (lookup_lt_Some _ _ _ Hp) as Hpl.
  destruct Hs as (Hsz & Hle & _ & Hcap & Hinc & Hst). rewrite Hsz, Nat2N.id.
  pose proof (b_erase_spec pf (c_key c) (qw b) _ _ _ p Hkd (ok_pfk OK) Hks) as HK.
  rewrite map_length in HK. destruct HK as (ks & -> & HK); [done|].
  pose proof (b_erase_spec pf (c_val c) (N.to_nat vw) _ _ _ p (ok_val OK) (ok_pfv OK) Hvs) as HV.
  rewrite map_length in HV. destruct HV as (vs & -> & HV); [done|].
  exists ks, vs. split; [done|]. split; [done|].
  rewrite sub8_small by lia.
  assert (Hdl : length (delete p es) = (length es - 1)%nat) by (apply length_delete; by eexists).
  assert (Hdm : forall B (f : N * N -> B), delete p (map f es) = map f (delete p es)).
  { intros B f. apply list_eq. intros j. rewrite delete_lookup, !list_lookup_fmap, delete_lookup. by case_decide. }
  rewrite Hdm in HK, HV.
  destruct (N.eqb_spec (N.of_nat (length es) - 1) 0) as [E|E].
  - split; [apply nil_length_inv; lia|]. unfold clear_slot. cbn [s_vals s_keys].
    rewrite (b_clear_spec _ _ _ _ _ _ HV). cbn [mbind res_bind]. rewrite (b_clear_spec _ _ _ _ _ _ HK). done.
  - unfold slot_repr. cbn [s_size s_cap s_keys s_vals]. rewrite Hdl. 
    split; [lia|]. split; [lia|]. split.
    + destruct (delete p es) eqn:Ed; [cbn in Hdl; lia|]. rewrite <-Ed in *.
      rewrite ?Hdl. split; (eapply brepr_cap; [|eassumption]); lia.
    + split; [done|]. split; [done|]. intros S A. specialize (Hst S A). lia.
Qed.

(** Writing a value. *)
Lemma write_slot_spec b s es p k v v' : slot_repr b s es -> es !! p = Some (k, v) ->
  exists vs, b_write pf (c_val c) (s_vals s) p v' (N.to_nat vw) = Ok vs
    /\ slot_repr b (Slot (s_keys s) vs (s_size s) (s_cap s)) (<[p := (k, nv v')]> es).
Proof.
  intros Hs Hp. assert (Hne : es <> []) by (intros ->; done).
  pose proof (slot_repr_nonnil _ _ _ Hne Hs) as [Hks Hvs]. pose proof (lookup_lt_Some _ _ _ Hp) as Hpl.
  destruct Hs as (Hsz & Hle & _ & Hcap & Hinc & Hst).
  pose proof (b_write_upd pf (c_val c) (N.to_nat vw) _ _ _ p v' (ok_val OK) (ok_pfv OK) Hvs) as HV.
  rewrite map_length in HV. destruct HV as (vs & -> & HV); [done|]. exists vs. split; [done|].
  unfold slot_repr. cbn [s_size s_cap s_keys s_vals]. rewrite insert_length.
  split; [done|]. split; [done|]. split; [|done].
  fold (nv v') in HV. set (es' := <[p := (k, nv v')]> es).
  assert (Hk' : map (fun e => hq b (fst e)) es' = map (fun e => hq b (fst e)) es).
  { unfold es'. pose proof (list_fmap_insert (fun e : N * N => hq b (fst e)) es p (k, nv v')) as E. cbn [fst] in E.
    etrans; [exact E|]. apply list_insert_id. by rewrite list_lookup_fmap, Hp. }
  assert (Hv' : map snd es' = <[p := nv v']> (map snd es)).
  { unfold es'. pose proof (list_fmap_insert (@snd N N) es p (k, nv v')) as E. done. }
  assert (Hl' : length es' = length es) by (unfold es'; by rewrite insert_length).
  rewrite <-Hk' in Hks. rewrite <-Hv' in HV. clearbody es'. 
  destruct es'; [cbn in Hl'; lia|done].
Qed.

(** Shrinking. *)
Lemma shrink_slot_spec t b s es : bmin <= b <= bmax -> t_b t = b -> t_kw t = kw -> t_vw t = vw ->
  slot_repr b s es ->
  exists s', shrink_slot pf c t s = Ok s' /\ slot_repr b s' es
    /\ s_size s' = s_size s /\ (c_arb c = true -> s_size s <= s_cap s -> s_cap s' = s_size s).
Proof.
  intros Hb Etb Etk Etv Hs. pose proof (ok_maxb OK) as Hmax. destruct (ok_kind OK b Hb) as [Hkd Hqw].
  assert (Hq : qwidth c t = qw b) by (unfold qwidth, hm, qw, hmk; by rewrite Etb, Etk).
  assert (Hv : vwidth t = N.to_nat vw) by (unfold vwidth; by rewrite Etv).
  unfold shrink_slot. rewrite Hq, Hv.
  destruct (N.eqb_spec (s_size s) 0) as [E0|E0].
  { exists s. split; [done|]. split; [done|]. split; [done|]. intros A _.
    destruct Hs as (Hsz & _ & H & _). destruct es; [|cbn in Hsz; lia]. by rewrite H. }
  assert (Hne : es <> []) by (intros ->; by destruct Hs as (? & _)).
  destruct (rs_can_shrink c (s_cap s) (s_size s)) eqn:Hsh.
  - pose proof (slot_repr_nonnil _ _ _ Hne Hs) as [Hks Hvs].
    destruct Hs as (Hsz & Hle & _ & Hcap & Hinc & Hst). rewrite Hsz, Nat2N.id.
    pose proof (b_resize_spec pf (c_key c) (qw b) _ _ _ (length es) Hkd Hks) as HK.
    rewrite map_length in HK. destruct HK as (ks & -> & HK); [lia|]. cbn [mbind res_bind].
    pose proof (b_resize_spec pf (c_val c) (N.to_nat vw) _ _ _ (length es) (ok_val OK) Hvs) as HV.
    rewrite map_length in HV. destruct HV as (vs & -> & HV); [lia|]. cbn [mbind res_bind].
    eexists; split; [done|]. unfold slot_repr. cbn [s_size s_cap s_keys s_vals].
    assert (Hrs : rs_store c (N.of_nat (length es)) = if c_arb c then N.of_nat (length es) else 0).
    { unfold rs_store. destruct (c_arb c); [|done]. apply u8_small. lia. }
    rewrite Hrs. split; [|split; [done|]; by intros ->].
    split; [done|]. split; [done|]. split.
    + destruct es; [done|]. split; (eapply brepr_cap; [|eassumption]); destruct (c_arb c); lia.
    + split; [destruct (c_arb c); lia|]. split; [by intros ->|]. intros _ ->. lia.
  - exists s. split; [done|]. split; [done|]. split; [done|]. intros A Hle.
    unfold rs_can_shrink in Hsh. rewrite A in Hsh. unfold arb_can_shrink in Hsh. lia.
Qed.
End proofs.
