(** Template arguments and widths for which the table works, and the proof that they meet [table_ok]. *)
From Verif Require Export TableProofs.

(** Largest number of bucket bits: a bijective hash mapping keeps at least one bit of remainder;
    otherwise a bucket index has at most 63 bits. *)
Definition bits_max (c : cfg) (kw : N) : N := match c_hash c with HBij _ => kw - 1 | HAdapter _ => 63 end.

(** A hash function is spreading if no maxb + 1 different keys agree in the low 63 bits of their hash values. *)
Definition spreading (f : N -> N) (kw maxb : N) : Prop :=
  forall ks, NoDup ks -> N.of_nat (length ks) = maxb + 1 -> (forall k, k ∈ ks -> k < 2^kw) ->
  ~ (forall k k', k ∈ ks -> k' ∈ ks -> u64 (f k) mod 2^63 = u64 (f k') mod 2^63).

Record cfg_core (pf : platform) (c : cfg) (kw vw bmin : N) : Prop := {
  co_kw : 1 <= kw <= 64;
  co_bmin : 1 <= bmin <= bits_max c kw;
  co_maxb : 1 <= c_maxb c <= 255;
  (* key buckets: element types of 8, 16, 32 or 64 bits, or packed buckets *)
  co_key : match c_key c with
           | KPlain es | KClass es | KAvx es => width_ok es
           | KVar iw => width_ok iw /\ (16 <= slack pf)%nat
           | KNull => False
           end;
  (* value buckets: wide enough for vw bits, or no values *)
  co_val : match c_val c with
           | KPlain es | KClass es | KAvx es => width_ok es /\ vw <= N.of_nat es
           | KVar iw => width_ok iw /\ (16 <= slack pf)%nat /\ 1 <= vw <= 64
           | KNull => True
           end;
  (* the remainder fits into the storage type of the key buckets *)
  co_hash : match c_hash c with
            | HBij _ => kw <= c_keybits c /\ kw - bmin <= N.of_nat (kind_bits (c_key c))
            | HAdapter f => kw <= N.of_nat (kind_bits (c_key c))
            end
}.
Record cfg_ok0 (pf : platform) (c : cfg) (kw vw bmin : N) : Prop := {
  co_core :> cfg_core pf c kw vw bmin;
  co_ov : c_ov c = OvDummy \/ c_ov c = OvMap /\ c_val c <> KNull /\ um_fair pf
}.
(** The same with an array_overflow; fresh memory has to be zero. *)
Record arr_ok0 (pf : platform) (c : cfg) (kw vw bmin : N) : Prop := {
  ca_core :> cfg_core pf c kw vw bmin;
  ca_ov : c_ov c = OvArray /\ c_val c <> KNull /\ zero_fresh pf = true /\ kw <= c_keybits c
}.
(** Growing succeeds: a bucket takes at least two elements and the hash function spreads. *)
Definition cfg_grows (c : cfg) (kw : N) : Prop :=
  2 <= c_maxb c /\ match c_hash c with HBij _ => True | HAdapter f => spreading f kw (c_maxb c) end.
Record cfg_ok (pf : platform) (c : cfg) (kw vw bmin : N) : Prop := {
  co_base :> cfg_ok0 pf c kw vw bmin;
  co_two : 2 <= c_maxb c;
  co_spread : match c_hash c with HBij _ => True | HAdapter f => spreading f kw (c_maxb c) end
}.

(** Pigeonhole. *)
Lemma nodup_bound (l : list N) n : NoDup l -> (forall x, x ∈ l -> x < n) -> N.of_nat (length l) <= n.
Proof.
  intros Hnd Hlt.
  assert (H : (length (map N.to_nat l) <= length (seq 0 (N.to_nat n)))%nat).
  { apply NoDup_incl_length.
    - apply NoDup_ListNoDup. apply NoDup_fmap_2; [|done]. intros x y E. lia.
    - intros x Hx. apply in_map_iff in Hx as (y & <- & Hy). apply in_seq. apply elem_of_list_In in Hy.
      specialize (Hlt _ Hy). lia. }
  rewrite map_length, seq_length in H. lia.
Qed.
Lemma nodup_image_bound (f : N -> N) (ks : list N) n : NoDup ks ->
  (forall k k', k ∈ ks -> k' ∈ ks -> f k = f k' -> k = k') -> (forall k, k ∈ ks -> f k < n) -> N.of_nat (length ks) <= n.
Proof.
  intros Hnd Hinj Hlt. rewrite <-(map_length f). apply nodup_bound.
  - clear Hlt. induction ks as [|k ks IH]; [constructor|]. apply NoDup_cons in Hnd as [Hk Hnd]. cbn. apply NoDup_cons. split.
    + intros Hin. apply elem_of_list_fmap in Hin as (k' & E & Hin). apply Hk.
      rewrite (Hinj k k'); [done|by constructor|by constructor|done].
    + apply IH; [done|]. intros k1 k2 H1 H2. apply Hinj; by constructor.
  - intros x Hx. apply elem_of_list_fmap in Hx as (k & -> & Hk). by apply Hlt.
Qed.

(** Injective hash functions are spreading. *)
Lemma injective_spreading f kw maxb : 2 <= maxb ->
  (forall k k', k < 2^kw -> k' < 2^kw -> u64 (f k) = u64 (f k') -> k = k') -> spreading f kw maxb.
Proof.
  intros Hm Hinj ks Hnd Hlen Hks Hall.
  assert (N.of_nat (length ks) <= 2); [|lia].
  apply (nodup_image_bound (fun k => u64 (f k) / 2^63)); [done|..].
  - intros k k' Hk Hk' E. apply Hinj; [by apply Hks|by apply Hks|].
    rewrite (N.div_mod (u64 (f k)) (2^63)), (N.div_mod (u64 (f k')) (2^63)) by done.
    by rewrite E, (Hall k k' Hk Hk').
  - intros k Hk. apply N.div_lt_upper_bound; [done|]. unfold u64. pose proof (N.mod_lt (f k) (2^64) ltac:(done)). 
    change (2^63 * 2) with (2^64). done.
Qed.
Lemma splitmix_spreading kw maxb : kw <= 64 -> 2 <= maxb -> spreading splitmix kw maxb.
Proof.
  intros Hk Hm. apply injective_spreading; [done|]. intros k k' H1 H2 E.
  assert (2^kw <= 2^64) by (by apply N.pow_le_mono_r).
  apply splitmix_inj; [lia|lia|]. unfold u64 in E. rewrite !N.mod_small in E by apply splitmix_lt. done.
Qed.

Lemma width_ok_pos es : width_ok es -> (8 <= es <= 64)%nat.
Proof. unfold width_ok. lia. Qed.

Lemma core_table_ok0 pf c kw vw bmin : cfg_core pf c kw vw bmin -> ov_side pf c kw (c_ov c) -> table_ok0 pf c kw vw bmin (bits_max c kw).
Proof.
  intros [Hkw Hbmin Hmaxb Hkey Hval Hhash] Hov.
  assert (Hbmax : bits_max c kw <= 63) by (unfold bits_max in *; destruct (c_hash c); lia).
  assert (Hrw : forall b, bmin <= b <= bits_max c kw ->
    qw c kw b = N.to_nat (match c_hash c with HBij _ => kw - b | HAdapter _ => kw end)
    /\ (1 <= qw c kw b <= N.to_nat kw)%nat).
  { intros b Hb. unfold qw, remainder_width, hmk. cbn [h_kind h_width]. unfold bits_max in Hb.
    destruct (c_hash c); [|lia]. rewrite sub8_small by lia. lia. }
  constructor; try lia; try done.
  - by destruct (c_key c).
  - by destruct (c_key c); cbn [pf_ok]; [..|destruct Hkey|].
  - by destruct (c_val c); cbn [pf_ok]; [..|destruct Hval as (_ & ? & _)|].
  - intros b Hb. destruct (Hrw b Hb) as [_ Hr]. split; [|lia].
    destruct (c_key c); cbn [kind_ok]; try done. destruct Hkey as [Hkey _]. split; [done|]. lia.
  - destruct (c_val c); cbn [kind_ok]; try apply Hval. destruct Hval as (H1 & _ & H2). split; [done|]. lia.
  - intros b k Hb [Hk _]. destruct (Hrw b Hb) as [Hqw Hr]. unfold hq, hb, hmk in *. cbn [norm]. unfold bits_max in *.
    destruct (c_hash c) as [f|f] eqn:Ef.
    + destruct Hhash as [Hkb Hst].
      destruct (quotient_roundtrip f kw (c_keybits c) (N.of_nat (kind_bits (c_key c))) k b) as (q & bk & -> & Hq & Hbk & Hinv); try lia.
      split; [done|]. split; [done|]. split; [|done]. rewrite Hqw.
      assert (q < 2^N.of_nat (kind_bits (c_key c))) by (eapply N.lt_le_trans; [exact Hq|apply N.pow_le_mono_r; lia]).
      destruct (c_key c); cbn [norm kind_bits] in *; try (by apply N.mod_small); try done.
      apply N.mod_small. by rewrite N2Nat.id.
    + rename Hhash into Hst. rewrite hash_map_adapter by lia. split; [done|].
      split; [apply N.mod_lt, N.pow_nonzero; lia|]. split; [|done]. rewrite Hqw.
      assert (k < 2^N.of_nat (kind_bits (c_key c))) by (eapply N.lt_le_trans; [exact Hk|apply N.pow_le_mono_r; lia]).
      destruct (c_key c); cbn [norm kind_bits] in *; try (by apply N.mod_small); try done.
      apply N.mod_small. by rewrite N2Nat.id.
Qed.
Lemma core_table_spread pf c kw vw bmin : cfg_core pf c kw vw bmin -> cfg_grows c kw -> table_spread c kw bmin (bits_max c kw).
Proof.
  intros [Hkw Hbmin Hmaxb Hkey Hval Hhash] [Htwo Hsp].
  intros b ks Hb Hnd Hlen Hks' Hall. assert (Hks : forall k, k ∈ ks -> k < 2^kw) by (intros k Hk; apply kdom_lt with c; by apply Hks'). unfold hb, hmk, bits_max in *. destruct (c_hash c) as [f|f] eqn:Ef.
  - destruct Hhash as [Hkb Hst].
      assert (Hle : N.of_nat (length ks) <= 2^(kw - b)).
      { apply (nodup_image_bound (fun k => bij_hash f kw k / 2^b)); [done|..].
        - intros k k' Hk Hk' E. specialize (Hall k k' Hk Hk'). rewrite !hash_map_bij in Hall by lia.
          rewrite <-(bij_left f kw k), <-(bij_left f kw k') by (try lia; by apply Hks). f_equal.
          rewrite (N.div_mod (bij_hash f kw k) (2^b)), (N.div_mod (bij_hash f kw k') (2^b)) by (apply N.pow_nonzero; lia).
          by rewrite E, Hall.
        - intros k Hk. apply quot_lt; [|lia]. apply bij_hash_lt. lia. }
      destruct (N.lt_ge_cases b (kw - 1)) as [|Hge]; [done|]. exfalso.
      assert (kw - b = 1) as E by lia. rewrite E in Hle. change (2^1) with 2 in Hle. lia.
  - destruct (N.lt_ge_cases b 63) as [|Hge]; [done|]. exfalso.
      assert (b = 63) as -> by lia. apply (Hsp ks Hnd Hlen Hks). intros k k' Hk Hk'. specialize (Hall k k' Hk Hk').
      rewrite !hash_map_adapter in Hall by lia. done.
Qed.

Lemma cfg_table_ok0 pf c kw vw bmin : cfg_ok0 pf c kw vw bmin -> table_ok0 pf c kw vw bmin (bits_max c kw).
Proof. intros [H0 [E|(E & ? & ?)]]; apply core_table_ok0; try done; rewrite E; done. Qed.
Lemma cfg_table_ok pf c kw vw bmin : cfg_ok pf c kw vw bmin -> table_ok pf c kw vw bmin (bits_max c kw).
Proof. intros [H0 Htwo Hsp]. constructor; [by apply cfg_table_ok0|]. eapply core_table_spread; [apply H0|done]. Qed.
Lemma arr_table_ok pf c kw vw bmin : arr_ok0 pf c kw vw bmin -> cfg_grows c kw -> table_ok pf c kw vw bmin (bits_max c kw).
Proof.
  intros [H0 (E & Hrest)] Hg. constructor; [|by eapply core_table_spread]. apply core_table_ok0; [done|]. rewrite E. done.
Qed.
Lemma cfg_noarr pf c kw vw bmin : cfg_ok0 pf c kw vw bmin -> c_ov c <> OvArray.
Proof. intros [_ [E|(E & _)]]; congruence. Qed.

(** Values of at most vw bits are stored without loss. *)
Lemma cfg_values pf c kw vw bmin v : cfg_core pf c kw vw bmin -> c_val c <> KNull -> v < 2^vw -> nv c vw v = v.
Proof.
  intros H Hn Hv. pose proof (co_val _ _ _ _ _ H) as Hval. unfold nv. destruct (c_val c); cbn [norm]; try done.
  1-3: destruct Hval as [_ Hval]; apply N.mod_small; (eapply N.lt_le_trans; [exact Hv|]); apply N.pow_le_mono_r; lia.
  rewrite N2Nat.id. by apply N.mod_small.
Qed.
