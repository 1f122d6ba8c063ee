(** Quotient and bucket of a key under the hash mappings of hash.hpp, as used by the compact and the group table. *)
From Verif Require Export TableConf.

Section hash.
Context (hk : hkind) (keybits hbits kw bmin : N).
Definition zm : hmap := HMap hk kw keybits hbits.
Definition zq (b k : N) : N := match hash_map zm k b with Ok (q, _) => q | _ => 0 end.
Definition zb (b k : N) : N := match hash_map zm k b with Ok (_, bk) => bk | _ => 0 end.
Definition zw (b : N) : N := remainder_width zm b.
Definition zbmax : N := match hk with HBij _ => kw - 1 | HAdapter _ => 63 end.

(** [bmin] is the least number of bucket bits. *)
Record hash_ok : Prop := {
  ho_kw : 1 <= kw <= 64;
  ho_bmin : 1 <= bmin <= zbmax;
  ho_store : match hk with HBij _ => kw <= keybits /\ kw - bmin <= hbits | HAdapter _ => True end
}.
Hypothesis H : hash_ok.

Lemma zbmax_le : zbmax <= 63.
Proof. destruct H as [Hk _ _]. unfold zbmax. destruct hk; lia. Qed.
Lemma zw_range b : bmin <= b <= zbmax -> 1 <= zw b <= kw.
Proof.
  destruct H as [Hk Hm _]. intros Hb. unfold zw, remainder_width, zm, zbmax in *. cbn [h_kind h_width]. destruct hk; [|lia].
  rewrite sub8_small by lia. lia.
Qed.
Lemma zw_le b : bmin <= b <= zbmax -> zw b <= match hk with HBij _ => kw - bmin | HAdapter _ => kw end.
Proof.
  destruct H as [Hk Hm _]. intros Hb. unfold zw, remainder_width, zm, zbmax in *. cbn [h_kind h_width]. destruct hk; [|lia].
  rewrite sub8_small by lia. lia.
Qed.
Lemma z_map b k : bmin <= b <= zbmax -> k < 2^kw ->
  hash_map zm k b = Ok (zq b k, zb b k) /\ zb b k < 2^b /\ zq b k < 2^zw b /\ hash_inv_map zm (zq b k) (zb b k) b = Ok k.
Proof.
  intros Hb Hk. pose proof zbmax_le as H63. destruct H as [Hkw Hm Hst].
  unfold zq, zb, zw, remainder_width, zm, zbmax in *. cbn [h_kind h_width]. destruct hk as [f|f].
  - rewrite sub8_small by lia. destruct Hst as [Hkb Hs].
    destruct (quotient_roundtrip f kw keybits hbits k b) as (q & bk & -> & Hq & Hbk & Hinv); try lia. done.
  - rewrite hash_map_adapter by lia. split; [done|]. split; [apply N.mod_lt, N.pow_nonzero; lia|]. done.
Qed.
(** Keys of one bucket are told apart by their quotients. *)
Lemma zq_inj b k k' : bmin <= b <= zbmax -> k < 2^kw -> k' < 2^kw -> zb b k = zb b k' -> zq b k = zq b k' -> k = k'.
Proof.
  intros Hb Hk Hk' E1 E2. destruct (z_map b k Hb Hk) as (_ & _ & _ & I1). destruct (z_map b k' Hb Hk') as (_ & _ & _ & I2).
  rewrite E1, E2 in I1. congruence.
Qed.
(** inv_map is defined for all quotients. *)
Lemma z_inv_total b q bk : bmin <= b <= zbmax -> exists k, hash_inv_map zm q bk b = Ok k.
Proof.
  intros Hb. pose proof zbmax_le. destruct H as [Hkw Hm Hst]. unfold hash_inv_map, zm. cbn [h_kind h_width h_keybits h_storebits].
  destruct hk as [f|f]; [|by eexists].
  rewrite (proj2 (N.leb_le _ _)) by lia. rewrite (proj2 (N.leb_le _ _)) by lia. cbn [andb].
  unfold shl64. rewrite (proj2 (N.ltb_lt _ _)) by lia. cbn [mbind res_bind]. by eexists.
Qed.
(** More than 255 keys do not share a bucket of a table of the largest size. *)
Lemma z_spread b ks n : (match hk with HBij _ => 2 <= n | HAdapter f => spreading f kw n end) ->
  bmin <= b <= zbmax -> NoDup ks -> N.of_nat (length ks) = n + 1 -> (forall k, k ∈ ks -> k < 2^kw) ->
  (forall k k', k ∈ ks -> k' ∈ ks -> zb b k = zb b k') -> b < zbmax.
Proof.
  intros Hsp Hb Hnd Hlen Hks Hall. pose proof zbmax_le as H63. destruct H as [Hkw Hm Hst]. unfold zb, zm, zbmax in *.
  destruct hk as [f|f].
  - assert (Hle : N.of_nat (length ks) <= 2^(kw - b)).
    { apply (nodup_image_bound (fun k => bij_hash f kw k / 2^b)); [done|..].
      - intros k k' Hk Hk' E. specialize (Hall k k' Hk Hk'). rewrite !hash_map_bij in Hall by lia.
        rewrite <-(bij_left f kw k), <-(bij_left f kw k') by (try lia; by apply Hks). f_equal.
        rewrite (N.div_mod (bij_hash f kw k) (2^b)), (N.div_mod (bij_hash f kw k') (2^b)) by (apply N.pow_nonzero; lia).
        by rewrite E, Hall.
      - intros k Hk. apply quot_lt; [|lia]. apply bij_hash_lt. lia. }
    destruct (N.lt_ge_cases b (kw - 1)) as [|Hge]; [done|]. exfalso.
    assert (kw - b = 1) as E by lia. rewrite E in Hle. change (2^1) with 2 in Hle. lia.
  - destruct (N.lt_ge_cases b 63) as [|Hge]; [done|]. exfalso.
    assert (b = 63) as -> by lia. apply (Hsp ks Hnd Hlen Hks). intros k k' Hk Hk'. specialize (Hall k k' Hk Hk').
    rewrite !hash_map_adapter in Hall by lia. done.
Qed.
End hash.
