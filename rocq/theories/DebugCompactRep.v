(** One bucket of the debug build of compact_chaining_map: the block, m_large_storage and the plain copies hold the same
    elements.  Values may be wider than value_width() (write_value does not check them); reading such a value fails. *)
From Verif Require Export DebugCompactTrans CompactBits DebugConf.
From Verif Require Import DebugGroupRep.
#[local] Open Scope nat_scope.

Definition cells (l : list N) : option (list (option N)) := match l with [] => None | _ => Some (Some <$> l) end.
(** The array may be longer than the bucket: erase does not shrink it. *)
Definition plain (p : option (list (option N))) (l : list N) : Prop :=
  match l with [] => p = None | _ => exists junk, p = Some ((Some <$> l) ++ junk) end.
Lemma plain_some p l : plain p l -> l <> [] -> exists junk, p = Some ((Some <$> l) ++ junk).
Proof. by destruct l. Qed.
Lemma plain_intro l junk : l <> [] -> plain (Some ((Some <$> l) ++ junk)) l.
Proof. intros H. destruct l; [done|]. by eexists. Qed.
Lemma xcell_at (L : list (option N)) i x : L !! i = Some (Some x) -> xcell (Some L) i = Ok x.
Proof. intros H. unfold xcell. by rewrite H. Qed.
Lemma plain_cell p l i x : plain p l -> l !! i = Some x -> xcell p i = Ok x.
Proof.
  intros Hp Hi. destruct (plain_some _ _ Hp) as (junk & ->); [by intros ->|]. apply xcell_at.
  pose proof (lookup_lt_Some _ _ _ Hi). rewrite lookup_app_l by (by rewrite fmap_length). by rewrite list_lookup_fmap, Hi.
Qed.
Lemma cells_some l : l <> [] -> cells l = Some (Some <$> l).
Proof. by destruct l. Qed.
Lemma cells_cell l i x : l !! i = Some x -> xcell (cells l) i = Ok x.
Proof. intros Hi. rewrite cells_some by (by intros ->). apply xcell_at. by rewrite list_lookup_fmap, Hi. Qed.
Lemma cells_default l : default [] (cells l) = Some <$> l.
Proof. by destruct l. Qed.
Lemma put_app {A} (l r : list A) x y : <[length l := x]> (l ++ y :: r) = l ++ x :: r.
Proof. rewrite <-(Nat.add_0_r (length l)). rewrite insert_app_r. done. Qed.

Section slot.
Context (pf : platform) (c : ccfg).
Notation sb := (cc_sb c).
Hypothesis Hsb : width_ok sb.
Hypothesis Hacc : sb = 64 \/ 8 <= slack pf.
Context (q v : nat).
Hypothesis Hq : 1 <= q <= 64.
Hypothesis Hv : 1 <= v <= 64.
Notation fields := (fields sb q v).

(** *** A block for n elements *)
Record blk (s : xslot) (l : bits) (n : nat) : Prop := {
  bk_data : cs_data (x_s s) = Some l;
  bk_size : cs_size (x_s s) = N.of_nat n;
  bk_len : length l = sb * cdiv (n * (q + v)) sb;
  bk_bits : x_bits s = length l
}.
Lemma blk_enough s l n : blk s l n -> n * q + n * v <= length l.
Proof. intros H. rewrite (bk_len _ _ _ H). pose proof (sb_range pf sb Hsb Hacc). pose proof (cdiv_ge (n * (q + v)) sb ltac:(lia)). nia. Qed.
Lemma blk_mod s l n : blk s l n -> length l mod sb = 0.
Proof. intros H. rewrite (bk_len _ _ _ H), Nat.mul_comm. apply Nat.mod_mul. pose proof (sb_range pf sb Hsb Hacc). lia. Qed.
Lemma place_ok s l n i : blk s l n -> i < n -> xq_place c s i q = true.
Proof.
  intros H Hi. unfold xq_place. apply Nat.ltb_lt. rewrite (bk_size _ _ _ H), Nat2N.id. pose proof (sb_range pf sb Hsb Hacc).
  pose proof (cdiv_ge (n * q) sb ltac:(lia)) as Hc. pose proof (field_le pf sb Hacc i n q Hi).
  pose proof (Nat.div_mod (i * q) sb ltac:(lia)) as Hd. set (a := i * q / sb) in *. set (r := (i * q) mod sb) in *. assert (a <= sb * a) by nia. lia.
Qed.
Lemma quot_gen s l n i x : blk s l n -> i < n -> rdbits l (i * q) q = nbits q x -> (x < 2^N.of_nat q)%N ->
  cs_quot pf c (x_s s) i q = Ok x.
Proof.
  intros H Hi Hx Hlt. pose proof (blk_enough _ _ _ H). pose proof (field_le pf sb Hacc i n q Hi). unfold cs_quot. rewrite (bk_data _ _ _ H).
  rewrite (c_read_ok pf sb Hsb Hacc l _ _ x); [by rewrite N.mod_small|done|by eapply blk_mod|lia|done].
Qed.
Lemma xs_quot_gen s l n i x : blk s l n -> i < n -> rdbits l (i * q) q = nbits q x -> (x < 2^N.of_nat q)%N ->
  xcell (x_large s) i = Ok x -> xs_quot pf c s i q = Ok x.
Proof.
  intros H Hi Hx Hlt Hl. unfold xs_quot. rewrite (place_ok _ _ _ _ H Hi). cbn [chk mbind res_bind].
  pose proof (blk_enough _ _ _ H). pose proof (field_le pf sb Hacc i n q Hi). rewrite (bk_bits _ _ _ H), (proj2 (Nat.leb_le _ _)) by lia. cbn [chk mbind res_bind].
  rewrite (quot_gen _ _ _ _ _ H Hi Hx Hlt). cbn [mbind res_bind]. rewrite Hl. cbn [mbind res_bind]. rewrite N.eqb_refl. done.
Qed.
(** A stored value that does not fit differs from its plain copy. *)
Definition fits (y : N) : bool := (y <? 2^N.of_nat v)%N.
Lemma xs_value_gen s l n i y : blk s l n -> i < n -> rdbits l (n * q + i * v) v = nbits v y ->
  xcell (x_large s) (n + i) = Ok y -> xcell (x_vals s) i = Ok y -> xs_value pf c s i q v = if fits y then Ok y else Throw.
Proof.
  intros H Hi Hy Hl Hp. unfold xs_value. rewrite (bk_size _ _ _ H), Nat2N.id.
  pose proof (blk_enough _ _ _ H). pose proof (field_le pf sb Hacc i n v Hi). rewrite (bk_bits _ _ _ H), (proj2 (Nat.leb_le _ _)) by lia. cbn [chk mbind res_bind].
  unfold cs_value. rewrite (bk_data _ _ _ H), (bk_size _ _ _ H), Nat2N.id.
  rewrite (c_read_ok pf sb Hsb Hacc l _ _ y); [|done|by eapply blk_mod|lia|done]. cbn [mbind res_bind]. rewrite Hl, Hp. cbn [mbind res_bind].
  unfold fits. destruct (N.ltb_spec y (2^N.of_nat v)) as [Hlt|Hge].
  - rewrite N.mod_small, N.eqb_refl by done. done.
  - rewrite (proj2 (N.eqb_neq _ _)); [done|]. pose proof (N.mod_lt y (2^N.of_nat v) ltac:(apply N.pow_nonzero; done)). lia.
Qed.
Lemma xs_set_quot_gen s l n L i x : blk s l n -> i < n -> (x < 2^N.of_nat q)%N -> x_large s = Some L -> i < length L ->
  xs_set_quot pf c s i q x = Ok (XSlot (CSlot (Some (wrbits l (i * q) (nbits q x))) (N.of_nat n)) (Some (<[i := Some x]> L)) (x_keys s) (x_vals s) (x_bits s))
  /\ blk (XSlot (CSlot (Some (wrbits l (i * q) (nbits q x))) (N.of_nat n)) (Some (<[i := Some x]> L)) (x_keys s) (x_vals s) (x_bits s)) (wrbits l (i * q) (nbits q x)) n.
Proof.
  intros H Hi Hlt EL HL. pose proof (blk_enough _ _ _ H) as Hen. pose proof (field_le pf sb Hacc i n q Hi) as Hle.
  assert (Hwl : length (wrbits l (i * q) (nbits q x)) = length l) by (apply wrbits_length; rewrite nbits_length; lia).
  assert (HB : blk (XSlot (CSlot (Some (wrbits l (i * q) (nbits q x))) (N.of_nat n)) (Some (<[i := Some x]> L)) (x_keys s) (x_vals s) (x_bits s)) (wrbits l (i * q) (nbits q x)) n).
  { constructor; cbn [x_s cs_data cs_size x_bits]; try done; rewrite Hwl; apply H. }
  split; [|done]. unfold xs_set_quot. rewrite EL. unfold xput. rewrite (proj2 (Nat.ltb_lt _ _)) by done. cbn [mbind res_bind].
  rewrite (place_ok _ _ _ _ H Hi). cbn [chk mbind res_bind]. rewrite msb_ok by (done || lia). cbn [chk mbind res_bind].
  rewrite (bk_bits _ _ _ H), (proj2 (Nat.leb_le _ _)) by lia. cbn [chk mbind res_bind]. unfold cs_set_quot. rewrite (bk_data _ _ _ H), (bk_size _ _ _ H).
  rewrite (c_write_ok pf sb Hsb Hacc l) by (done || lia || by eapply blk_mod). cbn [mbind res_bind].
  pose proof (quot_gen _ _ _ i x HB Hi) as Hr. cbn [x_s] in Hr. rewrite Hr.
  - cbn [mbind res_bind]. rewrite N.eqb_refl. cbn [chk mbind res_bind]. done.
  - pose proof (rdbits_wrbits_same l (i * q) (nbits q x)) as Hs. rewrite nbits_length in Hs. apply Hs. lia.
  - done.
Qed.
Lemma xs_set_value_gen s l n L V i y : blk s l n -> i < n -> x_large s = Some L -> n + i < length L -> x_vals s = Some V -> i < length V ->
  xs_set_value pf c s i q v y = Ok (XSlot (CSlot (Some (wrbits l (n * q + i * v) (nbits v y))) (N.of_nat n)) (Some (<[n + i := Some y]> L)) (x_keys s) (Some (<[i := Some y]> V)) (x_bits s)).
Proof.
  intros H Hi EL HL EV HV. pose proof (blk_enough _ _ _ H) as Hen. pose proof (field_le pf sb Hacc i n v Hi) as Hle.
  unfold xs_set_value. rewrite EL, EV. unfold xput. rewrite (bk_size _ _ _ H), Nat2N.id, (proj2 (Nat.ltb_lt (n + i) _)) by done. cbn [mbind res_bind].
  rewrite (bk_bits _ _ _ H), (proj2 (Nat.leb_le _ _)) by lia. cbn [chk mbind res_bind]. unfold cs_set_value. rewrite (bk_data _ _ _ H), (bk_size _ _ _ H), Nat2N.id.
  rewrite (c_write_ok pf sb Hsb Hacc l) by (done || lia || by eapply blk_mod). cbn [mbind res_bind].
  rewrite (proj2 (Nat.ltb_lt i _)) by done. done.
Qed.
Lemma x_moves lim w ms d : (forall f t, (f, t) ∈ ms -> t + w <= lim) -> rfold (x_move pf c lim w) ms d = rfold (c_move pf sb w) ms d.
Proof.
  revert d. induction ms as [|[f t] ms IH]; intros d H; [done|]. cbn [rfold].
  assert (E : x_move pf c lim w d (f, t) = c_move pf sb w d (f, t)).
  { unfold x_move, c_move. cbn [fst snd]. destruct (c_read pf sb d f w); [|done..]. cbn [mbind res_bind].
    rewrite (proj2 (Nat.leb_le _ _)) by (apply (H f t); by left). done. }
  rewrite E. destruct (c_move pf sb w d (f, t)); [|done..]. cbn [mbind res_bind]. apply IH. intros f' t' Hin. apply (H f' t'). by right.
Qed.

(** *** A bucket that holds keys ks with quotients qs and values vs *)
Record xfields (s : xslot) (ks qs vs : list N) : Prop := {
  xf_size : cs_size (x_s s) = N.of_nat (length qs);
  xf_255 : length qs <= 255;
  xf_small : small q qs;
  xf_klen : length ks = length qs;
  xf_vlen : length vs = length qs;
  xf_data : match cs_data (x_s s) with None => qs = [] | Some l => qs <> [] /\ fields l qs vs end;
  xf_large : x_large s = cells (qs ++ vs);
  xf_keys : plain (x_keys s) ks;
  xf_vals : plain (x_vals s) vs;
  xf_bits : x_bits s = sb * cdiv (length qs * (q + v)) sb
}.
Lemma xf_slot s ks qs vs : xfields s ks qs vs -> small v vs -> slot_fields sb q v (x_s s) qs vs.
Proof.
  intros H Hs. split; [apply H|]. split; [apply H|]. split; [apply H|]. split; [done|]. pose proof (xf_data _ _ _ _ H) as Hd.
  destruct (cs_data (x_s s)); [done|]. split; [done|]. apply length_zero_iff_nil. rewrite (xf_vlen _ _ _ _ H), Hd. done.
Qed.
Lemma xf_blk s ks qs vs : xfields s ks qs vs -> qs <> [] -> exists l, blk s l (length qs) /\ fields l qs vs.
Proof.
  intros H Hne. pose proof (xf_data _ _ _ _ H) as Hd. destruct (cs_data (x_s s)) as [l|] eqn:E; [|done]. destruct Hd as [_ Hf]. exists l. split; [|done].
  constructor; [done|apply H|apply Hf|]. rewrite (xf_bits _ _ _ _ H). symmetry. apply Hf.
Qed.
Lemma xs_quot_ok s ks qs vs i x : xfields s ks qs vs -> qs !! i = Some x -> xs_quot pf c s i q = Ok x.
Proof.
  intros H Hi. destruct (xf_blk _ _ _ _ H) as (l & HB & Hf); [by intros ->|]. pose proof (lookup_lt_Some _ _ _ Hi).
  eapply xs_quot_gen; [exact HB|done|by apply Hf|by apply (Forall_lookup_1 _ _ _ _ (xf_small _ _ _ _ H) Hi)|].
  rewrite (xf_large _ _ _ _ H). apply cells_cell. by rewrite lookup_app_l.
Qed.
Lemma xs_value_ok s ks qs vs i y : xfields s ks qs vs -> vs !! i = Some y -> xs_value pf c s i q v = if fits y then Ok y else Throw.
Proof.
  intros H Hi. pose proof (lookup_lt_Some _ _ _ Hi) as Hlt. rewrite (xf_vlen _ _ _ _ H) in Hlt. destruct (xf_blk _ _ _ _ H) as (l & HB & Hf); [intros ->; cbn in Hlt; lia|].
  eapply xs_value_gen; [exact HB|done|by apply Hf| |by apply (plain_cell _ vs); [apply H|]].
  rewrite (xf_large _ _ _ _ H). apply cells_cell. rewrite lookup_app_r by lia. by replace (length qs + i - length qs) with i by lia.
Qed.
Lemma fits_small y vs i : small v vs -> vs !! i = Some y -> fits y = true.
Proof. intros Hs Hi. apply N.ltb_lt. by apply (Forall_lookup_1 _ _ _ _ Hs Hi). Qed.
Lemma fits_lt y : fits y = true <-> (y < 2^N.of_nat v)%N.
Proof. apply N.ltb_lt. Qed.

(** *** Comparing with the plain copies *)
Section agree.
Context (h : hmap) (bk b : N).
Definition inv_ok (ks qs : list N) : Prop := forall i k x, ks !! i = Some k -> qs !! i = Some x -> dhash_inv_map h x bk b = Ok k.
Definition agree1 (s : xslot) (i : nat) : res unit :=
      q0 ← xs_quot pf c s i q;
      k ← dhash_inv_map h q0 bk b;
      pk ← xcell (x_keys s) i;
      _ ← chk (k =? pk)%N;
      v0 ← xs_value pf c s i q v;
      pv ← xcell (x_vals s) i;
      chk (v0 =? pv)%N.
Lemma agree1_ok s ks qs vs i y : xfields s ks qs vs -> inv_ok ks qs -> vs !! i = Some y -> agree1 s i = if fits y then Ok tt else Throw.
Proof.
  intros H Hi Hy. pose proof (lookup_lt_Some _ _ _ Hy) as Hlt. pose proof (xf_klen _ _ _ _ H). pose proof (xf_vlen _ _ _ _ H).
  destruct (lookup_lt_is_Some_2 qs i) as (x & Hx); [lia|]. destruct (lookup_lt_is_Some_2 ks i) as (k & Hk); [lia|].
  unfold agree1. rewrite (xs_quot_ok _ _ _ _ _ _ H Hx). cbn [mbind res_bind]. rewrite (Hi _ _ _ Hk Hx). cbn [mbind res_bind].
  rewrite (plain_cell _ _ _ _ (xf_keys _ _ _ _ H) Hk). cbn [mbind res_bind]. rewrite N.eqb_refl. cbn [chk mbind res_bind].
  rewrite (xs_value_ok _ _ _ _ _ _ H Hy). destruct (fits y); [|done]. cbn [mbind res_bind].
  rewrite (plain_cell _ _ _ _ (xf_vals _ _ _ _ H) Hy). cbn [mbind res_bind]. by rewrite N.eqb_refl.
Qed.
Lemma agree_loop s ks qs vs : xfields s ks qs vs -> inv_ok ks qs -> forall n i, i + n = length vs ->
  rfold (fun _ i => agree1 s i) (seq i n) tt = if forallb fits (drop i vs) then Ok tt else Throw.
Proof.
  intros H Hi. induction n as [|n IH]; intros i Hn; cbn [seq rfold]; [by rewrite drop_ge by lia|].
  destruct (lookup_lt_is_Some_2 vs i) as (y & Hy); [lia|]. rewrite (drop_S _ _ _ Hy). cbn [forallb]. rewrite (agree1_ok _ _ _ _ _ _ H Hi Hy).
  destruct (fits y); [|done]. cbn [mbind res_bind andb]. apply IH. lia.
Qed.
Lemma xs_agree_spec s ks qs vs : xfields s ks qs vs -> inv_ok ks qs -> xs_agree pf c h bk b s q v = if forallb fits vs then Ok tt else Throw.
Proof.
  intros H Hi. unfold xs_agree. rewrite (xf_size _ _ _ _ H), Nat2N.id, <-(xf_vlen _ _ _ _ H). exact (agree_loop _ _ _ _ H Hi (length vs) 0 eq_refl).
Qed.
Lemma forallb_small vs : forallb fits vs = true <-> small v vs.
Proof.
  unfold small. induction vs as [|y vs IH]; [done|]. cbn [forallb]. rewrite andb_true_iff, Forall_cons, <-IH, fits_lt. done.
Qed.
Lemma xs_agree_ok s ks qs vs : xfields s ks qs vs -> inv_ok ks qs -> small v vs -> xs_agree pf c h bk b s q v = Ok tt.
Proof. intros H Hi Hs. rewrite (xs_agree_spec _ _ _ _ H Hi). by rewrite (proj2 (forallb_small vs) Hs). Qed.
End agree.

(** *** Adding an element *)
Lemma plain_grow p l : plain p l -> exists z, xrealloc p (length l + 1) = Some ((Some <$> l) ++ [z]).
Proof.
  intros H. unfold xrealloc. rewrite (proj2 (Nat.eqb_neq _ _)) by lia.
  assert (Hj : exists junk, default [] p = (Some <$> l) ++ junk).
  { destruct l; [exists []; by rewrite H|]. destruct H as (junk & ->). by exists junk. }
  destruct Hj as (junk & ->). rewrite take_app_ge by (rewrite fmap_length; lia). rewrite app_length, fmap_length.
  replace (length l + 1 - length l) with 1 by lia. destruct junk as [|z junk].
  - exists None. cbn. rewrite Nat.add_0_r, app_nil_r. by replace (length l + 1 - length l) with 1 by lia.
  - exists z. cbn [take length]. replace (length l + 1 - (length l + S (length junk))) with 0 by lia. by rewrite app_nil_r.
Qed.
Lemma large_grow qs vs : length vs = length qs ->
  exists z, large_up (length qs) <$> xrealloc (cells (qs ++ vs)) (2 * (length qs + 1)) = Some ((Some <$> qs) ++ z :: (Some <$> vs) ++ [None]).
Proof.
  intros Hl. unfold xrealloc. rewrite (proj2 (Nat.eqb_neq _ _)) by lia. rewrite cells_default, fmap_app.
  set (Q := Some <$> qs). set (V := Some <$> vs). assert (HQ : length Q = length qs) by apply fmap_length. assert (HV : length V = length qs) by (unfold V; by rewrite fmap_length).
  rewrite (take_ge (Q ++ V)) by (rewrite app_length; lia). rewrite app_length, HQ, HV. replace (2 * (length qs + 1) - (length qs + length qs)) with 2 by lia.
  cbn [replicate fmap option_fmap option_map]. unfold large_up.
  assert (HR : exists z R, V ++ [None; None] = z :: R) by (destruct V; cbn; eauto). destruct HR as (z & R & HR). exists z. f_equal.
  rewrite <-app_assoc. rewrite (take_app_ge Q) by lia. rewrite HQ. replace (length qs + 1 - length qs) with 1 by lia.
  rewrite HR at 1. cbn [take]. rewrite take_0. rewrite <-app_assoc. f_equal. cbn [app]. f_equal. rewrite (drop_app_alt Q) by done. rewrite (take_app_alt V) by done. f_equal.
  rewrite app_assoc, drop_app_ge by (rewrite app_length; lia). rewrite app_length, HQ, HV. replace (2 * length qs + 1 - (length qs + length qs)) with 1 by lia. done.
Qed.

(** enlarge_storage *)
Lemma xs_enlarge_ok s ks qs vs : xfields s ks qs vs -> small v vs -> length qs < 255 ->
  exists s1 l1 z zk zv, xs_enlarge pf c s q v = Ok s1 /\ blk s1 l1 (length qs + 1)
    /\ (forall i x, qs !! i = Some x -> rdbits l1 (i * q) q = nbits q x)
    /\ (forall i x, vs !! i = Some x -> rdbits l1 ((length qs + 1) * q + i * v) v = nbits v x)
    /\ x_large s1 = Some ((Some <$> qs) ++ z :: (Some <$> vs) ++ [None])
    /\ x_keys s1 = Some ((Some <$> ks) ++ [zk]) /\ x_vals s1 = Some ((Some <$> vs) ++ [zv]).
Proof.
  intros H Hsv Hlt. pose proof (xf_slot _ _ _ _ H Hsv) as Hsf. set (n := length qs) in *. pose proof (xf_vlen _ _ _ _ H) as Hvn. fold n in Hvn.
  destruct (enlarge_realloc pf sb Hsb Hacc q v Hq Hv c (x_s s) qs vs eq_refl Hsf Hlt) as (l & Hr & Hl & Hlq & Hlv). fold n in Hr, Hl, Hlv.
  destruct (large_grow qs vs Hvn) as (z & HL). fold n in HL. rewrite <-(xf_large _ _ _ _ H) in HL.
  destruct (plain_grow _ _ (xf_keys _ _ _ _ H)) as (zk & HK). destruct (plain_grow _ _ (xf_vals _ _ _ _ H)) as (zv & HV). rewrite (xf_klen _ _ _ _ H) in HK. rewrite Hvn in HV. fold n in HK.
  pose proof (sb_range pf sb Hsb Hacc). pose proof (cdiv_ge ((n + 1) * (q + v)) sb ltac:(lia)) as Hcd.
  pose proof (next_block pf sb Hacc q v Hq Hv n) as Enb. assert (Enq : (n + 1) * q = n * q + q) by nia.
  assert (Hcl : n * q + n * v + q + v <= length l) by (rewrite Hl, <-Enb; exact Hcd). clear Hcd.
  assert (Hmod : length l mod sb = 0) by (rewrite Hl, Nat.mul_comm; apply Nat.mod_mul; lia).
  destruct (moves_spec pf sb Hsb Hacc v Hv (map (fun i => (n * q + (n - i) * v, n * q + q + (n - i) * v)) (seq 1 n)) l Hmod)
    as (l1 & Hm & Hl1 & Hm1 & Ho1).
  { intros i f t Hi. apply CompactBits.lookup_map_seq in Hi as [Hi Hin]. injection Hi as -> ->. pose proof (field_le pf sb Hacc (n - (1 + i)) n v ltac:(lia)). split; [lia|]. split; [lia|].
    destruct (lookup_lt_is_Some_2 vs (n - (1 + i))) as (y & Hy); [lia|]. exists y. by apply Hlv. }
  { intros i j f t f' t' Hij Hi Hj. apply CompactBits.lookup_map_seq in Hi as [Hi Hin]. apply CompactBits.lookup_map_seq in Hj as [Hj Hjn].
    injection Hi as -> ->. injection Hj as -> ->.
    pose proof (field_le pf sb Hacc (n - (1 + j)) (n - (1 + i)) v ltac:(lia)). split; left; lia. }
  assert (HB : forall K V, blk (XSlot (CSlot (Some l1) (N.of_nat (n + 1))) (Some ((Some <$> qs) ++ z :: (Some <$> vs) ++ [None])) K V (length l)) l1 (n + 1)).
  { intros K V. constructor; cbn [x_s cs_data cs_size x_bits]; try done; by rewrite Hl1. }
  assert (Hq1 : forall i x, qs !! i = Some x -> rdbits l1 (i * q) q = nbits q x).
  { intros i x Hi. pose proof (lookup_lt_Some _ _ _ Hi) as Hin. pose proof (field_le pf sb Hacc i n q Hin). rewrite Ho1; [by apply Hlq|].
    intros j f t Hj. apply CompactBits.lookup_map_seq in Hj as [Hj Hjn]. injection Hj as -> ->. left. pose proof (Nat.le_0_l ((n - (1 + j)) * v)). lia. }
  assert (Hv1 : forall i x, vs !! i = Some x -> rdbits l1 ((n + 1) * q + i * v) v = nbits v x).
  { intros i x Hi. pose proof (lookup_lt_Some _ _ _ Hi) as Hin. rewrite Enq. rewrite (Hm1 (n - 1 - i) (n * q + i * v)); [by apply Hlv|].
    apply CompactBits.lookup_map_seq. split; [|lia]. replace (n - (1 + (n - 1 - i))) with i by lia. done. }
  exists (XSlot (CSlot (Some l1) (N.of_nat (n + 1))) (Some ((Some <$> qs) ++ z :: (Some <$> vs) ++ [None])) (Some ((Some <$> ks) ++ [zk])) (Some ((Some <$> vs) ++ [zv])) (length l)), l1, z, zk, zv.
  split; [|split; [apply HB|done]].
  unfold xs_enlarge. cbv zeta. rewrite (xf_size _ _ _ _ H). fold n. rewrite Nat2N.id. rewrite (proj2 (Nat.ltb_lt _ _)) by done. cbn [chk mbind res_bind].
  rewrite u8_small by lia. cbn [cs_size cs_data x_s]. replace (N.of_nat n + 1)%N with (N.of_nat (n + 1)) by lia. rewrite sub64_small by lia.
  replace (N.to_nat (N.of_nat (n + 1) - 1)) with n by lia. unfold xs_realloc. cbn [x_s x_large x_keys x_vals x_bits cs_size cs_data]. rewrite Hr. cbn [cs_size cs_data]. rewrite !Nat2N.id.
  rewrite HL, HK, HV, Enq, <-Hl.
  rewrite x_moves; [|intros f t Hin; apply elem_of_list_lookup in Hin as (i & Hi); apply CompactBits.lookup_map_seq in Hi as [Hi Hin]; injection Hi as -> ->;
    pose proof (field_le pf sb Hacc (n - (1 + i)) n v ltac:(lia)); lia].
  rewrite Hm. cbn [mbind res_bind].
  rewrite rfold_tt; [done|]. intros _ i Hi. apply elem_of_seq in Hi.
  destruct (lookup_lt_is_Some_2 qs i) as (x & Hx); [fold n; lia|]. destruct (lookup_lt_is_Some_2 vs i) as (y & Hy); [lia|].
  erewrite xs_quot_gen; [|apply HB|lia|by apply Hq1|by apply (Forall_lookup_1 _ _ _ _ (xf_small _ _ _ _ H) Hx)|].
  2:{ cbn [x_large]. apply xcell_at. rewrite lookup_app_l by (rewrite fmap_length; fold n; lia). by rewrite list_lookup_fmap, Hx. }
  cbn [mbind res_bind]. erewrite xs_value_gen; [|apply HB|lia|by apply Hv1| |].
  2:{ cbn [x_large]. apply xcell_at. rewrite lookup_app_r by (rewrite fmap_length; fold n; lia). rewrite fmap_length. fold n. replace (n + 1 + i - n) with (S i) by lia. change ((z :: (Some <$> vs) ++ [None]) !! S i) with (((Some <$> vs) ++ [None]) !! i).
      rewrite lookup_app_l by (rewrite fmap_length; lia). by rewrite list_lookup_fmap, Hy. }
  2:{ cbn [x_vals]. eapply plain_cell; [apply H|done]. }
  rewrite (fits_small _ _ _ Hsv Hy). done.
Qed.

(** The new bucket is right even when the value does not fit; then the closing comparison fails. *)
Definition xs_push (h : hmap) (bk b x k y : N) (s : xslot) : res xslot :=
  let former := N.to_nat (cs_size (x_s s)) in
  s ← xs_enlarge pf c s q v;
  s ← xs_set_quot pf c s former q x;
  s ← xs_set_value pf c s former q v y;
  keys ← xput (x_keys s) former k;
  vals ← xput (x_vals s) former y;
  let s := XSlot (x_s s) (x_large s) keys vals (x_bits s) in
  _ ← xs_agree pf c h bk b s q v;
  Ok s.
Lemma xput_at (L : list (option N)) i y : i < length L -> xput (Some L) i y = Ok (Some (<[i := Some y]> L)).
Proof. intros H. unfold xput. by rewrite (proj2 (Nat.ltb_lt _ _)). Qed.
Lemma xs_push_spec h bk b s ks qs vs x k y : xfields s ks qs vs -> small v vs -> length qs < 255 -> (x < 2^N.of_nat q)%N ->
  inv_ok h bk b (ks ++ [k]) (qs ++ [x]) ->
  exists s', xs_push h bk b x k y s = (if fits y then Ok s' else Throw) /\ xfields s' (ks ++ [k]) (qs ++ [x]) (vs ++ [y]).
Proof.
  intros H Hsv Hlt Hx Hinv. destruct (xs_enlarge_ok _ _ _ _ H Hsv Hlt) as (s1 & l1 & z & zk & zv & E1 & HB & Hq1 & Hv1 & HL & HK & HV).
  set (n := length qs) in *. pose proof (xf_vlen _ _ _ _ H) as Hvn. pose proof (xf_klen _ _ _ _ H) as Hkn. fold n in Hvn, Hkn.
  pose proof (next_block pf sb Hacc q v Hq Hv n) as Enb. assert (Enq : (n + 1) * q = n * q + q) by nia.
  pose proof (blk_enough _ _ _ HB) as Hen.
  assert (HLn : length ((Some <$> qs) ++ z :: (Some <$> vs) ++ [None]) = 2 * (n + 1)).
  { rewrite app_length. cbn [length]. rewrite app_length, !fmap_length. fold n. cbn. lia. }
  destruct (xs_set_quot_gen s1 l1 (n + 1) _ n x HB ltac:(lia) Hx HL ltac:(lia)) as [E2 HB2].
  assert (PL1 : <[n := Some x]> ((Some <$> qs) ++ z :: (Some <$> vs) ++ [None]) = (Some <$> qs) ++ Some x :: (Some <$> vs) ++ [None]).
  { rewrite <-(put_app (Some <$> qs) _ (Some x) z). by rewrite fmap_length. }
  rewrite PL1 in E2, HB2. set (l2 := wrbits l1 (n * q) (nbits q x)) in *.
  assert (Hl2 : length l2 = length l1) by (unfold l2; apply wrbits_length; rewrite nbits_length; lia).
  pose proof (xs_set_value_gen _ l2 (n + 1) _ _ n y HB2 ltac:(lia) eq_refl ltac:(rewrite <-PL1, insert_length; lia) HV ltac:(rewrite app_length, fmap_length; cbn; lia)) as E3.
  set (l3 := wrbits l2 ((n + 1) * q + n * v) (nbits v y)) in *.
  assert (PL2 : <[n + 1 + n := Some y]> ((Some <$> qs) ++ Some x :: (Some <$> vs) ++ [None]) = Some <$> ((qs ++ [x]) ++ (vs ++ [y]))).
  { transitivity (((Some <$> qs) ++ Some x :: (Some <$> vs)) ++ Some y :: []).
    - rewrite <-(put_app _ [] (Some y) None). rewrite app_length. cbn [length]. rewrite !fmap_length. fold n. rewrite Hvn. replace (n + S n) with (n + 1 + n) by lia.
      by rewrite <-app_assoc.
    - rewrite !fmap_app. cbn. rewrite <-!app_assoc. done. }
  rewrite PL2 in E3.
  assert (PK : forall (xs : list N) w (t : option N), length xs = n -> <[n := Some w]> ((Some <$> xs) ++ [t]) = Some <$> (xs ++ [w])).
  { intros xs w t Hxs. rewrite fmap_app. cbn. rewrite <-(put_app (Some <$> xs) [] (Some w) t). by rewrite fmap_length, Hxs. }
  rewrite (PK vs y zv Hvn) in E3. cbn [x_keys x_bits] in E3.
  assert (Hl3 : length l3 = length l1) by (unfold l3; rewrite wrbits_length; [done|rewrite nbits_length; lia]).
  assert (Ho2 : forall p w, p + w <= n * q \/ n * q + q <= p -> rdbits l2 p w = rdbits l1 p w).
  { intros p w Hp. unfold l2. apply rdbits_wrbits_other; rewrite nbits_length; [lia|done]. }
  assert (Ho3 : forall p w, p + w <= (n + 1) * q + n * v -> rdbits l3 p w = rdbits l2 p w).
  { intros p w Hp. unfold l3. apply rdbits_wrbits_other; rewrite nbits_length; [lia|by left]. }
  assert (Hnq : length (qs ++ [x]) = n + 1) by (rewrite app_length; done).
  assert (Hnv : length (vs ++ [y]) = n + 1) by (rewrite app_length, Hvn; done).
  set (s' := XSlot (CSlot (Some l3) (N.of_nat (n + 1))) (Some (Some <$> ((qs ++ [x]) ++ (vs ++ [y])))) (Some (Some <$> (ks ++ [k]))) (Some (Some <$> (vs ++ [y]))) (x_bits s1)).
  assert (HF : xfields s' (ks ++ [k]) (qs ++ [x]) (vs ++ [y])).
  { assert (Hsm : small q (qs ++ [x])) by (apply Forall_app; split; [apply H|by constructor]).
    unfold s'. constructor; cbn [x_s cs_size cs_data x_large x_keys x_vals x_bits]; rewrite ?Hnq, ?Hnv; try done; try lia.
    - rewrite app_length. cbn. lia.
    - split; [by destruct qs|]. constructor; rewrite ?Hnq, ?Hnv; [done|rewrite Hl3; apply HB|..].
      + intros i w Hi. apply (lookup_snoc_cases pf sb Hacc q v Hq Hv) in Hi as [[Hin Hi]|[-> <-]].
        * fold n in Hin. pose proof (field_le pf sb Hacc i n q Hin). rewrite Ho3 by lia. rewrite Ho2 by lia. by apply Hq1.
        * fold n. rewrite Ho3 by lia. unfold l2. pose proof (rdbits_wrbits_same l1 (n * q) (nbits q x)) as Hss. rewrite nbits_length in Hss. apply Hss. lia.
      + intros i w Hi. apply (lookup_snoc_cases pf sb Hacc q v Hq Hv) in Hi as [[Hin Hi]|[-> <-]].
        * rewrite Hvn in Hin. pose proof (field_le pf sb Hacc i n v Hin). rewrite Ho3 by lia. rewrite Ho2 by lia. by apply Hv1.
        * rewrite Hvn. unfold l3. pose proof (rdbits_wrbits_same l2 ((n + 1) * q + n * v) (nbits v y)) as Hss. rewrite nbits_length in Hss. apply Hss. lia.
    - rewrite cells_some; [done|]. by destruct qs.
    - rewrite <-(app_nil_r (Some <$> (ks ++ [k]))). apply plain_intro. by destruct ks.
    - rewrite <-(app_nil_r (Some <$> (vs ++ [y]))). apply plain_intro. by destruct vs.
    - rewrite (bk_bits _ _ _ HB). apply HB. }
  exists s'. split; [|done]. unfold xs_push. cbv zeta. rewrite (xf_size _ _ _ _ H). fold n. rewrite Nat2N.id, E1. cbn [mbind res_bind]. rewrite E2. cbn [mbind res_bind].
  rewrite E3. cbn [mbind res_bind x_keys x_vals x_s x_large x_bits]. rewrite HK, !xput_at by (rewrite ?fmap_length, ?app_length, ?fmap_length; cbn; lia). cbn [mbind res_bind].
  rewrite (PK ks k zk Hkn). replace (<[n := Some y]> (Some <$> (vs ++ [y]))) with (Some <$> (vs ++ [y])).
  2:{ rewrite fmap_app. cbn. rewrite <-(put_app (Some <$> vs) [] (Some y) (Some y)) at 1. by rewrite fmap_length, Hvn. }
  fold s'. rewrite (xs_agree_spec _ _ _ _ _ _ _ HF Hinv). rewrite forallb_app. rewrite (proj2 (forallb_small vs) Hsv). cbn [forallb andb]. rewrite andb_true_r. by destruct (fits y).
Qed.

(** *** Overwriting a value: any value is accepted *)
Lemma xs_set_value_ok s ks qs vs i y : xfields s ks qs vs -> i < length qs ->
  exists s', xs_set_value pf c s i q v y = Ok s' /\ xfields s' ks qs (<[i := y]> vs).
Proof.
  intros H Hi. destruct (xf_blk _ _ _ _ H) as (l & HB & Hf); [intros ->; cbn in Hi; lia|]. pose proof (xf_vlen _ _ _ _ H) as Hvn.
  assert (Hne : qs ++ vs <> []) by (destruct qs; [cbn in Hi; lia|done]). assert (Hnv : vs <> []) by (intros ->; cbn in Hvn; lia).
  pose proof (xf_large _ _ _ _ H) as HL. rewrite cells_some in HL by done. destruct (plain_some _ _ (xf_vals _ _ _ _ H) Hnv) as (junk & HV).
  eexists. split; [eapply xs_set_value_gen; [exact HB|done|exact HL|rewrite fmap_length, app_length; lia|exact HV|rewrite app_length, fmap_length; lia]|].
  destruct (fields_write_v pf sb Hsb Hacc q v Hq Hv l qs vs i y Hf Hi) as (l' & Hw & Hf').
  rewrite (c_write_ok pf sb Hsb Hacc l) in Hw; [|done|by eapply blk_mod|pose proof (blk_enough _ _ _ HB); pose proof (field_le pf sb Hacc i (length qs) v Hi); lia].
  injection Hw as Hw. rewrite Hw.
  constructor; cbn [x_s cs_size cs_data x_large x_keys x_vals x_bits]; try apply H; try done.
  - rewrite insert_length. apply H.
  - split; [|done]. intros ->. cbn in Hi. lia.
  - rewrite cells_some by (destruct qs; [cbn in Hi; lia|done]). f_equal. rewrite <-list_fmap_insert. f_equal. by rewrite insert_app_r.
  - rewrite insert_app_l by (rewrite fmap_length; lia). rewrite <-list_fmap_insert. apply plain_intro. intros E. apply (f_equal length) in E. rewrite insert_length in E. cbn in E. lia.
Qed.

(** *** Erasing *)
(** Block and m_large_storage hold qs and vs. *)
Record xq (s : xslot) (l : bits) (qs vs : list N) : Prop := {
  xq_blk : blk s l (length qs);
  xq_f : fields l qs vs;
  xq_s : small q qs;
  xq_l : x_large s = Some (Some <$> (qs ++ vs))
}.
Lemma fields_write_q l qs vs i x : fields l qs vs -> i < length qs -> fields (wrbits l (i * q) (nbits q x)) (<[i := x]> qs) vs.
Proof.
  intros H Hi. pose proof (fields_enough pf sb Hsb Hacc q v Hq Hv _ _ _ H) as He. pose proof (fd_len _ _ _ _ _ _ H) as Hlen. pose proof (field_le pf sb Hacc i (length qs) q Hi).
  assert (Hw : forall p n, p + n <= i * q \/ i * q + q <= p -> rdbits (wrbits l (i * q) (nbits q x)) p n = rdbits l p n).
  { intros p n Hp. apply rdbits_wrbits_other; rewrite nbits_length; [lia|done]. }
  constructor; rewrite ?insert_length.
  - done.
  - rewrite wrbits_length by (rewrite nbits_length; lia). apply H.
  - intros j y Hj. apply list_lookup_insert_Some in Hj as [(-> & -> & _)|[Hne Hj]].
    + pose proof (rdbits_wrbits_same l (j * q) (nbits q y)) as Hs. rewrite nbits_length in Hs. apply Hs. lia.
    + rewrite Hw; [by eapply fd_q|]. destruct (decide (i < j)); [right; pose proof (field_le pf sb Hacc i j q ltac:(lia))|left; pose proof (field_le pf sb Hacc j i q ltac:(lia))]; lia.
  - intros j y Hj. rewrite Hw; [by eapply fd_v|]. right. lia.
Qed.
Lemma delete_move (qs : list N) i x : qs !! S i = Some x -> delete (S i) (<[i := x]> qs) = delete i qs.
Proof.
  intros Hx. pose proof (lookup_lt_Some _ _ _ Hx). apply list_eq. intros j. rewrite !delete_lookup. repeat case_decide; try lia.
  - by rewrite list_lookup_insert_ne by lia.
  - replace j with i by lia. by rewrite list_lookup_insert by lia.
  - by rewrite list_lookup_insert_ne by lia.
Qed.
Lemma xq_quots vs : forall m i s l qs, xq s l qs vs -> S i + m = length qs ->
  exists s' l' qs', rfold (fun s i => q0 ← xs_quot pf c s i q; xs_set_quot pf c s (i - 1) q q0) (seq (S i) m) s = Ok s'
    /\ xq s' l' qs' vs /\ length qs' = length qs /\ take (length qs - 1) qs' = delete i qs.
Proof.
  induction m as [|m IH]; intros i s l qs H Hm.
  - exists s, l, qs. split; [done|]. split; [done|]. split; [done|]. rewrite delete_take_drop, (drop_ge _ (S i)), app_nil_r by lia. f_equal. lia.
  - cbn [seq rfold]. destruct (lookup_lt_is_Some_2 qs (S i)) as (x & Hx); [lia|]. pose proof (Forall_lookup_1 _ _ _ _ (xq_s _ _ _ _ H) Hx) as Hlt. cbn in Hlt.
    erewrite (xs_quot_gen s l (length qs) (S i) x); [|apply H|lia|by apply (xq_f _ _ _ _ H)|done|].
    2:{ rewrite (xq_l _ _ _ _ H). apply xcell_at. rewrite list_lookup_fmap, lookup_app_l by lia. by rewrite Hx. }
    cbn [mbind res_bind]. replace (S i - 1) with i by lia.
    destruct (xs_set_quot_gen s l (length qs) _ i x (xq_blk _ _ _ _ H) ltac:(lia) Hlt (xq_l _ _ _ _ H)) as [E HB]; [rewrite fmap_length, app_length; lia|].
    rewrite E. cbn [mbind res_bind]. rewrite <-list_fmap_insert, insert_app_l in HB |- * by lia.
    match type of HB with blk ?T _ _ => set (s1 := T) in * end.
    destruct (IH (S i) s1 (wrbits l (i * q) (nbits q x)) (<[i := x]> qs)) as (s' & l' & qs' & E' & H' & Hl' & Hd').
    + constructor; [by rewrite insert_length|apply fields_write_q; [apply H|lia]|apply Forall_insert; [apply H|done]|reflexivity].
    + rewrite insert_length. lia.
    + exists s', l', qs'. rewrite insert_length in Hl', Hd'. split; [exact E'|]. split; [done|]. split; [done|]. rewrite Hd'. by apply delete_move.
Qed.
Lemma large_down_ok p qs' qs vs : p < length qs -> length qs' = length qs -> length vs = length qs -> take (length qs - 1) qs' = delete p qs ->
  exists junk, large_down p (length qs) (Some (Some <$> (qs' ++ vs))) = Ok (Some ((Some <$> (delete p qs ++ delete p vs)) ++ junk)).
Proof.
  intros Hp Hl Hv' Ht. unfold large_down. rewrite (proj2 (Nat.ltb_ge _ _)) by lia. exists (drop (length qs - 1 + p + (length qs - 1 - p)) (Some <$> (qs' ++ vs))). cbn [fmap option_fmap option_map]. f_equal. f_equal.
  rewrite !app_assoc. f_equal. rewrite <-!fmap_take, <-!fmap_drop, <-!fmap_take, <-!fmap_app. f_equal.
  rewrite take_app_le by lia. rewrite Ht, <-app_assoc. f_equal. rewrite (drop_app_alt qs') by lia. rewrite drop_app_ge by lia. rewrite delete_take_drop. f_equal.
  replace (length qs + p + 1 - length qs') with (S p) by lia. apply take_ge. rewrite drop_length. lia.
Qed.
Lemma plain_down_ok p ks junk : p < length ks -> exists junk', plain_down p (length ks) ((Some <$> ks) ++ junk) = (Some <$> delete p ks) ++ junk'.
Proof.
  intros Hp. unfold plain_down. rewrite (proj2 (Nat.ltb_lt _ _)) by done. exists (drop (length ks - 1) ((Some <$> ks) ++ junk)). rewrite app_assoc. f_equal.
  rewrite take_app_le by (rewrite fmap_length; lia). rewrite drop_app_le by (rewrite fmap_length; lia).
  rewrite take_app_le by (rewrite drop_length, fmap_length; lia). rewrite <-fmap_take, <-fmap_drop, <-fmap_take, <-fmap_app. f_equal.
  rewrite delete_take_drop. f_equal. apply take_ge. rewrite drop_length. lia.
Qed.
Lemma inv_ok_delete h bk b ks qs p : length ks = length qs -> inv_ok h bk b ks qs -> inv_ok h bk b (delete p ks) (delete p qs).
Proof. intros Hl H i k x Hk Hx. rewrite delete_lookup in Hk, Hx. case_decide; by eapply H. Qed.

Lemma xs_erase_wide h bk b s ks qs vs p : xfields s ks qs vs -> inv_ok h bk b ks qs -> ~ small v vs -> xs_erase pf c h bk b s p q v = Throw.
Proof.
  intros H Hi Hs. unfold xs_erase. cbv zeta. rewrite (xs_agree_spec _ _ _ _ _ _ _ H Hi). destruct (forallb fits vs) eqn:E; [|done]. by apply forallb_small in E.
Qed.
Lemma xs_erase_ok h bk b s ks qs vs p : xfields s ks qs vs -> inv_ok h bk b ks qs -> small v vs -> p < length qs ->
  exists s', xs_erase pf c h bk b s p q v = Ok s' /\ xfields s' (delete p ks) (delete p qs) (delete p vs).
Proof.
  intros H Hi Hs Hp. set (n := length qs) in *. pose proof (xf_vlen _ _ _ _ H) as Hvn. pose proof (xf_klen _ _ _ _ H) as Hkn. fold n in Hvn, Hkn. pose proof (xf_255 _ _ _ _ H) as H255. fold n in H255.
  assert (Hne : qs <> []) by (intros E; unfold n in Hp; rewrite E in Hp; cbn in Hp; lia).
  destruct (erase_fields pf sb Hsb Hacc q v Hq Hv c (x_s s) qs vs p eq_refl (xf_slot _ _ _ _ H Hs) Hp) as (s2 & Hce & Hsf).
  destruct (xf_blk _ _ _ _ H Hne) as (l & HB & Hf). pose proof (xf_large _ _ _ _ H) as HL. rewrite cells_some in HL by (by destruct qs).
  destruct (plain_some _ _ (xf_keys _ _ _ _ H)) as (jk & HK); [intros ->; cbn in Hkn; lia|]. destruct (plain_some _ _ (xf_vals _ _ _ _ H)) as (jv & HV); [intros ->; cbn in Hvn; lia|].
  destruct (plain_down_ok p ks jk ltac:(lia)) as (jk' & HK'). destruct (plain_down_ok p vs jv ltac:(lia)) as (jv' & HV'). rewrite Hkn in HK'. rewrite Hvn in HV'.
  assert (Hdq : length (delete p qs) = n - 1) by (rewrite length_delete; [done|by apply lookup_lt_is_Some_2]).
  assert (Hdv : length (delete p vs) = n - 1) by (rewrite length_delete; [lia|apply lookup_lt_is_Some_2; lia]).
  assert (Hdk : length (delete p ks) = n - 1) by (rewrite length_delete; [lia|apply lookup_lt_is_Some_2; lia]).
  unfold xs_erase. cbv zeta. rewrite (xs_agree_ok _ _ _ _ _ _ _ H Hi Hs). cbn [mbind res_bind]. rewrite (xf_size _ _ _ _ H), Nat2N.id, HK, HV. fold n. cbn [fmap option_fmap option_map]. rewrite HK', HV'.
  set (s0 := XSlot (x_s s) (x_large s) (Some ((Some <$> delete p ks) ++ jk')) (Some ((Some <$> delete p vs) ++ jv')) (x_bits s)).
  assert (H0 : xq s0 l qs vs) by (constructor; [constructor; apply HB|done|apply H|exact HL]).
  destruct (xq_quots vs (n - (p + 1)) p s0 l qs H0 ltac:(fold n; lia)) as (s1 & l1 & qs' & E1 & H1 & Hl1 & Hd1).
  replace (S p) with (p + 1) in E1 by lia. rewrite E1. cbn [mbind res_bind].
  pose proof (x_quots_eq pf c q _ _ _ E1) as (Hq1 & Hq2 & Hq3 & Hq4 & Hq5). unfold s0 in Hq1, Hq2, Hq3, Hq4, Hq5. cbn [x_s x_keys x_vals x_bits] in Hq1, Hq2, Hq3, Hq4, Hq5.
  rewrite (xq_l _ _ _ _ H1). fold n in Hd1, Hl1. destruct (large_down_ok p qs' qs vs Hp Hl1 Hvn Hd1) as (jl & HL'). fold n in HL'. rewrite HL'. cbn [mbind res_bind].
  unfold cs_erase in Hce. cbv zeta in Hce. rewrite (xf_size _ _ _ _ H), Nat2N.id in Hce. fold n in Hce. rewrite Hq1 in Hce. cbn [mbind res_bind] in Hce.
  assert (Hlim : n * q + n * v <= x_bits s1).
  { pose proof (blk_enough _ _ _ (xq_blk _ _ _ _ H1)). rewrite Hl1 in *. by rewrite (bk_bits _ _ _ (xq_blk _ _ _ _ H1)). }
  assert (Hn1 : (n - 1) * q + q = n * q) by (destruct n; [lia|]; cbn; lia).
  rewrite x_moves; [|intros f t Hin; apply elem_of_list_lookup in Hin as (i & Ei); apply CompactBits.lookup_map_seq in Ei as [Ei Hin]; injection Ei as -> ->;
    pose proof (field_le pf sb Hacc (0 + i) n v ltac:(lia)); lia].
  dinv1 Hce. cbn [mbind res_bind].
  rewrite x_moves; [|intros f t Hin; apply elem_of_list_lookup in Hin as (i & Ei); apply CompactBits.lookup_map_seq in Ei as [Ei Hin]; injection Ei as -> ->;
    pose proof (field_le pf sb Hacc (p + 1 + i - 1) n v ltac:(lia)); lia].
  dinv1 Hce. cbn [mbind res_bind]. rewrite (proj2 (Nat.ltb_lt _ _)) by lia. cbn [chk mbind res_bind].
  rewrite Hq2, (xf_size _ _ _ _ H). fold n. rewrite sub8_small in * by lia. replace (N.of_nat n - 1)%N with (N.of_nat (n - 1)) in * by lia. rewrite Nat2N.id in *. replace (n - 1 + 1) with n in * by lia.
  unfold xs_realloc. cbn [x_s x_large x_keys x_vals x_bits cs_size cs_data]. rewrite Nat2N.id, Hq3, Hq4.
  match type of Hce with context [cs_realloc ?a ?b ?d ?e ?f] => set (S2 := cs_realloc a b d e f) in * end.
  assert (HS2 : cs_size S2 = N.of_nat (n - 1)) by (unfold S2, cs_realloc; cbn [cs_size]; destruct (_ =? _); done).
  rewrite HS2 in *. destruct (decide (n = 1)) as [En|En].
  - assert (Eq : delete p qs = []) by (apply length_zero_iff_nil; lia). assert (Ev : delete p vs = []) by (apply length_zero_iff_nil; lia). assert (Ek : delete p ks = []) by (apply length_zero_iff_nil; lia).
    unfold xs_agree. cbn [x_s]. rewrite HS2, Nat2N.id. replace (n - 1) with 0 in * by lia. cbn [seq rfold mbind res_bind]. cbn in Hce |- *. unfold xs_clear. cbn [x_large x_s].
    unfold c_clear_slot in *. dinv1 Hce. injection Hce as <-. cbn [mbind res_bind]. eexists. split; [done|]. rewrite Eq, Ev, Ek. constructor; cbn [x_s cs_size cs_data x_large x_keys x_vals x_bits length]; try done; try lia; try (by constructor).
    rewrite Nat.mul_0_l. unfold cdiv. rewrite Nat.div_small; [lia|]. pose proof (sb_range pf sb Hsb Hacc). lia.
  - rewrite (proj2 (N.eqb_neq _ _)) in * by lia. injection Hce as <-.
    match goal with |- exists s', (_ ← xs_agree pf c h bk b ?S q v; _) = _ /\ _ => set (S3 := S) end.
    assert (HF : xfields S3 (delete p ks) (delete p qs) (delete p vs)).
    { destruct Hsf as (F1 & F2 & F3 & F4 & F5). unfold S3. constructor; cbn [x_s cs_size cs_data x_large x_keys x_vals x_bits]; rewrite ?Hdq, ?Hdv, ?Hdk; try done; try lia.
      - destruct (cs_data S2); [done|]. apply F5.
      - unfold xrealloc. rewrite (proj2 (Nat.eqb_neq _ _)) by lia. cbn [default from_option id]. rewrite take_app_alt by (rewrite fmap_length, app_length; lia).
        rewrite app_length, fmap_length, app_length. replace (2 * (n - 1) - _) with 0 by lia. cbn [replicate]. rewrite app_nil_r. rewrite cells_some; [done|].
        intros E'. apply (f_equal length) in E'. rewrite app_length in E'. cbn in E'. lia.
      - apply plain_intro. intros E'. rewrite E' in Hdk. cbn in Hdk. lia.
      - apply plain_intro. intros E'. rewrite E' in Hdv. cbn in Hdv. lia. }
    rewrite (xs_agree_ok _ _ _ _ _ _ _ HF); [|by apply inv_ok_delete|apply Hsf]. cbn [mbind res_bind]. by exists S3.
Qed.
End slot.
