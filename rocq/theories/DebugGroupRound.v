(** Serialization of the debug build of group_chaining_table: what deserialize reads from what serialize wrote. *)
From Verif Require Import SerialProofs.
From Verif Require Export DebugGroupSerial DebugGroupConf GroupSerial.

Section core.
Context (pf : platform).
#[local] Open Scope nat_scope.
Hypothesis Hslack : 8 <= slack pf.

Lemma cell_bits_length w x : length (cell_bits w x) = w.
Proof. destruct x; cbn [cell_bits]; [apply nbits_length|apply replicate_length]. Qed.
Lemma read_cell_app w x s old : length old = w -> exists y, read_var (cell_bits w x ++ s) old = (y, s).
Proof. intros Hl. unfold read_var. rewrite st_read_app by (by rewrite cell_bits_length). eauto. Qed.
Lemma read_nbits_app w x s old : length old = w -> read_var (nbits w x ++ s) old = (Some (x mod 2^N.of_nat w)%N, s).
Proof.
  intros Hl. assert (E : nbits w x = nbits w (x mod 2^N.of_nat w)%N).
  { unfold nbits, bits_of. f_equal. apply map_ext_in. intros i Hi. apply in_seq in Hi. rewrite N.mod_pow2_bits_low by lia. done. }
  rewrite E. apply read_var_app; [done|]. apply N.mod_lt. apply N.pow_nonzero. lia.
Qed.
Lemma zero_read_spec ws s : Forall (fun x => (x < 2^64)%N) ws -> zero_read (length ws) (words ws ++ s) = Ok (ws, s).
Proof.
  induction 1 as [|x ws Hx _ IH]; [done|]. unfold words. cbn [length zero_read map concat]. rewrite <-app_assoc, read_var_app; [|done|done].
  cbn [used of_option mbind res_bind]. fold (words ws). by rewrite IH.
Qed.
Lemma words_of_spec l n : n <= length l -> words_of (Some l) n = Ok (words (take n l)).
Proof. intros H. unfold words_of. destruct (Nat.eqb_spec n 0) as [->|]; [done|]. by rewrite (proj2 (Nat.ltb_ge _ _)). Qed.

Lemma dcore_roundtrip w d xs : 1 <= w <= 64 -> (N.of_nat (length xs) < 2^64)%N -> dcore_rep pf w d xs -> bs_small d -> exists s, dc_serialize d w (length xs) = Ok s
  /\ forall d0 s', exists d', dc_deserialize pf d0 (s ++ s') w (length xs) = Ok (d', s') /\ dcore_rep pf w d' xs /\ bs_small d'.
Proof.
  intros Hw Hn (Hc & Ek & El & (bs & Eb & Hbs) & P & EP & Ht) (bs' & Eb' & Hsm). rewrite Eb in Eb'. injection Eb' as <-.
  unfold dc_serialize. rewrite El, Ek. cbn [known of_option mbind res_bind]. rewrite !N.eqb_refl. cbn [chk mbind res_bind]. rewrite Nat2N.id, EP.
  pose proof (take_len _ _ Ht) as HP. rewrite words_of_spec, Ht by done. cbn [mbind res_bind].
  destruct (core_roundtrip pf _ _ _ _ Hc) as (s & -> & Hd). cbn [mbind res_bind]. rewrite Eb. eexists. split; [done|].
  intros d0 s'. unfold dc_deserialize. rewrite <-!app_assoc.
  rewrite (read_var_app 64 (N.of_nat w)) by (first [apply cell_bits_length|change (2^N.of_nat 64)%N with (18446744073709551616)%N; lia]).
  cbn [used of_option mbind res_bind]. rewrite N.eqb_refl. cbn [chk mbind res_bind].
  rewrite (read_var_app 64 (N.of_nat (length xs))) by (first [apply cell_bits_length|done]).
  cbn [used of_option mbind res_bind]. rewrite N.eqb_refl. cbn [chk mbind res_bind cell_bits].
  rewrite (read_var_app 64 bs) by (first [apply cell_bits_length|done]). rewrite Nat2N.id.
  pose proof Hc as (l & _ & _ & _ & _ & Hs & _).
  rewrite (border_read_spec pf xs).
  2:{ eapply Forall_impl; [exact Hs|]. intros x Hx. cbn in Hx. eapply N.lt_le_trans; [exact Hx|]. apply N.pow_le_mono_r; lia. }
  cbn [used of_option mbind res_bind].
  assert (Hcd : (N.of_nat (cdiv (w * length xs) 64) <= bs)%N).
  { unfold cdiv. assert ((w * length xs + 63) / 64 < S (N.to_nat bs)); [|lia]. apply Nat.div_lt_upper_bound; [lia|]. rewrite (Nat.mul_comm w). lia. }
  rewrite (proj2 (N.leb_le _ _)) by done. cbn [chk mbind res_bind]. destruct (Hd s') as (y & -> & Hy).
  eexists. split; [done|]. split; [|by exists bs]. split.
  { destruct Hy as (l' & H1 & H2 & H3 & H4 & H5). exists l'. split; [done|]. split; [done|]. split; [done|]. split; [|done]. intros _. by right. }
  split; [done|]. split; [done|]. split; [by exists bs|]. exists xs. split; [done|]. by rewrite take_ge.
Qed.

Lemma dkv_roundtrip qw vw g bss : 1 <= qw <= 64 -> 1 <= vw <= 64 -> dkv_rep pf qw vw g bss -> length bss <= 255 -> length (concat bss) <= 255 ->
  exists s, dkv_serialize g (length bss) qw vw = Ok s
  /\ forall g0 s', exists g', dkv_deserialize pf g0 (s ++ s') (length bss) qw vw = Ok (g', s')
    /\ if (k_size g =? 0)%N then kv_fresh g' else dkv_rep pf qw vw g' bss.
Proof.
  intros Hq Hv H Hl255 Hc255. pose proof H as (HR & Hk & Hvr & Hbl & Hba & Hgs & Sk & Sv). pose proof HR as (Hb & Hsz & H32 & _ & _ & ws & Hws & Hr).
  cbn [kstrip g_size g_border] in Hsz, H32, Hws.
  assert (Hba64 : Forall (fun x => (x < 2^64)%N) (k_barr g)).
  { rewrite Hba. apply Forall_lookup. intros i x Hi. pose proof (lookup_lt_Some _ _ _ Hi) as Hi'. rewrite barr_length in Hi'. rewrite barr_lookup in Hi by done.
    injection Hi as <-. pose proof (off_mono bss (S i) (length bss) ltac:(lia)) as Ho. unfold off in Ho at 2. rewrite firstn_all in Ho.
    assert (2^64 = 18446744073709551616)%N by done. lia. }
  assert (Hlb : (N.of_nat (length (k_barr g)) < 2^60)%N). { rewrite Hba, barr_length. assert (2^60 = 1152921504606846976)%N by done. lia. }
  assert (Hgs8 : (k_gs g < 2^8)%N) by (rewrite Hgs; change (2^8)%N with 256%N; lia).
  assert (Hbl64 : (N.of_nat (cdiv (length (concat bss) + length bss + 1) 64) < 2^64)%N).
  { assert (cdiv (length (concat bss) + length bss + 1) 64 <= 600) by (unfold cdiv; apply Nat.div_le_upper_bound; lia). assert (2^64 = 18446744073709551616)%N by done. lia. }
  assert (Hread : forall g0 s, exists gr, gr = dkv_clear g0 /\ dkv_deserialize pf g0 ((nbits 64 (N.of_nat (length (k_barr g))) ++ words (k_barr g) ++ nbits 8 (k_gs g) ++ cell_bits 64 (k_blen g)) ++ s) (length bss) qw vw =
    let '(n, s) := read_var s (nbits 32 0) in
    n ← used n;
    if (n =? 0)%N then Ok (DKv 0 (k_keys gr) (k_vals gr) None (k_blen g) (k_barr g) (k_gs g), s)
    else
      r ← border_read pf (kv_border_words n (length bss)) s;
      let '(ws, s) := (r : list N * stream) in
      k ← dc_deserialize pf (k_keys gr) s qw (N.to_nat n);
      let '(ks, s) := (k : dcore * stream) in
      v ← dc_deserialize pf (k_vals gr) s vw (N.to_nat n);
      let '(vs, s) := (v : dcore * stream) in
      Ok (DKv n ks vs (Some ws) (k_blen g) (k_barr g) (k_gs g), s)).
  { intros g0 s. exists (dkv_clear g0). split; [done|]. unfold dkv_deserialize. rewrite <-!app_assoc.
    rewrite (read_var_app 64) by (first [by rewrite fresh_bits_length|by unfold fresh_bits; rewrite replicate_length|change (2^N.of_nat 64)%N with (2^64)%N; assert (2^60 < 2^64)%N by done; lia]).
    cbn [used of_option mbind res_bind]. rewrite (proj2 (N.ltb_lt _ _)) by done. cbn [chk mbind res_bind]. rewrite Nat2N.id, zero_read_spec by done. cbn [mbind res_bind].
    rewrite (read_var_app 8) by done. cbn [used of_option mbind res_bind]. rewrite Hbl. cbn [cell_bits].
    rewrite (read_var_app 64) by (first [apply cell_bits_length|done]). done. }
  unfold dkv_serialize. cbv zeta. destruct (N.eqb_spec (k_size g) 0) as [E0|E0].
  { eexists. split; [done|]. intros g0 s'. rewrite <-(app_assoc _ (nbits 32 0)). destruct (Hread g0 (nbits 32 0 ++ s')) as (gr & -> & ->). rewrite read_var_app by done.
    cbn [used of_option mbind res_bind N.eqb]. eexists. split; [done|]. split; [done|]. split; [done|]. split; [split; cbn [k_barr]|done]; [|rewrite Hba, barr_length; lia]. rewrite Hba. apply Forall_lookup. intros i x Hi.
    pose proof (lookup_lt_Some _ _ _ Hi) as Hi'. rewrite barr_length in Hi'. rewrite barr_lookup in Hi by done. injection Hi as <-.
    pose proof (off_mono bss (S i) (length bss) ltac:(lia)) as Ho. unfold off in Ho at 2. rewrite firstn_all in Ho. lia. }
  rewrite Hws. pose proof Hr as (Hw64 & Hwl & _). rewrite tot_lens, lens_length in Hwl.
  assert (Hm : kv_border_words (k_size g) (length bss) = length ws).
  { rewrite Hwl, (kv_words_spec bss (k_size g) (length (concat bss) + 1)) by lia. f_equal. lia. }
  rewrite Hm, Nat.ltb_irrefl. rewrite take_ge by lia. rewrite Hsz, Nat2N.id.
  assert (Hn64 : (N.of_nat (length (concat bss)) < 2^64)%N) by (assert (2^64 = 18446744073709551616)%N by done; lia).
  assert (Hnk : (N.of_nat (length (concat bss).*1) < 2^64)%N) by (by rewrite fmap_length).
  assert (Hnv : (N.of_nat (length (concat bss).*2) < 2^64)%N) by (by rewrite fmap_length).
  destruct (dcore_roundtrip qw _ _ Hq Hnk Hk Sk) as (sk & Ek & Hdk). rewrite fmap_length in Ek, Hdk. rewrite Ek. cbn [mbind res_bind].
  destruct (dcore_roundtrip vw _ _ Hv Hnv Hvr Sv) as (sv & Ev & Hdv). rewrite fmap_length in Ev, Hdv. rewrite Ev. cbn [mbind res_bind].
  eexists. split; [done|]. intros g0 s'. rewrite <-(app_assoc _ (nbits 32 _ ++ _)). destruct (Hread g0 ((nbits 32 (N.of_nat (length (concat bss))) ++ words ws ++ sk ++ sv) ++ s')) as (gr & _ & ->).
  rewrite <-!app_assoc. rewrite (read_var_app 32) by (try done; change (2^N.of_nat 32)%N with 4294967296%N; lia). cbn [used of_option mbind res_bind].
  rewrite (proj2 (N.eqb_neq _ _)) by lia. rewrite <-Hsz, Hm. unfold words. rewrite border_read_spec by done. cbn [mbind res_bind].
  rewrite Hsz, Nat2N.id. destruct (Hdk (k_keys gr) (sv ++ s')) as (dk & -> & Hdk' & Sk'). cbn [mbind res_bind].
  destruct (Hdv (k_vals gr) s') as (dv & -> & Hdv' & Sv'). cbn [mbind res_bind].
  eexists. split; [done|]. split; [|split; [done|split; [done|split; [done|split; [done|split; [done|split; done]]]]]].
  split; [done|]. split; [done|]. split; [done|]. split; [apply Hdk'|]. split; [apply Hdv'|]. exists ws. done.
Qed.
Lemma fresh_roundtrip qw vw g n : kv_fresh g -> exists s, dkv_serialize g n qw vw = Ok s
  /\ forall g0 s', exists g', dkv_deserialize pf g0 (s ++ s') n qw vw = Ok (g', s') /\ kv_fresh g'.
Proof.
  intros (E0 & _ & [Hz Hl] & _). assert (Hlb : (N.of_nat (length (k_barr g)) < 2^60)%N) by (assert (2^60 = 1152921504606846976)%N by done; lia). unfold dkv_serialize. rewrite E0. cbv zeta. cbn [N.eqb]. eexists. split; [done|]. intros g0 s'. unfold dkv_deserialize. rewrite <-!app_assoc.
  rewrite (read_var_app 64) by (first [by unfold fresh_bits; rewrite replicate_length|change (2^N.of_nat 64)%N with (2^64)%N; assert (2^60 < 2^64)%N by done; lia]).
  cbn [used of_option mbind res_bind]. rewrite (proj2 (N.ltb_lt _ _)) by done. cbn [chk mbind res_bind]. rewrite Nat2N.id, zero_read_spec.
  2:{ eapply Forall_impl; [exact Hz|]. intros x ->. done. }
  cbn [mbind res_bind]. rewrite read_nbits_app by done. cbn [used of_option mbind res_bind].
  match goal with |- context [read_var (cell_bits 64 (k_blen g) ++ ?s) ?old] => destruct (read_cell_app 64 (k_blen g) s old (cell_bits_length _ _)) as (y & ->) end.
  rewrite read_var_app by done. cbn [used of_option mbind res_bind N.eqb]. eexists. split; [done|]. by repeat split.
Qed.
End core.

(** ** Tables *)
(** What is written and restored of the plain data of a bucket *)
Definition pwords (es : entries) : stream := words es.*1 ++ words es.*2.
Definition rplain (es : entries) : dplain :=
  match es with [] => p_none | _ => DPlain (Some es.*1) (Some es.*2) (N.of_nat (length es)) end.
Lemma rplain_prep es : prep (rplain es) es.
Proof. destruct es; by repeat split. Qed.
Lemma plain_words_spec p es : prep p es -> dg_plain_words p = Ok (pwords es).
Proof.
  intros [[Hs Hp] _]. unfold dg_plain_words. rewrite Hs. destruct es as [|e es]; [done|]. destruct Hp as [-> ->]; [done|].
  rewrite (proj2 (N.eqb_neq _ _)) by (cbn [length]; lia). rewrite Nat2N.id.
  rewrite !words_of_spec by (by rewrite fmap_length). cbn [mbind res_bind]. rewrite !take_ge by (by rewrite fmap_length). done.
Qed.
Lemma plains_words ps ess : Forall2 prep ps ess -> rmap dg_plain_words ps = Ok (map pwords ess) /\ map p_size ps = map (fun es => N.of_nat (length es)) ess.
Proof.
  induction 1 as [|p es ps ess Hp _ [IH1 IH2]]; [done|]. cbn [rmap map]. rewrite (plain_words_spec _ _ Hp), IH1, IH2. cbn [mbind res_bind].
  destruct Hp as [[-> _] _]. done.
Qed.
Lemma read_sizes_spec (l : list N) s : Forall (fun x => x < 2^32) l -> dg_read_sizes (length l) (concat (map (nbits 32) l) ++ s) = Ok (l, s).
Proof.
  induction 1 as [|x l Hx _ IH]; [done|]. cbn [length dg_read_sizes map concat]. rewrite <-app_assoc, read_var_app by done.
  cbn [used of_option mbind res_bind]. by rewrite IH.
Qed.
Lemma sum_sizes (ess : list entries) : fold_right N.add 0 (map (fun es => N.of_nat (length es)) ess) = N.of_nat (length (concat ess)).
Proof. induction ess as [|es ess IH]; [done|]. cbn [map fold_right concat]. rewrite IH, app_length. lia. Qed.
Lemma dclear_members t t' : dg_clear t = Ok t' -> dg_groups t' = None /\ dg_b t' = 0 /\ dg_n t' = 0 /\ dg_plain t' = None.
Proof.
  unfold dg_clear. intros H. destruct (g_group_count (gstrip t)); cbn [mbind res_bind] in H; try done.
  destruct (rfold _ _ t); cbn [mbind res_bind] in H; try done. by injection H as <-.
Qed.

Section table.
Context (pf : platform) (c : gcfg) (kw vw bmin : N).
Hypothesis OK : group_ok c kw vw bmin.
Hypothesis Hslack : (8 <= slack pf)%nat.
Notation bmax := (zbmax (gc_hash c) kw).
Notation bw b := (N.to_nat (zw (gc_hash c) (gc_keybits c) 64 kw b)).
Notation vwn := (N.to_nat vw).
Notation dgrep := (dgrep pf c kw vw bmin).
Notation dgzero := (dgzero kw vw).
Notation dgrepr := (dgrepr pf c kw vw).

Lemma dgrepr_roundtrip b g bss : bmin <= b <= bmax -> dgrepr b g bss ->
  exists s, dkv_serialize g (length bss) (bw b) vwn = Ok s
  /\ forall g0 s', exists g', dkv_deserialize pf g0 (s ++ s') (length bss) (bw b) vwn = Ok (g', s') /\ dgrepr b g' bss.
Proof.
  intros Hb H. pose proof (dgrepr_size _ _ _ _ _ _ _ H) as Hsz. destruct H as (H255 & H127 & [[Hf Hc]|H]).
  - destruct (fresh_roundtrip pf Hslack (bw b) vwn g (length bss) Hf) as (s & Es & Hd). exists s. split; [done|]. intros g0 s'.
    destruct (Hd g0 s') as (g' & Ed & Hg'). exists g'. split; [done|]. split; [done|]. split; [done|]. by left.
  - pose proof (bw_range c kw vw bmin OK b Hb). pose proof (vw_range c kw vw bmin OK).
    assert (Hlc : length (concat (qbss c kw b bss)) = length (concat bss)).
    { rewrite qbss_concat. apply fmap_length. }
    destruct (dkv_roundtrip pf Hslack (bw b) vwn g (qbss c kw b bss)) as (s & Es & Hd); try done; rewrite ?qbss_len in *; try lia.
    exists s. split; [done|]. intros g0 s'.
    destruct (Hd g0 s') as (g' & Ed & Hg'). exists g'. split; [done|]. split; [done|]. split; [done|]. destruct (N.eqb_spec (k_size g) 0) as [E0|E0].
    + left. split; [done|]. apply nil_length_inv. lia.
    + by right.
Qed.
Lemma dgroups_roundtrip t0 n b : bmin <= b <= bmax -> gbpg (gstrip t0) = n -> gqw c (gstrip t0) = bw b -> gvw (gstrip t0) = vwn -> forall gs bsss,
  Forall2 (fun g bss => length bss = n /\ dgrepr b g bss) gs bsss ->
  exists l, rmap (fun g => dkv_serialize g n (bw b) vwn) gs = Ok l
  /\ forall gs0 s', length gs0 = length gs -> exists gs', dg_read_groups pf c t0 gs0 (concat l ++ s') = Ok (gs', s') /\ Forall2 (dgrepr b) gs' bsss.
Proof.
  intros Hb E1 E2 E3. induction 1 as [|g bss gs bsss [Hl Hg] _ (l & El & IH)].
  { exists []. split; [done|]. intros [|] s' Hl0; [|done]. exists []. split; [done|constructor]. }
  destruct (dgrepr_roundtrip _ _ _ Hb Hg) as (s & Es & Hd). rewrite Hl in Es, Hd. exists (s :: l). cbn [rmap]. rewrite Es. cbn [mbind res_bind]. rewrite El.
  split; [done|]. intros [|g0 gs0] s' Hl0; [done|]. cbn [dg_read_groups concat]. rewrite E1, E2, E3, <-app_assoc. destruct (Hd g0 (concat l ++ s')) as (g' & -> & Hg'). cbn [mbind res_bind].
  destruct (IH gs0 s') as (gs' & -> & Hgs'); [by injection Hl0|]. cbn [mbind res_bind]. exists (g' :: gs'). split; [done|]. by apply List.Forall2_cons.
Qed.
Lemma dchunks_Forall2 (P : dkv -> list entries -> Prop) n ess gs : (forall i g, gs !! i = Some g -> P g (chunk n ess i)) ->
  Forall2 P gs (map (chunk n ess) (seq 0 (length gs))).
Proof.
  intros H. apply Forall2_same_length_lookup_2; [by rewrite map_length, seq_length|]. intros i g bss Hi Hb.
  change (map ?f ?l) with (f <$> l) in Hb. pose proof (lookup_lt_Some _ _ _ Hi). rewrite list_lookup_fmap, lookup_seq_lt in Hb by done.
  injection Hb as <-. by apply H.
Qed.
Lemma dhash_new_ok : dhash_new (gc_hash c) kw = Ok tt.
Proof.
  destruct (dg_new_ok c kw vw bmin OK) as (t & E & _). unfold dg_new in E. pose proof (dkw_range c kw vw bmin OK). rewrite (u8_small kw) in E by lia.
  destruct (dhash_new (gc_hash c) kw) as [[]| | |]; done.
Qed.

(** The table without its plain data *)
Definition no_plain (t : dgtable) (o : option (list dplain)) : dgtable := DGTable (dg_groups t) (dg_b t) (dg_n t) (dg_kw t) (dg_vw t) (dg_bpg t) o.
Lemma size_np t o bk : dg_bucket_size (no_plain t o) bk = dg_bucket_size t bk.
Proof. done. Qed.
Lemma dbucket_size t ess bk es : dgrep t ess -> ess !! N.to_nat bk = Some es -> dg_bucket_size t bk = Ok (N.of_nat (length es)) /\ (length es <= 255)%nat.
Proof.
  intros H He. destruct (dgroup_at _ _ _ _ _ OK _ _ _ _ H He) as (gs & g & _ & _ & Eg & Hr & Hc). unfold dg_bucket_size. rewrite (dcount _ _ _ _ _ OK _ _ H).
  pose proof (lookup_lt_Some _ _ _ He) as Hlt. pose proof (dlen _ _ _ _ _ _ _ H). rewrite (proj2 (N.ltb_lt _ _)) by lia. cbn [chk mbind res_bind]. rewrite Eg. cbn [mbind res_bind].
  destruct (dgrepr_bucketsize _ _ _ _ _ _ _ _ _ Hr Hc) as [-> ?]. done.
Qed.
Lemma read_plain_spec t ess o bk es s : dgrep t ess -> ess !! N.to_nat bk = Some es ->
  dg_read_plain pf c (no_plain t o) bk (N.of_nat (length es)) (pwords es ++ s) = Ok (rplain es, s).
Proof.
  intros H He. unfold dg_read_plain. destruct es as [|e es0] eqn:Ees; [done|]. rewrite <-Ees in *. assert (Hne : es <> []) by (by rewrite Ees).
  assert (Hn0 : N.of_nat (length es) <> 0) by (rewrite Ees; cbn [length]; lia).
  rewrite (proj2 (N.eqb_neq _ _)) by done. rewrite Nat2N.id. unfold pwords. rewrite <-app_assoc.
  pose proof (dbb _ _ _ _ _ _ _ H) as Hb. pose proof (dkw_range c kw vw bmin OK) as Hkw. pose proof (go_vw _ _ _ _ OK) as Hvw.
  assert (Hrange : forall k v, (k, v) ∈ es -> k < 2^kw /\ v < 2^vw).
  { intros k v Hin. eapply (gr_range _ _ _ _ _ _ _ _ (dr_rep _ _ _ _ _ _ _ H)). apply elem_of_concat. eauto. }
  assert (Hp : forall w x, w <= 64 -> x < 2^w -> x < 2^64). { intros w x Hw Hx. eapply N.lt_le_trans; [exact Hx|]. apply N.pow_le_mono_r; lia. }
  assert (F1 : Forall (fun x => x < 2^64) es.*1).
  { apply Forall_fmap, Forall_forall. intros [k v] Hin. destruct (Hrange _ _ Hin). cbn. apply (Hp kw); [lia|done]. }
  assert (F2 : Forall (fun x => x < 2^64) es.*2).
  { apply Forall_fmap, Forall_forall. intros [k v] Hin. destruct (Hrange _ _ Hin). cbn. apply (Hp vw); [lia|done]. }
  pose proof (border_read_spec pf es.*1 (words es.*2 ++ s) F1) as E1. rewrite fmap_length in E1. unfold words at 1. rewrite E1. cbn [mbind res_bind].
  pose proof (border_read_spec pf es.*2 s F2) as E2. rewrite fmap_length in E2. unfold words. rewrite E2. cbn [mbind res_bind]. clear E1 E2.
  destruct (dgroup_at _ _ _ _ _ OK _ _ _ _ H He) as (gs & g & _ & _ & Eg & Hr & Hc). change (dg_group (no_plain t o) bk) with (dg_group t bk). rewrite Eg. cbn [mbind res_bind].
  pose proof (home_at _ _ _ _ _ _ _ _ _ H He) as Hh.
  rewrite rfold_tt; [cbn [mbind res_bind]; by rewrite Ees|]. intros _ i Hi. apply elem_of_seq in Hi. destruct (lookup_lt_is_Some_2 es i) as ([k v] & Hx); [lia|].
  change (gstrip (no_plain t o)) with (gstrip t). change (dg_kw (no_plain t o)) with (dg_kw t). change (dg_b (no_plain t o)) with (dg_b t).
  rewrite (dqw_eq c kw t), (dvw_eq vw t), (dkw _ _ _ _ _ _ _ H) by (apply H).
  rewrite (dgrepr_key _ _ _ _ _ OK _ _ _ _ _ _ _ _ Hb Hr Hc Hx). cbn [mbind res_bind].
  destruct (Hh k v) as [Hk Ebk]; [by eapply elem_of_list_lookup_2|]. destruct (dz_map _ _ _ _ OK _ _ Hb Hk) as [_ Hinv]. rewrite Ebk in Hinv. rewrite Hinv. cbn [mbind res_bind].
  rewrite (dgrepr_value _ _ _ _ _ OK _ _ _ _ _ _ _ _ Hr Hc Hx). cbn [mbind res_bind p_keys p_vals].
  rewrite (pcell_at es.*1 i k) by (by rewrite list_lookup_fmap, Hx). cbn [mbind res_bind]. rewrite N.eqb_refl. cbn [chk mbind res_bind].
  rewrite (pcell_at es.*2 i v) by (by rewrite list_lookup_fmap, Hx). cbn [mbind res_bind]. by rewrite N.eqb_refl.
Qed.
Lemma read_plains_spec t ess o s : dgrep t ess -> forall l j, drop j ess = l ->
  dg_read_plains pf c (no_plain t o) (N.of_nat j) (map (fun es => N.of_nat (length es)) l) (concat (map pwords l) ++ s) = Ok (map rplain l, s).
Proof.
  intros H. induction l as [|es l IH]; intros j Hj; [done|]. cbn [map dg_read_plains concat]. rewrite <-app_assoc.
  assert (He : ess !! j = Some es). { rewrite <-(Nat.add_0_r j), <-lookup_drop, Hj. done. }
  rewrite (read_plain_spec t ess) by (try done; by rewrite Nat2N.id). cbn [mbind res_bind]. replace (N.of_nat j + 1) with (N.of_nat (S j)) by lia.
  rewrite (IH (S j)); [done|]. rewrite (drop_S _ _ _ He) in Hj. by injection Hj.
Qed.

Lemma dgroundtrip t ess : dgrep t ess -> N.of_nat (length (concat ess)) < 2^64 -> concat ess <> [] ->
  exists s, dg_serialize c t = Ok s /\ forall t0 t1 s', dg_clear t0 = Ok t1 ->
  exists t', dg_deserialize pf c t0 (s ++ s') = Ok (t', s') /\ dgrep t' ess.
Proof.
  intros H Hsz Hne. pose proof (db_range _ _ _ _ _ OK _ _ H) as Hb. pose proof (dbb _ _ _ _ _ _ _ H) as Hbb. pose proof (dn_eq _ _ _ _ _ _ _ H) as Hn.
  assert (Hn' : dg_n t = N.of_nat (length (concat ess))) by (rewrite Hn; unfold u64; by apply N.mod_small).
  assert (Hn0 : dg_n t <> 0) by (rewrite Hn'; destruct (concat ess); [done|cbn [length]; lia]).
  destruct (dgroups _ _ _ _ _ OK _ _ H) as (gs & Hgs & Hgc & Hen & Hg & _). pose proof (dbpg _ _ _ _ _ _ _ H) as Hbp.
  destruct (dr_plain _ _ _ _ _ _ _ H) as (ps & Hps & HP). pose proof (dplain_len _ _ _ _ _ _ _ _ H Hps) as Hpl.
  pose proof (dlen _ _ _ _ _ _ _ H) as Hle. pose proof (dcount _ _ _ _ _ OK _ _ H) as Hco.
  unfold dg_serialize. cbv zeta. rewrite (proj2 (N.eqb_neq _ _)) by done. rewrite (dkw _ _ _ _ _ _ _ H), (dz_width _ _ _ _ OK _ Hbb). cbn [mbind res_bind].
  rewrite Hgc, Hgs. cbn [mbind res_bind]. change (default [] (Some gs)) with gs. rewrite N.ltb_irrefl, Nat2N.id, take_ge by lia.
  set (t1 := DGTable (Some (replicate (length gs) dkv_new)) (dg_b t) (dg_n t) kw vw (dg_bpg t) (Some (replicate (N.to_nat (2^dg_b t)) p_none))).
  assert (Eq : gqw c (gstrip t) = bw (dg_b t)) by (apply dqw_eq, H).
  assert (Ev : gvw (gstrip t) = vwn) by (apply dvw_eq, H).
  assert (HF : Forall2 (fun g bss => length bss = gbpg (gstrip t) /\ dgrepr (dg_b t) g bss) gs (map (chunk (gbpg (gstrip t)) ess) (seq 0 (length gs)))).
  { apply dchunks_Forall2. intros i g Hi. split; [apply chunk_length|by apply Hg]. }
  destruct (dgroups_roundtrip t1 (gbpg (gstrip t)) (dg_b t) Hbb eq_refl eq_refl eq_refl gs _ HF) as (l & El & Hd). rewrite Eq, Ev, El. cbn [mbind res_bind].
  rewrite Hps, Hco. rewrite (proj2 (Nat.ltb_ge _ _)) by lia. rewrite take_ge by lia.
  destruct (plains_words _ _ HP) as [EP1 EP2]. rewrite EP1. cbn [mbind res_bind].
  assert (EP3 : map (fun p => nbits 32 (p_size p)) ps = map (nbits 32) (map (fun es => N.of_nat (length es)) ess)) by (rewrite <-EP2, map_map; done).
  rewrite EP3. eexists. split; [done|]. intros t0 t0' s' Hcl. unfold dg_deserialize. rewrite Hcl. cbn [mbind res_bind]. destruct (dclear_members _ _ Hcl) as (C1 & C2 & C3 & C4).
  pose proof (kw_small c kw vw bmin OK) as [Hk8 Hv8]. rewrite (dvw _ _ _ _ _ _ _ H).
  rewrite <-!app_assoc. rewrite (read_var_app 8 kw), (read_var_app 8 vw) by done. cbn [used of_option mbind res_bind]. rewrite dhash_new_ok. cbn [mbind res_bind]. unfold fresh_bits.
  rewrite (read_var_app 8 (dg_b t)) by (try (rewrite replicate_length; done); change (2^N.of_nat 8) with 256; lia).
  rewrite (read_var_app 64 (dg_n t)) by (try done; rewrite Hn'; exact Hsz).
  rewrite (read_var_app 8 (dg_bpg t)) by (try done; change (2^N.of_nat 8) with 256; lia).
  cbn [used of_option mbind res_bind]. rewrite (proj2 (N.eqb_neq _ _)) by done.
  rewrite shl64_1 by lia. cbn [mbind res_bind]. unfold dg_alloc.
  rewrite reserve_bits_spec by (split; [pose proof (pow2_pos (dg_b t)); lia|apply pow2_le_63; lia]). rewrite N.log2_up_pow2 by lia. cbn [mbind res_bind].
  destruct (gr_groups _ _ _ _ _ _ _ _ (dr_rep _ _ _ _ _ _ _ H)) as (gs0 & Hgs0 & Hl & _).
  unfold gstrip in Hgs0. cbn [gt_groups] in Hgs0. rewrite Hgs in Hgs0. cbn in Hgs0. injection Hgs0 as <-. rewrite map_length in Hl.
  change (gt_b (gstrip t)) with (dg_b t) in Hl. change (gt_bpg (gstrip t)) with (dg_bpg t) in Hl.
  unfold g_div at 1. change (gt_bpg (gstrip (DGTable ?u1 ?u2 ?u3 ?u4 ?u5 ?u6 ?u7))) with u6. rewrite (proj2 (N.eqb_neq (dg_bpg t) 0)) by lia. cbn [mbind res_bind dg_n dg_kw dg_vw dg_bpg].
  rewrite <-Hl, Nat2N.id. fold t1. change (dg_b t1) with (dg_b t). rewrite N.eqb_refl. cbn [chk mbind res_bind].
  change (dg_kw t1) with kw. rewrite (dz_width _ _ _ _ OK _ Hbb). cbn [mbind res_bind].
  assert (Egc : g_group_count (gstrip t1) = Ok (N.of_nat (length gs))).
  { rewrite <-Hgc. unfold g_group_count. unfold gstrip. cbn [t1 gt_groups dg_groups]. by rewrite Hgs. }
  rewrite Egc. cbn [mbind res_bind]. rewrite Nat2N.id. change (dg_groups t1) with (Some (replicate (length gs) dkv_new)). change (default [] (Some ?x)) with x.
  rewrite take_ge by (by rewrite replicate_length).
  match goal with |- context [dg_read_groups pf c t1 _ (concat l ++ ?r)] => destruct (Hd (replicate (length gs) dkv_new) r ltac:(by rewrite replicate_length)) as (gs' & -> & HF') end.
  cbn [mbind res_bind]. set (t3 := DGTable (Some gs') (dg_b t) (dg_n t) kw vw (dg_bpg t) (Some (map rplain ess))).
  change (DGTable (Some gs') (dg_b t) (dg_n t) kw vw (dg_bpg t) (dg_plain t1)) with (no_plain t3 (dg_plain t1)).
  assert (Hl' : length gs' = length gs) by (apply Forall2_length in HF'; by rewrite map_length, seq_length in HF').
  assert (Hg3 : forall i g, gs' !! i = Some g -> dgrepr (dg_b t) g (chunk (gbpg (gstrip t)) ess i)).
  { intros i g Hi. destruct (Forall2_lookup_l _ _ _ _ _ HF' Hi) as (bss & Hbss & Hr).
    change (map ?f ?l) with (f <$> l) in Hbss. pose proof (lookup_lt_Some _ _ _ Hi). rewrite list_lookup_fmap, lookup_seq_lt in Hbss by lia. by injection Hbss as <-. }
  assert (H3 : dgrep t3 ess).
  { pose proof (dr_rep _ _ _ _ _ _ _ H) as HR. constructor.
    - constructor; unfold gstrip; cbn [t3 gt_groups gt_b gt_n gt_kw gt_vw gt_bpg dg_groups dg_b dg_n dg_kw dg_vw dg_bpg]; try done; try apply HR.
      eexists. split; [done|]. split; [by rewrite map_length, Hl'|]. intros i g Hi. change (map kstrip gs') with (kstrip <$> gs') in Hi. rewrite list_lookup_fmap in Hi.
      destruct (gs' !! i) as [g'|] eqn:Eg; [|done]. injection Hi as <-. by apply dgrepr_strip, Hg3.
    - exists gs'. split; [done|]. exact Hg3.
    - eexists. split; [done|]. apply Forall2_same_length_lookup. split; [by rewrite map_length|]. intros i p es Hp He. change (map rplain ess) with (rplain <$> ess) in Hp.
      rewrite list_lookup_fmap, He in Hp. injection Hp as <-. apply rplain_prep. }
  change (g_bucket_count (gstrip (no_plain t3 (dg_plain t1)))) with (g_bucket_count (gstrip t)). rewrite Hco.
  assert (Hcl2 : N.to_nat (2^dg_b t) = length (map (fun es : entries => N.of_nat (length es)) ess)) by (rewrite map_length; lia).
  rewrite Hcl2. rewrite read_sizes_spec.
  2:{ apply Forall_forall. intros x Hx. change (map ?f ess) with (f <$> ess) in Hx. apply elem_of_list_fmap in Hx as (es & -> & Hin). apply elem_of_list_lookup in Hin as (i & Hi).
      destruct (dbucket_size t3 ess (N.of_nat i) es H3) as [_ ?]; [by rewrite Nat2N.id|]. assert (2^32 = 4294967296) by done. lia. }
  cbn [mbind res_bind]. rewrite map_length, rfold_tt.
  2:{ intros _ i Hi. apply elem_of_seq in Hi. destruct (lookup_lt_is_Some_2 ess i) as (es & He); [lia|]. change (map ?f ess) with (f <$> ess). rewrite list_lookup_fmap, He. cbn [fmap option_fmap option_map of_option mbind res_bind].
      rewrite size_np. destruct (dbucket_size t3 ess (N.of_nat i) es H3) as [-> _]; [by rewrite Nat2N.id|]. cbn [mbind res_bind]. by rewrite N.eqb_refl. }
  cbn [mbind res_bind]. rewrite (read_plains_spec t3 ess _ s' H3 ess 0 eq_refl : dg_read_plains pf c _ 0 _ _ = _). cbn [mbind res_bind].
  rewrite sum_sizes, <-Hn, N.eqb_refl. cbn [chk mbind res_bind]. exists t3. split; [|done]. done.
Qed.
Lemma dgroundtrip0 t : dg_n t = 0 -> dg_kw t = kw -> dg_vw t = vw -> dg_b t < 64 -> 1 <= dg_bpg t <= 127 ->
  exists s, dg_serialize c t = Ok s /\ forall t0 t1 s', dg_clear t0 = Ok t1 ->
  exists t', dg_deserialize pf c t0 (s ++ s') = Ok (t', s') /\ dgzero t'.
Proof.
  intros Hn E1 E2 Hb Hbp. unfold dg_serialize. rewrite Hn, E1, E2. cbv zeta. cbn [N.eqb]. eexists. split; [done|]. intros t0 t0' s' Hcl. unfold dg_deserialize. rewrite Hcl. cbn [mbind res_bind]. destruct (dclear_members _ _ Hcl) as (C1 & C2 & C3 & C4).
  pose proof (kw_small c kw vw bmin OK) as [Hk8 Hv8].
  rewrite <-!app_assoc. rewrite (read_var_app 8 kw), (read_var_app 8 vw) by done. cbn [used of_option mbind res_bind]. rewrite dhash_new_ok. cbn [mbind res_bind]. unfold fresh_bits.
  rewrite (read_var_app 8 (dg_b t)) by (try (rewrite replicate_length; done); change (2^N.of_nat 8) with 256; lia).
  rewrite (read_var_app 64 0) by done.
  rewrite (read_var_app 8 (dg_bpg t)) by (try done; change (2^N.of_nat 8) with 256; lia).
  cbn [used of_option mbind res_bind N.eqb]. eexists. split; [done|]. rewrite C1, C2. split; [|done]. unfold gzero. cbn. done.
Qed.
Lemma dgmrep_clear t m : dgmrep pf c kw vw bmin t m -> exists t', dg_clear t = Ok t' /\ dgzero t'.
Proof. intros [[HZ _]|(ess & H & _)]; [by apply dclear0|by eapply dclear]. Qed.
Lemma dgmrep_roundtrip t m : dgmrep pf c kw vw bmin t m -> N.of_nat (size m) < 2^64 ->
  exists s, dg_serialize c t = Ok s /\ forall t0 t1 s', dg_clear t0 = Ok t1 ->
  exists t', dg_deserialize pf c t0 (s ++ s') = Ok (t', s') /\ dgmrep pf c kw vw bmin t' m.
Proof.
  intros HR Hsz.
  assert (H0 : (dg_n t = 0 /\ dg_kw t = kw /\ dg_vw t = vw /\ dg_b t < 64 /\ 1 <= dg_bpg t <= 127 /\ m = ∅)
    \/ exists ess, dgrep t ess /\ concat ess <> [] /\ emap (concat ess) = m).
  { destruct HR as [[[(E1 & E2 & Hb & Hn & _ & Hbp) _] ->]|(ess & H & Hm)].
    - left. change (gt_b (gstrip t)) with (dg_b t) in Hb. rewrite Hb. repeat split; try done; apply Hbp.
    - destruct (concat ess) as [|e l] eqn:Ec; [left|right; exists ess; rewrite Ec; done].
      pose proof (db_range _ _ _ _ _ OK _ _ H). pose proof (dn_eq _ _ _ _ _ _ _ H) as Hn. rewrite Ec in Hn.
      split; [done|]. split; [by eapply dkw|]. split; [by eapply dvw|]. split; [lia|]. split; [by eapply dbpg|]. by rewrite <-Hm. }
  destruct H0 as [(Hn & E1 & E2 & Hb & Hbp & ->)|(ess & H & Hne & Hm)].
  - destruct (dgroundtrip0 t Hn E1 E2 Hb Hbp) as (s & Es & Hd). exists s. split; [done|]. intros t0 t1 s' Hc.
    destruct (Hd t0 t1 s' Hc) as (t' & Ed & Hz). exists t'. split; [done|]. by left.
  - assert (Hl : N.of_nat (length (concat ess)) < 2^64) by (rewrite <-Hm, emap_size in Hsz by apply (dr_rep _ _ _ _ _ _ _ H); done).
    destruct (dgroundtrip t ess H Hl Hne) as (s & Es & Hd). exists s. split; [done|]. intros t0 t1 s' Hc.
    destruct (Hd t0 t1 s' Hc) as (t' & Ed & HR'). exists t'. split; [done|]. right. by exists ess.
Qed.
End table.
