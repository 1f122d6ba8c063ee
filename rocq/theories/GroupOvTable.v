(** group_chaining_table with an overflow of type dummy_overflow or map_overflow refines a finite map. *)
From Verif Require Export IterOv GroupOvModel GroupSerial.

(** *** gt_n plays no role in the groups *)
Lemma set_n_write pf g n x v : g_write_value pf (g_set_n g n) x v = (r ← g_write_value pf g x v; Ok (g_set_n r n)).
Proof.
  destruct x as [bk p]. unfold g_write_value. change (g_bucket_count (g_set_n g n)) with (g_bucket_count g). change (g_group (g_set_n g n)) with (g_group g).
  destruct (bk =? g_bucket_count g); [done|]. destruct (g_group g bk) as [y| | |]; cbn [mbind res_bind]; try done.
  change (g_rank (g_set_n g n)) with (g_rank g). change (gvw (g_set_n g n)) with (gvw g).
  by destruct (kv_write_value pf y (g_rank g bk) (N.to_nat p) v (gvw g)).
Qed.
Lemma set_n_erase pf c g n x : g_erase_at pf c (g_set_n g n) x =
  (r ← g_erase_at pf c g x; Ok (g_set_n (fst r) (if snd x =? ones64 then n else sub64 n 1), snd r)).
Proof.
  destruct x as [bk p]. unfold g_erase_at. cbn [snd]. destruct (p =? ones64); [done|]. change (g_group (g_set_n g n)) with (g_group g).
  destruct (g_group g bk) as [y| | |]; cbn [mbind res_bind]; try done.
  change (g_rank (g_set_n g n)) with (g_rank g). change (gvw (g_set_n g n)) with (gvw g). change (gbpg (g_set_n g n)) with (gbpg g).
  change (gqw c (g_set_n g n)) with (gqw c g).
  by destruct (kv_erase pf y (gbpg g) (g_rank g bk) (N.to_nat p) (gqw c g) (gvw g)).
Qed.
Lemma set_n_set_n g n n' : g_set_n (g_set_n g n) n' = g_set_n g n'.
Proof. done. Qed.
Lemma set_n_id g : g_set_n g (gt_n g) = g.
Proof. by destruct g. Qed.

Section ov.
Context (er : Prop) (pf : platform) (c : gcfg) (kind : ovkind) (kw vw bmin : N).
Hypothesis OK : group_ok c kw vw bmin.
Hypothesis Hkind : kind <> OvArray.
Hypothesis Hfair : kind = OvMap -> um_fair pf.
Notation bmax := (zbmax (gc_hash c) kw).
Notation bq := (zq (gc_hash c) (gc_keybits c) 64 kw).
Notation bb := (zb (gc_hash c) (gc_keybits c) 64 kw).
Notation grep := (grep er pf c kw vw bmin).
Definition oside (k : ovkind) : Prop := k = kind.
Implicit Types (t : gotable) (ess : list entries) (ovl E : entries).

Local Lemma oside_fair : oside OvMap -> um_fair pf.
Proof. unfold oside. intros E. by apply Hfair. Qed.
Local Lemma oside_arr : ~ oside OvArray.
Proof. unfold oside. congruence. Qed.
Local Lemma oside_key k : key_ok pf 64 oside k.
Proof. intros H. by destruct (oside_arr H). Qed.

(** The groups hold ess, the overflow holds ovl. *)
Definition gn ess : N := N.of_nat (length (concat ess)) mod 2^64.
Record gorep t ess ovl : Prop := {
  or_g : grep (g_set_n (go_g t) (gn ess)) ess;
  or_ov : ovrel pf oside (bb (gt_b (go_g t))) (2^gt_b (go_g t)) (go_ov t) ovl;
  or_nodup : NoDup (keys_of (concat ess ++ ovl));
  or_range : forall k v, (k, v) ∈ concat ess ++ ovl -> k < 2^kw /\ v < 2^vw;
  or_n : gt_n (go_g t) = N.of_nat (length (concat ess ++ ovl)) mod 2^64
}.
Definition gozero t : Prop := gzero kw vw (go_g t) /\ ovzero pf oside (go_ov t).
Definition go_at t ess (x : nav) : option (N * N) :=
  if fst x =? 2^gt_b (go_g t) then ov_entry pf (go_ov t) (snd x) else nav_at ess x.

Local Lemma Hho : hash_ok (gc_hash c) (gc_keybits c) 64 kw bmin.
Proof. apply OK. Qed.
Lemma ob_range t ess ovl : gorep t ess ovl -> 1 <= gt_b (go_g t) <= 63.
Proof. intros H. exact (b_range _ _ _ _ _ _ OK _ _ (or_g _ _ _ H)). Qed.
Lemma obb t ess ovl : gorep t ess ovl -> bmin <= gt_b (go_g t) <= bmax.
Proof. intros H. exact (gr_b _ _ _ _ _ _ _ _ (or_g _ _ _ H)). Qed.
Lemma ocount t ess ovl : gorep t ess ovl -> go_bucket_count t = 2^gt_b (go_g t).
Proof. intros H. exact (count_eq _ _ _ _ _ _ OK _ _ (or_g _ _ _ H)). Qed.
Lemma olen t ess ovl : gorep t ess ovl -> N.of_nat (length ess) = 2^gt_b (go_g t).
Proof. intros H. exact (gr_len _ _ _ _ _ _ _ _ (or_g _ _ _ H)). Qed.
Lemma ond t ess ovl : gorep t ess ovl -> NoDup (keys_of ovl).
Proof. intros H. pose proof (or_nodup _ _ _ H) as Hn. rewrite fmap_app in Hn. by apply NoDup_app in Hn as (_ & _ & ?). Qed.
Lemma obucket t ess ovl k : gorep t ess ovl -> k < 2^kw -> bb (gt_b (go_g t)) k < 2^gt_b (go_g t)
  /\ exists es, ess !! N.to_nat (bb (gt_b (go_g t)) k) = Some es.
Proof.
  intros H Hk. pose proof (olen _ _ _ H). destruct (z_map _ _ _ _ _ Hho _ k (obb _ _ _ H) Hk) as (_ & Hb & _). split; [done|].
  apply lookup_lt_is_Some_2. lia.
Qed.
Lemma osize t ess ovl : gorep t ess ovl -> ov_size (go_ov t) = N.of_nat (length ovl).
Proof. intros H. exact (ov_size_spec _ _ _ _ _ _ (or_ov _ _ _ H)). Qed.
Lemma osize_zero t ess ovl : gorep t ess ovl -> (0 <? ov_size (go_ov t)) = false -> ovl = [].
Proof. intros H Hs. rewrite (osize _ _ _ H) in Hs. apply N.ltb_ge in Hs. apply nil_length_inv. lia. Qed.

(** What a navigator shows *)
Lemma oshows t ess ovl : gorep t ess ovl -> NavProofs.shows eq (o_view (go_view pf c t)) (gt_b (go_g t)) ess.
Proof.
  intros H. pose proof (gshows _ _ _ _ _ _ OK _ _ (or_g _ _ _ H)) as [S1 S2 S3 S4 S5 S6]. constructor; [exact S1|exact S2|exact S3|exact S4|exact S5|].
  intros [bk p] k v Hx. rewrite <-(S6 _ k v Hx). unfold vn_value. cbn [go_view o_view v_value]. unfold go_value_at.
  rewrite (ocount _ _ _ H). destruct (nav_at_bucket _ _ _ _ (gshows _ _ _ _ _ _ OK _ _ (or_g _ _ _ H)) bk p (k, v) Hx) as (es & _ & _ & Hlt & _).
  cbn [g_set_n gt_b] in Hlt. by rewrite (proj2 (N.eqb_neq _ _)) by lia.
Qed.
Lemma oend t ess ovl : gorep t ess ovl -> on_invalid pf (go_view pf c t) end_nav = Ok true.
Proof.
  intros H. unfold on_invalid, on_over. rewrite (sh_count _ _ _ _ (oshows _ _ _ H)). pose proof (sh_pow _ _ _ _ (oshows _ _ _ H)) as Hp.
  cbn [end_nav fst snd]. assert (2^63 <= ones64) by done. rewrite (proj2 (N.eqb_neq ones64 _)), andb_false_r.
  - cbn [andb]. exact (vn_invalid_end _ _ _ _ (oshows _ _ _ H)).
  - intros E. assert (2^63 < ones64) by done. lia.
Qed.
Lemma oov_pos t ess ovl p e : gorep t ess ovl -> ov_entry pf (go_ov t) p = Some e -> (0 <? ov_size (go_ov t)) = true /\ e ∈ ovl.
Proof.
  intros H He. destruct e as [k v]. destruct (ov_entry_spec pf 64 64 _ _ _ _ _ _ _ _ (or_ov _ _ _ H) He) as (Hin & _).
  split; [|done]. rewrite (osize _ _ _ H). apply N.ltb_lt. destruct ovl; [by apply elem_of_nil in Hin|cbn [length]; lia].
Qed.
Lemma oat_read t ess ovl x k v : gorep t ess ovl -> go_at t ess x = Some (k, v) ->
  (k, v) ∈ concat ess ++ ovl /\ on_invalid pf (go_view pf c t) x = Ok false /\ on_key pf (go_view pf c t) x = Ok k /\ on_value pf (go_view pf c t) x = Ok v.
Proof.
  intros H Hx. unfold go_at in Hx. pose proof (oshows _ _ _ H) as Hs. pose proof (sh_count _ _ _ _ Hs) as Hc.
  unfold on_invalid, on_key, on_value, on_over. rewrite Hc. cbn [go_view o_ov].
  destruct (N.eqb_spec (fst x) (2^gt_b (go_g t))) as [E|E].
  - destruct (oov_pos _ _ _ _ _ H Hx) as [-> Hin]. destruct (ov_entry_spec pf 64 64 _ _ _ _ _ _ _ _ (or_ov _ _ _ H) Hx) as (_ & Hv & Hk & Hg).
    cbn [andb]. rewrite Hv. split; [apply elem_of_app; by right|]. done.
  - rewrite andb_false_r. cbn [andb]. destruct x as [bk p]. destruct (nav_at_bucket _ _ _ _ Hs _ _ _ Hx) as (es & He & Hp & _).
    split; [apply elem_of_app; left; apply elem_of_concat; exists (N.to_nat bk), es; split; [done|by eapply elem_of_list_lookup_2]|].
    split; [by eapply vn_invalid_at|]. destruct (sh_key _ _ _ _ Hs _ _ _ Hx) as (k' & -> & ->). split; [done|]. by eapply sh_value.
Qed.
Lemma oat_iter t ess ovl x k v : gorep t ess ovl -> go_at t ess x = Some (k, v) -> on_iter_at pf (go_view pf c t) x = Ok (Some (k, v)).
Proof.
  intros H Hx. destruct (oat_read _ _ _ _ _ _ H Hx) as (_ & Hi & Hk & Hv). unfold on_iter_at. rewrite Hi. cbn [mbind res_bind].
  unfold on_read. rewrite Hk. cbn [mbind res_bind]. by rewrite Hv.
Qed.
Lemma oat_eq t ess ovl x k v : gorep t ess ovl -> go_at t ess x = Some (k, v) -> on_eq pf (go_view pf c t) x end_nav = Ok false.
Proof.
  intros H Hx. destruct (oat_read _ _ _ _ _ _ H Hx) as (_ & Hi & _). unfold on_eq. rewrite (oend _ _ _ H), Hi. done.
Qed.
Lemma oat_emap t ess ovl x k v : gorep t ess ovl -> go_at t ess x = Some (k, v) -> emap (concat ess ++ ovl) !! k = Some v.
Proof. intros H Hx. apply emap_Some; [apply H|]. by eapply oat_read. Qed.

(** *** Lookups *)
Lemma oat_bucket t ess ovl bk p : gorep t ess ovl -> bk < 2^gt_b (go_g t) -> go_at t ess (bk, p) = nav_at ess (bk, p).
Proof. intros H Hb. unfold go_at. cbn [fst]. by rewrite (proj2 (N.eqb_neq _ _)) by lia. Qed.
Lemma olookup t ess ovl es k : gorep t ess ovl -> k < 2^kw -> ess !! N.to_nat (bb (gt_b (go_g t)) k) = Some es ->
  match first_index k (keys_of es) with
  | Some p => exists v, emap (concat ess ++ ovl) !! k = Some v /\ go_at t ess (bb (gt_b (go_g t)) k, N.of_nat p) = Some (k, v) /\ k ∉ keys_of ovl
  | None => k ∉ keys_of (concat ess)
  end.
Proof.
  intros H Hk He. pose proof (gr_placed _ _ _ _ _ _ _ _ (or_g _ _ _ H)) as Hpl. cbn [g_set_n gt_b] in Hpl.
  destruct (first_index k (keys_of es)) as [p|] eqn:Ep.
  - apply fi_Some in Ep. rewrite list_lookup_fmap in Ep. destruct (es !! p) as [[k' v]|] eqn:Ex; [|done].
    cbn in Ep. injection Ep as ->. exists v.
    assert (Hx : go_at t ess (bb (gt_b (go_g t)) k, N.of_nat p) = Some (k, v)).
    { destruct (obucket _ _ _ _ H Hk) as [Hlt _]. rewrite (oat_bucket _ _ _ _ _ H Hlt). unfold nav_at. cbn [fst snd]. by rewrite He, Nat2N.id. }
    split; [by eapply oat_emap|]. split; [done|]. pose proof (or_nodup _ _ _ H) as Hn. rewrite fmap_app in Hn.
    apply NoDup_app in Hn as (_ & Hn & _). apply Hn. apply keys_elem. exists v. apply elem_of_concat.
    exists (N.to_nat (bb (gt_b (go_g t)) k)), es. split; [done|]. by eapply elem_of_list_lookup_2.
  - apply fi_None in Ep. rewrite (own_bucket_key _ _ Hpl _ _ He). done.
Qed.
Lemma oov_at t ess ovl k v p : gorep t ess ovl -> (k, v) ∈ ovl -> ov_entry pf (go_ov t) p = Some (k, v) ->
  emap (concat ess ++ ovl) !! k = Some v /\ go_at t ess (2^gt_b (go_g t), p) = Some (k, v).
Proof.
  intros H Hin Hp. assert (Hx : go_at t ess (2^gt_b (go_g t), p) = Some (k, v)) by (unfold go_at; cbn [fst snd]; by rewrite N.eqb_refl).
  split; [by eapply oat_emap|done].
Qed.
Lemma onone ess ovl k : k ∉ keys_of (concat ess) -> k ∉ keys_of ovl -> emap (concat ess ++ ovl) !! k = None.
Proof. intros H1 H2. apply emap_None. rewrite fmap_app, elem_of_app. by intros [?|?]. Qed.

Lemma ofind t ess ovl k : gorep t ess ovl -> k < 2^kw -> exists x, go_find pf c t k = Ok x /\
  match emap (concat ess ++ ovl) !! k with Some v => go_at t ess x = Some (k, v) | None => x = end_nav end.
Proof.
  intros H Hk. destruct (obucket _ _ _ _ H Hk) as [Hlt (es & He)]. unfold go_find. pose proof (ob_range _ _ _ H).
  rewrite (proj2 (N.eqb_neq _ _)) by lia. rewrite (ocount _ _ _ H).
  pose proof (olookup _ _ _ _ _ H Hk He) as Hl. pose proof (gfind_ok _ _ _ _ _ _ OK _ _ _ _ (or_g _ _ _ H) Hk He) as Hg.
  change (g_find pf c (g_set_n (go_g t) (gn ess)) k) with (g_find pf c (go_g t) k) in Hg. cbn [g_set_n gt_b] in Hg.
  assert (Hbk : k ∉ keys_of ovl -> exists x, g_find pf c (go_g t) k = Ok x /\
    match emap (concat ess ++ ovl) !! k with Some v => go_at t ess x = Some (k, v) | None => x = end_nav end).
  { intros Hno. rewrite Hg. eexists. split; [done|]. destruct (first_index k (keys_of es)) as [p|].
    - destruct Hl as (v & -> & Hx & _). done.
    - by rewrite (onone _ _ _ Hl Hno). }
  destruct (0 <? ov_size (go_ov t)) eqn:Es.
  - destruct (ov_find_spec pf 64 _ _ _ _ _ _ (ond _ _ _ H) (or_ov _ _ _ H) (oside_key k)) as [(p & v & -> & Hin & Hp)|[-> Hno]]; cbn [mbind res_bind].
    + destruct (oov_at _ _ _ _ _ _ H Hin Hp) as [Hm Hx]. eexists. split; [done|]. by rewrite Hm.
    + by apply Hbk.
  - cbn [mbind res_bind]. apply Hbk. rewrite (osize_zero _ _ _ H Es). apply not_elem_of_nil.
Qed.
Lemma olocate t ess ovl k : gorep t ess ovl -> k < 2^kw -> exists bk pos, go_locate pf c t k = Ok (bk, pos) /\
  match emap (concat ess ++ ovl) !! k with Some v => exists p, pos = Some p /\ go_at t ess (bk, p) = Some (k, v) | None => pos = None end.
Proof.
  intros H Hk. destruct (obucket _ _ _ _ H Hk) as [Hlt (es & He)]. unfold go_locate. pose proof (ob_range _ _ _ H).
  rewrite (proj2 (N.eqb_neq _ _)) by lia. rewrite (ocount _ _ _ H).
  pose proof (gmap_hash _ _ _ _ _ _ OK _ _ _ (or_g _ _ _ H) Hk) as Hh. cbn [g_set_n gt_b gt_kw] in Hh. rewrite Hh. cbn [mbind res_bind].
  pose proof (olookup _ _ _ _ _ H Hk He) as Hl. pose proof (glocate _ _ _ _ _ _ OK _ _ _ _ (or_g _ _ _ H) Hk He) as Hg.
  change (g_locate_q pf c (g_set_n (go_g t) (gn ess))) with (g_locate_q pf c (go_g t)) in Hg. cbn [g_set_n gt_b] in Hg.
  assert (Hbk : k ∉ keys_of ovl -> exists bk pos, (pos ← g_locate_q pf c (go_g t) (bb (gt_b (go_g t)) k) (bq (gt_b (go_g t)) k); Ok (bb (gt_b (go_g t)) k, pos)) = Ok (bk, pos) /\
    match emap (concat ess ++ ovl) !! k with Some v => exists p, pos = Some p /\ go_at t ess (bk, p) = Some (k, v) | None => pos = None end).
  { intros Hno. rewrite Hg. cbn [mbind res_bind]. eexists _, _. split; [done|]. destruct (first_index k (keys_of es)) as [p|].
    - destruct Hl as (v & -> & Hx & _). by eexists.
    - by rewrite (onone _ _ _ Hl Hno). }
  destruct (0 <? ov_size (go_ov t)) eqn:Es.
  - destruct (ov_need_consult_spec pf _ _ _ _ _ _ (or_ov _ _ _ H) Hlt) as (cs & -> & Hcs). cbn [mbind res_bind]. destruct cs.
    + destruct (ov_find_spec pf 64 _ _ _ _ _ _ (ond _ _ _ H) (or_ov _ _ _ H) (oside_key k)) as [(p & v & -> & Hin & Hp)|[-> Hno]]; cbn [mbind res_bind].
      * destruct (oov_at _ _ _ _ _ _ H Hin Hp) as [Hm Hx]. eexists _, _. split; [done|]. rewrite Hm. by eexists.
      * by apply Hbk.
    + cbn [mbind res_bind]. apply Hbk. intros Hin. apply keys_elem in Hin as (v & Hin). by specialize (Hcs k v Hin eq_refl).
  - cbn [mbind res_bind]. apply Hbk. rewrite (osize_zero _ _ _ H Es). apply not_elem_of_nil.
Qed.

(** *** Allocation and rehashing *)
Lemma oalloc g o n : gt_kw g = kw -> gt_vw g = vw -> gt_n g = 0 -> 1 <= gt_bpg g <= 127 -> ovzero pf oside o ->
  1 <= n <= 2^63 -> bmin <= N.log2_up n <= bmax ->
  exists t' ess0, go_alloc pf (GOTable g o) n = Ok t' /\ gorep t' ess0 [] /\ concat ess0 = [] /\ gt_b (go_g t') = N.log2_up n.
Proof.
  intros E1 E2 E3 E4 Hz Hn Hb. destruct (galloc er pf c kw vw bmin g n E1 E2 E3 E4 Hn Hb) as (g' & ess0 & Ea & HR & Hc & Hbt).
  unfold go_alloc. cbn [go_g go_ov]. rewrite Ea. cbn [mbind res_bind]. eexists _, ess0. split; [done|].
  pose proof (gr_n _ _ _ _ _ _ _ _ HR) as Hn0. pose proof (zbmax_le _ _ _ _ _ Hho).
  split; [|done]. constructor; cbn [go_g go_ov].
  - unfold gn. rewrite <-Hn0, set_n_id. done.
  - apply ov_resize_spec; [exact oside_fair| |done]. apply pow2_le_63. lia.
  - rewrite Hc. constructor.
  - intros k v. rewrite Hc. by intros ?%elem_of_nil.
  - by rewrite app_nil_r.
Qed.
Lemma oov_new : ovzero pf oside (ov_new pf 64 64 kind).
Proof. unfold ovzero, oside. revert Hkind. destruct kind; [done|done|by split]. Qed.

Lemma orehash_um bo nbk nb els full : ovrel pf oside bo nbk (OUmap nb els full) els -> NoDup (keys_of els) ->
  forall n p, (N.to_nat (nb - p) <= n)%nat -> (p < nb -> um_empty pf nb els p = false) ->
  exists E, E ≡ₚ um_rest pf nb els p /\ forall (T : Type) (ins : T -> N -> N -> res (T * nav)) f tmp, (n <= f)%nat ->
    go_rehash_ov pf (S f) ins (OUmap nb els full) p tmp = ins_fold ins E tmp.
Proof.
  intros Ho Hk. destruct Ho as (_ & (Hnb & Hnb2 & _) & Hnd & _).
  assert (Hend : forall p, nb <= p -> exists E, E ≡ₚ um_rest pf nb els p /\ forall (T : Type) (ins : T -> N -> N -> res (T * nav)) f tmp,
    go_rehash_ov pf (S f) ins (OUmap nb els full) p tmp = ins_fold ins E tmp).
  { intros p Hp. exists []. rewrite um_rest_end by lia. split; [done|]. intros T ins f tmp. cbn [go_rehash_ov ov_valid].
    by rewrite (proj2 (N.ltb_ge _ _)) by lia. }
  induction n as [|n IH]; intros p Hn Hp.
  - destruct (Hend p ltac:(lia)) as (E & HE & HF). exists E. split; [done|]. intros; apply HF.
  - destruct (N.lt_ge_cases p nb) as [Hlt|Hge].
    2:{ destruct (Hend p ltac:(lia)) as (E & HE & HF). exists E. split; [done|]. intros; apply HF. }
    specialize (Hp Hlt).
    destruct (um_chain pf nb els p) as [|[k v] r] eqn:Ec; [unfold um_empty in Hp; by rewrite Ec in Hp|].
    assert (Hin : (k, v) ∈ els /\ um_bucket pf nb k = p).
    { apply (um_chain_elem pf nb els p (k, v)). rewrite Ec. by constructor. }
    destruct Hin as [Hin Hpos].
    destruct (um_scan_spec pf nb els (N.to_nat nb) (p + 1)) as (Hq1 & Hq2 & Hq3); [lia|]. cbv zeta in Hq1, Hq2, Hq3.
    set (q := um_scan pf (N.to_nat nb) nb els (p + 1)) in *.
    destruct (IH q) as (E & HE & HF); [lia|done|]. exists ((k, v) :: E). split.
    + rewrite HE, (um_rest_step pf nb els p k v Hk Hnd Hin Hpos). f_equiv. by rewrite (um_rest_skip pf nb els (p + 1) q Hq1 Hq2).
    + intros T ins f tmp Hf. destruct f as [|f]; [lia|].
      change (go_rehash_ov pf (S (S f)) ins (OUmap nb els full) p tmp) with
        (if ov_valid pf (OUmap nb els full) p then
           k ← ov_key pf 64 (OUmap nb els full) p; v ← ov_get pf 64 (OUmap nb els full) p; r ← ins tmp k v;
           go_rehash_ov pf (S f) ins (OUmap nb els full) (ov_next pf (OUmap nb els full) p) (fst r)
         else Ok tmp).
      cbn [ov_valid ov_key ov_get ov_next]. rewrite (proj2 (N.ltb_lt _ _)) by done. rewrite Hp. cbn [negb andb].
      rewrite Ec. cbn [mbind res_bind fst snd].
      unfold ins_fold. cbn [rfold fst snd]. destruct (ins tmp k v) as [x| | |]; cbn [mbind res_bind]; try done.
      fold q. rewrite HF by lia. done.
Qed.
Lemma orehash bo nbk o ovl : ovrel pf oside bo nbk o ovl -> NoDup (keys_of ovl) ->
  exists E, E ≡ₚ ovl /\ forall (T : Type) (ins : T -> N -> N -> res (T * nav)) tmp,
    go_rehash_ov pf (S (N.to_nat (ov_capacity o))) ins o (ov_first pf o) tmp = ins_fold ins E tmp.
Proof.
  intros Ho Hk. destruct o as [| |nb els full].
  - exists []. destruct Ho as [-> _]. done.
  - exfalso. destruct Ho as (_ & Ha & _). by apply oside_arr.
  - pose proof Ho as (-> & _). cbn [ov_first ov_capacity].
    destruct (um_scan_spec pf nb els (N.to_nat nb) 0) as (Hq1 & Hq2 & Hq3); [lia|]. cbv zeta in Hq1, Hq2, Hq3.
    set (q := um_scan pf (N.to_nat nb) nb els 0) in *.
    destruct (orehash_um _ _ _ _ _ Ho Hk (N.to_nat nb) q) as (E & HE & HF); [lia|done|].
    exists E. split; [|intros; apply HF; lia]. rewrite HE, <-(um_rest_skip pf nb els 0 q Hq1 Hq2). apply Permutation_refl'.
    unfold um_rest. clear. induction els as [|e l IH]; [done|]. cbn [List.filter]. rewrite (proj2 (N.leb_le _ _)) by lia. by rewrite IH.
Qed.

Lemma oreserve t ess ovl n : gorep t ess ovl -> 1 <= n <= 2^63 -> bmin <= N.log2_up n <= bmax ->
  exists tmp ess0 E, gorep tmp ess0 [] /\ concat ess0 = [] /\ gt_b (go_g tmp) = N.log2_up n /\ E ≡ₚ concat ess ++ ovl
    /\ forall ins, go_reserve_with pf c kind ins t n 0 = ins_fold ins E tmp.
Proof.
  intros H Hn Hb. pose proof (or_g _ _ _ H) as Hg. pose proof (zbmax_le _ _ _ _ _ Hho). pose proof (ho_kw _ _ _ _ _ Hho). pose proof (ob_range _ _ _ H).
  assert (Hlog : N.log2_up (2^N.log2_up n) = N.log2_up n) by (apply N.log2_up_pow2; lia).
  destruct (oalloc (GTable None 0 0 kw vw 64) (ov_new pf 64 64 kind) (2^N.log2_up n)) as (tmp & ess0 & Ea & HR & Hc & Hbt); try done.
  { apply oov_new. }
  { split; [pose proof (pow2_pos (N.log2_up n)); lia|]. apply pow2_le_63. lia. }
  { by rewrite Hlog. }
  rewrite Hlog in Hbt. destruct (orehash _ _ _ _ (or_ov _ _ _ H) (ond _ _ _ H)) as (E & HE & HF).
  exists tmp, ess0, (concat ess ++ E). split; [done|]. split; [done|]. split; [done|]. split; [by rewrite HE|]. intros ins.
  unfold go_reserve_with. rewrite (proj2 (N.eqb_neq (gt_b (go_g t)) _)) by lia. cbn [N.eqb]. rewrite reserve_bits_spec by done. cbn [mbind res_bind].
  pose proof (gr_kw _ _ _ _ _ _ _ _ Hg) as Ekw. pose proof (gr_vw _ _ _ _ _ _ _ _ Hg) as Evw. cbn [g_set_n gt_kw gt_vw] in Ekw, Evw.
  rewrite Ekw, Evw, u8_small by lia. rewrite Ea. cbn [mbind res_bind].
  destruct (gr_groups _ _ _ _ _ _ _ _ Hg) as (gs & Hgs & Hl & Hgr). pose proof (ggroup_count _ _ _ _ _ _ OK _ _ _ Hg Hgs Hl) as Hgc.
  change (g_group_count (g_set_n (go_g t) (gn ess))) with (g_group_count (go_g t)) in Hgc. rewrite Hgc. cbn [mbind res_bind].
  cbn [g_set_n gt_groups] in Hgs. rewrite Hgs, N.ltb_irrefl, Nat2N.id, take_ge by lia.
  pose proof (grehash _ _ _ _ _ _ OK ins _ ess Hg gs 0 tmp Hgr) as Hre. change (imap (fun j g => ((0 + j)%nat, g)) gs) with (imap pair gs) in Hre.
  change (g_rehash_group pf c ins (g_set_n (go_g t) (gn ess))) with (g_rehash_group pf c ins (go_g t)) in Hre. rewrite Hre.
  rewrite chunks_concat by (by eapply ggroups_enough). rewrite ins_fold_app.
  destruct (ins_fold ins (concat ess) tmp) as [tmp1| | |]; cbn [mbind res_bind]; try done. rewrite HF.
  destruct (ins_fold ins E tmp1) as [tmp2| | |]; cbn [mbind res_bind]; try done.
  destruct (ov_clear_spec pf 64 64 _ _ _ _ _ oside_arr (or_ov _ _ _ H)) as (o' & -> & _). done.
Qed.

(** *** Insertion *)
Definition ofoi_post t ess ovl (k v : N) (r : res (gotable * nav)) : Prop :=
  exists t' x ess' ovl', r = Ok (t', x) /\ gorep t' ess' ovl' /\ gt_b (go_g t) <= gt_b (go_g t') /\
    match emap (concat ess ++ ovl) !! k with
    | Some v0 => t' = t /\ ess' = ess /\ ovl' = ovl /\ go_at t ess x = Some (k, v0)
    | None => concat ess' ++ ovl' ≡ₚ (k, v) :: concat ess ++ ovl /\ go_at t' ess' x = Some (k, v)
    end.
Lemma ofold_spec (ins : gotable -> N -> N -> res (gotable * nav)) (b0 : N) :
  (forall t ess ovl k v, gorep t ess ovl -> b0 <= gt_b (go_g t) -> k < 2^kw -> v < 2^vw -> ofoi_post t ess ovl k v (ins t k v)) ->
  forall E tmp ess0 ovl0, gorep tmp ess0 ovl0 -> b0 <= gt_b (go_g tmp) -> NoDup (keys_of (E ++ concat ess0 ++ ovl0)) ->
  (forall k v, (k, v) ∈ E -> k < 2^kw /\ v < 2^vw) ->
  exists t' ess' ovl', ins_fold ins E tmp = Ok t' /\ gorep t' ess' ovl' /\ gt_b (go_g tmp) <= gt_b (go_g t')
    /\ concat ess' ++ ovl' ≡ₚ E ++ concat ess0 ++ ovl0.
Proof.
  intros Hins. induction E as [|[k v] E IH]; intros tmp ess0 ovl0 HR Hb Hnd Hr.
  - exists tmp, ess0, ovl0. split; [done|]. split; [done|]. split; [lia|]. done.
  - unfold ins_fold. cbn [rfold fst snd]. destruct (Hr k v) as [Hk Hv]; [by constructor|].
    destruct (Hins tmp ess0 ovl0 k v HR Hb Hk Hv) as (t1 & x & ess1 & ovl1 & -> & HR1 & Hb1 & Hpost). cbn [mbind res_bind fst].
    change (NoDup (k :: keys_of (E ++ concat ess0 ++ ovl0))) in Hnd. apply NoDup_cons in Hnd as [Hnk Hnd].
    assert (Hnone : emap (concat ess0 ++ ovl0) !! k = None).
    { apply emap_None. intros Hin. apply Hnk. rewrite (fmap_app fst E). apply elem_of_app. by right. }
    rewrite Hnone in Hpost. destruct Hpost as [HP _].
    assert (Hq : E ++ concat ess1 ++ ovl1 ≡ₚ (k, v) :: E ++ concat ess0 ++ ovl0) by (rewrite HP; solve_Permutation).
    destruct (IH t1 ess1 ovl1 HR1) as (t' & ess' & ovl' & E' & HR' & Hb' & HP'); [lia| |intros; apply Hr; by constructor|].
    + rewrite (keys_perm _ _ Hq). cbn. apply NoDup_cons. done.
    + exists t', ess', ovl'. split; [exact E'|]. split; [done|]. split; [lia|]. by rewrite HP', Hq.
Qed.
(** The overflow replaced by one with the same elements, or by one with another element *)
Lemma gorep_ov t ess ovl o ovl' g n : gorep t ess ovl -> ovrel pf oside (bb (gt_b (go_g t))) (2^gt_b (go_g t)) o ovl' ->
  NoDup (keys_of (concat ess ++ ovl')) -> (forall k v, (k, v) ∈ concat ess ++ ovl' -> k < 2^kw /\ v < 2^vw) ->
  g = g_set_n (go_g t) n -> n = N.of_nat (length (concat ess ++ ovl')) mod 2^64 -> gorep (GOTable g o) ess ovl'.
Proof. intros H Ho Hnd Hr -> Hn. constructor; try done. apply H. Qed.

Lemma ofoi_spec : forall f t ess ovl k v, gorep t ess ovl -> (N.to_nat (bmax - gt_b (go_g t)) < f)%nat -> k < 2^kw -> v < 2^vw ->
  ofoi_post t ess ovl k v (go_find_or_insert pf c kind f t k v).
Proof.
  induction f as [|f IH]; intros t ess ovl k v H Hf Hk Hv; [lia|].
  destruct (obucket _ _ _ _ H Hk) as [Hlt (es & He)]. pose proof (ob_range _ _ _ H) as Hbr. pose proof (or_g _ _ _ H) as Hg.
  pose proof (zbmax_le _ _ _ _ _ Hho) as H63.
  cbn [go_find_or_insert]. rewrite (proj2 (N.eqb_neq _ _)) by lia. cbn [mbind res_bind].
  pose proof (gmap_hash _ _ _ _ _ _ OK _ _ _ Hg Hk) as Hh. cbn [g_set_n gt_b gt_kw] in Hh. rewrite Hh. cbn [mbind res_bind].
  destruct (ggroup_at _ _ _ _ _ _ _ _ _ _ Hg He) as (gs & g & Hgs & Hgi & Eg & Hr & Hc).
  change (g_group (g_set_n (go_g t) (gn ess))) with (g_group (go_g t)) in Eg. change (gbpg (g_set_n (go_g t) (gn ess))) with (gbpg (go_g t)) in *.
  change (g_rank (g_set_n (go_g t) (gn ess))) with (g_rank (go_g t)) in Hc. rewrite Eg. cbn [mbind res_bind].
  destruct (grepr_bucketsize _ _ _ _ _ _ _ _ _ _ Hr Hc) as [-> H255]. cbn [mbind res_bind].
  pose proof (glocate _ _ _ _ _ _ OK _ _ _ _ Hg Hk He) as Hloc.
  change (g_locate_q pf c (g_set_n (go_g t) (gn ess))) with (g_locate_q pf c (go_g t)) in Hloc. cbn [g_set_n gt_b] in Hloc. rewrite Hloc. cbn [mbind res_bind].
  pose proof (olookup _ _ _ _ _ H Hk He) as Hl. rewrite (ocount _ _ _ H).
  destruct (first_index k (keys_of es)) as [p|] eqn:Ep; cbn [fmap option_fmap option_map].
  { destruct Hl as (v0 & Hm & Hx & _). exists t, (bb (gt_b (go_g t)) k, N.of_nat p), ess, ovl. split; [done|]. split; [done|]. split; [lia|]. by rewrite Hm. }
  destruct (ov_need_consult_spec pf _ _ _ _ _ _ (or_ov _ _ _ H) Hlt) as (cs & -> & Hcs). cbn [mbind res_bind].
  assert (Hov : exists opos, (if cs then ov_find pf 64 (go_ov t) k else Ok None) = Ok opos /\
    match opos with Some p => exists v0, (k, v0) ∈ ovl /\ ov_entry pf (go_ov t) p = Some (k, v0) | None => k ∉ keys_of ovl end).
  { destruct cs.
    - destruct (ov_find_spec pf 64 _ _ _ _ _ _ (ond _ _ _ H) (or_ov _ _ _ H) (oside_key k)) as [(p & v0 & -> & Hin & Hp)|[-> Hno]].
      + exists (Some p). split; [done|]. by exists v0.
      + by exists None.
    - exists None. split; [done|]. intros Hin. apply keys_elem in Hin as (v0 & Hin). by specialize (Hcs k v0 Hin eq_refl). }
  destruct Hov as (opos & -> & Hop). cbn [mbind res_bind]. destruct opos as [p|].
  { destruct Hop as (v0 & Hin & Hp). destruct (oov_at _ _ _ _ _ _ H Hin Hp) as [Hm Hx].
    exists t, (2^gt_b (go_g t), p), ess, ovl. split; [done|]. split; [done|]. split; [lia|]. by rewrite Hm. }
  pose proof (onone _ _ _ Hl Hop) as Hnone. assert (Hnk : k ∉ keys_of (concat ess ++ ovl)) by (by apply emap_None).
  destruct (gfullb (go_g t) ess (bb (gt_b (go_g t)) k)) eqn:Efull.
  - (* the group is full *)
    pose proof (ggrow _ _ _ _ _ _ OK _ _ _ Hg Hk Hl Efull) as Hgrow. cbn [g_set_n gt_b] in Hgrow.
    assert (Hmax : (g_size g =? g_max_group) = true).
    { unfold gfullb in Efull. apply Nat.eqb_eq in Efull. rewrite (grepr_size _ _ _ _ _ _ _ _ Hr), Efull. done. }
    rewrite Hmax.
    assert (Hins : exists o r, (if ov_size (go_ov t) <? ov_capacity (go_ov t) then ov_insert pf 64 64 (go_ov t) (bb (gt_b (go_g t)) k) k v else Ok (go_ov t, None)) = Ok (o, r)
      /\ match r with
         | Some p => ovrel pf oside (bb (gt_b (go_g t))) (2^gt_b (go_g t)) o (ovl ++ [(k, v)]) /\ ov_entry pf o p = Some (k, v)
         | None => ovrel pf oside (bb (gt_b (go_g t))) (2^gt_b (go_g t)) o ovl
         end).
    { destruct (N.ltb_spec (ov_size (go_ov t)) (ov_capacity (go_ov t))) as [Hcap|_].
      - apply ov_insert_spec; [apply H|done|done|done|apply oside_key|]. intros Ha. by destruct (oside_arr Ha).
      - exists (go_ov t), None. split; [done|apply H]. }
    destruct Hins as (o & r & -> & Hr'). cbn [mbind res_bind]. destruct r as [p|].
    + destruct Hr' as [Ho Hp]. assert (HP : concat ess ++ ovl ++ [(k, v)] ≡ₚ (k, v) :: concat ess ++ ovl) by solve_Permutation.
      eexists _, _, ess, (ovl ++ [(k, v)]). split; [done|]. split; [|split; [cbn [go_g go_inc g_set_n gt_b]; lia|]].
      * eapply gorep_ov; [exact H|exact Ho|..|done|].
        -- rewrite (keys_perm _ _ HP). cbn. apply NoDup_cons. split; [done|apply H].
        -- intros k' v' Hin. rewrite HP in Hin. apply elem_of_cons in Hin as [[= -> ->]|Hin]; [done|exact (or_range _ _ _ H _ _ Hin)].
        -- rewrite (Permutation_length HP), (or_n _ _ _ H). cbn [length]. unfold u64. rewrite N.add_mod_idemp_l by done. f_equal. lia.
      * rewrite Hnone. split; [done|]. unfold go_at. cbn [fst snd go_g go_ov go_inc g_set_n gt_b]. by rewrite N.eqb_refl.
    + assert (H' : gorep (GOTable (go_g t) o) ess ovl).
      { eapply gorep_ov; [exact H|exact Hr'|apply H|apply H|symmetry; apply set_n_id|apply H]. }
      rewrite shl64_1 by lia. cbn [mbind res_bind].
      assert (Hlog : N.log2_up (2^(gt_b (go_g t) + 1)) = gt_b (go_g t) + 1) by (apply N.log2_up_pow2; lia).
      destruct (oreserve _ _ _ (2^(gt_b (go_g t) + 1)) H') as (tmp & ess0 & E & HR0 & Hc0 & Hb0 & HE & ->).
      { split; [pose proof (pow2_pos (gt_b (go_g t) + 1)); lia|]. apply pow2_le_63. lia. }
      { rewrite Hlog. pose proof (obb _ _ _ H). lia. }
      rewrite Hlog in Hb0.
      destruct (ofold_spec (go_find_or_insert pf c kind f) (gt_b (go_g t) + 1)) with (E := E) (tmp := tmp) (ess0 := ess0) (ovl0 := @nil (N * N))
        as (t1 & ess1 & ovl1 & -> & HR1 & Hb1 & HP1); [|done|lia| |intros k2 v2 Hin; rewrite HE in Hin; exact (or_range _ _ _ H k2 v2 Hin)|].
      { intros t2 ess2 ovl2 k2 v2 HR2 Hb2 Hk2 Hv2. apply IH; [done| |done|done]. pose proof (obb _ _ _ HR2). lia. }
      { rewrite Hc0, app_nil_r. rewrite (keys_perm _ _ HE). apply H. }
      cbn [mbind res_bind]. rewrite Hc0, app_nil_r, HE in HP1.
      destruct (IH t1 ess1 ovl1 k v HR1) as (t' & x & ess' & ovl' & -> & HR' & Hb' & Hpost); [pose proof (obb _ _ _ HR1); lia|done|done|].
      rewrite (emap_perm _ _ (or_nodup _ _ _ HR1) HP1), Hnone in Hpost. destruct Hpost as [HP Hx].
      exists t', x, ess', ovl'. split; [done|]. split; [done|]. split; [lia|]. rewrite Hnone. split; [|done]. by rewrite HP, HP1.
  - destruct (gpush_slot _ _ _ _ _ _ OK _ _ _ _ _ Hg Hk Hv He Ep Efull) as (g1 & g2 & Eg1 & Hmax & Epush & HR').
    change (g_group (g_set_n (go_g t) (gn ess))) with (g_group (go_g t)) in Eg1. cbn [g_set_n gt_b] in Eg1. rewrite Eg in Eg1. injection Eg1 as <-.
    change (gbpg (g_set_n (go_g t) (gn ess))) with (gbpg (go_g t)) in *. change (g_rank (g_set_n (go_g t) (gn ess))) with (g_rank (go_g t)) in *.
    change (gqw c (g_set_n (go_g t) (gn ess))) with (gqw c (go_g t)) in *. change (gvw (g_set_n (go_g t) (gn ess))) with (gvw (go_g t)) in *.
    cbn [g_set_n gt_b] in Epush. rewrite Hmax. rewrite Epush. cbn [mbind res_bind].
    set (bk := bb (gt_b (go_g t)) k) in *. set (ess' := <[N.to_nat bk := es ++ [(k, v)]]> ess).
    assert (HPe : concat ess' ≡ₚ (k, v) :: concat ess) by (by apply concat_upd_push).
    assert (HP : concat ess' ++ ovl ≡ₚ (k, v) :: concat ess ++ ovl) by (by rewrite HPe).
    eexists _, _, ess', ovl. split; [done|]. split; [|split; [cbn [go_g go_inc g_set g_set_n gt_b]; lia|]].
    + constructor; cbn [go_g go_ov].
      * assert (gn ess' = u64 (gn ess + 1)) as -> by (symmetry; exact (gr_n _ _ _ _ _ _ _ _ HR')). exact HR'.
      * apply H.
      * rewrite (keys_perm _ _ HP). cbn. apply NoDup_cons. split; [done|apply H].
      * intros k' v' Hin. rewrite HP in Hin. apply elem_of_cons in Hin as [[= -> ->]|Hin]; [done|exact (or_range _ _ _ H _ _ Hin)].
      * cbn [g_set go_inc g_set_n gt_n]. rewrite (Permutation_length HP), (or_n _ _ _ H). cbn [length]. unfold u64. rewrite N.add_mod_idemp_l by done. f_equal. lia.
    + rewrite Hnone. split; [done|]. unfold go_at. cbn [fst snd go_g go_inc g_set g_set_n gt_b]. rewrite (proj2 (N.eqb_neq _ _)) by lia.
      unfold nav_at, ess'. cbn [fst snd]. rewrite list_lookup_insert by (by eapply lookup_lt_Some). cbn.
      rewrite Nat2N.id, lookup_app_r, Nat.sub_diag by done. done.
Qed.

(** *** Erasing, writing, clearing *)
Lemma obucket_at t ess ovl x k v : gorep t ess ovl -> fst x <> 2^gt_b (go_g t) -> go_at t ess x = Some (k, v) ->
  nav_at ess x = Some (k, v) /\ snd x < 255.
Proof.
  intros H Hx He. unfold go_at in He. rewrite (proj2 (N.eqb_neq _ _)) in He by done. split; [done|].
  by destruct (gnav_bucket _ _ _ _ _ _ _ _ _ _ _ (or_g _ _ _ H) He) as (es & _ & _ & ?).
Qed.
Lemma oerase_at t ess ovl x k v : er -> gorep t ess ovl -> go_at t ess x = Some (k, v) ->
  exists t' ess' ovl', go_erase_at pf c t x = Ok (t', 1) /\ gorep t' ess' ovl' /\ concat ess ++ ovl ≡ₚ (k, v) :: concat ess' ++ ovl'.
Proof.
  intros Her H Hx. assert (Hnum : forall A B : entries, A ≡ₚ (k, v) :: B -> gt_n (go_g t) = N.of_nat (length A) mod 2^64 ->
    sub64 (gt_n (go_g t)) 1 = N.of_nat (length B) mod 2^64).
  { intros A B HP ->. rewrite (Permutation_length HP). cbn [length]. etrans; [apply (u64_sub (N.of_nat (S _))); lia|]. unfold u64. f_equal. lia. }
  unfold go_erase_at. rewrite (ocount _ _ _ H). destruct (N.eqb_spec (fst x) (2^gt_b (go_g t))) as [Eb|Eb].
  - assert (Hp : ov_entry pf (go_ov t) (snd x) = Some (k, v)) by (unfold go_at in Hx; by rewrite Eb, N.eqb_refl in Hx).
    assert (Hno : (snd x =? ones64) = false).
    { apply N.eqb_neq. intros E1. rewrite E1 in Hp. pose proof (or_ov _ _ _ H) as Ho. destruct (go_ov t) as [| |nb els full]; [done|..]; cbn in Ho.
      - destruct Ho as (_ & Ha & _). by apply oside_arr.
      - destruct Ho as (_ & (_ & Hnb & _) & _). cbn [ov_entry] in Hp. rewrite (proj2 (N.ltb_ge _ _)) in Hp; [done|].
        unfold ones64. lia. }
    rewrite Hno. destruct (oov_pos _ _ _ _ _ H Hp) as [-> Hin]. cbn [andb].
    destruct (ov_erase_spec pf 64 64 _ _ _ _ _ _ _ _ oside_arr (ond _ _ _ H) (or_ov _ _ _ H) Hp) as (o' & ovl' & -> & Ho' & HP). cbn [mbind res_bind].
    assert (HP' : concat ess ++ ovl ≡ₚ (k, v) :: concat ess ++ ovl') by (rewrite HP; solve_Permutation).
    exists (GOTable (g_set_n (go_g t) (sub64 (gt_n (go_g t)) 1)) o'), ess, ovl'. split; [done|]. split; [|done].
    pose proof (or_nodup _ _ _ H) as Hnd. rewrite (keys_perm _ _ HP') in Hnd. cbn in Hnd. apply NoDup_cons in Hnd as [_ Hnd].
    eapply gorep_ov; [exact H|exact Ho'|exact Hnd| |done|].
    + intros k' v' Hin'. apply (or_range _ _ _ H). rewrite HP'. by right.
    + eapply Hnum; [exact HP'|apply H].
  - destruct (obucket_at _ _ _ _ _ _ H Eb Hx) as [Hn H255]. rewrite andb_false_r.
    assert (Hno : (snd x =? ones64) = false) by (apply N.eqb_neq; unfold ones64; lia). rewrite Hno.
    destruct (gerase_at _ _ _ _ _ _ OK _ _ _ _ _ Her (or_g _ _ _ H) Hn) as (g' & es & He & Ee & Hb' & HR').
    rewrite set_n_erase, Hno in Ee. destruct (g_erase_at pf c (go_g t) x) as [[g1 n1]| | |] eqn:E1; cbn [mbind res_bind fst snd] in *; try done.
    injection Ee as Eg' ->. pose proof (gnav_bucket _ _ _ _ _ _ _ _ _ _ _ (or_g _ _ _ H) Hn) as (es2 & He2 & Hp & _). rewrite He in He2. injection He2 as <-.
    pose proof (concat_upd_delete _ _ _ _ _ He Hp) as HPe. set (ess' := <[N.to_nat (fst x) := delete (N.to_nat (snd x)) es]> ess) in *.
    assert (HP' : concat ess ++ ovl ≡ₚ (k, v) :: concat ess' ++ ovl) by (by rewrite HPe).
    exists (GOTable g1 (go_ov t)), ess', ovl. split; [done|]. split; [|done].
    assert (Hg1 : gt_b g1 = gt_b (go_g t) /\ gt_n g1 = sub64 (gt_n (go_g t)) 1).
    { rewrite <-Eg' in Hb'. cbn [g_set_n gt_b] in Hb'. split; [done|]. destruct x as [bk p]. unfold g_erase_at in E1. cbn [snd] in Hno. rewrite Hno in E1.
      destruct (g_group (go_g t) bk) as [y| | |]; cbn [mbind res_bind] in E1; try done.
      destruct (kv_erase pf y _ _ _ _ _) as [y'| | |]; cbn [mbind res_bind] in E1; try done. by injection E1 as <-. }
    destruct Hg1 as [Hg1 Hn1].
    pose proof (or_nodup _ _ _ H) as Hnd. rewrite (keys_perm _ _ HP') in Hnd. cbn in Hnd. apply NoDup_cons in Hnd as [_ Hnd].
    constructor; cbn [go_g go_ov].
    + rewrite <-Eg' in HR'. assert (gn ess' = sub64 (gn ess) 1) as -> by (symmetry; exact (gr_n _ _ _ _ _ _ _ _ HR')). exact HR'.
    + rewrite Hg1. apply H.
    + exact Hnd.
    + intros k' v' Hin'. apply (or_range _ _ _ H). rewrite HP'. by right.
    + rewrite Hn1. eapply Hnum; [exact HP'|apply H].
Qed.
Lemma oerase_end t bk : go_erase_at pf c t (bk, ones64) = Ok (t, 0).
Proof. done. Qed.
Lemma owrite t ess ovl x k v v' : gorep t ess ovl -> go_at t ess x = Some (k, v) -> v' < 2^vw ->
  exists t' ess' ovl' R, go_write_value pf t x v' = Ok t' /\ gorep t' ess' ovl'
    /\ concat ess ++ ovl ≡ₚ (k, v) :: R /\ concat ess' ++ ovl' ≡ₚ (k, v') :: R.
Proof.
  intros H Hx Hv. assert (Hkd : k < 2^kw) by (apply (or_range _ _ _ H k v); by eapply oat_read).
  assert (Hinv : forall R E, concat ess ++ ovl ≡ₚ (k, v) :: R -> E ≡ₚ (k, v') :: R ->
    NoDup (keys_of E) /\ (forall k v, (k, v) ∈ E -> k < 2^kw /\ v < 2^vw) /\ length E = length (concat ess ++ ovl)).
  { intros R E HP1 HP2. pose proof (or_nodup _ _ _ H) as Hnd. rewrite (keys_perm _ _ HP1) in Hnd. rewrite (keys_perm _ _ HP2). split; [done|].
    split; [|by rewrite (Permutation_length HP1), (Permutation_length HP2)]. intros k2 v2 Hin. rewrite HP2 in Hin.
    apply elem_of_cons in Hin as [[= -> ->]|Hin]; [done|]. apply (or_range _ _ _ H). rewrite HP1. by right. }
  unfold go_write_value. rewrite (ocount _ _ _ H). destruct (N.eqb_spec (fst x) (2^gt_b (go_g t))) as [Eb|Eb].
  - assert (Hp : ov_entry pf (go_ov t) (snd x) = Some (k, v)) by (unfold go_at in Hx; by rewrite Eb, N.eqb_refl in Hx).
    destruct (ov_set_spec pf 64 64 _ _ _ _ _ _ _ _ v' (ond _ _ _ H) (or_ov _ _ _ H) Hp) as (o' & ovl' & R & -> & Ho' & HP1 & HP2 & _). cbn [mbind res_bind].
    change (N.of_nat 64) with 64 in HP2. rewrite N.mod_small in HP2.
    2:{ eapply N.lt_le_trans; [exact Hv|]. apply N.pow_le_mono_r; [done|]. apply (go_vw _ _ _ _ OK). }
    assert (HP1' : concat ess ++ ovl ≡ₚ (k, v) :: concat ess ++ R) by (rewrite HP1; solve_Permutation).
    assert (HP2' : concat ess ++ ovl' ≡ₚ (k, v') :: concat ess ++ R) by (rewrite HP2; solve_Permutation).
    destruct (Hinv _ _ HP1' HP2') as (Hnd & Hr & Hlen).
    eexists _, ess, ovl', (concat ess ++ R). split; [done|]. split; [|done].
    eapply gorep_ov; [exact H|exact Ho'|exact Hnd|exact Hr|symmetry; apply set_n_id|]. rewrite Hlen. apply H.
  - destruct (obucket_at _ _ _ _ _ _ H Eb Hx) as [Hn _].
    destruct (gwrite _ _ _ _ _ _ OK _ _ _ _ _ v' (or_g _ _ _ H) Hn Hv) as (g' & es & He & Ee & Hb' & HR').
    rewrite set_n_write in Ee. destruct (g_write_value pf (go_g t) x v') as [g1| | |] eqn:E1; cbn [mbind res_bind] in *; try done.
    injection Ee as Eg'. pose proof (gnav_bucket _ _ _ _ _ _ _ _ _ _ _ (or_g _ _ _ H) Hn) as (es2 & He2 & Hp & _). rewrite He in He2. injection He2 as <-.
    destruct (concat_upd_set ess _ es _ k v v' He Hp) as (R & HPe1 & HPe2). set (ess' := <[N.to_nat (fst x) := _]> ess) in *.
    assert (HP1' : concat ess ++ ovl ≡ₚ (k, v) :: R ++ ovl) by (by rewrite HPe1).
    assert (HP2' : concat ess' ++ ovl ≡ₚ (k, v') :: R ++ ovl) by (by rewrite HPe2).
    destruct (Hinv _ _ HP1' HP2') as (Hnd & Hr & Hlen).
    assert (Hg1 : gt_b g1 = gt_b (go_g t) /\ gt_n g1 = gt_n (go_g t)).
    { rewrite <-Eg' in Hb'. cbn [g_set_n gt_b] in Hb'. split; [done|]. destruct x as [bk p]. unfold g_write_value in E1.
      destruct (bk =? g_bucket_count (go_g t)); [done|]. destruct (g_group (go_g t) bk) as [y| | |]; cbn [mbind res_bind] in E1; try done.
      destruct (kv_write_value pf y _ _ _ _) as [y'| | |]; cbn [mbind res_bind] in E1; try done. by injection E1 as <-. }
    destruct Hg1 as [Hg1 Hn1].
    eexists (GOTable g1 (go_ov t)), ess', ovl, (R ++ ovl). split; [done|]. split; [|done]. constructor; cbn [go_g go_ov].
    + rewrite <-Eg' in HR'. assert (gn ess' = gn ess) as -> by (symmetry; exact (gr_n _ _ _ _ _ _ _ _ HR')). exact HR'.
    + rewrite Hg1. apply H.
    + exact Hnd.
    + exact Hr.
    + rewrite Hn1, Hlen. apply H.
Qed.
Lemma oclear t ess ovl : gorep t ess ovl -> exists t', go_clear pf t = Ok t' /\ gozero t'.
Proof.
  intros H. unfold go_clear.
  assert (Hg : exists g, g_clear (go_g t) = Ok g /\ gzero kw vw g).
  { pose proof (or_g _ _ _ H) as Hg. unfold g_clear. destruct (gr_groups _ _ _ _ _ _ _ _ Hg) as (gs & Hgs & Hl & _).
    pose proof (ggroup_count _ _ _ _ _ _ OK _ _ _ Hg Hgs Hl) as Hgc. change (g_group_count (g_set_n (go_g t) (gn ess))) with (g_group_count (go_g t)) in Hgc.
    rewrite Hgc. cbn [mbind res_bind]. cbn [g_set_n gt_groups] in Hgs. rewrite Hgs, N.ltb_irrefl. eexists. split; [done|].
    unfold gzero, g_clear_structure. cbn [gt_groups gt_b gt_n gt_kw gt_vw gt_bpg]. split; [exact (gr_kw _ _ _ _ _ _ _ _ Hg)|].
    split; [exact (gr_vw _ _ _ _ _ _ _ _ Hg)|]. split; [done|]. split; [done|]. split; [done|]. exact (gr_bpg _ _ _ _ _ _ _ _ Hg). }
  destruct Hg as (g & -> & Hz). cbn [mbind res_bind].
  destruct (ov_clear_spec pf 64 64 _ _ _ _ _ oside_arr (or_ov _ _ _ H)) as (o' & -> & Ho'). cbn [mbind res_bind]. by exists (GOTable g o').
Qed.
Lemma oclear0 t : gozero t -> exists t', go_clear pf t = Ok t' /\ gozero t'.
Proof.
  intros [Hz Ho]. unfold go_clear. rewrite (gclear0 kw vw _ Hz). cbn [mbind res_bind].
  destruct (ov_clear_zero pf 64 64 _ _ oside_arr Ho) as (o' & -> & Ho'). cbn [mbind res_bind]. by exists (GOTable (go_g t) o').
Qed.
Lemma gozero_new : gozero (go_new pf kind kw vw).
Proof. split; [apply gzero_new|apply oov_new]. Qed.

Lemma ofirst f t : gozero t -> exists t' ess0, gorep t' ess0 [] /\ concat ess0 = []
  /\ forall k v, go_find_or_insert pf c kind (S f) t k v = go_find_or_insert pf c kind (S f) t' k v.
Proof.
  intros [(E1 & E2 & Hb & Hn0 & _ & Hbp) Ho]. destruct (go_init _ _ _ _ OK) as [Hkw3 Hini].
  destruct (oalloc (go_g t) (go_ov t) (N.min (kw - 1) 8)) as (t' & ess0 & Ea & HR & Hc & Hbt); try done.
  { split; [lia|]. etrans; [apply N.le_min_r|done]. }
  exists t', ess0. split; [done|]. split; [done|]. intros k v. cbn [go_find_or_insert]. rewrite Hb, E1. cbn [N.eqb].
  pose proof (ho_kw _ _ _ _ _ Hho). rewrite sub64_small by lia. destruct t as [g o]. cbn [go_g go_ov] in *. rewrite Ea. cbn [mbind res_bind].
  pose proof (ob_range _ _ _ HR). rewrite (proj2 (N.eqb_neq _ _)) by lia. done.
Qed.

(** *** Histories *)
Definition gomap t (m : gmap N N) : Prop := (gozero t /\ m = ∅) \/ exists ess ovl, gorep t ess ovl /\ emap (concat ess ++ ovl) = m.
Context (fuel : nat).
Hypothesis Hfuel : (64 <= fuel)%nat.

Lemma ofuel t ess ovl : gorep t ess ovl -> (N.to_nat (bmax - gt_b (go_g t)) < fuel)%nat.
Proof. intros H. pose proof (obb _ _ _ H). pose proof (zbmax_le _ _ _ _ _ Hho). lia. Qed.
Lemma oinsert t m k v : gomap t m -> k < 2^kw -> v < 2^vw ->
  exists t' x ess ovl, go_find_or_insert pf c kind fuel t k v = Ok (t', x) /\ gorep t' ess ovl /\
    match m !! k with
    | Some v0 => emap (concat ess ++ ovl) = m /\ go_at t' ess x = Some (k, v0)
    | None => emap (concat ess ++ ovl) = <[k := v]> m /\ go_at t' ess x = Some (k, v)
    end.
Proof.
  intros HR Hk Hv.
  assert (Hgo : forall t ess ovl, gorep t ess ovl -> emap (concat ess ++ ovl) = m ->
    exists t' x ess ovl, go_find_or_insert pf c kind fuel t k v = Ok (t', x) /\ gorep t' ess ovl /\
    match m !! k with
    | Some v0 => emap (concat ess ++ ovl) = m /\ go_at t' ess x = Some (k, v0)
    | None => emap (concat ess ++ ovl) = <[k := v]> m /\ go_at t' ess x = Some (k, v)
    end).
  { clear t HR. intros t ess ovl HR Hm.
    destruct (ofoi_spec fuel t ess ovl k v HR (ofuel _ _ _ HR) Hk Hv) as (t' & x & ess' & ovl' & -> & HR' & _ & Hpost).
    rewrite Hm in Hpost. exists t', x, ess', ovl'. split; [done|]. split; [done|]. destruct (m !! k) as [v0|] eqn:Ek.
    - destruct Hpost as (-> & -> & -> & Hx). done.
    - destruct Hpost as [HP Hx]. split; [|done]. rewrite <-Hm. eapply emap_perm_cons; [apply HR|done|].
      apply emap_None. by rewrite Hm. }
  destruct HR as [[Hz ->]|(ess & ovl & HR & Hm)]; [|by eapply Hgo].
  destruct (ofirst (pred fuel) t Hz) as (t1 & ess1 & HR1 & Hc1 & Hf). replace (S (pred fuel)) with fuel in Hf by lia. rewrite Hf.
  eapply Hgo; [exact HR1|]. by rewrite Hc1.
Qed.
Lemma oreserve_map t m n : gomap t m -> 2^bmin / 2 < n -> n <= 2^bmax ->
  exists t', go_reserve pf c kind fuel t n 0 = Ok t' /\ gomap t' m.
Proof.
  intros HR Hlo Hhi.
  assert (Hn : 1 <= n <= 2^63 /\ bmin <= N.log2_up n <= bmax).
  { pose proof (zbmax_le _ _ _ _ _ Hho). pose proof (ho_bmin _ _ _ _ _ Hho).
    pose proof (pow2_le_63 bmax ltac:(lia)). split; [lia|].
    split; [|apply N.log2_up_le_pow2; lia].
    replace bmin with (N.succ (bmin - 1)) in Hlo |- * by lia. apply N.le_succ_l.
    rewrite N.pow_succ_r' in Hlo. rewrite N.mul_comm, N.div_mul in Hlo by done.
    apply N.log2_up_lt_pow2; lia. }
  destruct Hn as [Hn Hb]. unfold go_reserve. destruct HR as [[[Hz Ho] ->]|(ess & ovl & HR & Hm)].
  - destruct Hz as (E1 & E2 & Hb0 & Hn0 & _ & Hbp).
    destruct (oalloc (go_g t) (go_ov t) n) as (t' & ess0 & Ea & HR & Hc & Hbt); try done.
    unfold go_reserve_with. rewrite Hb0. cbn [N.eqb]. destruct t as [g o]. cbn [go_g go_ov] in *. exists t'. split; [done|].
    right. exists ess0, []. split; [done|]. by rewrite Hc.
  - destruct (oreserve _ _ _ n HR Hn Hb) as (tmp & ess0 & E & HR0 & Hc0 & Hb0 & HE & ->).
    destruct (ofold_spec (go_find_or_insert pf c kind fuel) bmin) with (E := E) (tmp := tmp) (ess0 := ess0) (ovl0 := @nil (N * N))
      as (t1 & ess1 & ovl1 & -> & HR1 & Hb1 & HP1); [|done|lia| |intros k2 v2 Hin; rewrite HE in Hin; exact (or_range _ _ _ HR k2 v2 Hin)|].
    { intros t2 ess2 ovl2 k2 v2 HR2 Hb2 Hk2 Hv2. apply ofoi_spec; [done|by eapply ofuel|done|done]. }
    { rewrite Hc0, app_nil_r. rewrite (keys_perm _ _ HE). apply HR. }
    rewrite Hc0, app_nil_r, HE in HP1. exists t1. split; [done|]. right. exists ess1, ovl1. split; [done|].
    rewrite <-Hm. apply emap_perm; [apply HR1|done].
Qed.
Lemma ofind_map t m k : gomap t m -> k < 2^kw -> exists x, go_find pf c t k = Ok x /\
  match m !! k with
  | Some v => exists ess ovl, gorep t ess ovl /\ emap (concat ess ++ ovl) = m /\ go_at t ess x = Some (k, v)
  | None => x = end_nav
  end.
Proof.
  intros [[[(_ & _ & Hb & _) _] ->]|(ess & ovl & HR & Hm)] Hk.
  - unfold go_find. rewrite Hb. by exists end_nav.
  - destruct (ofind _ _ _ _ HR Hk) as (x & -> & Hx). exists x. split; [done|]. rewrite Hm in Hx. destruct (m !! k); [|done]. by exists ess, ovl.
Qed.
Lemma omap_end t m : gomap t m -> on_invalid pf (go_view pf c t) end_nav = Ok true.
Proof.
  intros [[[(_ & _ & Hb & _) Ho] ->]|(ess & ovl & HR & Hm)]; [|by eapply oend].
  unfold on_invalid, on_over. cbn [go_view o_ov]. rewrite (ov_zero_size _ _ _ Ho). cbn [N.ltb N.compare andb].
  unfold vn_invalid, end_nav. cbn [go_view o_view v_count g_view]. unfold g_bucket_count. rewrite Hb. done.
Qed.
Lemma oerase_map t m x k v ess ovl : er -> gorep t ess ovl -> emap (concat ess ++ ovl) = m -> go_at t ess x = Some (k, v) ->
  exists t', go_erase_at pf c t x = Ok (t', 1) /\ gomap t' (delete k m).
Proof.
  intros Her HR Hm Hx. destruct (oerase_at _ _ _ _ _ _ Her HR Hx) as (t' & ess' & ovl' & -> & HR' & HP). exists t'. split; [done|].
  right. exists ess', ovl'. split; [done|]. rewrite <-Hm. eapply emap_delete; [apply HR|done].
Qed.

Lemma go_step t m o : er \/ no_erase o -> gomap t m -> valid_op kw vw bmin bmax o ->
  exists t', go_run_op pf c kind fuel t o = Ok (t', snd (spec_step m o)) /\ gomap t' (fst (spec_step m o)).
Proof.
  intros Her HR Hvalid. pose proof (omap_end _ _ HR) as Hend. pose proof (pow2_pos vw) as Hv0.
  assert (Hsize : go_size t = N.of_nat (size m) mod 2^64).
  { destruct HR as [[[(_ & _ & _ & Hn & _) _] ->]|(ess & ovl & HR & <-)]; [exact Hn|].
    unfold go_size. rewrite (or_n _ _ _ HR), emap_size by apply HR. done. }
  destruct o as [k|k|k v|k|k v|k|k| | |n| |]; cbn [go_run_op valid_op no_erase] in *.
  - destruct (ofind_map t m k HR Hvalid) as (x & -> & Hx). cbn [mbind res_bind spec_step fst snd]. destruct (m !! k) as [v|].
    + destruct Hx as (ess & ovl & HRe & _ & Hx). rewrite (oat_iter _ _ _ _ _ _ HRe Hx). by eexists.
    + subst x. unfold on_iter_at. rewrite Hend. by eexists.
  - destruct (ofind_map t m k HR Hvalid) as (x & -> & Hx). cbn [mbind res_bind spec_step fst snd]. destruct (m !! k) as [v|].
    + destruct Hx as (ess & ovl & HRe & _ & Hx). rewrite (oat_eq _ _ _ _ _ _ HRe Hx). by eexists.
    + subst x. unfold on_eq. rewrite Hend. by eexists.
  - destruct (oinsert t m k v HR) as (t' & x & ess & ovl & -> & HR' & Hx); [apply Hvalid|apply Hvalid|].
    cbn [mbind res_bind spec_step]. destruct (m !! k) as [v0|]; destruct Hx as [Hm Hx]; rewrite (oat_iter _ _ _ _ _ _ HR' Hx);
      cbn [mbind res_bind fst snd]; exists t'; (split; [done|]); right; by exists ess, ovl.
  - destruct (oinsert t m k 0 HR) as (t' & x & ess & ovl & -> & HR' & Hx); [done|done|].
    cbn [mbind res_bind spec_step]. destruct (m !! k) as [v0|]; destruct Hx as [Hm Hx]; destruct (oat_read _ _ _ _ _ _ HR' Hx) as (_ & _ & _ & ->);
      cbn [mbind res_bind fst snd]; exists t'; (split; [done|]); right; by exists ess, ovl.
  - destruct (oinsert t m k 0 HR) as (t' & x & ess & ovl & -> & HR' & Hx); [apply Hvalid|done|].
    cbn [mbind res_bind spec_step fst snd].
    assert (He : exists v0, go_at t' ess x = Some (k, v0) /\ <[k := v]> (emap (concat ess ++ ovl)) = <[k := v]> m).
    { destruct (m !! k) as [v0|].
      - destruct Hx as (Hm & He). exists v0. split; [done|]. by rewrite Hm.
      - destruct Hx as (Hm & He). exists 0. split; [done|]. by rewrite Hm, insert_insert. }
    destruct He as (v0 & He & Em).
    destruct (owrite _ _ _ _ _ _ v HR' He) as (t2 & ess2 & ovl2 & R & -> & HR2 & HP1 & HP2); [apply Hvalid|]. cbn [mbind res_bind].
    exists t2. split; [done|]. right. exists ess2, ovl2. split; [done|]. rewrite <-Em.
    rewrite (emap_perm _ _ (or_nodup _ _ _ HR2) HP2), (emap_perm _ _ (or_nodup _ _ _ HR') HP1), !emap_cons. by rewrite insert_insert.
  - destruct Her as [Her|[]]. cbn [spec_step]. unfold go_erase. destruct HR as [[[(E1 & E2 & Hb & Hrest) Ho] ->]|(ess & ovl & HR & Hm)].
    + rewrite Hb. cbn [N.eqb mbind res_bind]. rewrite lookup_empty. cbn [fst snd]. exists t. split; [done|]. left. done.
    + pose proof (ob_range _ _ _ HR). rewrite (proj2 (N.eqb_neq _ _)) by lia.
      destruct (olocate _ _ _ _ HR Hvalid) as (bk & pos & -> & Hx). cbn [mbind res_bind]. rewrite Hm in Hx. destruct (m !! k) as [v|].
      * destruct Hx as (p & -> & Hx). destruct (oerase_map _ _ _ _ _ _ _ Her HR Hm Hx) as (t' & -> & Hm'). cbn [mbind res_bind fst snd]. by exists t'.
      * subst pos. rewrite oerase_end. cbn [mbind res_bind fst snd]. exists t. split; [done|]. right. by exists ess, ovl.
  - destruct Her as [Her|[]]. cbn [spec_step]. destruct (ofind_map t m k HR Hvalid) as (x & -> & Hx). cbn [mbind res_bind]. destruct (m !! k) as [v|].
    + destruct Hx as (ess & ovl & HRe & Hm & Hx). destruct (oerase_map _ _ _ _ _ _ _ Her HRe Hm Hx) as (t' & -> & Hm'). cbn [mbind res_bind fst snd]. by exists t'.
    + subst x. unfold end_nav. rewrite oerase_end. cbn [mbind res_bind fst snd]. by exists t.
  - exists t. cbn [spec_step fst snd]. by rewrite Hsize.
  - exists t. cbn [spec_step fst snd]. by rewrite Hsize.
  - destruct (oreserve_map t m n HR) as (t' & -> & Hm'); [apply Hvalid|apply Hvalid|]. cbn [mbind res_bind spec_step fst snd]. by exists t'.
  - by exists t.
  - assert (Hc : exists t', go_clear pf t = Ok t' /\ gozero t').
    { destruct HR as [[Hz ->]|(ess & ovl & HR & Hm)]; [by apply oclear0|by eapply oclear]. }
    destruct Hc as (t' & -> & Hz). cbn [mbind res_bind spec_step fst snd]. exists t'. split; [done|]. by left.
Qed.
Lemma go_run : forall ops t m, er \/ Forall no_erase ops -> gomap t m -> valid_ops kw vw bmin bmax ops ->
  exists t', go_run_ops pf c kind fuel t ops = Ok (t', snd (spec_run m ops)) /\ gomap t' (fst (spec_run m ops)).
Proof.
  induction ops as [|o ops IH]; intros t m Her HR Hv.
  { by exists t. }
  assert (Her' : (er \/ no_erase o) /\ (er \/ Forall no_erase ops)) by (destruct Her as [?|[? ?]%Forall_cons]; tauto). destruct Her' as [Her1 Her2].
  apply Forall_cons in Hv as [Ho Hv]. cbn [go_run_ops spec_run].
  destruct (go_step t m o Her1 HR Ho) as (t1 & -> & HR1). cbn [mbind res_bind].
  destruct (IH t1 _ Her2 HR1 Hv) as (t2 & -> & HR2). cbn [mbind res_bind].
  exists t2. destruct (spec_step m o) as [m1 s1]. cbn [fst snd] in *. destruct (spec_run m1 ops) as [m2 ss]. done.
Qed.
End ov.
