(** C128: deleting while iterating forwards. *)
From Verif Require Import TableInv TableReach PropTable PropSerial NavModel NavProofs Chain NavStep MapDrainFwd CompactProofs GroupTable GroupHist GroupSerial MapProofs PropCompact PropGroup PropNavEq PropErasePast.

(** Specification: the first, third, ... and the second, fourth, ... element of a list. *)
Fixpoint evens {A} (l : list A) : list A := match l with x :: l' => x :: match l' with _ :: l'' => evens l'' | [] => [] end | [] => [] end.
Fixpoint odds {A} (l : list A) : list A := match l with _ :: l' => match l' with y :: l'' => y :: odds l'' | [] => [] end | [] => [] end.
Lemma evens_odds_perm {A} (l : list A) : evens l ++ odds l ≡ₚ l.
Proof.
  assert (H : forall n (l : list A), (length l <= n)%nat -> evens l ++ odds l ≡ₚ l); [|by eapply H].
  induction n as [|n IH]; intros [|x [|y l']] Hn; cbn [evens odds app] in *; try done; [cbn in Hn; lia|].
  f_equiv. rewrite <-Permutation_middle. f_equiv. apply IH. cbn in Hn. lia.
Qed.
Lemma evens_odds_concat {A} (ls : list (list A)) : concat (map evens ls) ++ concat (map odds ls) ≡ₚ concat ls.
Proof.
  induction ls as [|l ls IH]; [done|]. cbn [map concat].
  transitivity ((evens l ++ odds l) ++ concat (map evens ls) ++ concat (map odds ls)); [solve_Permutation|]. by rewrite evens_odds_perm, IH.
Qed.

Section chain.
Context {T : Type} (I : mapimpl T) (kw vw bmin bmax : N) (okey : N -> N -> Prop) (bits : T -> N) (hb : N -> N -> N) (Rep : T -> list entries -> Prop)
  (Zero : T -> Prop) (full : T -> list entries -> N -> bool)
  (foi : nat -> T -> N -> N -> res (T * nav)) (resv : (T -> N -> N -> res (T * nav)) -> T -> N -> res T) (fuel : nat).
Hypothesis C : chain_ok I kw vw bmin bmax okey bits hb Rep Zero full foi resv fuel.

Lemma m_erase_end t b ess f bk p : shows okey (i_view I t) b ess -> 2^b <= bk -> m_erase_from I f t (bk, p) = Ok (t, []).
Proof. intros H Hb. destruct f; cbn [m_erase_from]; by rewrite (vn_eq_end_past _ _ _ _ H _ _ Hb). Qed.

Lemma m_erase_spec : forall f t ess bk p es, Rep t ess -> ess !! N.to_nat bk = Some es -> (N.to_nat p < length es)%nat ->
  (length (drop (N.to_nat p) es ++ concat (drop (S (N.to_nat bk)) ess)) <= f)%nat ->
  exists t' ess' l', m_erase_from I f t (bk, p) = Ok (t', l')
    /\ Forall2 (oent okey) l' (evens (drop (N.to_nat p) es) ++ concat (map evens (drop (S (N.to_nat bk)) ess)))
    /\ Rep t' ess' /\ length ess' = length ess
    /\ (forall i, (i < N.to_nat bk)%nat -> ess' !! i = ess !! i)
    /\ ess' !! N.to_nat bk = Some (take (N.to_nat p) es ++ odds (drop (N.to_nat p) es))
    /\ (forall i, (N.to_nat bk < i)%nat -> ess' !! i = odds <$> ess !! i).
Proof.
  induction f as [|f IH]; intros t ess bk p es HR He Hp Hf.
  { exfalso. rewrite app_length, drop_length in Hf. lia. }
  pose proof (ch_shows _ _ _ _ _ _ _ _ _ _ _ _ _ _ C _ _ HR) as Hsh.
  destruct (lookup_lt_is_Some_2 es (N.to_nat p) Hp) as ([k v] & Hep).
  pose proof (nav_at_intro _ _ _ _ _ He Hep) as Hne.
  destruct (vn_read_at _ _ _ _ Hsh _ _ Hne) as (a & Hrd & Ha).
  cbn [m_erase_from]. rewrite (vn_eq_end_at _ _ _ _ Hsh _ _ Hne). cbn [mbind res_bind]. rewrite Hrd. cbn [mbind res_bind].
  destruct (ch_erase_at _ _ _ _ _ _ _ _ _ _ _ _ _ _ C _ _ _ _ _ HR Hne) as (t1 & es0 & He0 & -> & _ & HR1). cbn [fst snd] in He0, HR1.
  rewrite He in He0. injection He0 as <-. cbn [mbind res_bind].
  rewrite (drop_S _ _ _ Hep) in *. set (rest := drop (S (N.to_nat p)) es) in *.
  assert (Hd : delete (N.to_nat p) es = take (N.to_nat p) es ++ rest) by apply delete_take_drop.
  rewrite Hd in HR1. set (es1 := take (N.to_nat p) es ++ rest) in *. set (ess1 := <[N.to_nat bk := es1]> ess) in *.
  pose proof (ch_shows _ _ _ _ _ _ _ _ _ _ _ _ _ _ C _ _ HR1) as Hsh1.
  assert (Htl : length (take (N.to_nat p) es) = N.to_nat p) by (rewrite take_length; lia).
  assert (Hlen1 : length es1 = (N.to_nat p + length rest)%nat) by (unfold es1; rewrite app_length; lia).
  assert (He1 : ess1 !! N.to_nat bk = Some es1) by (apply list_lookup_insert; by eapply lookup_lt_Some).
  assert (Hdr : drop (S (N.to_nat bk)) ess1 = drop (S (N.to_nat bk)) ess) by (unfold ess1; by rewrite drop_insert_gt by lia).
  assert (Hl1 : length ess1 = length ess) by apply insert_length.
  assert (Hoth : forall i, i <> N.to_nat bk -> ess1 !! i = ess !! i) by (intros i Hi; by apply list_lookup_insert_ne).
  destruct (sh_size _ _ _ _ Hsh1 _ _ He1) as [Hbs H255].
  pose proof (sh_len _ _ _ _ Hsh1) as Hlen. pose proof (sh_count _ _ _ _ Hsh1) as Hbc.
  assert (Hlt : bk < 2^bits t1) by (apply lookup_lt_Some in He1; lia).
  unfold vn_next. rewrite Hbs. cbn [mbind res_bind].
  assert (Hp64 : p + 1 < 2^64). { destruct (sh_size _ _ _ _ Hsh _ _ He) as [_ H255']. change (2^64) with 18446744073709551616. lia. }
  rewrite u64_small by done. cbn [app length] in Hf.
  destruct (N.leb_spec (N.of_nat (length es1)) (p + 1)) as [Hle|Hgt].
  - assert (Ho : odds ((k, v) :: rest) = rest /\ evens ((k, v) :: rest) = [(k, v)]).
    { destruct rest as [|y [|z rest']]; [done|done|]. cbn [length] in Hlen1. lia. }
    destruct Ho as [-> ->].
    destruct (vnext_scan_spec _ _ _ _ Hsh1 (N.to_nat (v_count (i_view I t1))) bk Hlt) as (r & -> & Hr & Hempty & Hner); [rewrite Hbc; lia|].
    cbn [mbind res_bind]. rewrite <-Hdr.
    assert (Hskip : forall i, (N.to_nat bk < i < N.to_nat r)%nat -> ess !! i = odds <$> ess !! i).
    { intros i Hi. destruct (ess !! i) as [es2|] eqn:E2; [|done]. rewrite (Hempty i es2); [done|done|]. by rewrite Hoth by lia. }
    assert (Hev : concat (map evens (drop (S (N.to_nat bk)) ess1)) = concat (map evens (drop (N.to_nat r) ess1))).
    { rewrite <-!skipn_map. apply concat_drop_skip; [lia|]. intros i es2 Hi. rewrite list_lookup_fmap. destruct (ess1 !! i) as [es3|] eqn:E3; [|done].
      intros [= <-]. by rewrite (Hempty i es3) by (done || lia). }
    rewrite Hev.
    destruct (decide (r = 2^bits t1)) as [Er|Hnr].
    + rewrite (drop_ge ess1) by lia. rewrite (m_erase_end _ _ _ _ _ _ Hsh1) by lia. cbn [mbind res_bind].
      exists t1, ess1, [a]. split; [done|]. split; [apply List.Forall2_cons; [done|apply List.Forall2_nil]|].
      split; [done|]. split; [done|]. split; [intros i Hi; apply Hoth; lia|]. split; [done|].
      intros i Hi. rewrite Hoth by lia. destruct (decide (i < N.to_nat r)%nat); [apply Hskip; lia|]. by rewrite lookup_ge_None_2 by lia.
    + destruct Hner as (es2 & He2 & Hne2); [lia|].
      assert (Hc2 : concat (drop (S (N.to_nat bk)) ess1) = es2 ++ concat (drop (S (N.to_nat r)) ess1)).
      { rewrite (concat_drop_skip ess1 _ (N.to_nat r)); [by rewrite (drop_S _ _ _ He2)|lia|intros i es3 Hi; apply Hempty; lia]. }
      destruct (IH t1 ess1 r 0 es2 HR1 He2) as (t' & ess' & l' & -> & HF & HR' & Hl' & Hlo & Hat & Hhi).
      { destruct es2; [done|cbn; lia]. }
      { change (drop (N.to_nat 0) es2) with es2. rewrite <-Hc2, Hdr. rewrite app_length in Hf. lia. }
      change (drop (N.to_nat 0) es2) with es2 in *. change (take (N.to_nat 0) es2) with (@nil (N * N)) in *.
      cbn [mbind res_bind]. exists t', ess', (a :: l'). split; [done|].
      rewrite (drop_S _ _ _ He2). cbn [map concat app].
      split; [by apply List.Forall2_cons|]. split; [done|]. split; [lia|].
      split; [intros i Hi; rewrite Hlo, Hoth by lia; done|]. split; [rewrite Hlo by lia; done|].
      intros i Hi. destruct (decide (i < N.to_nat r)%nat); [rewrite Hlo, Hoth by lia; apply Hskip; lia|].
      destruct (decide (i = N.to_nat r)) as [->|]; [rewrite Hat; rewrite <-Hoth by lia; by rewrite He2|]. rewrite Hhi, Hoth by lia. done.
  - destruct rest as [|y [|z rest']] eqn:Erest; [cbn [length] in Hlen1; lia|cbn [length] in Hlen1; lia|].
    assert (Hs1 : S (N.to_nat p) = N.to_nat (p + 1)) by lia.
    assert (Hd1 : drop (N.to_nat (p + 1)) es1 = z :: rest').
    { unfold es1. rewrite <-Hs1. rewrite drop_app_ge by lia. rewrite Htl. by replace (S (N.to_nat p) - N.to_nat p)%nat with 1%nat by lia. }
    assert (Ht1 : take (N.to_nat (p + 1)) es1 = take (N.to_nat p) es ++ [y]).
    { unfold es1. rewrite <-Hs1. rewrite take_app_ge by lia. rewrite Htl. by replace (S (N.to_nat p) - N.to_nat p)%nat with 1%nat by lia. }
    cbn [mbind res_bind].
    destruct (IH t1 ess1 bk (p + 1) es1 HR1 He1) as (t' & ess' & l' & -> & HF & HR' & Hl' & Hlo & Hat & Hhi).
    { lia. } { rewrite Hd1, Hdr. rewrite app_length in *. cbn [length] in *. lia. }
    rewrite Hd1, Hdr in HF. rewrite Ht1, Hd1 in Hat.
    cbn [mbind res_bind]. exists t', ess', (a :: l'). split; [done|].
    split; [cbn [evens app]; by apply List.Forall2_cons|]. split; [done|]. split; [lia|].
    split; [intros i Hi; rewrite Hlo, Hoth by lia; done|]. split; [rewrite Hat, <-app_assoc; done|].
    intros i Hi. rewrite Hhi, Hoth by lia. done.
Qed.

(** From the first element of the first bucket with elements on. *)
Lemma m_erase_first t ess r es f : Rep t ess -> ess !! N.to_nat r = Some es -> es <> [] ->
  (forall i es, (i < N.to_nat r)%nat -> ess !! i = Some es -> es = []) -> (length (concat ess) <= f)%nat ->
  exists t' l, m_erase_from I f t (r, 0) = Ok (t', l) /\ Forall2 (oent okey) l (concat (map evens ess)) /\ Rep t' (map odds ess).
Proof.
  intros HR He Hne Hempty Hf.
  assert (E : concat ess = es ++ concat (drop (S (N.to_nat r)) ess)).
  { etrans; [exact (concat_drop_skip ess 0 (N.to_nat r) ltac:(lia) ltac:(intros i es' Hi; apply Hempty; lia))|]. by rewrite (drop_S _ _ _ He). }
  assert (Ev : concat (map evens ess) = evens es ++ concat (map evens (drop (S (N.to_nat r)) ess))).
  { etrans; [apply (concat_drop_skip (map evens ess) 0 (N.to_nat r)); [lia|]|].
    - intros i es2 Hi. rewrite list_lookup_fmap. destruct (ess !! i) as [es3|] eqn:E3; [|done]. intros [= <-]. by rewrite (Hempty i es3) by (done || lia).
    - rewrite skipn_map, (drop_S _ _ _ He). done. }
  destruct (m_erase_spec f t ess r 0 es HR He) as (t' & ess' & l & -> & HF & HR' & Hl' & Hlo & Hat & Hhi).
  { destruct es; [done|cbn; lia]. } { change (drop (N.to_nat 0) es) with es. by rewrite <-E. }
  exists t', l. split; [done|]. split; [by rewrite Ev|].
  replace (map odds ess) with ess'; [done|]. apply list_eq. intros i. rewrite list_lookup_fmap.
  destruct (decide (i < N.to_nat r)%nat).
  - rewrite Hlo by done. destruct (ess !! i) as [es2|] eqn:E2; [|done]. by rewrite (Hempty i es2) by done.
  - destruct (decide (i = N.to_nat r)) as [->|]; [rewrite Hat, He; done|]. by rewrite Hhi by lia.
Qed.
End chain.

(** ** group_chaining_table: in each bucket every second element is skipped, because erase moves the next one to the position of the erased one. *)
Theorem C128_group_exact : forall pf c kw vw bmin t m f, g_reached pf c kw vw bmin t m -> (size m <= f)%nat ->
  exists bs t', N.of_nat (length bs) = g_bucket_count t
    /\ (forall i b, bs !! i = Some b -> g_bucket_size t (N.of_nat i) = Ok (N.of_nat (length b)))
    /\ g_forward pf c f t = Ok (concat bs) /\ concat bs ≡ₚ map_to_list m
    /\ g_erase_forward pf c f t = Ok (t', concat (map evens bs)) /\ g_forward pf c f t' = Ok (concat (map odds bs))
    /\ forall fuel ops, (64 <= fuel)%nat -> valid_ops kw vw bmin (zbmax (gc_hash c) kw) ops ->
         exists t2, m_run_ops (g_impl pf c fuel) t' ops = Ok (t2, snd (spec_run (list_to_map (concat (map odds bs))) ops)).
Proof.
  intros pf c kw vw bmin t m f (OK & HR)%g_reached_rep Hf.
  pose proof (group_chain True pf c kw vw bmin OK 64 I (Nat.le_refl _)) as C64.
  assert (Hrun : forall t' m', gmrep pf c kw vw bmin True t' m' -> forall fuel ops, (64 <= fuel)%nat -> valid_ops kw vw bmin (zbmax (gc_hash c) kw) ops ->
         exists t2, m_run_ops (g_impl pf c fuel) t' ops = Ok (t2, snd (spec_run m' ops))).
  { intros t' m' HR' fuel ops Hfu Hv. destruct (group_run pf c kw vw bmin OK True fuel ops t' m' Hfu HR' Hv) as (t2 & E2 & _); [by left|]. by exists t2. }
  pose proof HR as HR0. destruct HR as [[Hz ->]|(ess & H & <-)].
  - exists [], t. pose proof (ch_shows0 _ _ _ _ _ _ _ _ _ _ _ _ _ _ C64 t Hz) as H0. cbn [g_impl i_view g_view v_count] in H0.
    split; [by rewrite H0|]. split; [by intros i b|]. rewrite (gforward0 _ _ _ _ _ _ Hz).
    split; [done|]. split; [by rewrite map_to_list_empty|]. split; [|split; [done|by apply Hrun]].
    unfold g_erase_forward. destruct Hz as (_ & _ & Hb & _ & Hg & _). unfold g_begin, g_group_count. rewrite Hg. cbn [mbind res_bind default length N.of_nat N.ltb].
    assert (Ee : vn_eq (g_view pf c t) end_nav end_nav = Ok true).
    { unfold vn_eq, vn_invalid, end_nav. cbn [g_view v_count]. unfold g_bucket_count. by rewrite Hb. }
    cbn. destruct f; cbn [m_erase_from g_impl i_view]; by rewrite Ee.
  - pose proof (gshows _ _ _ _ _ _ OK _ _ H) as Hsh. rewrite emap_size in Hf by apply H.
    assert (Hex : exists t', g_erase_forward pf c f t = Ok (t', concat (map evens ess)) /\ GroupTable.grep True pf c kw vw bmin t' (map odds ess)).
    { unfold g_erase_forward. destruct (GroupSerial.begin_spec _ _ _ _ _ _ OK _ _ H) as [(r & es & -> & He & Hne & Hemp)|[-> Hc]]; cbn [mbind res_bind].
      - destruct (m_erase_first _ _ _ _ _ _ _ _ _ _ _ _ _ _ C64 t ess r es f H He Hne Hemp Hf) as (t' & l & -> & HF & HR'). apply oent_eq in HF as ->. by exists t'.
      - exists t. assert (Hnil : forall i es, ess !! i = Some es -> es = []).
        { intros i [|e es] He; [done|]. exfalso. assert (Hin : e ∈ concat ess) by (apply elem_of_concat; eexists _, _; split; [done|]; by left).
          rewrite Hc in Hin. by apply elem_of_nil in Hin. }
        assert (map odds ess = ess /\ map evens ess = ess) as [-> ->].
        { split; apply list_eq; intros i; rewrite list_lookup_fmap; destruct (ess !! i) as [es|] eqn:E; try done; by rewrite (Hnil _ _ E). }
        rewrite Hc. split; [|done]. apply (m_erase_end (g_impl pf c 64) eq t (gt_b t) ess f _ _ Hsh). pose proof (sh_pow _ _ _ _ Hsh). assert (2^63 <= ones64) by done. lia. }
    destruct Hex as (t' & E & H'). exists ess, t'. split; [by rewrite (sh_len _ _ _ _ Hsh), <-(sh_count _ _ _ _ Hsh)|].
    split; [intros i b Hb; apply (sh_size _ _ _ _ Hsh); by rewrite Nat2N.id|].
    split; [by eapply gforward|]. split; [symmetry; apply map_to_list_to_map, H|]. split; [done|].
    assert (Hlen : (length (concat (map odds ess)) <= f)%nat).
    { pose proof (Permutation_length (evens_odds_concat ess)) as HP. rewrite app_length in HP. lia. }
    split; [by eapply gforward|]. apply Hrun. right. by exists (map odds ess).
Qed.
Print Assumptions C128_group_exact.
(** So a bucket of two or more elements is never emptied. *)
Theorem C128_group_refuted : forall pf c kw vw bmin t m f i n, g_reached pf c kw vw bmin t m -> (size m <= f)%nat ->
  i < g_bucket_count t -> g_bucket_size t i = Ok n -> 2 <= n ->
  exists t' l l', g_erase_forward pf c f t = Ok (t', l) /\ g_forward pf c f t' = Ok l' /\ l' <> [] /\ l ++ l' ≡ₚ map_to_list m.
Proof.
  intros pf c kw vw bmin t m f i n Hr Hf Hi Hs Hn. destruct (C128_group_exact _ _ _ _ _ _ _ _ Hr Hf) as (bs & t' & Hl & Hsz & _ & HP & E1 & E2 & _).
  exists t', (concat (map evens bs)), (concat (map odds bs)). split; [done|]. split; [done|]. split; [|by rewrite evens_odds_concat].
  destruct (lookup_lt_is_Some_2 bs (N.to_nat i) ltac:(lia)) as (b & Hb). specialize (Hsz _ _ Hb). rewrite N2Nat.id, Hs in Hsz. injection Hsz as ->.
  destruct b as [|x [|y b]]; cbn [length] in Hn; [lia|lia|]. intros Ec.
  assert (Hin : y ∈ concat (map odds bs)).
  { apply elem_of_concat. exists (N.to_nat i), (y :: odds b). split; [rewrite list_lookup_fmap, Hb; done|by left]. }
  rewrite Ec in Hin. by apply elem_of_nil in Hin.
Qed.
Print Assumptions C128_group_refuted.

(** ** compact_chaining_map, when the quotients fit into the storage (C59) *)
Theorem C128_compact_exact : forall pf c kw vw bmin fuel t m f, compact_ok pf c kw vw bmin -> quotients_fit c kw bmin -> (64 <= fuel)%nat ->
  c_after pf c kw vw bmin fuel t m -> m <> ∅ -> (size m <= f)%nat ->
  exists bs t', N.of_nat (length bs) = c_bucket_count t
    /\ (forall i b, bs !! i = Some b -> c_bucket_size t (N.of_nat i) = Ok (N.of_nat (length b)))
    /\ c_forward pf c f t = Ok (concat bs) /\ concat bs ≡ₚ map_to_list m
    /\ c_erase_forward pf c f t = Ok (t', concat (map evens bs)) /\ c_forward pf c f t' = Ok (concat (map odds bs))
    /\ forall ops, valid_ops kw vw bmin (zbmax (cc_hash c) kw) ops ->
         exists t2, m_run_ops (c_impl pf c fuel) t' ops = Ok (t2, snd (spec_run (list_to_map (concat (map odds bs))) ops)).
Proof.
  intros pf c kw vw bmin fuel t m f OK Hfit Hfu Ha Hm Hf.
  pose proof (c_after_rep _ _ _ _ _ _ _ _ OK Hfu Ha) as [[_ ->]|(ess & H & <-)]; [done|].
  pose proof (compact_chain pf c kw vw bmin OK fuel Hfu) as C. pose proof (compact_chain pf c kw vw bmin OK 64 (Nat.le_refl _)) as C64.
  pose proof (cshows pf c kw vw bmin OK t ess H) as Hsh. rewrite emap_size in Hf by (by eapply cr_nodup).
  assert (Hex : exists t', c_erase_forward pf c f t = Ok (t', concat (map evens ess)) /\ crep c kw vw bmin t' (map odds ess)).
  { unfold c_erase_forward, v_begin. rewrite (sh_count _ _ _ _ Hsh). pose proof (sh_len _ _ _ _ Hsh) as Hlen.
    destruct (v_begin_scan_spec _ _ _ _ Hsh (N.to_nat (2^cm_b t)) 0) as [(r & es & -> & Hr & He & Hne & Hemp)|[_ Hc]]; [lia|..]; cbn [mbind res_bind].
    - destruct (m_erase_first _ _ _ _ _ _ _ _ _ _ _ _ _ _ C64 t ess r es f H He Hne) as (t' & l & -> & HF & HR'); [intros i es' Hi; apply Hemp; lia|done|].
      rewrite cokey_fit in HF by done. apply oent_eq in HF as ->. by exists t'.
    - change (concat ess = []) in Hc. by rewrite Hc in Hm. }
  destruct Hex as (t' & E & H'). pose proof (cshows pf c kw vw bmin OK t' _ H') as Hsh'.
  assert (Hfw : forall t ess, shows (cokey c kw bmin) (c_view pf c t) (cm_b t) ess -> (length (concat ess) <= f)%nat -> c_forward pf c f t = Ok (concat ess)).
  { intros t0 ess0 Hs Hl. destruct (v_forward_spec _ _ _ _ Hs f Hl) as (l & El & HF). rewrite cokey_fit in HF by done. apply oent_eq in HF as ->. exact El. }
  exists ess, t'. split; [by rewrite (sh_len _ _ _ _ Hsh), <-(sh_count _ _ _ _ Hsh)|].
  split; [intros i b Hb; apply (sh_size _ _ _ _ Hsh); by rewrite Nat2N.id|].
  split; [by apply Hfw|]. split; [symmetry; apply map_to_list_to_map; by eapply cr_nodup|]. split; [done|].
  split. { apply Hfw; [done|]. pose proof (Permutation_length (evens_odds_concat ess)) as HP. rewrite app_length in HP. lia. }
  intros ops Hv. destruct (m_run_rep _ _ _ _ _ _ _ _ _ _ _ _ _ _ C ops t' (emap (concat (map odds ess)))) as (t2 & rs & E2 & Hr & _); [right; by exists (map odds ess)|done|].
  rewrite cokey_fit in Hr by done. apply oout_eq in Hr as ->. by exists t2.
Qed.
Print Assumptions C128_compact_exact.
Theorem C128_compact_refuted : forall pf c kw vw bmin fuel t m f i n, compact_ok pf c kw vw bmin -> quotients_fit c kw bmin -> (64 <= fuel)%nat ->
  c_after pf c kw vw bmin fuel t m -> m <> ∅ -> (size m <= f)%nat -> i < c_bucket_count t -> c_bucket_size t i = Ok n -> 2 <= n ->
  exists t' l l', c_erase_forward pf c f t = Ok (t', l) /\ c_forward pf c f t' = Ok l' /\ l' <> [] /\ l ++ l' ≡ₚ map_to_list m.
Proof.
  intros pf c kw vw bmin fuel t m f i n OK Hfit Hfu Ha Hm Hf Hi Hs Hn.
  destruct (C128_compact_exact _ _ _ _ _ _ _ _ _ OK Hfit Hfu Ha Hm Hf) as (bs & t' & Hl & Hsz & _ & HP & E1 & E2 & _).
  exists t', (concat (map evens bs)), (concat (map odds bs)). split; [done|]. split; [done|]. split; [|by rewrite evens_odds_concat].
  destruct (lookup_lt_is_Some_2 bs (N.to_nat i) ltac:(lia)) as (b & Hb). specialize (Hsz _ _ Hb). rewrite N2Nat.id, Hs in Hsz. injection Hsz as ->.
  destruct b as [|x [|y b]]; cbn [length] in Hn; [lia|lia|]. intros Ec.
  assert (Hin : y ∈ concat (map odds bs)).
  { apply elem_of_concat. exists (N.to_nat i), (y :: odds b). split; [rewrite list_lookup_fmap, Hb; done|by left]. }
  rewrite Ec in Hin. by apply elem_of_nil in Hin.
Qed.
Print Assumptions C128_compact_refuted.

(** Cases: three elements in one bucket *)
Example C128_group_case : g_reached strict_pf ex_gx 20 9 1 (ex_past [5; 13; 21]) (fst (spec_run ∅ (map (fun k => OpInsert k 1) [5; 13; 21])))
  /\ map (fun i => g_bucket_size (ex_past [5; 13; 21]) i) [0; 1; 2; 3; 4; 5; 6; 7] = map Ok [0; 0; 0; 0; 0; 0; 3; 0]
  /\ match g_erase_forward strict_pf ex_gx 3 (ex_past [5; 13; 21]) with
     | Ok (t', l) => l = [(5, 1); (21, 1)] /\ g_forward strict_pf ex_gx 3 t' = Ok [(13, 1)]
     | _ => False end.
Proof.
  split; [apply ex_past_reached; repeat (apply List.Forall_cons; [done|]); apply List.Forall_nil|]. vm_compute. repeat split.
Qed.
Definition ex_fwd_ops : list op := [OpInsert 5 7; OpInsert 21 8; OpInsert 37 9; OpInsert 6 1].
Definition ex_fwd_c : cmap := match m_run_ops (c_impl loose_pf ex_c64 64) (c_new 20 9) ex_fwd_ops with Ok (t, _) => t | _ => c_new 20 9 end.
Example C128_compact_case : compact_ok loose_pf ex_c64 20 9 1 /\ quotients_fit ex_c64 20 1
  /\ c_after loose_pf ex_c64 20 9 1 64 ex_fwd_c (fst (spec_run ∅ ex_fwd_ops)) /\ size (fst (spec_run ∅ ex_fwd_ops)) = 4%nat
  /\ c_bucket_size ex_fwd_c 6 = Ok 3 /\ c_bucket_count ex_fwd_c = 16
  /\ match c_erase_forward loose_pf ex_c64 4 ex_fwd_c with
     | Ok (t', l) => l = [(6, 1); (5, 7); (37, 9)] /\ c_forward loose_pf ex_c64 4 t' = Ok [(21, 8)]
     | _ => False end.
Proof.
  split; [exact ex_c64_ok|]. split; [by vm_compute|]. split.
  - exists ex_fwd_ops. eexists. split; [repeat (apply List.Forall_cons; [by split|]); apply List.Forall_nil|]. split; [vm_compute; reflexivity|done].
  - vm_compute. repeat split.
Qed.
