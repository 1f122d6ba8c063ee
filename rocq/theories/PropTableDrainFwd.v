(** C128 for separate_chaining_table. *)
From Verif Require Import PropMapDrainFwd TableDrainFwd TableInv TableOps TableIter TableReach PropTable.

Section iter.
Context (pf : platform) (c : cfg) (kw vw bmin bmax : N) (strict : Prop).
Notation tinv := (tinv pf c kw vw bmin bmax strict).
Hypothesis OK : table_ok0 pf c kw vw bmin bmax.

Lemma erase_forward_end t sl ess f bk p : tinv t sl ess [] -> 2^(t_b t) <= bk -> erase_forward_from pf c f t (bk, p) = Ok (t, []).
Proof. intros H Hb. destruct f; cbn [erase_forward_from]; by rewrite (nav_eq_invalid _ _ _ _ _ _ _ OK _ _ _ _ _ H) by done. Qed.

Lemma erase_forward_spec : forall f t sl ess bk p es, tinv t sl ess [] -> ess !! N.to_nat bk = Some es -> (N.to_nat p < length es)%nat ->
  (length (drop (N.to_nat p) es ++ concat (drop (S (N.to_nat bk)) ess)) <= f)%nat ->
  exists t' sl' ess', erase_forward_from pf c f t (bk, p)
      = Ok (t', evens (drop (N.to_nat p) es) ++ concat (map evens (drop (S (N.to_nat bk)) ess)))
    /\ tinv t' sl' ess' [] /\ length ess' = length ess
    /\ (forall i, (i < N.to_nat bk)%nat -> ess' !! i = ess !! i)
    /\ ess' !! N.to_nat bk = Some (take (N.to_nat p) es ++ odds (drop (N.to_nat p) es))
    /\ (forall i, (N.to_nat bk < i)%nat -> ess' !! i = odds <$> ess !! i).
Proof.
  induction f as [|f IH]; intros t sl ess bk p es HR He Hp Hf.
  { exfalso. rewrite app_length, drop_length in Hf. lia. }
  destruct (lookup_lt_is_Some_2 es (N.to_nat p) Hp) as ([k v] & Hep).
  destruct (bucket_size_spec _ _ _ _ _ _ _ OK _ _ _ _ _ _ HR He) as (Hlt0 & _ & H255').
  assert (Hne : nav_entry pf t ess (bk, p) = Some (k, v)) by (by eapply nav_entry_bucket).
  destruct (nav_eq_valid _ _ _ _ _ _ _ OK _ _ _ _ _ _ HR Hne) as [Heq Hrd].
  cbn [erase_forward_from]. rewrite Heq. cbn [mbind res_bind]. rewrite Hrd. cbn [mbind res_bind].
  destruct (erase_at_spec pf c kw vw bmin bmax strict OK _ _ _ _ (bk, p) _ _ (fun Hx => False_ind _ (N.lt_neq _ _ Hlt0 Hx)) HR Hne) as (t1 & sl1 & ess1' & ovl1 & -> & HR1 & Hb1 & _ & Hx).
  cbn [mbind res_bind]. destruct (Hx Hlt0) as (es0 & He0 & Hess1 & ->). cbn [fst snd] in He0, Hess1.
  rewrite He in He0. injection He0 as <-. subst ess1'.
  rewrite (drop_S _ _ _ Hep) in *. set (rest := drop (S (N.to_nat p)) es) in *.
  assert (Hd : delete (N.to_nat p) es = take (N.to_nat p) es ++ rest) by apply delete_take_drop.
  rewrite Hd in HR1. set (es1 := take (N.to_nat p) es ++ rest) in *. set (ess1 := <[N.to_nat bk := es1]> ess) in *.
  assert (Htl : length (take (N.to_nat p) es) = N.to_nat p) by (rewrite take_length; lia).
  assert (Hlen1 : length es1 = (N.to_nat p + length rest)%nat) by (unfold es1; rewrite app_length; lia).
  assert (He1 : ess1 !! N.to_nat bk = Some es1) by (apply list_lookup_insert; by eapply lookup_lt_Some).
  assert (Hdr : drop (S (N.to_nat bk)) ess1 = drop (S (N.to_nat bk)) ess) by (unfold ess1; by rewrite drop_insert_gt by lia).
  assert (Hl1 : length ess1 = length ess) by apply insert_length.
  assert (Hoth : forall i, i <> N.to_nat bk -> ess1 !! i = ess !! i) by (intros i Hi; by apply list_lookup_insert_ne).
  destruct (bucket_size_spec _ _ _ _ _ _ _ OK _ _ _ _ _ _ HR1 He1) as (Hlt & Hbs & H255).
  pose proof (tinv_len _ _ _ _ _ _ _ _ _ _ _ HR1) as Hlen.
  destruct (tinv_bc pf c kw vw bmin bmax strict OK _ _ _ _ HR1) as [_ Hbc].
  unfold nav_next. rewrite (tinv_noov _ _ _ _ _ _ _ _ _ _ HR1). cbn [andb]. rewrite Hbs. cbn [mbind res_bind].
  assert (Hp64 : p + 1 < 2^64). { change (2^64) with 18446744073709551616. lia. }
  rewrite u64_small by done. cbn [app length] in Hf.
  destruct (N.leb_spec (N.of_nat (length es1)) (p + 1)) as [Hle|Hgt].
  - assert (Ho : odds ((k, v) :: rest) = rest /\ evens ((k, v) :: rest) = [(k, v)]).
    { destruct rest as [|y [|z rest']]; [done|done|]. cbn [length] in Hlen1. lia. }
    destruct Ho as [-> ->].
    destruct (next_scan_spec _ _ _ _ _ _ _ OK _ _ _ _ HR1 (N.to_nat (bucket_count t1)) bk Hlt) as (r & -> & Hr & Hempty & Hner); [rewrite Hbc; lia|].
    cbn [mbind res_bind]. rewrite <-Hdr.
    assert (Hskip : forall i, (N.to_nat bk < i < N.to_nat r)%nat -> ess !! i = odds <$> ess !! i).
    { intros i Hi. destruct (ess !! i) as [es2|] eqn:E2; [|done]. rewrite (Hempty i es2); [done|done|]. by rewrite Hoth by lia. }
    assert (Hev : concat (map evens (drop (S (N.to_nat bk)) ess1)) = concat (map evens (drop (N.to_nat r) ess1))).
    { rewrite <-!skipn_map. apply concat_drop_skip; [lia|]. intros i es2 Hi. rewrite list_lookup_fmap. destruct (ess1 !! i) as [es3|] eqn:E3; [|done].
      intros [= <-]. by rewrite (Hempty i es3) by (done || lia). }
    rewrite Hev.
    destruct (decide (r = 2^t_b t1)) as [Er|Hnr].
    + rewrite (drop_ge ess1) by lia. rewrite (erase_forward_end _ _ _ _ _ _ HR1) by lia. cbn [mbind res_bind].
      exists t1, sl1, ess1. split; [done|].
      split; [done|]. split; [done|]. split; [intros i Hi; apply Hoth; lia|]. split; [done|].
      intros i Hi. rewrite Hoth by lia. destruct (decide (i < N.to_nat r)%nat); [apply Hskip; lia|]. by rewrite lookup_ge_None_2 by lia.
    + destruct Hner as (es2 & He2 & Hne2); [lia|].
      assert (Hc2 : concat (drop (S (N.to_nat bk)) ess1) = es2 ++ concat (drop (S (N.to_nat r)) ess1)).
      { rewrite (concat_drop_skip ess1 _ (N.to_nat r)); [by rewrite (drop_S _ _ _ He2)|lia|intros i es3 Hi; apply Hempty; lia]. }
      destruct (IH t1 sl1 ess1 r 0 es2 HR1 He2) as (t' & sl' & ess' & -> & HR' & Hl' & Hlo & Hat & Hhi).
      { destruct es2; [done|cbn; lia]. }
      { change (drop (N.to_nat 0) es2) with es2. rewrite <-Hc2, Hdr. rewrite app_length in Hf. lia. }
      change (drop (N.to_nat 0) es2) with es2 in *. change (take (N.to_nat 0) es2) with (@nil (N * N)) in *.
      cbn [mbind res_bind]. exists t', sl', ess'.
      rewrite (drop_S _ _ _ He2). cbn [map concat app].
      split; [done|]. split; [done|]. split; [lia|].
      split; [intros i Hi; rewrite Hlo, Hoth by lia; done|]. split; [rewrite Hlo by lia; done|].
      intros i Hi. destruct (decide (i < N.to_nat r)%nat); [rewrite Hlo, Hoth by lia; apply Hskip; lia|].
      destruct (decide (i = N.to_nat r)) as [->|]; [rewrite Hat; rewrite <-Hoth by lia; by rewrite He2|]. rewrite Hhi, Hoth by lia. done.
  - destruct rest as [|y [|z rest']] eqn:Erest; [cbn [length] in Hlen1; lia|cbn [length] in Hlen1; lia|].
    assert (Hs1 : S (N.to_nat p) = N.to_nat (p + 1)) by lia.
    assert (Hd1 : drop (N.to_nat (p + 1)) es1 = z :: rest').
    { unfold es1. rewrite <-Hs1. rewrite drop_app_ge by lia. rewrite Htl. by replace (S (N.to_nat p) - N.to_nat p)%nat with 1%nat by lia. }
    assert (Ht1 : take (N.to_nat (p + 1)) es1 = take (N.to_nat p) es ++ [y]).
    { unfold es1. rewrite <-Hs1. rewrite take_app_ge by lia. rewrite Htl. by replace (S (N.to_nat p) - N.to_nat p)%nat with 1%nat by lia. }
    cbn [mbind res_bind].
    destruct (IH t1 sl1 ess1 bk (p + 1) es1 HR1 He1) as (t' & sl' & ess' & -> & HR' & Hl' & Hlo & Hat & Hhi).
    { lia. } { rewrite Hd1, Hdr. rewrite app_length in *. cbn [length] in *. lia. }
    rewrite Hd1, Hdr. rewrite Ht1, Hd1 in Hat.
    cbn [mbind res_bind]. exists t', sl', ess'. split; [done|]. split; [done|]. split; [lia|].
    split; [intros i Hi; rewrite Hlo, Hoth by lia; done|]. split; [rewrite Hat, <-app_assoc; done|].
    intros i Hi. rewrite Hhi, Hoth by lia. done.
Qed.
End iter.

(** Every table without overflow elements: in each bucket every second element is skipped. *)
Theorem C128_table_exact : forall pf c kw vw t m f, params pf c kw vw -> reachable pf c kw vw t m -> ov_size (t_ov t) = 0 -> m <> ∅ -> (size m <= f)%nat ->
  exists bs t', N.of_nat (length bs) = bucket_count t
    /\ (forall i b, bs !! i = Some b -> bucket_size t (N.of_nat i) = Ok (N.of_nat (length b)))
    /\ forward pf c f t = Ok (concat bs) /\ concat bs ≡ₚ map_to_list m
    /\ erase_forward pf c f t = Ok (t', concat (map evens bs)) /\ forward pf c f t' = Ok (concat (map odds bs))
    /\ shows pf c kw t' (list_to_map (concat (map odds bs))).
Proof.
  intros pf c kw vw t m f P Hr Ho Hm Hf. pose proof (reach_ok0 _ _ _ _ P) as OK.
  destruct (reachable_rep _ _ _ _ P _ _ Hr) as [[_ ->]|(sl & ess & ovl & H & Hem)]; [done|].
  assert (ovl = []) as ->.
  { rewrite (ov_size_spec _ _ _ _ _ _ (ti_ov _ _ _ _ _ _ _ _ _ _ _ H)) in Ho. destruct ovl; [done|cbn in Ho; lia]. }
  rewrite app_nil_r in Hem. subst m. pose proof (ti_nodup _ _ _ _ _ _ _ _ _ _ _ H) as Hnd. rewrite app_nil_r in Hnd.
  rewrite emap_size in Hf by done. pose proof (tinv_len _ _ _ _ _ _ _ _ _ _ _ H) as Hlen.
  destruct (tinv_bc _ _ _ _ _ _ _ OK _ _ _ _ H) as [_ Hbc].
  assert (Hex : exists t' sl', erase_forward pf c f t = Ok (t', concat (map evens ess)) /\ TableInv.tinv pf c kw vw 1 (bits_max c kw) True t' sl' (map odds ess) []).
  { unfold erase_forward, begin_nav. rewrite Hbc.
    destruct (TableIter.begin_scan_spec _ _ _ _ _ _ _ OK _ _ _ _ H (N.to_nat (2^(t_b t))) 0) as [(r & es & -> & Hr0 & He & Hne & Hempty)|[_ Hc]]; [lia|..].
    2: { change (concat ess = []) in Hc. by rewrite Hc in Hm. }
    cbn [mbind res_bind].
    assert (E : concat ess = es ++ concat (drop (S (N.to_nat r)) ess)).
    { etrans; [exact (concat_drop_skip ess 0 (N.to_nat r) ltac:(lia) ltac:(intros i es' Hi; apply Hempty; lia))|]. by rewrite (drop_S _ _ _ He). }
    assert (Ev : concat (map evens ess) = evens es ++ concat (map evens (drop (S (N.to_nat r)) ess))).
    { etrans; [apply (concat_drop_skip (map evens ess) 0 (N.to_nat r)); [lia|]|].
      - intros i es2 Hi. rewrite list_lookup_fmap. destruct (ess !! i) as [es3|] eqn:E3; [|done]. intros [= <-]. by rewrite (Hempty i es3) by (done || lia).
      - rewrite skipn_map, (drop_S _ _ _ He). done. }
    destruct (erase_forward_spec _ _ _ _ _ _ _ OK f t sl ess r 0 es H He) as (t' & sl' & ess' & -> & HR' & Hl' & Hlo & Hat & Hhi).
    { destruct es; [done|cbn; lia]. } { change (drop (N.to_nat 0) es) with es. by rewrite <-E. }
    exists t', sl'. split; [by rewrite Ev|].
    replace (map odds ess) with ess'; [done|]. apply list_eq. intros i. rewrite list_lookup_fmap.
    destruct (decide (i < N.to_nat r)%nat).
    - rewrite Hlo by done. destruct (ess !! i) as [es2|] eqn:E2; [|done]. by rewrite (Hempty i es2) by (done || lia).
    - destruct (decide (i = N.to_nat r)) as [->|]; [rewrite Hat, He; done|]. by rewrite Hhi by lia. }
  destruct Hex as (t' & sl' & E & H'). exists ess, t'. split; [by rewrite Hbc, Hlen|].
  split. { intros i b Hb. destruct (bucket_size_spec _ _ _ _ _ _ _ OK _ _ _ _ (N.of_nat i) b H) as (_ & -> & _); [by rewrite Nat2N.id|done]. }
  split; [by apply (forward_spec _ _ _ _ _ _ _ OK _ _ _ H)|]. split; [symmetry; by apply map_to_list_to_map|]. split; [done|].
  split. { apply (forward_spec _ _ _ _ _ _ _ OK _ _ _ H'). pose proof (Permutation_length (evens_odds_concat ess)) as HP. rewrite app_length in HP. lia. }
  eapply rep_shows; [exact P|]. right. exists sl', (map odds ess), []. split; [exact H'|]. by rewrite app_nil_r.
Qed.
Print Assumptions C128_table_exact.
Theorem C128_table_refuted : forall pf c kw vw t m f i n, params pf c kw vw -> reachable pf c kw vw t m -> ov_size (t_ov t) = 0 -> m <> ∅ -> (size m <= f)%nat ->
  i < bucket_count t -> bucket_size t i = Ok n -> 2 <= n ->
  exists t' l l', erase_forward pf c f t = Ok (t', l) /\ forward pf c f t' = Ok l' /\ l' <> [] /\ l ++ l' ≡ₚ map_to_list m.
Proof.
  intros pf c kw vw t m f i n P Hr Ho Hm Hf Hi Hs Hn. destruct (C128_table_exact _ _ _ _ _ _ _ P Hr Ho Hm Hf) as (bs & t' & Hl & Hsz & _ & HP & E1 & E2 & _).
  exists t', (concat (map evens bs)), (concat (map odds bs)). split; [done|]. split; [done|]. split; [|by rewrite evens_odds_concat].
  destruct (lookup_lt_is_Some_2 bs (N.to_nat i) ltac:(lia)) as (b & Hb). specialize (Hsz _ _ Hb). rewrite N2Nat.id, Hs in Hsz. injection Hsz as ->.
  destruct b as [|x [|y b]]; cbn [length] in Hn; [lia|lia|]. intros Ec.
  assert (Hin : y ∈ concat (map odds bs)).
  { apply elem_of_concat. exists (N.to_nat i), (y :: odds b). split; [rewrite list_lookup_fmap, Hb; done|by left]. }
  rewrite Ec in Hin. by apply elem_of_nil in Hin.
Qed.
Print Assumptions C128_table_refuted.

Definition ex_fwd_t : table := ex_hist ex_var 20 9 ex_fwd_ops.
Example C128_table_case : params lax_pf ex_var 20 9 /\ reachable lax_pf ex_var 20 9 ex_fwd_t (fst (spec_run ∅ ex_fwd_ops))
  /\ ov_size (t_ov ex_fwd_t) = 0 /\ size (fst (spec_run ∅ ex_fwd_ops)) = 4%nat /\ bucket_count ex_fwd_t = 32 /\ bucket_size ex_fwd_t 6 = Ok 2
  /\ match erase_forward lax_pf ex_var 4 ex_fwd_t with
     | Ok (t', l) => l = [(6, 1); (5, 7); (21, 8)] /\ forward lax_pf ex_var 4 t' = Ok [(37, 9)]
     | _ => False end.
Proof.
  split; [exact ex_var_ok|]. split.
  - apply ex_hist_reach; [exact ex_var_ok|done|]. repeat (apply List.Forall_cons; [by split|]). apply List.Forall_nil.
  - vm_compute. repeat split.
Qed.
