(** C127: processing and deleting from the back. *)
From Verif Require Import TableInv TableReach PropTable PropSerial NavModel NavProofs Chain NavStep MapDrain CompactProofs GroupTable GroupHist GroupSerial MapProofs PropCompact PropGroup PropNavEq PropErasePast.

Section chain.
Context {T : Type} (I : mapimpl T) (kw vw bmin bmax : N) (okey : N -> N -> Prop) (bits : T -> N) (hb : N -> N -> N) (Rep : T -> list entries -> Prop)
  (Zero : T -> Prop) (full : T -> list entries -> N -> bool)
  (foi : nat -> T -> N -> N -> res (T * nav)) (resv : (T -> N -> N -> res (T * nav)) -> T -> N -> res T) (fuel : nat).
Hypothesis C : chain_ok I kw vw bmin bmax okey bits hb Rep Zero full foi resv fuel.

Lemma m_drain_end t b ess f bk p : shows okey (i_view I t) b ess -> 2^b <= bk -> m_drain_from I f t (bk, p) = Ok (t, []).
Proof. intros H Hb. destruct f; cbn [m_drain_from]; by rewrite (vn_eq_end_past _ _ _ _ H _ _ Hb). Qed.

(** What lies before the navigator, itself included, is all there is. *)
Lemma m_drain_spec : forall l t ess bk p es, Rep t ess -> ess !! N.to_nat bk = Some es -> (N.to_nat p < length es)%nat ->
  concat (take (N.to_nat bk) ess) ++ take (S (N.to_nat p)) es = rev l -> length (concat ess) = length l ->
  forall f, (length l <= f)%nat -> exists t' ess' l', m_drain_from I f t (bk, p) = Ok (t', l') /\ Forall2 (oent okey) l' l
    /\ Rep t' ess' /\ concat ess' = [].
Proof.
  induction l as [|e l IH]; intros t ess bk p es HR He Hp Hl Hn f Hf.
  { exfalso. apply (f_equal length) in Hl. rewrite app_length, take_length in Hl. cbn [rev length] in Hl. lia. }
  pose proof (ch_shows _ _ _ _ _ _ _ _ _ _ _ _ _ _ C _ _ HR) as Hsh.
  destruct (lookup_lt_is_Some_2 es (N.to_nat p) Hp) as ([k v] & Hep).
  rewrite (take_S_r _ _ _ Hep), app_assoc in Hl. cbn [rev] in Hl. apply app_inj_tail in Hl as [Hl <-].
  pose proof (nav_at_intro _ _ _ _ _ He Hep) as Hne.
  destruct (vn_read_at _ _ _ _ Hsh _ _ Hne) as (a & Hrd & Ha).
  destruct f as [|f]; [cbn in Hf; lia|]. cbn [length] in Hf, Hn.
  cbn [m_drain_from]. rewrite (vn_eq_end_at _ _ _ _ Hsh _ _ Hne). cbn [mbind res_bind]. rewrite Hrd. cbn [mbind res_bind].
  destruct (ch_erase_at _ _ _ _ _ _ _ _ _ _ _ _ _ _ C _ _ _ _ _ HR Hne) as (t1 & es0 & He0 & -> & _ & HR1). cbn [fst snd] in He0, HR1.
  rewrite He in He0. injection He0 as <-. cbn [mbind res_bind].
  set (es1 := delete (N.to_nat p) es) in *. set (ess1 := <[N.to_nat bk := es1]> ess) in *.
  pose proof (ch_shows _ _ _ _ _ _ _ _ _ _ _ _ _ _ C _ _ HR1) as Hsh1.
  assert (Hlen1 : S (length es1) = length es) by (unfold es1; rewrite length_delete by (by eexists); lia).
  assert (Htk1 : take (N.to_nat p) es1 = take (N.to_nat p) es).
  { unfold es1. rewrite delete_take_drop. rewrite take_app_le by (rewrite take_length; lia). rewrite take_take. f_equal. lia. }
  assert (He1 : ess1 !! N.to_nat bk = Some es1) by (apply list_lookup_insert; by eapply lookup_lt_Some).
  assert (Htk : take (N.to_nat bk) ess1 = take (N.to_nat bk) ess) by (unfold ess1; by rewrite take_insert by lia).
  assert (Hdr : drop (S (N.to_nat bk)) ess1 = drop (S (N.to_nat bk)) ess) by (unfold ess1; by rewrite drop_insert_gt by lia).
  assert (Hn1 : length (concat ess1) = length l).
  { rewrite (concat_split _ _ _ He) in Hn. rewrite (concat_split _ _ _ He1), Htk, Hdr. rewrite !app_length in *. lia. }
  destruct (vn_prev_spec _ _ _ _ Hsh1 bk p es1 He1) as [(bk' & p' & es' & -> & He' & Hp' & Ec)|[(p' & ->) Ec]]; [lia|..];
    rewrite Htk, Htk1, Hl in Ec; cbn [mbind res_bind].
  - destruct (IH t1 ess1 bk' p' es' HR1 He' Hp' (eq_sym Ec) Hn1 f ltac:(lia)) as (t' & ess' & l' & -> & HF & HR' & Hc').
    cbn [mbind res_bind]. exists t', ess', (a :: l'). split; [done|]. split; [by apply List.Forall2_cons|done].
  - destruct l as [|y l]; [|cbn in Ec; by destruct (rev l)].
    pose proof (sh_pow _ _ _ _ Hsh1). assert (2^63 < ones64) by done.
    rewrite (m_drain_end _ _ _ _ _ _ Hsh1) by lia. cbn [mbind res_bind]. exists t1, ess1, [a]. split; [done|].
    split; [apply List.Forall2_cons; [done|apply List.Forall2_nil]|]. split; [done|]. by apply nil_length_inv.
Qed.
(** After the loop the container is an empty map. *)
Lemma m_drained t' ess' : Rep t' ess' -> concat ess' = [] -> mrep Rep Zero t' ∅.
Proof. intros HR Hc. right. exists ess'. by rewrite Hc. Qed.
End chain.

(** ** compact_chaining_map: every pair is seen once, in the order of the reverse iteration, and an empty map is left. *)
Lemma c_drain_spec pf c kw vw bmin (OK : compact_ok pf c kw vw bmin) t ess f : crep c kw vw bmin t ess -> concat ess <> [] -> (length (concat ess) <= f)%nat ->
  exists t' ess' l, c_drain pf c f t = Ok (t', l) /\ Forall2 (oent (cokey c kw bmin)) l (rev (concat ess)) /\ crep c kw vw bmin t' ess' /\ concat ess' = [].
Proof.
  intros HR Hne Hsz. pose proof (compact_chain pf c kw vw bmin OK 64 (Nat.le_refl _)) as C64.
  pose proof (cshows pf c kw vw bmin OK t ess HR) as Hsh.
  pose proof (sh_len _ _ _ _ Hsh) as Hlen. pose proof (sh_pow _ _ _ _ Hsh) as Hpow. pose proof (sh_count _ _ _ _ Hsh) as Hbc.
  unfold c_drain, v_rbegin. rewrite Hbc. rewrite (proj2 (N.eqb_neq _ _)) by lia. rewrite sub64_small by lia.
  destruct (v_rbegin_scan_spec _ _ _ _ Hsh Hne (S (N.to_nat (2^cm_b t))) (2^cm_b t - 1)) as (r & es & -> & He & Hes & Hc); [lia|lia|by rewrite drop_ge by lia|].
  cbn [mbind res_bind]. assert (0 < length es)%nat by (destruct es; [done|cbn; lia]).
  apply (m_drain_spec _ _ _ _ _ _ _ _ _ _ _ _ _ _ C64 (rev (concat ess)) t ess r (N.of_nat (length es) - 1) es HR He).
  { lia. } { rewrite rev_involutive, (concat_split _ _ _ He), Hc, app_nil_r. f_equal. apply take_ge. lia. } { by rewrite rev_length. } { by rewrite rev_length. }
Qed.
Theorem C127_compact_drain_partial : forall pf c kw vw bmin fuel t m f, compact_ok pf c kw vw bmin -> (64 <= fuel)%nat -> c_after pf c kw vw bmin fuel t m ->
  m <> ∅ -> (size m <= f)%nat ->
  exists t' l E, c_drain pf c f t = Ok (t', l) /\ E ≡ₚ map_to_list m /\ Forall2 same_value l E
    /\ (quotients_fit c kw bmin -> l = E /\ c_forward pf c f t = Ok (rev l)) /\ c_size t' = 0
    /\ forall ops, valid_ops kw vw bmin (zbmax (cc_hash c) kw) ops ->
       exists t2 rs, m_run_ops (c_impl pf c fuel) t' ops = Ok (t2, rs)
         /\ Forall2 same_but_keys rs (snd (spec_run ∅ ops)) /\ (quotients_fit c kw bmin -> rs = snd (spec_run ∅ ops)).
Proof.
  intros pf c kw vw bmin fuel t m f OK Hf Ha Hm Hsz. pose proof (c_after_rep _ _ _ _ _ _ _ _ OK Hf Ha) as [[_ ->]|(ess & HR & <-)]; [done|].
  pose proof (compact_chain pf c kw vw bmin OK fuel Hf) as C. pose proof (cshows pf c kw vw bmin OK t ess HR) as Hsh.
  rewrite emap_size in Hsz by (by eapply cr_nodup).
  destruct (c_drain_spec _ _ _ _ _ OK t ess f HR) as (t' & ess' & l & E & HF & HR' & Hc'); [intros Ec; by rewrite Ec in Hm|done|].
  destruct (v_forward_spec _ _ _ _ Hsh f Hsz) as (l2 & El2 & HF2).
  exists t', l, (rev (concat ess)). split; [exact E|].
  split; [rewrite <-Permutation_rev; symmetry; apply map_to_list_to_map; by eapply cr_nodup|].
  split; [eapply Forall2_impl; [exact HF|]; by intros a e [_ ?]|]. split; [|split].
  - intros Hfit. rewrite cokey_fit in HF, HF2 by done. apply oent_eq in HF, HF2. subst l l2. split; [done|]. by rewrite rev_involutive.
  - unfold c_size. by rewrite (cr_n _ _ _ _ _ _ HR'), Hc'.
  - intros ops Hv. destruct (m_run_rep _ _ _ _ _ _ _ _ _ _ _ _ _ _ C ops t' _ (m_drained _ _ _ _ HR' Hc') Hv) as (t2 & rs & E2 & Hr & _). exists t2, rs. split; [exact E2|]. split.
    + eapply Forall2_impl; [exact Hr|]. intros a e. apply oout_weak.
    + intros Hfit. rewrite cokey_fit in Hr by done. by apply oout_eq.
Qed.
Print Assumptions C127_compact_drain_partial.
(** The loop cannot be run on the map it leaves: rbegin_nav() reads before the array of an empty map (cf. C60_rbegin_refuted). *)
Theorem C127_compact_again_refuted : forall pf c kw vw bmin fuel t m f t' l, compact_ok pf c kw vw bmin -> (64 <= fuel)%nat -> c_after pf c kw vw bmin fuel t m ->
  m <> ∅ -> (size m <= f)%nat -> c_drain pf c f t = Ok (t', l) -> forall f', c_drain pf c f' t' = Ub OobRead.
Proof.
  intros pf c kw vw bmin fuel t m f t' l OK Hf Ha Hm Hsz Hd f'.
  pose proof (c_after_rep _ _ _ _ _ _ _ _ OK Hf Ha) as [[_ ->]|(ess & HR & <-)]; [done|]. rewrite emap_size in Hsz by (by eapply cr_nodup).
  destruct (c_drain_spec _ _ _ _ _ OK t ess f HR) as (t1 & ess1 & l1 & E & _ & HR1 & Hc); [intros Ec; by rewrite Ec in Hm|done|].
  rewrite Hd in E. injection E as <- <-. pose proof (cshows pf c kw vw bmin OK t' ess1 HR1) as Hsh.
  unfold c_drain, v_rbegin. rewrite (sh_count _ _ _ _ Hsh). pose proof (sh_pow _ _ _ _ Hsh) as Hp. pose proof (sh_len _ _ _ _ Hsh) as Hlen.
  rewrite (proj2 (N.eqb_neq _ _)) by lia. rewrite sub64_small by lia.
  rewrite rbegin_scan_empty; [done|..|lia|lia].
  - intros i Hi. destruct (sh_lookup _ _ _ _ Hsh i) as (es & He); [lia|]. destruct (sh_size _ _ _ _ Hsh _ _ He) as [-> _].
    destruct es as [|e es]; [done|]. exfalso. assert (Hin : e ∈ concat ess1) by (apply elem_of_concat; eexists _, _; split; [done|]; by left).
    rewrite Hc in Hin. by apply elem_of_nil in Hin.
  - cbn [c_view v_size]. unfold c_bucket_size, c_slot. destruct (cr_slots _ _ _ _ _ _ HR1) as (sl & -> & HF).
    rewrite (proj2 (N.ltb_ge _ _)); [done|]. rewrite (Forall2_length _ _ _ HF), Hlen. transitivity (2^63); [lia|]. done.
Qed.
Print Assumptions C127_compact_again_refuted.

(** ** group_chaining_table: the loop visits nothing and deletes nothing, whatever is stored (cf. C43_reverse_visits_nothing_refuted). *)
Theorem C127_group_drain_refuted : forall pf c kw vw bmin t m f, g_reached pf c kw vw bmin t m -> m <> ∅ -> g_drain pf c f t = Ok (t, []).
Proof.
  intros pf c kw vw bmin t m f (OK & [[_ ->]|(ess & H & <-)])%g_reached_rep Hm; [done|].
  pose proof (gshows _ _ _ _ _ _ OK _ _ H) as Hsh. unfold g_drain.
  destruct (GroupSerial.rbegin_spec _ _ _ _ _ _ OK _ _ H) as [(r & es & -> & He & Hne & Hemp)|[-> Hc]]; cbn [mbind res_bind]; [|by rewrite Hc in Hm].
  assert (Ee : vn_eq (g_view pf c t) (r, N.of_nat (length es)) end_nav = Ok true).
  { unfold vn_eq. rewrite (vn_invalid_end _ _ _ _ Hsh). cbn [mbind res_bind].
    unfold vn_invalid. destruct (_ <=? r); [done|]. destruct (sh_size _ _ _ _ Hsh _ _ He) as [-> _]. cbn [mbind res_bind].
    by rewrite N.leb_refl. }
  destruct f; cbn [m_drain_from g_impl i_view]; by rewrite Ee.
Qed.
Print Assumptions C127_group_drain_refuted.
(** One --rbegin_nav() before the loop, and every pair is seen once and an empty map is left. *)
Theorem C127_group_drain_from_prev : forall pf c kw vw bmin t m f, g_reached pf c kw vw bmin t m -> m <> ∅ -> (size m <= f)%nat ->
  exists t' l, g_drain_prev pf c f t = Ok (t', l) /\ l ≡ₚ map_to_list m /\ g_forward pf c f t = Ok (rev l) /\ g_size_of t' = 0
    /\ forall fuel ops, (64 <= fuel)%nat -> valid_ops kw vw bmin (zbmax (gc_hash c) kw) ops ->
         exists t2, m_run_ops (g_impl pf c fuel) t' ops = Ok (t2, snd (spec_run ∅ ops)).
Proof.
  intros pf c kw vw bmin t m f (OK & [[_ ->]|(ess & H & <-)])%g_reached_rep Hm Hf; [done|].
  pose proof (gshows _ _ _ _ _ _ OK _ _ H) as Hsh. rewrite emap_size in Hf by apply H. unfold g_drain_prev.
  destruct (GroupSerial.rbegin_spec _ _ _ _ _ _ OK _ _ H) as [(r & es & -> & He & Hne & Hemp)|[-> Hc]]; cbn [mbind res_bind]; [|by rewrite Hc in Hm].
  assert (Ec : concat (take (N.to_nat r) ess) ++ take (N.to_nat (N.of_nat (length es))) es = concat ess).
  { rewrite Nat2N.id, (take_ge es) by lia. by rewrite (concat_split _ _ _ He), Hemp, app_nil_r. }
  destruct (vn_prev_spec _ _ _ _ Hsh r (N.of_nat (length es)) es He) as [(bk' & p' & es' & -> & He' & Hp' & E)|[_ E]]; [lia| |by rewrite <-Ec, E in Hm].
  cbn [mbind res_bind].
  destruct (m_drain_spec _ _ _ _ _ _ _ _ _ _ _ _ _ _ (group_chain True pf c kw vw bmin OK 64 I (Nat.le_refl _)) (rev (concat ess)) t ess bk' p' es' H He' Hp')
    with (f := f) as (t' & ess' & l & -> & HF & HR' & Hc').
  { by rewrite rev_involutive, <-E. } { by rewrite rev_length. } { by rewrite rev_length. }
  apply oent_eq in HF as ->. exists t', (rev (concat ess)). split; [done|].
  split; [rewrite <-Permutation_rev; symmetry; apply map_to_list_to_map, H|]. split; [rewrite rev_involutive; by eapply gforward|].
  split; [unfold g_size_of; by rewrite (gr_n _ _ _ _ _ _ _ _ HR'), Hc'|]. intros fuel ops Hfu Hv.
  destruct (group_run pf c kw vw bmin OK True fuel ops t' ∅ Hfu) as (t2 & E2 & _); [by apply m_drained with ess'|done|by left|]. by exists t2.
Qed.
Print Assumptions C127_group_drain_from_prev.

(** Cases *)
Example C127_compact_case : compact_ok loose_pf ex_c64 20 9 1 /\ c_after loose_pf ex_c64 20 9 1 64 ex_past_c (<[13 := 8]> {[5 := 7]})
  /\ (<[13 := 8]> {[5 := 7]} : gmap N N) <> ∅
  /\ match c_drain loose_pf ex_c64 2 ex_past_c with Ok (t', l) => l = [(13, 8); (5, 7)] /\ c_drain loose_pf ex_c64 2 t' = Ub OobRead | _ => False end.
Proof.
  split; [exact ex_c64_ok|]. split; [apply C126_compact_case|]. split; [apply insert_non_empty|]. vm_compute. split; reflexivity.
Qed.
Example C127_group_case : g_reached strict_pf ex_gx 20 9 1 (ex_past [5; 13; 4]) (fst (spec_run ∅ (map (fun k => OpInsert k 1) [5; 13; 4])))
  /\ g_drain strict_pf ex_gx 3 (ex_past [5; 13; 4]) = Ok (ex_past [5; 13; 4], [])
  /\ match g_drain_prev strict_pf ex_gx 3 (ex_past [5; 13; 4]) with Ok (_, l) => length l = 3%nat | _ => False end.
Proof.
  split; [apply ex_past_reached; repeat (apply List.Forall_cons; [done|]); apply List.Forall_nil|]. split; vm_compute; reflexivity.
Qed.
