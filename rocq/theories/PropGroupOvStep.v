(** C75 for group_chaining_table with an overflow, and move assignment between such tables (C71). *)
From Verif Require Import NavStep PropTable PropCompact PropGroup PropGroupOv GroupOvIter.

Section step.
Context (er : Prop) (pf : platform) (c : gcfg) (kind : ovkind) (kw vw bmin : N).
Hypothesis OK : group_ok c kw vw bmin.
Notation gorep := (gorep er pf c kind kw vw bmin).
Notation V t := (go_view pf c t).
Notation cnt t := (go_bucket_count t).
Implicit Types (t : gotable) (ess : list entries) (ovl : entries).

Lemma oov_size t ess ovl : gorep t ess ovl -> ov_size (go_ov t) < 2^64.
Proof.
  intros H. pose proof (or_ov _ _ _ _ _ _ _ _ _ _ H) as Ho. rewrite (ov_size_spec _ _ _ _ _ _ Ho). destruct (go_ov t) as [| |nb els full]; cbn [ovrel] in Ho.
  - by destruct Ho as [-> _].
  - destruct Ho as (_ & _ & Hl & _). assert (256 < 2^64) by done. lia.
  - destruct Ho as (-> & (Hnb & Hmax & _) & Hnd & _). enough (N.of_nat (length els) <= nb) by lia.
    assert (Hle : (length (map (fun e => um_bucket pf nb (fst e)) els) <= length (map N.of_nat (seq 0 (N.to_nat nb))))%nat).
    { apply submseteq_length, NoDup_submseteq; [done|]. intros x (e & -> & _)%elem_of_list_fmap. apply elem_of_list_fmap.
      exists (N.to_nat (um_bucket pf nb (fst e))). split; [by rewrite N2Nat.id|]. apply elem_of_seq.
      unfold um_bucket. pose proof (N.mod_lt (um_hash pf (fst e)) nb). lia. }
    rewrite !map_length, seq_length in Hle. lia.
Qed.
Lemma oin_bucket t (x : nav) : fst x < cnt t -> on_over (V t) (fst x) = false.
Proof. intros H. unfold on_over. cbn [go_view o_view v_count g_view]. change (g_bucket_count (go_g t)) with (cnt t). rewrite (proj2 (N.eqb_neq _ _)) by lia. by rewrite andb_false_r. Qed.
Lemma oin_over t p : on_invalid pf (V t) (cnt t, p) = Ok false -> on_over (V t) (cnt t) = true /\ ov_valid pf (go_ov t) p = true.
Proof.
  unfold on_invalid. cbn [fst snd]. destruct (on_over (V t) (cnt t)); cbn [andb].
  - cbn [go_view o_ov]. destruct (ov_valid pf (go_ov t) p); [done|]. unfold vn_invalid. cbn [go_view o_view v_count g_view].
    change (g_bucket_count (go_g t)) with (cnt t). by rewrite N.leb_refl.
  - unfold vn_invalid. cbn [go_view o_view v_count g_view]. change (g_bucket_count (go_g t)) with (cnt t). by rewrite N.leb_refl.
Qed.
(** Both positions in buckets, or both in the overflow *)
Definition osame t (x y : nav) : Prop := fst x < cnt t /\ fst y < cnt t \/ fst x = cnt t /\ fst y = cnt t.
Lemma osteps t ess ovl (x : nav) : gorep t ess ovl -> on_invalid pf (V t) x = Ok false ->
  (exists y, on_next pf (V t) x = Ok y /\ (on_invalid pf (V t) y = Ok false -> osame t x y -> on_prev pf (V t) y = Ok x))
  /\ (exists y, on_prev pf (V t) x = Ok y /\ (on_invalid pf (V t) y = Ok false -> osame t x y -> on_next pf (V t) y = Ok x)).
Proof.
  intros H Hx. pose proof (oshows _ _ _ _ _ _ _ OK _ _ _ H) as Hsh. pose proof (ocount _ _ _ _ _ _ _ OK _ _ _ H) as Hc.
  destruct (N.lt_trichotomy (fst x) (cnt t)) as [Hlt|[Heq|Hgt]].
  - assert (Hv : vn_invalid (o_view (V t)) x = Ok false) by (unfold on_invalid in Hx; by rewrite (oin_bucket _ _ Hlt) in Hx).
    split.
    + destruct (vstep_next _ _ _ _ Hsh x Hv) as (y & E & Hy & _). exists y. unfold on_next. rewrite (oin_bucket _ _ Hlt). split; [done|].
      intros Hi [[_ Hy']|[? _]]; [|lia]. unfold on_invalid in Hi. unfold on_prev. rewrite (oin_bucket _ _ Hy') in *. by apply Hy.
    + destruct (vstep_prev _ _ _ _ Hsh x Hv) as (y & E & Hy & _). exists y. unfold on_prev. rewrite (oin_bucket _ _ Hlt). split; [done|].
      intros Hi [[_ Hy']|[? _]]; [|lia]. unfold on_invalid in Hi. unfold on_next. rewrite (oin_bucket _ _ Hy') in *. by apply Hy.
  - destruct x as [bk p]. cbn [fst] in Heq. subst bk. destruct (oin_over _ _ Hx) as [Hov Hv]. pose proof (oov_size _ _ _ H) as Hsz. split.
    + exists (cnt t, ov_next pf (go_ov t) p). unfold on_next. cbn [fst snd]. rewrite Hov. split; [done|]. intros [_ Hv']%oin_over _.
      destruct (ov_step_next pf _ _ Hsz Hv Hv') as [Hpos E]. unfold on_prev. cbn [fst snd]. rewrite Hov, (proj2 (N.ltb_lt _ _)) by done.
      cbn [go_view o_ov]. by rewrite E.
    + unfold on_prev. cbn [fst snd]. rewrite Hov. destruct (N.ltb_spec 0 p) as [Hp|Hp].
      * exists (cnt t, ov_prev pf (go_ov t) p). split; [done|]. intros [_ Hv']%oin_over _. unfold on_next. cbn [fst snd]. rewrite Hov.
        cbn [go_view o_ov]. by rewrite (ov_step_prev pf _ _ Hsz Hp Hv Hv').
      * pose proof (sh_pow _ _ _ _ Hsh) as Hpow. pose proof (pow2_pos (gt_b (go_g t))) as Hpos. rewrite Hc. rewrite sub64_small by lia.
        destruct (sh_lookup _ _ _ _ Hsh (2^gt_b (go_g t) - 1)) as (es & He); [lia|]. destruct (sh_size _ _ _ _ Hsh _ _ He) as [-> _]. cbn [mbind res_bind].
        eexists. split; [done|]. intros _ [[? _]|[_ Hy]]; cbn [fst] in *; lia.
  - exfalso. unfold on_invalid, on_over, vn_invalid in Hx. destruct x as [bk p]. cbn [go_view o_view v_count g_view fst snd] in *.
    change (g_bucket_count (go_g t)) with (cnt t) in Hx. rewrite (proj2 (N.eqb_neq _ _)), andb_false_r in Hx by lia. cbn [andb] in Hx.
    by rewrite (proj2 (N.leb_le _ _)) in Hx by lia.
Qed.
End step.

(** As in C75_step_overflow_partial: steps undo each other as long as they stay in the buckets or in the overflow. *)
Theorem C75_step_group_overflow_partial : forall pf c kind kw vw bmin t m x, go_reached pf c kind kw vw bmin t m ->
  on_invalid pf (go_view pf c t) x = Ok false ->
  (exists y, on_next pf (go_view pf c t) x = Ok y
     /\ (on_invalid pf (go_view pf c t) y = Ok false -> osame t x y -> on_prev pf (go_view pf c t) y = Ok x))
  /\ (exists y, on_prev pf (go_view pf c t) x = Ok y
     /\ (on_invalid pf (go_view pf c t) y = Ok false -> osame t x y -> on_next pf (go_view pf c t) y = Ok x)).
Proof.
  intros pf c kind kw vw bmin t m x (OK & [Hk Hfair] & H)%go_reached_rep Hx. destruct H as [[[Hz Ho] _]|(ess & ovl & H & _)].
  { exfalso. destruct x as [bk p]. unfold on_invalid, on_over, vn_invalid in Hx. cbn [go_view o_view o_ov v_count g_view fst snd] in Hx.
    rewrite (ov_zero_size _ _ _ Ho) in Hx. cbn [N.ltb N.compare andb] in Hx. destruct Hz as (_ & _ & Hb & _). unfold g_bucket_count in Hx.
    rewrite Hb in Hx. cbn [N.eqb] in Hx. by rewrite (proj2 (N.leb_le 0 bk)) in Hx by lia. }
  exact (osteps True pf c kind kw vw bmin OK t ess ovl x H Hx).
Qed.
Print Assumptions C75_step_group_overflow_partial.
(** Two elements in the overflow, the first one at position 0. *)
Example C75_group_overflow_case : go_reached lax_pf ex_gx OvMap 10 4 1 ex_go2 ex_gom2 /\ on_invalid lax_pf (go_view lax_pf ex_gx ex_go2) (8, 0) = Ok false
  /\ exists q, on_next lax_pf (go_view lax_pf ex_gx ex_go2) (8, 0) = Ok (8, q) /\ 0 < q
     /\ on_invalid lax_pf (go_view lax_pf ex_gx ex_go2) (8, q) = Ok false /\ on_prev lax_pf (go_view lax_pf ex_gx ex_go2) (8, q) = Ok (8, 0).
Proof.
  split; [exact ex_go2_reached|]. split; [vm_compute; reflexivity|]. exists (ov_next lax_pf (go_ov ex_go2) 0).
  split; [vm_compute; reflexivity|]. split; [vm_compute; reflexivity|]. split; vm_compute; reflexivity.
Qed.

(** a = std::move(b): a becomes b, and b an empty table of a's widths; both go on as finite maps. *)
Theorem C71_move_assign : forall pf c kind kw vw bmin a m kw' vw' bmin' b m', go_reached pf c kind kw vw bmin a m -> go_reached pf c kind kw' vw' bmin' b m' ->
  exists e, go_move_assign pf a b = Ok (b, e) /\ go_size e = 0 /\ go_bucket_count e = 0 /\ ov_size (go_ov e) = 0
    /\ forall fuel ops, (64 <= fuel)%nat -> valid_ops kw vw bmin (zbmax (gc_hash c) kw) ops ->
       exists t, go_run_ops pf c kind fuel e ops = Ok (t, snd (spec_run ∅ ops)).
Proof.
  intros pf c kind kw vw bmin a m kw' vw' bmin' b m' (OK & [Hk Hfair] & H)%go_reached_rep _.
  assert (Hcl : exists e, go_clear pf a = Ok e /\ gozero pf kind kw vw e).
  { destruct H as [[Hz _]|(ess & ovl & H & _)]; [by apply oclear0|]. by eapply oclear. }
  destruct Hcl as (e & E & Hz). exists e. unfold go_move_assign. rewrite E. cbn [mbind res_bind]. split; [done|].
  pose proof Hz as [Hg Ho]. destruct Hg as (_ & _ & Hb & Hn & _). split; [exact Hn|]. split; [unfold go_bucket_count, g_bucket_count; by rewrite Hb|].
  split; [exact (ov_zero_size _ _ _ Ho)|]. intros fuel ops Hf Hv.
  destruct (go_run True pf c kind kw vw bmin OK Hk Hfair fuel Hf ops e ∅) as (t & Er & _); [by left|by left|done|by exists t].
Qed.
Print Assumptions C71_move_assign.
Example C71_move_case : go_reached lax_pf ex_gx OvMap 10 4 1 ex_go2 ex_gom2 /\ go_reached lax_pf ex_gx OvMap 10 4 1 ex_go3 ex_gom3
  /\ (r ← go_move_assign lax_pf ex_go2 ex_go3; Ok (go_size (fst r), go_size (snd r))) = Ok (3, 0).
Proof. split; [exact ex_go2_reached|]. split; [exact ex_go3_reached|]. vm_compute. reflexivity. Qed.
