(** Properties of group_chaining_table with an overflow: C71, C72, C73, C74. *)
From Verif Require Import GroupOvIter PropTable PropCompact PropGroup.

(** The overflow is map_overflow on a platform whose std::unordered_map grows as asked, or dummy_overflow. *)
Definition ov_ok (pf : platform) (kind : ovkind) : Prop := kind <> OvArray /\ (kind = OvMap -> um_fair pf).

(** ** C71: any history on a group_chaining_table with map_overflow returns what a finite map returns.
    A full group (255 elements) sends further elements to the overflow; the table grows when the overflow refuses. *)
Theorem C71_group_overflow_table : forall pf c kind kw vw bmin fuel ops, group_ok c kw vw bmin -> ov_ok pf kind -> (64 <= fuel)%nat ->
  valid_ops kw vw bmin (zbmax (gc_hash c) kw) ops ->
  exists t, go_run_ops pf c kind fuel (go_new pf kind kw vw) ops = Ok (t, snd (spec_run ∅ ops)).
Proof.
  intros pf c kind kw vw bmin fuel ops OK [Hk Hfair] Hf Hv.
  destruct (go_run True pf c kind kw vw bmin OK Hk Hfair fuel Hf ops (go_new pf kind kw vw) ∅) as (t & E & _); [by left|left|done|by exists t].
  split; [|done]. by apply gozero_new.
Qed.
Print Assumptions C71_group_overflow_table.

(** Tables left by histories, with the finite map that the history describes. *)
Definition go_reached (pf : platform) (c : gcfg) (kind : ovkind) (kw vw bmin : N) (t : gotable) (m : gmap N N) : Prop :=
  exists fuel ops rs, group_ok c kw vw bmin /\ ov_ok pf kind /\ (64 <= fuel)%nat /\ valid_ops kw vw bmin (zbmax (gc_hash c) kw) ops
    /\ go_run_ops pf c kind fuel (go_new pf kind kw vw) ops = Ok (t, rs) /\ m = fst (spec_run ∅ ops).
Lemma go_reached_rep pf c kind kw vw bmin t m : go_reached pf c kind kw vw bmin t m ->
  group_ok c kw vw bmin /\ ov_ok pf kind /\ gomap True pf c kind kw vw bmin t m.
Proof.
  intros (fuel & ops & rs & OK & Hov & Hf & Hv & E & ->). split; [done|]. split; [done|]. destruct Hov as [Hk Hfair].
  destruct (go_run True pf c kind kw vw bmin OK Hk Hfair fuel Hf ops (go_new pf kind kw vw) ∅) as (t' & E' & HR); [by left|left|done|].
  { split; [|done]. by apply gozero_new. }
  rewrite E' in E. injection E as <- _. done.
Qed.
Lemma ex_gx10_ok : group_ok ex_gx 10 4 1.
Proof. group_solve. Qed.
(** 256 elements in the 8 buckets of one group: the last one goes to the overflow. *)
Definition ex_go_ops : list op := OpInsert 0 0 :: OpReserve 8 :: map (fun i => OpInsert (N.of_nat i) (N.of_nat i mod 16)) (seq 1 255).
Definition ex_go_more : list op := [OpInsert 256 7; OpFind 255; OpFind 256; OpWrite 256 8; OpRead 256; OpCount 300; OpSize].
Definition ex_go_rest : list op := [OpErase 255; OpFind 255; OpFind 256; OpErase 3; OpInsert 700 1; OpFind 700; OpEraseIt 700; OpSize].
Definition ex_go0 : gotable := go_new lax_pf OvMap 10 4.
Definition ex_go_from (t : gotable) (ops : list op) : gotable := match go_run_ops lax_pf ex_gx OvMap 64 t ops with Ok (t, _) => t | _ => t end.
Definition ex_go1 : gotable := Eval vm_compute in ex_go_from ex_go0 ex_go_ops.
Definition ex_go2 : gotable := Eval vm_compute in ex_go_from ex_go1 ex_go_more.
Lemma go_run_app pf c kind fuel ops ops' t t1 rs1 t2 rs2 : go_run_ops pf c kind fuel t ops = Ok (t1, rs1) -> go_run_ops pf c kind fuel t1 ops' = Ok (t2, rs2) ->
  go_run_ops pf c kind fuel t (ops ++ ops') = Ok (t2, rs1 ++ rs2).
Proof.
  revert t rs1. induction ops as [|o ops IH]; intros t rs1 E1 E2; cbn [go_run_ops app] in *.
  - injection E1 as -> <-. done.
  - destruct (go_run_op pf c kind fuel t o) as [[u x]| | |]; cbn [mbind res_bind] in *; [|done..].
    destruct (go_run_ops pf c kind fuel u ops) as [[u' xs]| | |] eqn:E; cbn [mbind res_bind] in *; [|done..].
    injection E1 as -> <-. by rewrite (IH u xs E E2).
Qed.
Lemma ex_go_step1 : go_run_ops lax_pf ex_gx OvMap 64 ex_go0 ex_go_ops = Ok (ex_go1, snd (spec_run ∅ ex_go_ops)).
Proof. vm_compute. reflexivity. Qed.
Definition ex_gom1 : gmap N N := fst (spec_run ∅ ex_go_ops).
Definition ex_gom2 : gmap N N := fst (spec_run ∅ (ex_go_ops ++ ex_go_more)).
Lemma ex_go_step2 : go_run_ops lax_pf ex_gx OvMap 64 ex_go1 ex_go_more = Ok (ex_go2, snd (spec_run ex_gom1 ex_go_more)).
Proof. vm_compute. reflexivity. Qed.
Lemma ex_ov_map_ok : ov_ok lax_pf OvMap.
Proof. split; [done|]. intros _. exact lax_fair. Qed.
Lemma ex_go_valid : valid_ops 10 4 1 (zbmax (gc_hash ex_gx) 10) ex_go_ops.
Proof.
  unfold ex_go_ops. constructor; [vm_compute; split; done|]. constructor; [vm_compute; split; done|].
  apply Forall_forall. intros o (i & -> & Hi%elem_of_seq)%elem_of_list_fmap. cbn [valid_op]. split.
  - unfold kdom. change (2^10) with 1024. lia.
  - change (2^4) with 16. apply N.mod_lt. done.
Qed.
Lemma ex_go1_reached : go_reached lax_pf ex_gx OvMap 10 4 1 ex_go1 ex_gom1.
Proof.
  exists 64%nat, ex_go_ops, (snd (spec_run ∅ ex_go_ops)). split; [exact ex_gx10_ok|]. split; [exact ex_ov_map_ok|]. split; [lia|].
  split; [exact ex_go_valid|]. split; [exact ex_go_step1|reflexivity].
Qed.
Lemma ex_go2_reached : go_reached lax_pf ex_gx OvMap 10 4 1 ex_go2 ex_gom2.
Proof.
  exists 64%nat, (ex_go_ops ++ ex_go_more), (snd (spec_run ∅ ex_go_ops) ++ snd (spec_run ex_gom1 ex_go_more)).
  split; [exact ex_gx10_ok|]. split; [exact ex_ov_map_ok|]. split; [lia|].
  split; [|split; [exact (go_run_app _ _ _ _ _ _ _ _ _ _ _ ex_go_step1 ex_go_step2)|reflexivity]].
  apply Forall_app. split; [exact ex_go_valid|valid_solve].
Qed.
Example C71_case : group_ok ex_gx 10 4 1 /\ ov_ok lax_pf OvMap /\ ov_size (go_ov ex_go1) = 1 /\ ov_size (go_ov ex_go2) = 2
  /\ go_run_ops lax_pf ex_gx OvMap 64 ex_go0 ex_go_ops = Ok (ex_go1, snd (spec_run ∅ ex_go_ops))
  /\ (snd <$> go_run_ops lax_pf ex_gx OvMap 64 ex_go1 ex_go_more) =
     Ok [OutEntry (Some (256, 7)); OutEntry (Some (255, 15)); OutEntry (Some (256, 7)); OutUnit; OutNum 8; OutNum 0; OutNum 257]
  /\ (snd <$> go_run_ops lax_pf ex_gx OvMap 64 ex_go2 ex_go_rest) =
     Ok [OutNum 1; OutEntry None; OutEntry (Some (256, 8)); OutNum 1; OutEntry (Some (700, 1)); OutEntry (Some (700, 1)); OutNum 1; OutNum 255].
Proof.
  split; [exact ex_gx10_ok|]. split; [exact ex_ov_map_ok|]. split; [vm_compute; reflexivity|]. split; [vm_compute; reflexivity|].
  split; [exact ex_go_step1|]. split; vm_compute; reflexivity.
Qed.

(** ** C72: forward iteration.  Every pair is visited once if nothing is in the overflow or the overflow has an element at position 0;
    otherwise the elements of the overflow are skipped (begin() and operator++ enter the overflow at position 0 instead of at
    first_position()).  Never is a pair visited twice, or one that is not stored. *)
Theorem C72_forward_overflow_partial : forall pf c kind kw vw bmin t m, go_reached pf c kind kw vw bmin t m ->
  exists l, NoDup (map fst l) /\ (forall k v, (k, v) ∈ l -> m !! k = Some v)
    /\ (forall f, (length l <= f)%nat -> go_forward pf c f t = Ok l)
    /\ (ov_size (go_ov t) = 0 \/ ov_valid pf (go_ov t) 0 = true -> l ≡ₚ map_to_list m)
    /\ (ov_valid pf (go_ov t) 0 = false -> N.of_nat (length l) + ov_size (go_ov t) = N.of_nat (size m)).
Proof. intros pf c kind kw vw bmin t m (OK & [Hk Hfair] & H)%go_reached_rep. exact (omap_forward True pf c kind kw vw bmin OK Hk t m H). Qed.
Print Assumptions C72_forward_overflow_partial.
Lemma missing_key (m : gmap N N) (l : list N) : NoDup l -> (length l < size m)%nat -> exists k v, m !! k = Some v /\ k ∉ l.
Proof.
  intros Hnd H. destruct (decide (dom m ⊆ list_to_set l)) as [Hs|Hs].
  - apply subseteq_size in Hs. rewrite size_dom in Hs. rewrite size_list_to_set in Hs by done. lia.
  - destruct (set_choose_or_empty (dom m ∖ list_to_set l)) as [[k Hk]|E]; [|exfalso; apply Hs; set_solver].
    apply elem_of_difference in Hk as [[v Hv]%elem_of_dom Hn]. exists k, v. split; [exact Hv|]. by rewrite elem_of_list_to_set in Hn.
Qed.
Theorem C72_forward_overflow_refuted : exists pf c t m, go_reached pf c OvMap 10 4 1 t m
  /\ exists l k v, (forall f, (length l <= f)%nat -> go_forward pf c f t = Ok l) /\ m !! k = Some v /\ k ∉ map fst l.
Proof.
  exists lax_pf, ex_gx, ex_go1, ex_gom1. split; [exact ex_go1_reached|].
  destruct (C72_forward_overflow_partial _ _ _ _ _ _ _ _ ex_go1_reached) as (l & Hnd & Hin & Hf & _ & Hlen).
  assert (Hl : length l = 255%nat).
  { specialize (Hlen ltac:(vm_compute; reflexivity)). assert (E1 : ov_size (go_ov ex_go1) = 1) by (vm_compute; reflexivity).
    assert (E2 : size ex_gom1 = 256%nat) by (vm_compute; reflexivity). lia. }
  destruct (missing_key ex_gom1 (map fst l) Hnd) as (k & v & Hk & Hn).
  { rewrite map_length, Hl. assert (E2 : size ex_gom1 = 256%nat) by (vm_compute; reflexivity). lia. }
  exists l, k, v. split; [exact Hf|]. split; [exact Hk|exact Hn].
Qed.
Print Assumptions C72_forward_overflow_refuted.
(** The second table has an element at position 0. *)
Example C72_case : go_reached lax_pf ex_gx OvMap 10 4 1 ex_go2 ex_gom2 /\ ov_size (go_ov ex_go2) = 2 /\ ov_valid lax_pf (go_ov ex_go2) 0 = true
  /\ size ex_gom2 = 257%nat.
Proof. split; [exact ex_go2_reached|]. split; [vm_compute; reflexivity|]. split; vm_compute; reflexivity. Qed.

(** ** C73: reverse iteration from rbegin_nav() visits nothing, with or without elements in the overflow, unless an element of the overflow
    happens to have the position size(). *)
Theorem C73_reverse_visits_nothing_refuted : forall pf c kind kw vw bmin t m f, go_reached pf c kind kw vw bmin t m -> m <> ∅ ->
  ov_valid pf (go_ov t) (ov_size (go_ov t)) = false -> go_backward pf c f t = Ok [].
Proof.
  intros pf c kind kw vw bmin t m f (OK & _ & [[_ ->]|(ess & ovl & H & _)])%go_reached_rep Hm Hv; [done|]. by eapply obackward.
Qed.
Print Assumptions C73_reverse_visits_nothing_refuted.
Theorem C73_reverse_overflow_refuted : exists pf c t m, go_reached pf c OvMap 10 4 1 t m /\ m <> ∅ /\ 0 < ov_size (go_ov t) /\ forall f, go_backward pf c f t = Ok [].
Proof.
  exists lax_pf, ex_gx, ex_go2, ex_gom2. assert (Hm : ex_gom2 <> ∅) by (intros E; apply (f_equal size) in E; revert E; vm_compute; discriminate).
  split; [exact ex_go2_reached|]. split; [exact Hm|]. split; [vm_compute; reflexivity|].
  intros f. eapply C73_reverse_visits_nothing_refuted; [exact ex_go2_reached|exact Hm|vm_compute; reflexivity].
Qed.
Print Assumptions C73_reverse_overflow_refuted.
Example C73_case : go_reached lax_pf ex_gx OvMap 10 4 1 ex_go2 ex_gom2 /\ size ex_gom2 = 257%nat
  /\ ov_size (go_ov ex_go2) = 2 /\ ov_valid lax_pf (go_ov ex_go2) (ov_size (go_ov ex_go2)) = false /\ go_backward lax_pf ex_gx 1000 ex_go2 = Ok [].
Proof. split; [exact ex_go2_reached|]. split; [vm_compute; reflexivity|]. split; [vm_compute; reflexivity|]. split; vm_compute; reflexivity. Qed.

(** ** C74: serialization.  With elements in the overflow serialize() reads outside of memory (map_overflow::serialize);
    otherwise the stream restores the table into any other one, as in C26. *)
Theorem C74_roundtrip_overflow_partial : forall pf c kind kw vw bmin t m kw0 vw0 bmin0 t0 m0, go_reached pf c kind kw vw bmin t m ->
  go_reached pf c kind kw0 vw0 bmin0 t0 m0 -> ov_size (go_ov t) = 0 -> N.of_nat (size m) < 2^64 ->
  exists s, go_serialize pf c kind t = Ok s /\ forall s', exists t' l,
    go_deserialize pf c kind t0 (s ++ s') = Ok (t', s')
    /\ l ≡ₚ map_to_list m /\ (forall f, (length l <= f)%nat -> go_forward pf c f t' = Ok l)
    /\ forall fuel ops, (64 <= fuel)%nat -> valid_ops kw vw bmin (zbmax (gc_hash c) kw) ops -> (8 <= slack pf)%nat \/ Forall no_erase ops ->
       exists t2, go_run_ops pf c kind fuel t' ops = Ok (t2, snd (spec_run m ops)).
Proof.
  intros pf c kind kw vw bmin t m kw0 vw0 bmin0 t0 m0 (OK & [Hk Hfair] & H)%go_reached_rep (OK0 & _ & H0)%go_reached_rep E0 Hsz.
  destruct (oroundtrip True pf c kind kw vw bmin OK Hk Hfair t m kw0 vw0 bmin0 True t0 m0 H E0 Hsz OK0 H0) as (s & Es & Hs).
  exists s. split; [done|]. intros s'. destruct (Hs s') as (t' & Ed & H' & Hz).
  destruct (omap_forward _ pf c kind kw vw bmin OK Hk t' m H') as (l & _ & _ & Hf & Hl & _).
  exists t', l. split; [done|]. split; [apply Hl; by left|]. split; [done|]. intros fuel ops Hfu Hv Her.
  destruct (go_run _ pf c kind kw vw bmin OK Hk Hfair fuel Hfu ops t' m Her H' Hv) as (t2 & E & _). by exists t2.
Qed.
Print Assumptions C74_roundtrip_overflow_partial.
Theorem C74_serialize_undefined_refuted : forall pf c kind kw vw bmin t m, go_reached pf c kind kw vw bmin t m -> 0 < ov_size (go_ov t) ->
  go_serialize pf c kind t = Ub OobRead.
Proof.
  intros pf c kind kw vw bmin t m (OK & [Hk Hfair] & H)%go_reached_rep Hs.
  destruct H as [[[_ Ho] _]|(ess & ovl & H & _)].
  - pose proof (ov_zero_size _ _ _ Ho). lia.
  - eapply (oserialize_ub True pf c kind kw vw bmin); [done..|]. intros ->. pose proof (osize _ _ _ _ _ _ _ _ _ _ H) as E. cbn in E. lia.
Qed.
Print Assumptions C74_serialize_undefined_refuted.
Theorem C74_serialize_overflow_refuted : exists pf c t m, go_reached pf c OvMap 10 4 1 t m /\ go_serialize pf c OvMap t = Ub OobRead.
Proof. exists lax_pf, ex_gx, ex_go2, ex_gom2. split; [exact ex_go2_reached|vm_compute; reflexivity]. Qed.
Print Assumptions C74_serialize_overflow_refuted.
Definition ex_go_ins : list op := [OpInsert 5 7; OpInsert 1023 15; OpInsert 77 0; OpErase 5; OpInsert 3 3].
Definition ex_go3 : gotable := Eval vm_compute in ex_go_from ex_go0 ex_go_ins.
Definition ex_gom3 : gmap N N := fst (spec_run ∅ ex_go_ins).
Lemma ex_go3_reached : go_reached lax_pf ex_gx OvMap 10 4 1 ex_go3 ex_gom3.
Proof.
  exists 64%nat, ex_go_ins, (snd (spec_run ∅ ex_go_ins)). split; [exact ex_gx10_ok|]. split; [exact ex_ov_map_ok|]. split; [lia|].
  split; [valid_solve|]. split; vm_compute; reflexivity.
Qed.
Example C74_case : go_reached lax_pf ex_gx OvMap 10 4 1 ex_go3 ex_gom3 /\ ov_size (go_ov ex_go3) = 0 /\ size ex_gom3 = 3%nat
  /\ (s ← go_serialize lax_pf ex_gx OvMap ex_go3; r ← go_deserialize lax_pf ex_gx OvMap ex_go2 s; Ok (go_size (fst r))) = Ok 3
  /\ go_serialize lax_pf ex_gx OvMap ex_go2 = Ub OobRead.
Proof. split; [exact ex_go3_reached|]. split; [vm_compute; reflexivity|]. split; [vm_compute; reflexivity|]. split; vm_compute; reflexivity. Qed.
