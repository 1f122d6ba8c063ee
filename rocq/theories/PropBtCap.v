(** Property theorems about capacity() and shrink_to_fit() of bucket_table. *)
From Verif Require Export PropBt DebugBtRep.

(** Room of a block: the number of elements of w bits (cells of an array, or bits of a packed bucket) that fit into it. *)
Definition block_room (w : nat) (b : bucket) : nat :=
  match b with None => 0 | Some (_, Cells cs) => length cs | Some (_, Bits bs) => length bs / w end%nat.

Lemma brepr_room pf kd w w' cap b xs : kd <> KNull -> (1 <= w)%nat -> (match kd with KVar _ => w' = w | _ => True end) ->
  brepr pf kd w' cap b xs -> (cap <= block_room w b)%nat.
Proof.
  intros Hn Hw Hww. destruct kd; try done; cbn; intros (t & [cs|bs] & -> & _ & H); try done; cbn [block_room]; try lia.
  subst w'. destruct H as [H _]. apply Nat.div_le_lower_bound; lia.
Qed.

Lemma brep_capacity pf c es t E : bok pf c es -> brep pf c es t E ->
  (bt_n t = 0 \/ bt_n t <= bt_capacity c t <= growth_limit (bc_strat c)
     /\ (N.to_nat (bt_capacity c t) <= block_room (bc_width c) (bt_keys t))%nat
     /\ (N.to_nat (bt_capacity c t) <= block_room es (bt_vals t))%nat).
Proof.
  intros OK [[(_ & _ & Hn) _]|H]; [by left|]. right.
  destruct (bf_cap _ _ _ _ _ H) as (cap & Hks & Hvs & Hc & Hst). pose proof (bf_n _ _ _ _ _ H) as Hn. pose proof (bf_lim _ _ _ _ _ H) as Hl.
  pose proof (bo_w _ _ _ OK).
  assert (Hk : (cap <= block_room (bc_width c) (bt_keys t))%nat).
  { eapply brepr_room; [apply (bo_null _ _ _ OK)|lia| |exact Hks]. by destruct (bc_key c). }
  assert (Hv : (cap <= block_room es (bt_vals t))%nat).
  { destruct (bo_val _ _ _ OK) as [Hvd Hes]. assert (1 <= es)%nat by (unfold width_ok in Hes; lia).
    eapply (brepr_room pf (bc_val c) es 0); [by destruct Hvd as [-> | ->]|done| |exact Hvs]. by destruct Hvd as [-> | ->]. }
  unfold bt_capacity, st_size, blim, growth_limit in *. destruct (bc_strat c).
  - repeat split; try lia.
  - destruct Hst as [-> Hcap]. repeat split; lia.
Qed.

(** With arbitrary_resize_bucket, m_length is the number of cells of the array of values. *)
Definition exact_len (t : btable) : Prop :=
  match bt_vals t with None => True | Some (_, Cells cs) => bt_len t = N.of_nat (length cs) | Some _ => False end.
Section exact.
Context (pf : platform) (c : bcfg) (es : nat).
Hypothesis Hvd : bc_val c = KPlain es \/ bc_val c = KClass es.
Hypothesis Es : bc_strat c = BArb.
Definition same_cells (b b' : bucket) : Prop := exists t cs t' cs', b = Some (t, Cells cs) /\ b' = Some (t', Cells cs') /\ length cs = length cs'.
Lemma write_cells b i v w' b' : b_write pf (bc_val c) b i v w' = Ok b' -> same_cells b b'.
Proof.
  destruct Hvd as [-> | ->]; cbn -[Nat.ltb]; (destruct b as [[t [cs|bs]]|]; [|done|done]); (destruct (i <? length cs)%nat; [|done]); intros [= <-];
    eexists _, _, _, _; (split; [done|]); (split; [done|]); by rewrite insert_length.
Qed.
Lemma resize_cells b old new w' b' : b_resize pf (bc_val c) b old new w' = Ok b' -> exists t cs, b' = Some (t, Cells cs) /\ length cs = new.
Proof.
  destruct Hvd as [-> | ->]; cbn -[Nat.ltb Nat.eqb].
  - destruct b as [[t [cs|bs]]|]; [|done|].
    + destruct (free_ok _ _ _); [|done]. intros [= <-]. eexists _, _; split; [done|]. unfold realloc_cells, fresh_cells. rewrite app_length, take_length, replicate_length. lia.
    + intros [= <-]. eexists _, _; split; [done|]. apply replicate_length.
  - destruct b as [[t [cs|bs]]|]; [|done|].
    + unfold cells_prefix. destruct (old <=? length cs)%nat eqn:E1; [|done]. apply Nat.leb_le in E1. cbn [mbind res_bind]. destruct (new <? old)%nat eqn:E; [done|]. apply Nat.ltb_ge in E.
      destruct (free_ok _ _ _); [|done]. intros [= <-]. eexists _, _; split; [done|]. unfold fresh_cells. rewrite app_length, take_length, replicate_length. lia.
    + destruct (old =? 0)%nat; [|done]. intros [= <-]. eexists _, _; split; [done|]. apply replicate_length.
Qed.
Lemma exact_write ks vs n l t' ks' : same_cells vs t' -> exact_len (BT ks vs n l) -> exact_len (BT ks' t' n l).
Proof. intros (a & cs & a' & cs' & -> & -> & Hl). unfold exact_len. cbn. by rewrite Hl. Qed.
Lemma last_exact t k v t' p : bt_last pf c t k v = Ok (t', p) -> exact_len t -> exact_len t'.
Proof.
  unfold bt_last. intros H Hx. rinv H. rinv H. injection H as <- _. apply write_cells in E0. destruct t as [ks vs n l]. cbn [bt_vals bt_keys bt_n bt_len] in *.
  destruct E0 as (a' & cs & a'' & cs' & E1 & E2 & Hl). subst. unfold exact_len in *. cbn in *. by rewrite <-Hl.
Qed.
Lemma insert_exact t k v t' p : bt_insert pf c t k v = Ok (t', p) -> exact_len t -> exact_len t'.
Proof.
  unfold bt_insert. intros H Hx. destruct (bt_init t).
  - rinv H. destruct (_ =? ones64); [|by injection H as <-]. cbv zeta in H. destruct (st_needs_resize _ _ _).
    + unfold st_after_increment in H. rewrite Es in H. rinv H. rinv H. apply last_exact in H; [done|].
      apply resize_cells in E1 as (a' & cs & -> & Hl). unfold exact_len. cbn [bt_vals bt_len]. rewrite Hl. lia.
    + apply last_exact in H; [done|]. exact Hx.
  - apply last_exact in H; [done|]. unfold exact_len, st_assign. rewrite Es. change (u32 1) with 1.
    destruct Hvd as [-> | ->]; cbn [b_initialize bt_vals bt_len]; unfold fresh_cells; by rewrite replicate_length.
Qed.
Lemma shift_exact n : forall ks vs i ks' vs', bt_shift pf c ks vs i n = Ok (ks', vs') -> vs' = vs \/ same_cells vs vs'.
Proof.
  induction n as [|n IH]; intros ks vs i ks' vs' H; cbn [bt_shift] in H; [injection H as <- <-; by left|].
  rinv H. rinv H. rinv H. rinv H. apply write_cells in E2. apply IH in H as [->|H]; [by right|]. right.
  destruct E2 as (?&?&?&?&->&->&?), H as (?&?&?&?&[= <- <-]&->&?). eexists _, _, _, _. split; [done|]. split; [done|]. congruence.
Qed.
Lemma clear_exact t t' : bt_clear pf c t = Ok t' -> exact_len t'.
Proof. unfold bt_clear. intros H. rinv H. rinv H. injection H as <-. unfold b_clear in E0. rinv E0. injection E0 as <-. exact I. Qed.
Lemma op_exact t o t' x : bt_run_op pf c t o = Ok (t', x) -> bt_len t <= 255 -> exact_len t -> exact_len t'.
Proof.
  intros H Hl Hx. destruct o as [k|k|k v|k|k v|k|k| | |n| |]; cbn [bt_run_op] in H; try done.
  - rinv H. rinv H. by injection H as <-.
  - rinv H. by injection H as <-.
  - rinv H. destruct a as [t1 p]. rinv H. injection H as <- _. by eapply insert_exact.
  - unfold bt_index in H. rinv H. destruct a as [t1 p]. rinv H. injection H as <- _. by eapply insert_exact.
  - unfold bt_index in H. rinv H. destruct a as [t1 p]. apply insert_exact in E; [|done]. unfold bt_write in H. rinv H. injection H as <- _. rinv E0. injection E0 as <-.
    apply write_cells in E1. destruct t1 as [ks vs n l]. by eapply exact_write.
  - rinv H. destruct a as [t1 n]. injection H as <- _. unfold bt_erase in E. destruct (bt_init t); [|by injection E as <-]. rinv E. destruct (_ =? ones64); [by injection E as <-|].
    rinv E. destruct a0 as [ks vs]. cbn [bt_n] in E. apply shift_exact in E1. destruct (_ =? 0).
    + rinv E. apply clear_exact in E2. by injection E as <-.
    + injection E as <- _. destruct t as [ks0 vs0 n0 l0]. cbn [bt_vals bt_len] in *. destruct E1 as [->|E1]; [exact Hx|]. destruct E1 as (?&?&?&?&->&->&He). unfold exact_len in *. cbn in *. by rewrite <-He.
  - by injection H as <-.
  - by injection H as <-.
  - rinv H. injection H as <- _. unfold bt_shrink in E. destruct (bt_init t); [|by injection E as <-]. destruct (_ <? _) eqn:Eb; [|by injection E as <-]. apply N.ltb_lt in Eb. unfold st_size in Eb. rewrite Es in Eb.
    rinv E. rinv E. injection E as <-. apply resize_cells in E1 as (q1 & cs & -> & He). unfold exact_len, st_assign. rewrite Es. cbn [bt_vals bt_len]. unfold u32. rewrite N.mod_small by lia. rewrite He. lia.
  - rinv H. injection H as <- _. by eapply clear_exact.
Qed.
Lemma run_exact ops : forall t t' xs, bt_run pf c t ops = Ok (t', xs) -> bt_len t <= 255 -> exact_len t -> exact_len t'.
Proof.
  induction ops as [|o ops IH]; intros t t' xs H Hl Hx; cbn [bt_run] in H; [by injection H as <-|].
  rinv H. destruct a as [t1 x]. rinv H. destruct a as [t2 ys]. injection H as <- _. eapply IH; [done| |]; [by eapply op_len|by eapply op_exact].
Qed.
End exact.

(** C96: after any history, the elements fit into capacity(), and both blocks have room for capacity() elements unless the
    table is empty. *)
Theorem C96_capacity : forall pf c es ops t outs, bok pf c es -> Forall bt_has_op ops ->
  valid_ops (N.of_nat (bc_width c)) (N.of_nat es) 0 0 ops -> never_above (growth_limit (bc_strat c)) ∅ ops ->
  bt_run pf c bt_new ops = Ok (t, outs) ->
  N.of_nat (size (fst (spec_run ∅ ops))) <= bt_capacity c t
  /\ bt_capacity c t <= growth_limit (bc_strat c)
  /\ (fst (spec_run ∅ ops) <> ∅ -> (N.to_nat (bt_capacity c t) <= block_room (bc_width c) (bt_keys t))%nat
        /\ (N.to_nat (bt_capacity c t) <= block_room es (bt_vals t))%nat).
Proof.
  intros pf c es ops t outs OK Hh Hv Hs Er.
  destruct (BtProofs.run_spec pf c es OK ops bt_new ∅ (mrep_new pf c es) Hh Hv Hs) as (t' & E & Hr).
  rewrite E in Er. injection Er as <- _. pose proof (mrep_size _ _ _ _ _ Hr) as [Hsz _]. destruct Hr as (En & Hr & Hm).
  rewrite Hsz. destruct (brep_capacity _ _ _ _ _ OK Hr) as [Hn|(H1 & H2 & H3)].
  - rewrite Hn. split; [lia|]. split.
    + unfold bt_capacity, st_size, growth_limit. destruct (bc_strat c) eqn:Es; [lia|]. eapply run_len; [done|exact E|vm_compute; discriminate].
    + intros Hne. destruct Hne. rewrite Hn in Hsz. apply map_size_empty_iff. lia.
  - split; [lia|]. split; [lia|]. by intros _.
Qed.
Print Assumptions C96_capacity.

(** C96, arbitrary_resize_bucket: the array of values of a table with elements has exactly capacity() cells; shrink_to_fit
    reduces it to size() cells. *)
Theorem C96_exact : forall pf c es ops t outs, bok pf c es -> bc_strat c = BArb -> Forall bt_has_op ops ->
  valid_ops (N.of_nat (bc_width c)) (N.of_nat es) 0 0 ops -> never_above 255 ∅ ops ->
  bt_run pf c bt_new ops = Ok (t, outs) -> fst (spec_run ∅ ops) <> ∅ ->
  N.of_nat (block_room es (bt_vals t)) = bt_capacity c t
  /\ exists t', bt_shrink pf c t = Ok t' /\ bt_capacity c t' = N.of_nat (size (fst (spec_run ∅ ops)))
       /\ block_room es (bt_vals t') = size (fst (spec_run ∅ ops)).
Proof.
  intros pf c es ops t outs OK Es Hh Hv Hs Er Hne.
  destruct (BtProofs.run_spec pf c es OK ops bt_new ∅ (mrep_new pf c es) Hh Hv ltac:(unfold blim; by rewrite Es)) as (t1 & E & Hr).
  rewrite E in Er. injection Er as <- _. pose proof (mrep_size _ _ _ _ _ Hr) as [Hsz _]. destruct Hr as (En & Hr & Hm).
  assert (H0 : bt_n t1 <> 0). { intros Hn. destruct Hne. rewrite Hn in Hsz. apply map_size_empty_iff. lia. }
  destruct (bo_val _ _ _ OK) as [Hvd _].
  assert (Hl : bt_len t1 <= 255) by (eapply (run_len pf c Es); [exact E|vm_compute; discriminate]).
  assert (Hx : exact_len t1) by (eapply (run_exact pf c es Hvd Es); [exact E|vm_compute; discriminate|exact I]).
  assert (He : forall t E, brep pf c es t E -> bt_n t <> 0 -> exact_len t -> N.of_nat (block_room es (bt_vals t)) = bt_capacity c t).
  { intros t E' Hb Hn Hxt. destruct (brep_capacity _ _ _ _ _ OK Hb) as [?|(H1 & _ & H3)]; [done|]. unfold exact_len in Hxt. unfold block_room, bt_capacity, st_size in *.
    rewrite Es in *. destruct (bt_vals t) as [[a [cs|bs]]|]; [done|done|]. lia. }
  split; [by eapply He|].
  assert (Hst : exists t', bt_shrink pf c t1 = Ok t' /\ brep pf c es t' En) by by apply BtProofs.shrink_spec.
  destruct Hst as (t' & Et & Hr'). exists t'. split; [done|].
  assert (Hx' : exact_len t'). { eapply (op_exact pf c es Hvd Es t1 OpShrink); [|done|done]. cbn [bt_run_op]. rewrite Et. done. }
  assert (Hn' : bt_n t' = bt_n t1). { rewrite <-(brep_length _ _ _ _ _ Hr'). by rewrite (brep_length _ _ _ _ _ Hr). }
  assert (Hc' : bt_capacity c t' = bt_n t1).
  { destruct (brep_capacity _ _ _ _ _ OK Hr) as [?|(H1 & _)]; [done|]. unfold bt_shrink in Et. destruct (bt_init t1) eqn:Ei.
    - unfold bt_capacity in *. destruct (_ <? _) eqn:Eb.
      + rinv Et. rinv Et. injection Et as <-. cbn [bt_n bt_len] in *. unfold st_size, st_assign in *. rewrite Es in *. cbn [growth_limit] in H1. unfold u32. apply N.mod_small. lia.
      + injection Et as <-. apply N.ltb_ge in Eb. lia.
    - destruct Hr as [[(_&_&?) _]|Hf]; [done|]. by rewrite (bfull_init _ _ _ OK _ _ Hf) in Ei. }
  split; [by rewrite Hc'|]. specialize (He _ _ Hr' ltac:(by rewrite Hn') Hx'). lia.
Qed.
Print Assumptions C96_exact.

Definition cap_ops : list op := [OpInsert 8191 5; OpInsert 7 1; OpInsert 9 2; OpInsert 10 3; OpErase 7].
Example C96_case : exists t outs, Forall bt_has_op cap_ops /\ valid_ops 13 16 0 0 cap_ops /\ never_above 255 ∅ cap_ops
  /\ bt_run lax_pf (ex_bt BArb) bt_new cap_ops = Ok (t, outs) /\ size (fst (spec_run ∅ cap_ops)) = 3%nat
  /\ bt_capacity (ex_bt BArb) t = 8 /\ block_room 16 (bt_vals t) = 8%nat /\ block_room 13 (bt_keys t) = 8%nat
  /\ (bt_capacity (ex_bt BArb) <$> bt_shrink lax_pf (ex_bt BArb) t) = Ok 3.
Proof.
  eexists _, _. split; [repeat (apply List.Forall_cons; [exact I|]); apply List.Forall_nil|].
  split; [repeat (apply List.Forall_cons; [cbn [valid_op]; vm_compute; auto|]); apply List.Forall_nil|].
  split; [vm_compute; repeat split; discriminate|]. split; [vm_compute; reflexivity|]. repeat split; vm_compute; reflexivity.
Qed.

(** What does not hold.  With arbitrary_resize_bucket a table that has been emptied by clear() reports the capacity it had,
    although it has no memory, and shrink_to_fit does not change that: its capacity() is not its size(). *)
Theorem C96_emptied_refuted : forall pf c es ops t outs, bok pf c es -> bc_strat c = BArb -> Forall bt_has_op ops ->
  valid_ops (N.of_nat (bc_width c)) (N.of_nat es) 0 0 ops -> never_above 255 ∅ ops ->
  bt_run pf c bt_new ops = Ok (t, outs) -> fst (spec_run ∅ ops) <> ∅ ->
  exists t', bt_clear pf c t = Ok t' /\ bt_n t' = 0 /\ block_room (bc_width c) (bt_keys t') = 0%nat /\ block_room es (bt_vals t') = 0%nat
    /\ bt_shrink pf c t' = Ok t' /\ 0 < bt_capacity c t' /\ bt_capacity c t' = bt_capacity c t.
Proof.
  intros pf c es ops t outs OK Es Hh Hv Hs Er Hne.
  pose proof (C96_capacity pf c es ops t outs OK Hh Hv ltac:(by rewrite Es) Er) as (H1 & _ & _).
  destruct (BtProofs.run_spec pf c es OK ops bt_new ∅ (mrep_new pf c es) Hh Hv ltac:(unfold blim; by rewrite Es)) as (t1 & E & Hr).
  rewrite E in Er. injection Er as <- _. destruct Hr as (En & Hr & Hm).
  assert (Hst : exists t', bt_clear pf c t1 = Ok t' /\ brep pf c es t' []) by by eapply BtProofs.clear_spec.
  destruct Hst as (t' & Et & Hr'). exists t'. split; [done|].
  assert (Hn : bt_keys t' = None /\ bt_vals t' = None /\ bt_n t' = 0).
  { unfold bt_clear in Et. rinv Et. rinv Et. injection Et as <-. unfold b_clear in E0, E1. rinv E0. rinv E1. injection E0 as <-. by injection E1 as <-. }
  destruct Hn as (Hk & Hvv & Hn). split; [done|]. rewrite Hk, Hvv. split; [done|]. split; [done|].
  split; [unfold bt_shrink, bt_init; by rewrite Hk|].
  apply clear_len in Et. unfold bt_capacity, st_size in *. rewrite Es in *. rewrite Et. split; [|done].
  assert (size (spec_run ∅ ops).1 <> 0%nat) by (by intros ?%map_size_empty_iff). lia.
Qed.
Print Assumptions C96_emptied_refuted.

Example C96_emptied_case : exists t outs, bt_run lax_pf (ex_bt BArb) bt_new (cap_ops ++ [OpClear; OpShrink]) = Ok (t, outs)
  /\ bt_n t = 0 /\ bt_capacity (ex_bt BArb) t = 8 /\ bt_vals t = None.
Proof. eexists _, _. split; [vm_compute; reflexivity|]. repeat split; vm_compute; reflexivity. Qed.

(** With incremental_resize, shrink_to_fit does nothing at all, so that the memory of erased elements is not released. *)
Theorem C96_incremental_noop : forall pf c t, bc_strat c = BInc -> bt_shrink pf c t = Ok t /\ bt_capacity c t = bt_n t.
Proof.
  intros pf c t Es. split; [|unfold bt_capacity, st_size; by rewrite Es].
  unfold bt_shrink, st_size. rewrite Es. rewrite N.ltb_irrefl. by destruct (bt_init t).
Qed.
Print Assumptions C96_incremental_noop.
Theorem C96_incremental_refuted : exists pf c es ops t outs, bok pf c es /\ bc_strat c = BInc /\ Forall bt_has_op ops
  /\ valid_ops (N.of_nat (bc_width c)) (N.of_nat es) 0 0 ops /\ bt_run pf c bt_new (ops ++ [OpShrink]) = Ok (t, outs)
  /\ bt_capacity c t = 1 /\ bt_n t = 1 /\ block_room es (bt_vals t) = 4%nat.
Proof.
  exists lax_pf, (ex_bt BInc), 16%nat, (cap_ops ++ [OpErase 9; OpErase 10]). eexists _, _. split; [apply ex_bt_ok|]. split; [reflexivity|].
  split; [repeat (apply List.Forall_cons; [exact I|]); apply List.Forall_nil|].
  split; [repeat (apply List.Forall_cons; [cbn [valid_op]; vm_compute; auto|]); apply List.Forall_nil|].
  split; [vm_compute; reflexivity|]. repeat split; vm_compute; reflexivity.
Qed.
Print Assumptions C96_incremental_refuted.
