(** C120: how much memory shrink_to_fit asks for. *)
From Verif Require Import ExactModel AllocModel AllocInv PropBucket PropTable PropAlloc PropExact.

(** Specification: a bucket is worked on if it has elements and, where capacities are recorded (arbitrary_resize), room for more; each such bucket
    costs one request of operator new for keys and one for values that are class buckets. *)
Definition worked_on (c : cfg) (s : slot) : Prop := s_size s <> 0 /\ (c_arb c = true -> s_size s < s_cap s).
#[global] Instance worked_on_dec c s : Decision (worked_on c s).
Proof. unfold worked_on. apply _. Defined.
Definition cost (c : cfg) : nat := (match c_key c with KClass _ => 1 | _ => 0 end) + (match c_val c with KClass _ => 1 | _ => 0 end).
Definition needs (c : cfg) (sl : list slot) : nat := cost c * length (filter (worked_on c) sl).
Lemma needs_none c sl : Forall (fun s => ~ worked_on c s) sl -> needs c sl = 0%nat.
Proof. unfold needs. induction 1 as [|s sl H _ IH]; [cbn; lia|]. by rewrite filter_cons, decide_False. Qed.

Section idle.
Context (pf : platform) (c : cfg).
Lemma request_some kd n : request (kind_new kd) (Some n) =
  let k := (match kd with KClass _ => 1 | _ => 0 end)%nat in if decide (k <= n)%nat then Some (Some (n - k)%nat) else None.
Proof. destruct kd; cbn; try (rewrite Nat.sub_0_r; done). destruct n; cbn; [done|]. by rewrite Nat.sub_0_r. Qed.
Lemma slot_requests t s s' n : shrink_slot pf c t s = Ok s' ->
  let k := (if decide (worked_on c s) then cost c else 0)%nat in
  ((k <= n)%nat -> a_shrink_slot pf c t s (Some n) = Ok (Done s' (Some (n - k)%nat))) /\ ((n < k)%nat -> exists b, a_shrink_slot pf c t s (Some n) = Ok (Bad b)).
Proof.
  intros H k. subst k. unfold shrink_slot, a_shrink_slot in *. destruct (N.eqb_spec (s_size s) 0) as [E0|E0].
  { injection H as <-. rewrite decide_False by (intros [? _]; done). rewrite Nat.sub_0_r. split; [done|lia]. }
  destruct (rs_can_shrink c (s_cap s) (s_size s)) eqn:Hsh.
  - assert (Hw : worked_on c s). { split; [done|]. intros A. unfold rs_can_shrink, arb_can_shrink in Hsh. rewrite A in Hsh. lia. }
    rewrite decide_True by done. cbv zeta in H |- *. rinv H. rinv H. injection H as <-. rewrite !request_some. unfold cost. cbv zeta.
    destruct (decide _) as [D1|D1].
    + cbn [mbind res_bind]. rewrite request_some. cbv zeta. destruct (decide _) as [D2|D2].
      * cbn [mbind res_bind]. split; [|intros; lia]. intros _. do 3 f_equal. lia.
      * split; [intros; lia|]. intros _. eauto.
    + split; [intros; lia|]. intros _. eauto.
  - assert (Hw : ~ worked_on c s). { intros [_ Hlt]. unfold rs_can_shrink, arb_can_shrink in Hsh. destruct (c_arb c); [|done]. specialize (Hlt eq_refl). lia. }
    rewrite decide_False by done. injection H as <-. rewrite Nat.sub_0_r. split; [done|lia].
Qed.
Lemma slots_requests t : forall sl sl' n, rmap (shrink_slot pf c t) sl = Ok sl' ->
  ((needs c sl <= n)%nat -> a_shrink_slots pf c t sl (Some n) = Ok (Done sl' (Some (n - needs c sl)%nat))) /\ ((n < needs c sl)%nat -> exists b, a_shrink_slots pf c t sl (Some n) = Ok (Bad b)).
Proof.
  induction sl as [|s sl IH]; intros sl' n H; cbn [rmap a_shrink_slots] in *.
  { injection H as <-. unfold needs. cbn. rewrite Nat.mul_0_r, Nat.sub_0_r. split; [done|lia]. }
  rinv H. rinv H. injection H as <-. destruct (slot_requests t s a n E) as [S1 S2]. set (k := (if decide (worked_on c s) then cost c else 0)%nat) in *.
  assert (Hn : needs c (s :: sl) = (k + needs c sl)%nat).
  { unfold needs, k. rewrite filter_cons. destruct (decide (worked_on c s)); cbn [length]; lia. }
  rewrite Hn. destruct (decide (k <= n)%nat) as [Hk|Hk].
  - rewrite S1 by done. cbn [mbind res_bind]. destruct (IH _ (n - k)%nat eq_refl) as [I1 I2]. split.
    + intros Hle. rewrite I1 by lia. cbn [mbind res_bind]. do 3 f_equal. lia.
    + intros Hlt. destruct I2 as (b & ->); [lia|]. cbn [mbind res_bind]. eauto.
  - split; [lia|]. intros _. destruct S2 as (b & ->); [lia|]. cbn [mbind res_bind]. eauto.
Qed.
End idle.

(** shrink_to_fit needs exactly that many successful requests: with fewer it throws, with more it keeps the rest. *)
Theorem C120_requests : forall pf c kw vw t m, params pf c kw vw -> reachable pf c kw vw t m ->
  exists t', shrink_to_fit pf c t = Ok t' /\ forall n,
    ((needs c (slots_of t) <= n)%nat -> a_shrink_to_fit pf c t (Some n) = Ok (Done t' (Some (n - needs c (slots_of t))%nat)))
    /\ ((n < needs c (slots_of t))%nat -> exists b, a_shrink_to_fit pf c t (Some n) = Ok (Bad b)).
Proof.
  intros pf c kw vw t m P Hr. destruct (shrink_fact pf c kw vw P t m Hr) as (t' & E & _). exists t'. split; [done|]. intros n.
  destruct (reachable_rep pf c kw vw P t m Hr) as [[Hz ->]|(sl & ess & ovl & H & Hm)].
  - destruct Hz as (Hb & _ & _ & _ & _ & Hs). assert (Hn : needs c (slots_of t) = 0%nat).
    { unfold slots_of. apply needs_none. destruct (t_slots t) as [sl|]; [|apply List.Forall_nil].
      eapply Forall_impl; [exact Hs|]. intros s -> [? _]. done. }
    rewrite Hn. unfold shrink_to_fit, a_shrink_to_fit in *. rewrite Hb in *. cbn in *. injection E as <-. rewrite Nat.sub_0_r. split; [done|lia].
  - destruct (tinv_bc _ _ _ _ _ _ _ (reach_ok0 pf c kw vw P) _ _ _ _ H) as [Hb0 Hbc]. pose proof (ti_len _ _ _ _ _ _ _ _ _ _ _ H) as Hl.
    unfold shrink_to_fit, a_shrink_to_fit, slots_of in *. rewrite Hb0, Hbc in *. rewrite (ti_slots _ _ _ _ _ _ _ _ _ _ _ H) in *. rewrite take_ge, drop_ge in * by lia.
    rinv E. injection E as <-. destruct (slots_requests pf c t sl a n E0) as [S1 S2]. split.
    + intros Hle. rewrite S1 by done. done.
    + intros Hlt. destruct (S2 Hlt) as (b & ->). cbn [mbind res_bind]. eauto.
Qed.
Print Assumptions C120_requests.

(** With recorded capacities a second call works on no bucket: it cannot throw, and changes nothing. *)
Theorem C120_again : forall pf c kw vw t m, params pf c kw vw -> reachable pf c kw vw t m -> c_arb c = true ->
  exists t', shrink_to_fit pf c t = Ok t' /\ needs c (slots_of t') = 0%nat /\ forall h, a_shrink_to_fit pf c t' h = Ok (Done t' h).
Proof.
  intros pf c kw vw t m P Hr Ea. destruct (shrink_fact pf c kw vw P t m Hr) as (t' & E & Hrep & _). exists t'. split; [done|].
  assert (Hall : Forall (fun s => ~ worked_on c s) (slots_of t')).
  { destruct (reachable_rep pf c kw vw P t m Hr) as [[Hz ->]|(sl & ess & ovl & H & Hm)].
    - rewrite (shrink_zero pf c kw vw) in E by done. injection E as <-. destruct Hz as (_ & _ & _ & _ & _ & Hs). unfold slots_of.
      destruct (t_slots t) as [sl|]; [|apply List.Forall_nil]. eapply Forall_impl; [exact Hs|]. intros s -> [? _]. done.
    - destruct (shrink_spec _ _ _ _ _ _ _ (reach_ok0 pf c kw vw P) _ _ _ _ H) as (u & sl' & E' & H' & Hb & HF).
      rewrite E in E'. injection E' as <-. unfold slots_of. rewrite (ti_slots _ _ _ _ _ _ _ _ _ _ _ H').
      apply Forall_lookup. intros i s' Hi. destruct (Forall2_lookup_r _ _ _ _ _ HF Hi) as (s & Hs & Hsz & Hcap).
      destruct (Forall2_lookup_l _ _ _ _ _ (ti_repr _ _ _ _ _ _ _ _ _ _ _ H) Hs) as (es & _ & (_ & _ & _ & _ & _ & Hsc)).
      assert (s_cap s' = s_size s') as Heq by (rewrite Hsz; apply Hcap; [done|by apply Hsc]). intros [_ Hlt]. specialize (Hlt Ea). lia. }
  split; [by apply needs_none|].
  intros h. assert (Hsl : forall sl, Forall (fun s => ~ worked_on c s) sl -> a_shrink_slots pf c t' sl h = Ok (Done sl h)).
  { induction 1 as [|s sl Hw _ IH]; cbn [a_shrink_slots]; [done|]. unfold a_shrink_slot. destruct (N.eqb_spec (s_size s) 0) as [E0|E0].
    - cbn [mbind res_bind]. rewrite IH. done.
    - destruct (rs_can_shrink c (s_cap s) (s_size s)) eqn:Hsh.
      + exfalso. apply Hw. split; [done|]. intros _. unfold rs_can_shrink, arb_can_shrink in Hsh. rewrite Ea in Hsh. lia.
      + cbn [mbind res_bind]. rewrite IH. done. }
  destruct Hrep as [[(Hb & _) _]|(sl & ess & ovl & H & _)].
  - unfold a_shrink_to_fit. rewrite Hb. done.
  - destruct (tinv_bc _ _ _ _ _ _ _ (reach_ok0 pf c kw vw P) _ _ _ _ H) as [Hb0 Hbc]. pose proof (ti_len _ _ _ _ _ _ _ _ _ _ _ H) as Hl.
    unfold a_shrink_to_fit, slots_of in *. rewrite Hb0, Hbc in *. pose proof (ti_slots _ _ _ _ _ _ _ _ _ _ _ H) as Hs. rewrite Hs in *. rewrite take_ge, drop_ge by lia.
    rewrite Hsl by done. cbn [mbind res_bind]. rewrite app_nil_r. do 3 f_equal. unfold with_slots. rewrite <-Hs. by destruct t'.
Qed.
Print Assumptions C120_again.
(** With incremental_resize, which records nothing, every call asks for as much as the one before and can throw each time. *)
Theorem C120_incremental : forall pf c kw vw t m, params pf c kw vw -> reachable pf c kw vw t m -> c_arb c = false ->
  exists t', shrink_to_fit pf c t = Ok t' /\ needs c (slots_of t') = needs c (slots_of t).
Proof.
  intros pf c kw vw t m P Hr Ea. destruct (shrink_fact pf c kw vw P t m Hr) as (t' & E & _). exists t'. split; [done|].
  destruct (reachable_rep pf c kw vw P t m Hr) as [[Hz ->]|(sl & ess & ovl & H & Hm)].
  - rewrite (shrink_zero pf c kw vw) in E by done. by injection E as <-.
  - destruct (shrink_spec _ _ _ _ _ _ _ (reach_ok0 pf c kw vw P) _ _ _ _ H) as (u & sl' & E' & H' & Hb & HF).
    rewrite E in E'. injection E' as <-. unfold slots_of. rewrite (ti_slots _ _ _ _ _ _ _ _ _ _ _ H'), (ti_slots _ _ _ _ _ _ _ _ _ _ _ H).
    unfold needs. f_equal. clear -HF Ea. induction HF as [|s s' l l' [Hsz _] _ IH]; [done|]. rewrite !filter_cons.
    assert (Hiff : worked_on c s <-> worked_on c s') by (unfold worked_on; rewrite Hsz, Ea; intuition done).
    destruct (decide (worked_on c s)), (decide (worked_on c s')); cbn [length]; [by rewrite IH|tauto|tauto|done].
Qed.
Print Assumptions C120_incremental.
Theorem C120_again_refuted : exists pf c kw vw t m t', params pf c kw vw /\ reachable pf c kw vw t m /\ shrink_to_fit pf c t = Ok t'
  /\ shrink_to_fit pf c t' = Ok t' /\ exists b, a_shrink_to_fit pf c t' (Some 0%nat) = Ok (Bad b).
Proof.
  exists lax_pf, ex_class, 4, 16, (ex_small ex_class ex_class_ops), (fst (spec_run ∅ ex_class_ops)).
  exists (match shrink_to_fit lax_pf ex_class (ex_small ex_class ex_class_ops) with Ok t => t | _ => new_table lax_pf ex_class 4 16 end).
  split; [apply ex_class_ok|]. split; [small_solve|]. split; [vm_compute; reflexivity|]. split; [vm_compute; reflexivity|]. eexists. vm_compute. reflexivity.
Qed.
Print Assumptions C120_again_refuted.
Example C120_case :
  reachable lax_pf ex_cval 4 16 (ex_small ex_cval [OpReserve 2; OpInsert 0 0; OpInsert 2 2]) (fst (spec_run ∅ [OpReserve 2; OpInsert 0 0; OpInsert 2 2]))
  /\ c_arb ex_cval = true /\ needs ex_cval (slots_of (ex_small ex_cval [OpReserve 2; OpInsert 0 0; OpInsert 2 2])) = 1%nat
  /\ reachable lax_pf ex_class 4 16 (ex_small ex_class ex_class_ops) (fst (spec_run ∅ ex_class_ops))
  /\ c_arb ex_class = false /\ needs ex_class (slots_of (ex_small ex_class ex_class_ops)) = 2%nat.
Proof. split; [small_solve|]. split; [done|]. split; [vm_compute; reflexivity|]. split; [small_solve|]. split; [done|]. vm_compute; reflexivity. Qed.
