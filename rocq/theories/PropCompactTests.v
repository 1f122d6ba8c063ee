(** The test programs of test/compact.hpp on a compact_chaining_map: C108. *)
From Verif Require Import CompactProofs ClientTable PropClient PropCompact.

(** Programs that do not look at the key an iterator reports. *)
Definition forget (x : out) : out := match x with OutEntry (Some (_, v)) => OutEntry (Some (0, v)) | _ => x end.
Fixpoint blind (p : mprog) : Prop :=
  match p with
  | Pass => True
  | Call o k => match o with OpFind _ | OpInsert _ _ => forall x, k x = k (forget x) | _ => True end /\ forall x, blind (k x)
  | Iter _ _ => False
  | Assert _ p => blind p
  end.
Definition plain_op (o : op) : Prop := match o with OpFind _ | OpInsert _ _ => False | _ => True end.
Lemma blind_call o k : plain_op o -> (forall x, blind (k x)) -> blind (Call o k).
Proof. intros H1 H2. split; [by destruct o|done]. Qed.
Lemma blind_act o p : blind p -> blind (act o p).
Proof. intros H. split; [by destruct o|done]. Qed.
Lemma blind_expect o x p : plain_op o -> blind p -> blind (expect o x p).
Proof. intros H1 H. by apply blind_call. Qed.
Lemma blind_same k p : blind p -> blind (expect_same k p).
Proof. intros H. apply blind_call; [done|]. intros x. by apply blind_call. Qed.
Lemma blind_value k v p : blind p -> blind (expect_value k v p).
Proof. intros H. split; intros [|[[]|]| |]; done. Qed.
Lemma blind_each {A} (l : list A) (body : A -> mprog -> mprog) rest : (forall x p, blind p -> blind (body x p)) -> blind rest -> blind (each l body rest).
Proof. intros Hb Hr. unfold each. induction l as [|x l IH]; cbn [fold_right]; [done|]. by apply Hb. Qed.
Ltac blind_solve := repeat match goal with
  | |- blind (each _ _ _) => apply blind_each; [intros ? ? ?|]
  | |- blind (expect _ _ _) => apply blind_expect; [exact I|]
  | |- blind (act _ _) => apply blind_act
  | |- blind (expect_same _ _) => apply blind_same
  | |- blind (expect_value _ _ _) => apply blind_value
  | |- blind (Call _ _) => apply blind_call; [exact I|intros ?; cbv beta]
  | |- blind Pass => exact I
  | H : blind ?p |- blind ?p => exact H
  end.
Lemma id_blind kw vw : blind (test_map_id kw vw).
Proof. unfold test_map_id. cbv zeta. blind_solve. Qed.
Lemma reverse_blind kw vw : blind (test_map_reverse kw vw).
Proof. unfold test_map_reverse. cbv zeta. blind_solve. Qed.
Lemma outlier_blind kw : blind (test_map_outlier kw).
Proof. unfold test_map_outlier. cbv zeta. blind_solve. Qed.
Lemma large_blind l : blind (test_map_random_large l).
Proof.
  unfold test_map_random_large. generalize (∅ : gmap N N). induction l as [|[k v] l IH]; intros m; cbn [large_insert].
  - unfold expect_all. blind_solve.
  - apply blind_act, blind_expect; [done|]. apply IH.
Qed.

(** A test on a new compact_chaining_map *)
Definition test_compact pf c fuel f kw vw (p : mprog) : res (cmap * bool) :=
  play (m_run_op (c_impl pf c fuel)) (c_forward pf c f) (c_backward pf c f) (c_new kw vw) p.

Section compact_play.
Context pf c kw vw bmin (OK : compact_ok pf c kw vw bmin) (fuel : nat) (Hf : (64 <= fuel)%nat) (f : nat).
Notation R := (mrep (crep c kw vw bmin) (czero kw vw)).
Notation okop := (fun _ o => valid_op kw vw bmin (zbmax (cc_hash c) kw) o).
Lemma compact_step t m o : R t m -> valid_op kw vw bmin (zbmax (cc_hash c) kw) o ->
  exists t' x, m_run_op (c_impl pf c fuel) t o = Ok (t', x) /\ oout (cokey c kw bmin) x (snd (spec_step m o)) /\ R t' (fst (spec_step m o)).
Proof.
  intros HR Ho. destruct (m_run_rep _ _ _ _ _ _ _ _ _ _ _ _ _ _ (compact_chain pf c kw vw bmin OK fuel Hf) [o] t m HR) as (t' & rs & E & Hr & HR').
  { apply List.Forall_cons; [done|apply List.Forall_nil]. }
  cbn [m_run_ops spec_run] in E, Hr, HR'. destruct (m_run_op (c_impl pf c fuel) t o) as [[t1 x]| | |]; cbn [mbind res_bind] in E; [|done..].
  destruct (spec_step m o) as [m1 y]. cbn [fst snd] in *. injection E as -> <-. exists t', x. split; [done|]. split; [|done]. by inversion Hr.
Qed.
Lemma plain_out m o x : plain_op o -> oout (cokey c kw bmin) x (snd (spec_step m o)) -> x = snd (spec_step m o).
Proof.
  intros Ho Hx. assert (He : match snd (spec_step m o) with OutEntry (Some _) => False | _ => True end).
  { destruct o; try done; cbn [spec_step]; by destruct (m !! _). }
  destruct x as [|[[]|]| |], (snd (spec_step m o)) as [|[[]|]| |]; cbn in Hx; try done.
Qed.
Lemma entry_out e x : oout (cokey c kw bmin) x e -> forget x = forget e.
Proof. destruct x as [|[[]|]| |], e as [|[[]|]| |]; cbn; try congruence. intros [_ H]. cbn in H. by subst. Qed.
Lemma blind_play p : forall t m, blind p -> R t m -> good spec_step okop (fun _ => False) (fun m k v => m !! k = Some v) m p ->
  succeeds (play (m_run_op (c_impl pf c fuel)) (c_forward pf c f) (c_backward pf c f) t p).
Proof.
  induction p as [|o k IH|back k IH|b p IH]; intros t m Hb HR Hg; cbn [good] in Hg; cbn [play blind] in *; [by exists t| |done|].
  - destruct Hg as [Ho Hg], Hb as [Hb Hbk]. destruct (compact_step t m o HR Ho) as (t' & x & E & Hx & HR'). rewrite E. cbn [mbind res_bind].
    assert (Hk : k x = k (snd (spec_step m o))).
    { assert (Hc : plain_op o \/ forall x, k x = k (forget x)) by (destruct o; auto; by left).
      destruct Hc as [Hc|Hc]; [by rewrite (plain_out m o x Hc Hx)|]. by rewrite (Hc x), (Hc (snd _)), (entry_out _ _ Hx). }
    rewrite Hk. by eapply IH.
  - destruct Hg as [-> Hg]. by eapply IH.
Qed.
Lemma fit_play p : quotients_fit c kw bmin -> good spec_step okop (fun _ => False) (fun m k v => m !! k = Some v) ∅ p ->
  succeeds (test_compact pf c fuel f kw vw p).
Proof.
  intros Hfit Hg. unfold test_compact. eapply good_play with (R := R); [| |by left|exact Hg]; [|done].
  intros t m o HR Ho. destruct (compact_step t m o HR Ho) as (t' & x & E & Hx & HR'). rewrite cokey_fit in Hx by done. exists t'. split; [|done].
  rewrite E. do 2 f_equal. assert (Hx1 : Forall2 (oout eq) [x] [snd (spec_step m o)]) by (by repeat constructor). apply oout_eq in Hx1. congruence.
Qed.
End compact_play.

(** ** C108: the tests of TEST_MAP.  All but test_map_random look at values, sizes and numbers of erased elements only: they pass for every
    width of storage_t.  test_map_random compares the keys reported by iterators: it passes if the quotients fit into storage_t. *)
Theorem C108_compact_tests_partial : forall pf c kw vw bmin fuel f, compact_ok pf c kw vw bmin -> (64 <= fuel)%nat ->
  succeeds (test_compact pf c fuel f kw vw (test_map_id kw vw))
  /\ succeeds (test_compact pf c fuel f kw vw (test_map_reverse kw vw))
  /\ (kw < 2^vw -> succeeds (test_compact pf c fuel f kw vw (test_map_outlier kw)))
  /\ (forall l, Forall (pair_ok kw vw) l -> succeeds (test_compact pf c fuel f kw vw (test_map_random_large l)))
  /\ (quotients_fit c kw bmin -> forall rounds, Forall (round_ok kw vw) rounds -> succeeds (test_compact pf c fuel f kw vw (test_map_random rounds))).
Proof.
  intros pf c kw vw bmin fuel f OK Hf.
  assert (Hk : 3 <= kw <= 64) by (pose proof (ho_kw _ _ _ _ _ (CompactProofs.co_hash _ _ _ _ _ OK)); pose proof (proj1 (CompactProofs.co_init _ _ _ _ _ OK)); lia).
  assert (Hvw : 1 <= vw) by (pose proof (CompactProofs.co_vw _ _ _ _ _ OK); lia).
  pose (okop := fun (_ : gmap N N) o => valid_op kw vw bmin (zbmax (cc_hash c) kw) o).
  assert (Hok : forall (m : gmap N N) o, test_op o -> valid_op kw vw 0 0 o -> any (size (fst (spec_step m o))) -> okop m o)
    by (intros m o H1 H2 _; by apply op_valid).
  assert (Hle : forall a b, (a <= b)%nat -> any b -> any a) by done.
  assert (HP : forall p, blind p -> good spec_step okop (fun _ => False) (fun m k v => m !! k = Some v) ∅ p -> succeeds (test_compact pf c fuel f kw vw p)).
  { intros p Hb Hg. eapply (blind_play pf c kw vw bmin OK fuel Hf f p); [done| |exact Hg]. by left. }
  split; [by apply HP, (id_good okop _ any kw vw Hok Hle); [apply id_blind|..]|].
  split; [by apply HP, (reverse_good okop _ any kw vw Hok Hle); [apply reverse_blind|..]|].
  split; [intros Hkv; apply HP, (outlier_good okop _ any kw vw Hok Hle); [apply outlier_blind|lia|done|done]|].
  split; [intros l Hl; apply HP, (large_good okop _ any kw vw Hok Hle); [apply large_blind|done|done]|].
  intros Hfit rs Hr. apply (fit_play pf c kw vw bmin OK fuel Hf f _ Hfit), (random_good okop _ any kw vw Hok Hle); [done|done|done|by apply Forall_forall].
Qed.
Print Assumptions C108_compact_tests_partial.

(** The maps of test/compact.hpp: hash mapping, bits of its key_type, bits of storage_t and the key width; values have 64 bits. *)
Definition compact_maps : list (ccfg * N) :=
  [ (CCfg (HAdapter splitmix) 32 64 8, 32);      (* 5 compact_map_32_8 *)
    (CCfg (HAdapter splitmix) 8 64 8, 8);        (* 6 compact_map_8_8 *)
    (CCfg (HAdapter splitmix) 64 64 8, 64);      (* 7 compact_map_64_8 *)
    (CCfg (HBij Xorshift) 64 64 8, 64);          (* 8 compact_map_Xor *)
    (CCfg (HBij Xorshift) 64 64 8, 8);           (* 9 compact_map_Xor_8_8 *)
    (CCfg (HAdapter splitmix) 8 64 64, 8);       (* 11 compact_map_8 *)
    (CCfg (HAdapter splitmix) 32 64 64, 32);     (* 12 compact_map_32 *)
    (CCfg (HAdapter splitmix) 64 64 64, 64) ].   (* 13 compact_map_64 *)
Lemma compact_maps_ok pf : test_platform pf -> Forall (fun x => compact_ok pf (fst x) (snd x) 64 1) compact_maps.
Proof.
  intros (H1 & H2 & _). 
  repeat (apply List.Forall_cons; [cbn [fst snd]; constructor; [constructor; cbn; try lia; repeat split; lia|split; vm_compute; repeat split; congruence|lia|
    unfold width_ok; cbn; lia|cbn; lia|done|cbn; try done; apply splitmix_spreading; cbn; lia]|]). apply List.Forall_nil.
Qed.
(** compact_map_32_8, compact_map_64_8 and compact_map_Xor fail test_map_random on numbers that can be drawn: find(300)->first and
    find(70000)->first are other keys. *)
Definition draw_wide : list round := [Round [(300, 1); (70000, 2)] [] [300; 70000]].
Theorem C108_random_refuted : exists pf, test_platform pf /\ Forall (fun x => snd x <= 8 \/ cc_sb (fst x) = 64%nat
  \/ Forall (round_ok (snd x) 64) draw_wide /\ snd <$> test_compact pf (fst x) 64 255 (snd x) 64 (test_map_random draw_wide) = Ok false) compact_maps.
Proof.
  exists ex_pf. split; [exact (proj1 C104_case)|].
  repeat (apply List.Forall_cons; [first [left; cbn; lia|right; left; reflexivity|right; right; split; [|vm_compute; reflexivity];
    apply List.Forall_cons; [split; [|split]; repeat (apply List.Forall_cons; [first [reflexivity|split; reflexivity]|]); apply List.Forall_nil|apply List.Forall_nil]]|]).
  apply List.Forall_nil.
Qed.
Print Assumptions C108_random_refuted.
(** The other five pass all tests of the file, whatever the random numbers. *)
Theorem C108_instances : forall pf fuel f, test_platform pf -> (64 <= fuel)%nat -> Forall (fun x =>
  let run p := test_compact pf (fst x) fuel f (snd x) 64 p in
  succeeds (run (test_map_id (snd x) 64)) /\ succeeds (run (test_map_reverse (snd x) 64)) /\ succeeds (run (test_map_outlier (snd x)))
  /\ (forall l, Forall (pair_ok (snd x) 64) l -> succeeds (run (test_map_random_large l)))
  /\ (snd x <= 8 \/ cc_sb (fst x) = 64%nat -> forall rounds, Forall (round_ok (snd x) 64) rounds -> succeeds (run (test_map_random rounds)))) compact_maps.
Proof.
  intros pf fuel f Hp Hf. pose proof (compact_maps_ok pf Hp) as Hs.
  assert (Hq : Forall (fun x => snd x <= 64 /\ (snd x <= 8 \/ cc_sb (fst x) = 64%nat -> quotients_fit (fst x) (snd x) 1)) compact_maps).
  { repeat (apply List.Forall_cons; [split; [cbn; lia|cbn; unfold quotients_fit; cbn; lia]|]). apply List.Forall_nil. }
  rewrite Forall_forall in Hs, Hq |- *. intros x Hx run. destruct (Hq x Hx) as [Hk Hfit].
  destruct (C108_compact_tests_partial pf (fst x) (snd x) 64 1 fuel f (Hs x Hx) Hf) as (T1 & T2 & T3 & T4 & T5).
  split; [done|]. split; [done|]. split; [apply T3|]. { assert (64 < 2^64) by reflexivity. lia. }
  split; [done|]. intros Hc. apply T5. by apply Hfit.
Qed.
Print Assumptions C108_instances.
Example C108_case : test_platform ex_pf /\ Forall (round_ok 8 64) [Round [(5, 7); (255, 511); (77, 0); (5, 8)] [77; 78; 1] [5; 77; 255; 6]]
  /\ snd <$> test_compact ex_pf (CCfg (HAdapter splitmix) 8 64 8) 64 255 8 64 (test_map_random [Round [(5, 7); (255, 511); (77, 0); (5, 8)] [77; 78; 1] [5; 77; 255; 6]]) = Ok true
  /\ snd <$> test_compact ex_pf (CCfg (HAdapter splitmix) 32 64 8) 64 255 32 64 (test_map_random_large [(300, 1); (70000, 2); (300, 3)]) = Ok true.
Proof.
  split; [exact (proj1 C104_case)|]. split; [|vm_compute; split; reflexivity].
  apply List.Forall_cons; [split; [|split]; repeat (apply List.Forall_cons; [first [reflexivity|split; reflexivity]|]); apply List.Forall_nil|apply List.Forall_nil].
Qed.
