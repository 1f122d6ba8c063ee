(** separate_chaining_table as a container of the serialization test; map_overflow stays unused while few elements are stored. *)
From Verif Require Export ClientProofs PropSerial.

Section few.
Context (pf : platform) (c : cfg).
(** The overflow holds nothing. *)
Definition nov (o : overflow) : Prop := match o with ODummy => True | OUmap _ els _ => els = [] | OArray _ _ _ _ => False end.
Definition room (t : table) : Prop := match t_slots t with Some sl => Forall (fun s => s_size s < c_maxb c) sl | None => True end.
Lemma nov_size o : nov o -> ov_size o = 0.
Proof. by destruct o; [|intros []|intros ->]. Qed.
Lemma nov_alloc t n t' : 1 <= c_maxb c -> nov (t_ov t) -> alloc_table pf t n = Ok t' -> nov (t_ov t') /\ room t'.
Proof.
  intros Hm Ho E. unfold alloc_table in E. rinv E. injection E as <-. split; [cbn [t_ov]; by destruct (t_ov t)|].
  apply Forall_forall. intros s Hs%elem_of_replicate_inv. subst s. cbn. lia.
Qed.
Lemma nov_find o k r kb : nov o -> ov_find pf kb o k = Ok r -> r = None.
Proof. destruct o; cbn; [congruence|done|intros ->]. cbn. congruence. Qed.
Lemma nov_insert fuel t k v t' x : 1 <= c_maxb c -> nov (t_ov t) -> room t -> find_or_insert pf c fuel t k v = Ok (t', x) -> nov (t_ov t').
Proof.
  intros Hm Ho Hr E. destruct fuel as [|fuel]; [done|]. cbn [find_or_insert] in E. rinv E.
  assert (H : nov (t_ov a) /\ room a).
  { destruct (t_b t =? 0); [by eapply nov_alloc|]. by injection E0 as <-. }
  clear t Ho Hr E0. destruct H as [Ho Hr]. rinv E. destruct a0 as [q bk]. rinv E. rinv E. destruct a1 as [p|]; [by injection E as <- <-|].
  rinv E. rinv E. destruct a2 as [p|]; [by injection E as <- <-|].
  assert (Hs : s_size a0 < c_maxb c).
  { unfold get_slot in E1. unfold room in Hr. destruct (t_slots a) as [sl|]; [|done]. destruct (bk <? N.of_nat (length sl)); [|done].
    destruct (sl !! N.to_nat bk) as [s|] eqn:El; [|done]. injection E1 as <-. rewrite Forall_forall in Hr. by eapply Hr, elem_of_list_lookup_2. }
  destruct (s_size a0 =? c_maxb c) eqn:Hx; [apply N.eqb_eq in Hx; lia|]. rinv E. injection E as <- <-. done.
Qed.
Lemma nov_write t x v t' : nov (t_ov t) -> write_value pf c t x v = Ok t' -> nov (t_ov t').
Proof.
  intros Ho E. destruct x as [bk pos]. unfold write_value in E. destruct (bk =? bucket_count t).
  - rinv E. injection E as <-. cbn [t_ov set_ov]. destruct (t_ov t); cbn in *; [by injection E0 as <-|done|]. subst els. done.
  - rinv E. rinv E. by injection E as <-.
Qed.
Lemma nov_clear t t' : nov (t_ov t) -> clear pf c t = Ok t' -> nov (t_ov t').
Proof.
  intros Ho E. unfold clear in E. destruct (t_slots t) as [sl|].
  - rinv E. unfold clear_structure in E. rinv E. rinv E. injection E as <-. cbn [t_ov] in *. destruct (t_ov t); cbn in *; [by injection E2 as <-|done|by injection E2 as <-].
  - rinv E. injection E as <-. cbn [t_ov set_ov]. destruct (t_ov t); cbn in *; [by injection E0 as <-|done|by injection E0 as <-].
Qed.
Lemma nov_erase t k t' x : nov (t_ov t) -> erase pf c t k = Ok (t', x) -> nov (t_ov t').
Proof.
  intros Ho E. unfold erase in E. destruct (t_b t =? 0); [by injection E as <- <-|]. rinv E. destruct a as [bk pos]. unfold erase_at in E.
  destruct (_ =? ones64); [by injection E as <- <-|]. rewrite (nov_size _ Ho) in E. cbn [N.ltb N.compare andb] in E.
  rinv E. rinv E. rinv E. cbn [s_size] in E. destruct (_ =? 0); [rinv E|]; by injection E as <- <-.
Qed.
Lemma nov_step kw vw fuel t o t' x : 1 <= c_maxb c -> serial_op kw vw o -> nov (t_ov t) -> room t -> run_op pf c fuel t o = Ok (t', x) -> nov (t_ov t').
Proof.
  intros Hm Hop Ho Hr E. destruct o as [k|k|k v|k|k v|k|k| | |q| |]; cbn [serial_op] in Hop; try done; cbn [run_op] in E.
  - rinv E. rinv E. by injection E as <- <-.
  - rinv E. destruct a as [t1 y]. rinv E. injection E as <- <-. eapply nov_write; [|exact E1]. by eapply nov_insert.
  - rinv E. destruct a as [t1 y]. injection E as <- <-. by eapply nov_erase.
  - rinv E. injection E as <- <-. by eapply nov_clear.
Qed.
End few.

(** ** The table in the serialization test *)
Section table.
Context (pf : platform) (c : cfg) (kw vw kw0 vw0 : N) (fuel f cap : nat).
Hypothesis P : params pf c kw vw.
Hypothesis P0 : params pf c kw0 vw0.
Hypothesis Hb : vw < 2^8 /\ vw0 < 2^8.
Hypothesis CL : class_ok pf c.
Hypothesis Hv : c_val c <> KNull.
Hypothesis Hf : (64 <= fuel)%nat /\ (cap <= f)%nat.
Hypothesis Hcap : c_ov c = OvDummy \/ N.of_nat cap < c_maxb c.
Definition R1 (t : table) (m : gmap N N) : Prop := alive pf c kw vw t m /\ (c_ov c <> OvDummy -> nov (t_ov t)).

Lemma alive_room t m : alive pf c kw vw t m -> N.of_nat (size m) < c_maxb c -> room c t.
Proof.
  intros Ha Hs. destruct (alive_rep pf c CL _ _ _ _ Ha) as [_ [[(_ & _ & _ & _ & _ & Hz) _]|(sl & ess & ovl & H & Hm)]]; unfold room.
  - destruct (t_slots t) as [sl|]; [|done]. rewrite Forall_forall in Hz. apply Forall_forall. intros s ->%Hz. cbn. lia.
  - rewrite (ti_slots _ _ _ _ _ _ _ _ _ _ _ H). pose proof (ti_repr _ _ _ _ _ _ _ _ _ _ _ H) as HF.
    assert (Hl : (length (concat ess ++ ovl) <= size m)%nat).
    { rewrite <-Hm, emap_size; [done|]. apply (ti_nodup _ _ _ _ _ _ _ _ _ _ _ H). }
    rewrite app_length in Hl. apply Forall_lookup. intros i s Hi.
    destruct (Forall2_lookup_l _ _ _ _ _ HF Hi) as (es & He & (Hsz & _)). rewrite Hsz.
    assert (Hle : (length es <= length (concat ess))%nat).
    { apply elem_of_list_lookup_2 in He. clear -He. induction ess as [|e0 ess IH]; [by apply elem_of_nil in He|].
      cbn [concat]. rewrite app_length. apply elem_of_cons in He as [->|He]; [lia|]. specialize (IH He). lia. }
    lia.
Qed.
Lemma alive_ov t m : R1 t m -> ov_size (t_ov t) = 0.
Proof.
  intros [Ha Hn]. assert (c_ov c = OvDummy \/ c_ov c <> OvDummy) as [Hd|Hd] by (destruct (c_ov c); [by left|by right..]); [|by apply nov_size, Hn].
  destruct (alive_rep pf c CL _ _ _ _ Ha) as [_ [[(_ & _ & _ & _ & Hz & _) _]|(sl & ess & ovl & H & Hm)]]; [by apply (ov_zero_size _ _ _ Hz)|].
  destruct (dummy_nil _ _ _ _ _ _ _ _ _ _ _ H Hd) as [-> _]. done.
Qed.
Lemma alive_step t m o : alive pf c kw vw t m -> serial_op kw vw o -> exists t', run_op pf c fuel t o = Ok (t', snd (spec_step m o)) /\ alive pf c kw vw t' (fst (spec_step m o)).
Proof.
  intros Ha Ho. assert (Hops : valid_ops kw vw 1 (bits_max c kw) [o]) by (apply List.Forall_cons; [by destruct o|apply List.Forall_nil]).
  destruct (alive_rep pf c CL _ _ _ _ Ha) as [_ Hr].
  assert (Hnv : forall v, v < 2^vw -> nv c vw v = v) by (intros v Hlt; eapply cfg_values; [apply P|done|done]).
  destruct (run_rep pf c kw vw 1 (bits_max c kw) False fuel (params_ok _ _ _ _ P) (proj1 Hf) [o] _ _ Hr (params_init _ _ _ _ P) Hv Hnv Hops (noarr_ops _ _ _ _ P [o])) as (t1 & E & _).
  pose proof (al_map _ _ _ _ _ _ _ _ _ _ Ha (proj1 Hf) Hv Hops E) as Ha'.
  cbn [run_ops] in E. destruct (run_op pf c fuel t o) as [[t2 x]| | |]; cbn [mbind res_bind] in E; [|done..]. injection E as <- E.
  cbn [spec_run] in E, Ha'. destruct (spec_step m o) as [m1 y]. cbn [fst snd] in *. injection E as <-. by exists t2.
Qed.
Lemma alive_dom t m k : alive pf c kw vw t m -> is_Some (m !! k) -> k < 2^kw.
Proof.
  intros Ha [v Hk]. destruct (alive_rep pf c CL _ _ _ _ Ha) as [_ [[_ ->]|(sl & ess & ovl & H & Hm)]]; [done|].
  rewrite <-Hm in Hk. apply elem_of_list_to_map_2 in Hk. apply (ti_range _ _ _ _ _ _ _ _ _ _ _ H) in Hk as [Hk _]. by apply Hk.
Qed.
Lemma new_R1 : R1 (new_table pf c kw vw) ∅.
Proof.
  split; [apply al_new; [done|apply Hb]|]. intros Hd. unfold new_table, ov_new. cbn [t_ov]. destruct (co_ov _ _ _ _ _ (proj1 P)) as [|[-> _]]; done.
Qed.
Lemma table_serial rounds : Forall (fun l => Forall (triple_ok kw vw) l /\ (length l <= cap)%nat) rounds ->
  exists t, test_map_serialize (run_op pf c fuel) (forward pf c f) (serialize pf c) (fun t d => r ← deserialize pf c fuel t d; Ok (fst (r : table * stream)))
    (new_table pf c kw0 vw0) (clear pf c) (new_table pf c kw vw) rounds = Ok (t, true).
Proof.
  intros Hr. eapply (serial_ok _ _ _ _ _ _ kw vw cap R1 (fun t m => alive pf c kw vw t m)); [..|exact Hr|exact new_R1|rewrite map_size_empty; lia].
  - intros t m o [Ha Hn] Ho Hs _. destruct (alive_step t m o Ha Ho) as (t' & E & Ha'). exists t'. split; [done|]. split; [done|].
    intros Hd. pose proof (co_maxb _ _ _ _ _ (proj1 P)). eapply (nov_step pf c); [lia|exact Ho|by apply Hn| |exact E].
    apply (alive_room t m Ha). destruct Hcap; [done|lia].
  - intros t m k Ha Hk. destruct (alive_step t m (OpFind k) Ha Hk) as (t' & E & Ha'). by exists t'.
  - intros t m HR Hs. pose proof (alive_ov t m HR) as Ho. destruct HR as [Ha _].
    destruct (round_trip pf c CL kw vw t m kw0 vw0 (new_table pf c kw0 vw0) ∅ Ha Ho) as (d & E & HD); [apply al_new; [done|apply Hb]|].
    destruct (HD fuel []) as (t' & E' & Ha' & HB). rewrite app_nil_r in E'. destruct HB as (_ & _ & _ & _ & _ & _ & _ & _ & (l & Hl & Hnd & Hi) & _).
    destruct (Hi f) as [_ F'].
    { rewrite <-Hl in Hs. change (list_to_map l) with (emap l) in Hs. rewrite emap_size in Hs by done. lia. }
    exists d, t', l. split; [done|]. rewrite E'. split; [done|]. split; [done|]. split; [done|]. intros [k v] He. rewrite <-Hl.
    by apply elem_of_list_to_map_1.
  - intros t m HR Hs. pose proof (alive_ov t m HR) as Ho. destruct HR as [Ha _].
    destruct (round_trip pf c CL kw vw t m kw0 vw0 (new_table pf c kw0 vw0) ∅ Ha Ho) as (d & E & HD); [apply al_new; [done|apply Hb]|].
    destruct (HD fuel []) as (t' & E' & Ha' & HB). destruct HB as (_ & _ & _ & _ & _ & _ & _ & _ & (l & Hl & Hnd & Hi) & _).
    destruct (Hi f) as [F _].
    { rewrite <-Hl in Hs. change (list_to_map l) with (emap l) in Hs. rewrite emap_size in Hs by done. lia. }
    exists l. split; [done|]. intros [k v] He. rewrite <-Hl. by apply elem_of_list_to_map_1.
  - intros t m Ha. destruct (alive_step t m OpClear Ha I) as (t' & E & _). cbn [run_op] in E. destruct (clear pf c t) as [t2| | |]; [by exists t2|done..].
  - intros t m k [Ha _]. by apply (alive_dom t).
Qed.
End table.
