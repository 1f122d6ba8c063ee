(** The test programs of the repository (test/base.hpp, separate.cpp, bucket.cpp, keysplit.cpp, group.cpp, compact.hpp) as clients:
    C103 - C108. *)
From Verif Require Import GroupHist PropGroup ClientTable PropOverflow PropBt PropKs.

(** A test succeeds: it terminates without undefined behaviour and all its checks hold. *)
Definition succeeds {T} (r : res (T * bool)) : Prop := exists t, r = Ok (t, true).
Arguments succeeds {T} / _.

(** A test on a new separate_chaining_map *)
Definition test_map pf c fuel f kw vw (p : mprog) : res (table * bool) :=
  play (run_op pf c fuel) (forward pf c f) (backward pf c f) (new_table pf c kw vw) p.
Definition test_set pf c fuel kw vw (p : sprog) : res (table * bool) :=
  play (run_sop pf c fuel) (fun _ => Throw) (fun _ => Throw) (new_table pf c kw vw) p.

Notation any := (fun _ : nat => True).
Lemma op_valid kw vw bmin bmax o : test_op o -> valid_op kw vw 0 0 o -> valid_op kw vw bmin bmax o.
Proof. by destruct o. Qed.
Lemma table_play pf c kw vw fuel f p : params pf c kw vw -> c_val c <> KNull -> (64 <= fuel)%nat ->
  good spec_step (fun _ o => valid_op kw vw 1 (bits_max c kw) o) (fun m => c_ov c = OvDummy /\ (255 <= f)%nat /\ (size m <= 255)%nat /\ m <> ∅)
    (fun m k v => m !! k = Some v) ∅ p -> succeeds (test_map pf c fuel f kw vw p).
Proof.
  intros P Hv Hf Hg. unfold test_map.
  eapply (hist_play spec_step spec_run _ (run_op pf c fuel) (run_ops pf c fuel)); [done|done|done|done| | |exact Hg].
  - intros l Hl%okrun_valid. by apply map_history.
  - intros t m (l & Hl%okrun_valid & E & ->) (Hd & Hff & Hs & Hne).
    assert (Hr : reachable pf c kw vw t (fst (spec_run ∅ l))) by (eapply reach_map; [exact Hf|done|done|exact E]).
    assert (Ho : ov_size (t_ov t) = 0).
    { apply (reachable_rep _ _ _ _ P) in Hr as [[Hz Hm]|(sl & ess & ovl & H & Hm)]; [by rewrite Hm in Hne|].
      destruct (dummy_nil _ _ _ _ _ _ _ _ _ _ _ H Hd) as [-> _]. done. }
    destruct (C11_reverse_iteration pf c kw vw t _ P Hr Ho Hne) as (l1 & _ & Hl1 & Hit). destruct (Hit f ltac:(lia)) as [E1 E2].
    exists l1, (rev l1). split; [done|]. split; [done|]. intros [k v] [He|He]; apply Hl1; [done|]. by apply elem_of_list_In, in_rev, elem_of_list_In in He.
Qed.

(** ** C103: the map tests of test/base.hpp on separate_chaining_map *)
(** For every instantiation and all widths: whatever numbers are drawn, however many rounds are run. *)
Theorem C103_map_tests : forall pf c kw vw fuel f, params pf c kw vw -> c_val c <> KNull -> (64 <= fuel)%nat -> 1 <= vw ->
  (kw < 2^vw -> succeeds (test_map pf c fuel f kw vw (test_map_outlier kw)))
  /\ succeeds (test_map pf c fuel f kw vw (test_map_id kw vw))
  /\ succeeds (test_map pf c fuel f kw vw (test_map_reverse kw vw))
  /\ (forall rounds, Forall (round_ok kw vw) rounds -> succeeds (test_map pf c fuel f kw vw (test_map_random rounds)))
  /\ (forall l, Forall (pair_ok kw vw) l -> succeeds (test_map pf c fuel f kw vw (test_map_random_large l)))
  /\ (forall keys, Forall (fun k => k < 2^kw) keys -> N.of_nat (length keys) <= 2^vw -> succeeds (test_map pf c fuel f kw vw (test_map_step keys)))
  /\ (c_ov c = OvDummy -> (255 <= f)%nat -> succeeds (test_map pf c fuel f kw vw (test_map_iterator kw vw))).
Proof.
  intros pf c kw vw fuel f P Hv Hf Hvw.
  assert (Hk : 3 <= kw <= 64) by (destruct P as [P ?]; pose proof (co_kw _ _ _ _ _ P); lia).
  assert (Hok : forall (m : gmap N N) o, test_op o -> valid_op kw vw 0 0 o -> any (size (fst (spec_step m o))) -> valid_op kw vw 1 (bits_max c kw) o)
    by (intros m o H1 H2 _; by apply op_valid).
  assert (Hle : forall a b, (a <= b)%nat -> any b -> any a) by done.
  split; [intros Hkv; apply table_play; [done..|]; by apply (outlier_good _ _ any kw vw Hok Hle); [lia|..]|].
  split; [apply table_play; [done..|]; by apply (id_good _ _ any kw vw Hok Hle)|].
  split; [apply table_play; [done..|]; by apply (reverse_good _ _ any kw vw Hok Hle)|].
  split; [intros rs Hrs; apply table_play; [done..|]; apply (random_good _ _ any kw vw Hok Hle); [done|done|done|]; by apply Forall_forall|].
  split; [intros l Hl; apply table_play; [done..|]; by apply (large_good _ _ any kw vw Hok Hle)|].
  split; [intros keys Hl Hn; apply table_play; [done..|]; by apply (step_good _ _ any kw vw Hok Hle)|].
  intros Hd Hff. apply table_play; [done..|]. apply (iterator_good _ _ any kw vw Hok Hle); [done|lia|done|done].
Qed.
Print Assumptions C103_map_tests.
(** Rounds as they may be drawn for keys of 20 and values of 9 bits: keys repeat, erasures hit and miss. *)
Definition ex_draws : list round :=
  [Round [(5, 7); (1048575, 511); (77, 0); (5, 8); (1, 1)] [77; 78; 1] [5; 77; 1048575; 6]; Round [(9, 9)] [] [5; 9]].
Example C103_case : params lax_pf ex_var 20 9 /\ c_val ex_var <> KNull /\ 20 < 2^9 /\ Forall (round_ok 20 9) ex_draws
  /\ snd <$> test_map lax_pf ex_var 64 255 20 9 (test_map_random ex_draws) = Ok true
  /\ snd <$> test_map lax_pf ex_var 64 255 20 9 (test_map_outlier 20) = Ok true
  /\ snd <$> test_map lax_pf ex_var 64 255 20 9 (act (OpWrite 5 7) (expect (OpRead 5) (OutNum 8) Pass)) = Ok false.
Proof.
  split; [exact ex_var_ok|]. split; [done|]. split; [reflexivity|]. split; [|vm_compute; repeat split].
  repeat (apply List.Forall_cons; [split; [|split]; repeat (apply List.Forall_cons; [first [reflexivity|split; reflexivity]|]); apply List.Forall_nil|]).
  apply List.Forall_nil.
Qed.

(** The test of sets *)
Theorem C103_set_test : forall pf c kw vw fuel rounds, params pf c kw vw -> c_val c = KNull -> (64 <= fuel)%nat ->
  Forall (fun r => Forall (fun k => k < 2^kw) (fst r) /\ Forall (fun k => k < 2^kw) (snd r)) rounds ->
  succeeds (test_set pf c fuel kw vw (test_set_random rounds)).
Proof.
  intros pf c kw vw fuel rs P Hv Hf Hr. unfold test_set.
  eapply (hist_play set_step set_run (fun _ o => valid_sop kw 1 (bits_max c kw) o) (run_sop pf c fuel) (run_sops pf c fuel))
    with (s0 := ∅) (okiter := fun _ => False) (holds := fun _ _ _ => False); [done|done|done|done| |done|].
  - intros l Hl%okrun_all. by apply (set_history _ _ _ _ P).
  - apply (set_good (fun _ o => valid_sop kw 1 (bits_max c kw) o) kw); [|done]. by intros s [].
Qed.
Print Assumptions C103_set_test.

(** TEST(map, quotienting), for all tables whose remainders fit from bmin bucket bits on; the test uses the widths 16 and 16 and reserve(2^8). *)
Theorem C103_quotienting : forall pf c kw vw bmin n fuel f, cfg_ok pf c kw vw bmin -> c_val c <> KNull -> (64 <= fuel)%nat -> 1 <= vw ->
  2^bmin / 2 < n <= 2^(bits_max c kw) -> succeeds (test_map pf c fuel f kw vw (act (OpReserve n) (test_map_id kw vw))).
Proof.
  intros pf c kw vw bmin n fuel f P Hv Hf Hvw Hn. pose (okop := fun (_ : gmap N N) o => valid_op kw vw bmin (bits_max c kw) o /\ o <> OpClear).
  destruct (narrow_history pf c kw vw bmin fuel n [] P Hv Hf Hn) as (t0 & E0); [apply List.Forall_nil..|].
  cbn [run_ops] in E0. unfold test_map, act. cbn [play]. destruct (run_op pf c fuel (new_table pf c kw vw) (OpReserve n)) as [[t x]| | |] eqn:E1; cbn [mbind res_bind] in E0; [|done..].
  cbn [mbind res_bind]. injection E0 as -> _.
  eapply (hist_play spec_step spec_run okop (run_op pf c fuel) (run_ops pf c fuel)) with (s0 := ∅) (okiter := fun _ => False) (holds := fun m k v => m !! k = Some v); [done|done|done|done| |done|].
  - intros l Hl. destruct (narrow_history pf c kw vw bmin fuel n l P Hv Hf Hn) as (t & E).
    + apply okrun_all in Hl. unfold valid_ops. eapply Forall_impl; [exact Hl|]. by intros o [? ?].
    + apply okrun_all in Hl. eapply Forall_impl; [exact Hl|]. by intros o [? ?].
    + cbn [run_ops] in E. rewrite E1 in E. cbn [mbind res_bind] in E. exists t.
      destruct (run_ops pf c fuel t0 l) as [[t2 xs]| | |]; cbn [mbind res_bind] in E; [|done..]. injection E as -> E.
      cbn [spec_run spec_step] in E. destruct (spec_run ∅ l). cbn [snd] in E. injection E as _ ->. done.
  - apply (id_good okop _ any kw vw); [|done|done|done]. intros m o H1 H2 _. split; [by apply op_valid|by destruct o].
Qed.
Print Assumptions C103_quotienting.
Definition quotienting_map : cfg := Cfg (KPlain 8) (KPlain 16) (HBij Xorshift) 16 false 255 OvDummy.
Example C103_quotienting_case : cfg_ok strict_pf quotienting_map 16 16 8 /\ 2^8 / 2 < 2^8 <= 2^(bits_max quotienting_map 16).
Proof. split; [split; [cfg_solve|cbn; lia|done]|]. split; [vm_compute; reflexivity|vm_compute; discriminate]. Qed.

(** ** C104: the serialization test, and the instances of test/separate.cpp *)
Definition test_serialize pf c fuel f kw vw kw0 vw0 (rounds : list (list (N * N * N))) : res (table * bool) :=
  test_map_serialize (run_op pf c fuel) (forward pf c f) (serialize pf c) (fun t d => r ← deserialize pf c fuel t d; Ok (fst (r : table * stream)))
    (new_table pf c kw0 vw0) (clear pf c) (new_table pf c kw vw) rounds.
(** Each round stores at most [cap] elements (the test: 100); with map_overflow fewer than a bucket takes.  [kw0] and [vw0] are the
    widths of a default-constructed map. *)
Theorem C104_serialize_test : forall pf c kw vw kw0 vw0 fuel f cap rounds, params pf c kw vw -> params pf c kw0 vw0 -> vw < 2^8 -> vw0 < 2^8 ->
  class_ok pf c -> c_val c <> KNull -> (64 <= fuel)%nat -> (cap <= f)%nat -> c_ov c = OvDummy \/ N.of_nat cap < c_maxb c ->
  Forall (fun l => Forall (triple_ok kw vw) l /\ (length l <= cap)%nat) rounds ->
  succeeds (test_serialize pf c fuel f kw vw kw0 vw0 rounds).
Proof. intros. by eapply table_serial. Qed.
Print Assumptions C104_serialize_test.

(** The comparison of the test is not lax: it passes only if find delivered every listed value. *)
Fixpoint delivered {T} (step : T -> op -> res (T * out)) (t : T) (l : list (N * N)) : Prop :=
  match l with
  | [] => True
  | (k, v) :: l => exists t' k', step t (OpFind k) = Ok (t', OutEntry (Some (k', v))) /\ delivered step t' l
  end.
Theorem C104_look_up_exact : forall T (step : T -> op -> res (T * out)) l t t',
  look_up step t l = Ok (t', true) -> delivered step t l.
Proof.
  intros T step l. induction l as [|[k v] l IH]; intros t t' H; [exact I|]. cbn [look_up] in H. cbn [delivered].
  destruct (step t (OpFind k)) as [[t1 x]| | |]; cbn [mbind res_bind] in H; try discriminate.
  destruct x as [|[[k' w]|]|n|b]; try discriminate. destruct (N.eqb_spec w v) as [E|]; [|discriminate]. subst w. exists t1, k'. split; [done|]. by eapply IH.
Qed.
Print Assumptions C104_look_up_exact.

(** The maps of test/separate.cpp:16-55 with their widths and the widths of a default-constructed map of the type; that of line 19
    (array_overflow) is left out.  sizeof(key_type) is that of the hash mapping, sizeof(value_type) that of the value bucket. *)
Definition adapter : hkind := HAdapter splitmix.
Record instance := Inst { i_cfg : cfg; i_kw : N; i_vw : N; i_kw0 : N; i_vw0 : N }.
Definition plain_inst k kb v vb a : instance := Inst (Cfg k v adapter kb a 255 OvDummy) kb vb kb vb.
Definition xor_inst k kb kw v vb o : instance := Inst (Cfg k v (HBij Xorshift) kb false 255 o) kw vb kb vb.
Definition separate_maps : list instance :=
  [ Inst (Cfg (KVar 8) (KVar 8) adapter 64 true 255 OvDummy) 7 3 64 64;            (* 16 map_var_var_low *)
    xor_inst (KVar 8) 64 64 (KPlain 32) 32 OvMap;                                  (* 18 map_var_Xor_64_OverMap *)
    plain_inst (KVar 8) 64 (KPlain 16) 16 true;                                    (* 22 map_var_arb_16 *)
    plain_inst (KPlain 32) 32 (KPlain 16) 16 false;                                (* 23 map_plain_16 *)
    plain_inst (KPlain 32) 32 (KPlain 32) 32 false;                                (* 24 map_plain_32, 55 map_plain_small32 *)
    xor_inst (KPlain 32) 32 32 (KPlain 32) 32 OvDummy;                             (* 25 map_plain_Xor *)
    plain_inst (KPlain 32) 32 (KPlain 16) 16 true;                                 (* 27 map_plain_arb_16 *)
    xor_inst (KVar 8) 64 64 (KPlain 32) 32 OvDummy;                                (* 29 map_var_Xor_64 *)
    plain_inst (KAvx 16) 16 (KPlain 16) 16 false;                                  (* 32 map_avx2_16_16 *)
    plain_inst (KAvx 8) 8 (KPlain 16) 16 false;                                    (* 33 map_avx2_8_16 *)
    plain_inst (KAvx 32) 32 (KPlain 16) 16 false;                                  (* 35 map_avx2_32_16 *)
    plain_inst (KAvx 32) 32 (KPlain 32) 32 false;                                  (* 36 map_avx2_32_32 *)
    xor_inst (KAvx 32) 32 32 (KPlain 32) 32 OvDummy;                               (* 37 map_avx2_32_Xor *)
    plain_inst (KAvx 64) 64 (KPlain 16) 16 false;                                  (* 39 map_avx2_64_16 *)
    plain_inst (KAvx 64) 64 (KPlain 32) 32 false;                                  (* 40 map_avx2_64_32 *)
    xor_inst (KAvx 64) 64 32 (KPlain 32) 32 OvDummy;                               (* 41 map_avx2_64_Xor *)
    plain_inst (KAvx 16) 16 (KPlain 16) 16 true;                                   (* 42 map_avx2_16_arb_16 *)
    plain_inst (KClass 32) 32 (KClass 32) 32 false;                                (* 45 map_plain_class32 *)
    plain_inst (KVar 8) 64 (KPlain 16) 16 false;                                   (* 49 map_var_16 *)
    plain_inst (KVar 8) 64 (KPlain 32) 32 false;                                   (* 50 map_var_32 *)
    xor_inst (KVar 8) 64 32 (KPlain 32) 32 OvDummy ].                              (* 51 map_var_Xor *)
(** The platforms: 16 accessible bytes after every heap block (varwidth_bucket reads past its blocks, C50), memory functions that accept
    mismatched calls (class_bucket, C50) and an unordered_map::reserve that provides the buckets asked for. *)
Definition test_platform pf : Prop := (16 <= slack pf)%nat /\ loose_free pf = true /\ um_fair pf.
Definition inst_ok pf x : Prop :=
  params pf (i_cfg x) (i_kw x) (i_vw x) /\ params pf (i_cfg x) (i_kw0 x) (i_vw0 x) /\ class_ok pf (i_cfg x) /\ c_val (i_cfg x) <> KNull
  /\ 1 <= i_vw x < 2^8 /\ i_vw0 x < 2^8 /\ i_kw x < 2^i_vw x /\ 255 <= c_maxb (i_cfg x).
Lemma separate_maps_ok pf : test_platform pf -> Forall (inst_ok pf) separate_maps.
Proof.
  intros (H1 & H2 & H3).
  repeat (apply List.Forall_cons; [unfold inst_ok, plain_inst, xor_inst; cbn [i_cfg i_kw i_vw i_kw0 i_vw0];
    split; [params_solve; apply splitmix_spreading; cbn; lia|split; [params_solve; apply splitmix_spreading; cbn; lia|]];
    split; [by split|]; split; [done|]; cbn; lia|]). apply List.Forall_nil.
Qed.
(** All tests of TEST_MAP_FULL and TEST_SMALL_MAP pass on all of them, whatever the random numbers. *)
Theorem C104_separate_tests : forall pf x fuel f, test_platform pf -> x ∈ separate_maps -> (64 <= fuel)%nat -> (255 <= f)%nat ->
  let run p := test_map pf (i_cfg x) fuel f (i_kw x) (i_vw x) p in
  succeeds (run (test_map_id (i_kw x) (i_vw x))) /\ succeeds (run (test_map_reverse (i_kw x) (i_vw x))) /\ succeeds (run (test_map_outlier (i_kw x)))
  /\ (forall rounds, Forall (round_ok (i_kw x) (i_vw x)) rounds -> succeeds (run (test_map_random rounds)))
  /\ (forall l, Forall (pair_ok (i_kw x) (i_vw x)) l -> succeeds (run (test_map_random_large l)))
  /\ (forall rounds, Forall (fun l => Forall (triple_ok (i_kw x) (i_vw x)) l /\ (length l <= 100)%nat) rounds ->
        succeeds (test_serialize pf (i_cfg x) fuel f (i_kw x) (i_vw x) (i_kw0 x) (i_vw0 x) rounds))
  /\ (c_ov (i_cfg x) = OvDummy -> succeeds (run (test_map_iterator (i_kw x) (i_vw x)))).
Proof.
  intros pf x fuel f Hp Hx Hf Hff run. pose proof (separate_maps_ok pf Hp) as Hs. rewrite Forall_forall in Hs.
  destruct (Hs x Hx) as (P & P0 & CL & Hv & Hvw & Hvw0 & Hkv & Hmax).
  destruct (C103_map_tests pf (i_cfg x) (i_kw x) (i_vw x) fuel f P Hv Hf ltac:(lia)) as (T1 & T2 & T3 & T4 & T5 & _ & T7).
  split; [done|]. split; [done|]. split; [by apply T1|]. split; [done|]. split; [done|]. split; [|intros Hd; by apply T7].
  intros rounds Hr. eapply C104_serialize_test with (cap := 100%nat); try done; [lia|lia|right; lia].
Qed.
Print Assumptions C104_separate_tests.
(** The other two tests of the file: step (62-77) and set_plain_32 (107-110). *)
Theorem C104_step_and_set : forall pf fuel f, (64 <= fuel)%nat ->
  (forall keys, Forall (fun k => k < 2^32) keys -> N.of_nat (length keys) <= 1000000 ->
     succeeds (test_map pf (Cfg (KPlain 32) (KPlain 64) adapter 32 false 255 OvDummy) fuel f 32 64 (test_map_step keys)))
  /\ (forall rounds, Forall (fun r => Forall (fun k => k < 2^32) (fst r) /\ Forall (fun k => k < 2^32) (snd r)) rounds ->
     succeeds (test_set pf (Cfg (KPlain 32) KNull adapter 32 false 255 OvDummy) fuel 32 8 (test_set_random rounds))).
Proof.
  intros pf fuel f Hf. split.
  - intros keys Hk Hn. assert (P : params pf (Cfg (KPlain 32) (KPlain 64) adapter 32 false 255 OvDummy) 32 64) by (params_solve; apply splitmix_spreading; cbn; lia).
    destruct (C103_map_tests pf _ 32 64 fuel f P) as (_ & _ & _ & _ & _ & T & _); [done|done|lia|]. apply T; [done|].
    transitivity 1000000; [done|]. vm_compute. discriminate.
  - intros rs Hr. apply C103_set_test; [|done|done|done]. params_solve. apply splitmix_spreading; cbn; lia.
Qed.
Print Assumptions C104_step_and_set.
(** A platform of that kind, numbers as they may be drawn, and a run of two rounds on the first map of the file. *)
Definition ex_pf : platform := Platform 16 false true (fun k => k) (fun _ n => N.max 1 n).
Definition ex_rounds : list (list (N * N * N)) :=
  [[(5, 3, 0); (100, 7, 5); (126, 0, 9); (7, 2, 7); (100, 1, 3)]; [(1, 1, 1); (2, 6, 1)]].
Example C104_case : test_platform ex_pf /\ Forall (fun l => Forall (triple_ok 7 3) l /\ (length l <= 100)%nat) ex_rounds
  /\ snd <$> test_serialize ex_pf (Cfg (KVar 8) (KVar 8) adapter 64 true 255 OvDummy) 64 255 7 3 64 64 ex_rounds = Ok true.
Proof.
  split; [|split].
  - split; [cbn; lia|]. split; [done|]. intros cur n Hn. cbn [um_policy ex_pf]. assert (2^63 < 2^64) by reflexivity. lia.
  - repeat (apply List.Forall_cons; [split; [repeat (apply List.Forall_cons; [split; [cbn; lia|split; cbn; lia]|]); apply List.Forall_nil|cbn; lia]|]).
    apply List.Forall_nil.
  - vm_compute. reflexivity.
Qed.

(** ** C105: the tests of test/bucket.cpp *)
Definition test_bt pf c f (p : mprog) : res (btable * bool) :=
  play (bt_run_op pf c) (fun t => bt_iter pf c f t bt_begin) (fun t => bt_riter pf c f t (bt_rbegin t)) bt_new p.
Lemma okrun_bt c es ops : forall m : gmap N N,
  okrun spec_step (fun m o => (bt_has_op o /\ valid_op (N.of_nat (bc_width c)) (N.of_nat es) 0 0 o) /\ N.of_nat (size (fst (spec_step m o))) <= growth_limit (bc_strat c)) m ops ->
  Forall bt_has_op ops /\ valid_ops (N.of_nat (bc_width c)) (N.of_nat es) 0 0 ops /\ never_above (growth_limit (bc_strat c)) m ops.
Proof.
  induction ops as [|o ops IH]; intros m; cbn [okrun never_above]; [intros _; split; [apply List.Forall_nil|split; [apply List.Forall_nil|done]]|].
  intros [[[H1 H2] H3] H]. destruct (IH _ H) as (I1 & I2 & I3). split; [by apply List.Forall_cons|]. split; [by apply List.Forall_cons|done].
Qed.
Lemma bt_play pf c es f p : bok pf c es -> (256 <= f)%nat ->
  good spec_step (fun m o => (bt_has_op o /\ valid_op (N.of_nat (bc_width c)) (N.of_nat es) 0 0 o) /\ N.of_nat (size (fst (spec_step m o))) <= growth_limit (bc_strat c))
    (fun m => (size m <= 255)%nat /\ m <> ∅) (fun m k v => m !! k = Some v) ∅ p -> succeeds (test_bt pf c f p).
Proof.
  intros OK Hf Hg. unfold test_bt.
  eapply (hist_play spec_step spec_run _ (bt_run_op pf c) (bt_run pf c)); [done|done|done|done| | |exact Hg].
  - intros l Hl. destruct (okrun_bt c es _ _ Hl) as (H1 & H2 & H3). by apply (C23_history_partial pf c es).
  - intros t m (l & Hl & E & ->) [Hs _]. destruct (okrun_bt c es _ _ Hl) as (H1 & H2 & H3).
    destruct (C57_bt_iteration pf c es l t _ OK H1 H2 H3 E) as (l1 & Hm & Hnd & Hi). rewrite <-Hm in Hs.
    change (list_to_map l1) with (emap l1) in Hs. rewrite emap_size in Hs by done. destruct (Hi f ltac:(lia)) as [E1 E2].
    exists l1, (rev l1). split; [done|]. split; [done|]. intros [k v] He. rewrite <-Hm. apply elem_of_list_to_map_1; [done|].
    destruct He as [He|He]; [done|]. by apply elem_of_list_In, in_rev, elem_of_list_In in He.
Qed.
(** With 16-bit values or wider the tests iterator, outlier and random pass for all key widths from 2 on; arbitrary_resize_bucket grows
    just far enough for the 255 elements of the first, and a round of the last must not store more than that. *)
Theorem C105_bucket_tests : forall pf c es f, bok pf c es -> (2 <= bc_width c)%nat -> (16 <= es)%nat -> (256 <= f)%nat ->
  succeeds (test_bt pf c f (test_map_iterator (N.of_nat (bc_width c)) (N.of_nat es)))
  /\ succeeds (test_bt pf c f (test_map_outlier (N.of_nat (bc_width c))))
  /\ (forall rounds, Forall (round_ok (N.of_nat (bc_width c)) (N.of_nat es)) rounds ->
        Forall (fun r => N.of_nat (length (r_ins r)) <= growth_limit (bc_strat c)) rounds -> succeeds (test_bt pf c f (test_map_random rounds))).
Proof.
  intros pf c es f OK Hw He Hf. pose proof (bo_w _ _ _ OK).
  pose (fits := fun n : nat => N.of_nat n <= growth_limit (bc_strat c)).
  assert (Hlim : 255 <= growth_limit (bc_strat c)) by (destruct (bc_strat c); vm_compute; discriminate).
  pose (okop := fun (m : gmap N N) o => (bt_has_op o /\ valid_op (N.of_nat (bc_width c)) (N.of_nat es) 0 0 o) /\ N.of_nat (size (fst (spec_step m o))) <= growth_limit (bc_strat c)).
  assert (Hok : forall (m : gmap N N) o, test_op o -> valid_op (N.of_nat (bc_width c)) (N.of_nat es) 0 0 o -> fits (size (fst (spec_step m o))) -> okop m o)
    by (intros m o H1 H2 H3; split; [split; [by destruct o|done]|done]).
  assert (Hle : forall a b, (a <= b)%nat -> fits b -> fits a) by (unfold fits; intros; lia).
  assert (2^16 <= 2^N.of_nat es) by (apply N.pow_le_mono_r; lia).
  split; [|split].
  - apply (bt_play pf c es); [done|done|]. apply (iterator_good okop _ fits _ _ Hok Hle); [done|lia|lia|]. unfold fits. rewrite N2Nat.id. lia.
  - apply (bt_play pf c es); [done|done|]. apply (outlier_good okop _ fits _ _ Hok Hle); [lia|lia|]. unfold fits. lia.
  - intros rs Hr Hn. apply (bt_play pf c es); [done|done|]. apply (random_good okop _ fits _ _ Hok Hle); [|done|unfold fits; lia|done].
    intros m. split; [done|]. cbn [spec_step fst]. rewrite map_size_empty. lia.
Qed.
Print Assumptions C105_bucket_tests.
(** The four tables of the file *)
Definition bucket_tables : list bcfg :=
  [BCfg (KPlain 32) (KPlain 16) BArb 32; BCfg (KVar 8) (KPlain 16) BArb 64; BCfg (KPlain 32) (KPlain 16) BInc 32; BCfg (KVar 8) (KPlain 16) BInc 64].
Example C105_case : Forall (fun c => bok ex_pf c 16 /\ (2 <= bc_width c)%nat) bucket_tables
  /\ Forall (round_ok 32 16) ex_draws /\ snd <$> test_bt ex_pf (BCfg (KVar 8) (KPlain 16) BArb 64) 256 (test_map_random ex_draws) = Ok true.
Proof.
  split; [|split; [|vm_compute; reflexivity]].
  - repeat (apply List.Forall_cons; [split; [|cbn; lia]; split; cbn; unfold width_ok; try done; try lia; repeat split; try lia; auto; try (by right; left)|]). apply List.Forall_nil.
  - repeat (apply List.Forall_cons; [split; [|split]; repeat (apply List.Forall_cons; [first [reflexivity|split; reflexivity]|]); apply List.Forall_nil|]).
    apply List.Forall_nil.
Qed.

(** ** C106: the tests of test/keysplit.cpp *)
Definition test_ks pf c fuel vw max_bits m_length (p : mprog) : res (list table * bool) :=
  s ← ks_new pf c vw max_bits m_length; play (ks_run_op pf c fuel max_bits m_length) (fun _ => Throw) (fun _ => Throw) s p.
Theorem C106_keysplit_tests : forall pf c vw fuel max_bits m_length interval, params pf c max_bits vw -> c_val c <> KNull -> (64 <= fuel)%nat ->
  1 <= m_length < 2^63 -> ks_interval max_bits m_length = Ok interval -> 3 <= interval -> 1 <= vw ->
  succeeds (test_ks pf c fuel vw max_bits m_length (test_map_id max_bits vw))
  /\ succeeds (test_ks pf c fuel vw max_bits m_length (test_map_reverse max_bits vw))
  /\ (max_bits < 2^vw -> succeeds (test_ks pf c fuel vw max_bits m_length (test_map_outlier max_bits)))
  /\ (forall rounds, Forall (round_ok max_bits vw) rounds -> succeeds (test_ks pf c fuel vw max_bits m_length (test_map_random rounds)))
  /\ (forall l, Forall (pair_ok max_bits vw) l -> succeeds (test_ks pf c fuel vw max_bits m_length (test_map_random_large l))).
Proof.
  intros pf c vw fuel mb ml I P Hv Hf Hl HI H3 Hvw.
  assert (Hk : 3 <= mb <= 64) by (destruct P as [P ?]; pose proof (co_kw _ _ _ _ _ P); lia).
  pose (okop := fun (_ : gmap N N) o => ks_has_op o /\ valid_op mb vw 0 0 o).
  assert (Hok : forall (m : gmap N N) o, test_op o -> valid_op mb vw 0 0 o -> any (size (fst (spec_step m o))) -> okop m o)
    by (intros m o H1 H2 _; split; [by destruct o|done]).
  assert (Hle : forall a b, (a <= b)%nat -> any b -> any a) by done.
  assert (HP : forall p, good spec_step okop (fun _ => False) (fun m k v => m !! k = Some v) ∅ p -> succeeds (test_ks pf c fuel vw mb ml p)).
  { intros p Hg. unfold test_ks.
    destruct (C24_history_partial pf c vw fuel mb ml I [] P Hv Hf Hl HI H3 (List.Forall_nil _) (List.Forall_nil _)) as (s0 & _ & E0 & _).
    rewrite E0. cbn [mbind res_bind].
    eapply (hist_play spec_step spec_run okop (ks_run_op pf c fuel mb ml) (ks_run pf c fuel mb ml)) with (okiter := fun _ => False);
      [done|done|done|done| |done|exact Hg].
    intros l Hl'%okrun_all. assert (H1 : Forall ks_has_op l) by (eapply Forall_impl; [exact Hl'|]; by intros o [? ?]).
    assert (H2 : valid_ops mb vw 0 0 l) by (eapply Forall_impl; [exact Hl'|]; by intros o [? ?]).
    destruct (C24_history_partial pf c vw fuel mb ml I l P Hv Hf Hl HI H3 H1 H2) as (s1 & s & E1 & E).
    rewrite E0 in E1. injection E1 as <-. by exists s. }
  split; [by apply HP, (id_good _ _ any mb vw Hok Hle)|]. split; [by apply HP, (reverse_good _ _ any mb vw Hok Hle)|].
  split; [intros Hmv; apply HP, (outlier_good _ _ any mb vw Hok Hle); [lia|done|done]|].
  split; [intros rs Hr; apply HP, (random_good _ _ any mb vw Hok Hle); [done|done|done|by apply Forall_forall]|].
  intros l Hpl. by apply HP, (large_good _ _ any mb vw Hok Hle).
Qed.
Print Assumptions C106_keysplit_tests.
(** keysplit_adapter<separate_chaining_map<varwidth_bucket<>, plain_bucket<uint16_t>, SplitMix>>: eight maps for keys of up to 64 bits *)
Definition keysplit_map : cfg := Cfg (KVar 8) (KPlain 16) adapter 64 false 255 OvDummy.
Example C106_case : params ex_pf keysplit_map 64 16 /\ ks_interval 64 8 = Ok 8 /\ Forall (round_ok 64 16) ex_draws
  /\ snd <$> test_ks ex_pf keysplit_map 64 16 64 8 (test_map_random ex_draws) = Ok true.
Proof.
  split; [params_solve; apply splitmix_spreading; cbn; lia|]. split; [reflexivity|]. split; [|vm_compute; reflexivity].
  repeat (apply List.Forall_cons; [split; [|split]; repeat (apply List.Forall_cons; [first [reflexivity|split; reflexivity]|]); apply List.Forall_nil|]).
  apply List.Forall_nil.
Qed.

(** ** C107: the tests of test/group.cpp *)
Definition test_group pf c fuel f kw vw (p : mprog) : res (gtable * bool) :=
  play (m_run_op (g_impl pf c fuel)) (g_forward pf c f) (g_backward pf c f) (g_new kw vw) p.
Definition test_group_serialize pf c fuel f kw vw kw0 vw0 (rounds : list (list (N * N * N))) : res (gtable * bool) :=
  test_map_serialize (m_run_op (g_impl pf c fuel)) (g_forward pf c f) (g_serialize c)
    (fun t d => r ← g_deserialize pf c t d; Ok (fst (r : gtable * stream))) (g_new kw0 vw0) g_clear (g_new kw vw) rounds.
Lemma group_play pf c kw vw bmin fuel f p : group_ok c kw vw bmin -> (64 <= fuel)%nat -> (255 <= f)%nat ->
  good spec_step (fun _ o => valid_op kw vw bmin (zbmax (gc_hash c) kw) o) (fun m => (size m <= 255)%nat /\ m <> ∅)
    (fun m k v => m !! k = Some v) ∅ p -> succeeds (test_group pf c fuel f kw vw p).
Proof.
  intros OK Hf Hff Hg. unfold test_group.
  eapply (hist_play spec_step spec_run _ (m_run_op (g_impl pf c fuel)) (m_run_ops (g_impl pf c fuel))); [done|done|done|done| | |exact Hg].
  - intros l Hl%okrun_valid. by apply (C21_group_table pf c kw vw bmin).
  - intros t m (l & Hl%okrun_valid & E & ->) [Hs Hne].
    assert (HR : g_reached pf c kw vw bmin t (fst (spec_run ∅ l))) by (by exists fuel, l, (snd (spec_run ∅ l))).
    destruct (C42_group_forward pf c kw vw bmin t _ f HR ltac:(lia)) as (l1 & E1 & Hp).
    exists l1, []. split; [done|]. split; [by apply (C43_reverse_visits_nothing_refuted pf c kw vw bmin t _ f HR)|].
    intros [k v] [He|He%elem_of_nil]; [|done]. rewrite Hp in He. by apply elem_of_map_to_list in He.
Qed.
(** The loop from rbegin_nav() to rend_nav() of the iterator test passes because it visits nothing (C43). *)
Theorem C107_group_tests : forall pf c kw vw bmin fuel f, group_ok c kw vw bmin -> (64 <= fuel)%nat -> (255 <= f)%nat ->
  succeeds (test_group pf c fuel f kw vw (test_map_id kw vw))
  /\ succeeds (test_group pf c fuel f kw vw (test_map_reverse kw vw))
  /\ (kw < 2^vw -> succeeds (test_group pf c fuel f kw vw (test_map_outlier kw)))
  /\ (forall rounds, Forall (round_ok kw vw) rounds -> succeeds (test_group pf c fuel f kw vw (test_map_random rounds)))
  /\ (forall l, Forall (pair_ok kw vw) l -> succeeds (test_group pf c fuel f kw vw (test_map_random_large l)))
  /\ (forall rounds, Forall (fun r => Forall (pair_ok kw vw) (fst r) /\ Forall (fun k => k < 2^kw) (snd r)) rounds ->
        succeeds (test_group pf c fuel f kw vw (test_map_group_out rounds)))
  /\ succeeds (test_group pf c fuel f kw vw (test_map_iterator kw vw)).
Proof.
  intros pf c kw vw bmin fuel f OK Hf Hff.
  assert (Hk : 3 <= kw <= 64) by (pose proof (ho_kw _ _ _ _ _ (go_hash _ _ _ _ OK)); pose proof (proj1 (go_init _ _ _ _ OK)); lia).
  assert (Hvw : 1 <= vw) by (pose proof (go_vw _ _ _ _ OK); lia).
  pose (okop := fun (_ : gmap N N) o => valid_op kw vw bmin (zbmax (gc_hash c) kw) o).
  assert (Hok : forall (m : gmap N N) o, test_op o -> valid_op kw vw 0 0 o -> any (size (fst (spec_step m o))) -> okop m o)
    by (intros m o H1 H2 _; by apply op_valid).
  assert (Hle : forall a b, (a <= b)%nat -> any b -> any a) by done.
  split; [by apply (group_play pf c kw vw bmin), (id_good okop _ any kw vw Hok Hle)|].
  split; [by apply (group_play pf c kw vw bmin), (reverse_good okop _ any kw vw Hok Hle)|].
  split; [intros Hkv; apply (group_play pf c kw vw bmin), (outlier_good okop _ any kw vw Hok Hle); try done; lia|].
  split; [intros rs Hr; apply (group_play pf c kw vw bmin), (random_good okop _ any kw vw Hok Hle); try done; by apply Forall_forall|].
  split; [intros l Hl; by apply (group_play pf c kw vw bmin), (large_good okop _ any kw vw Hok Hle)|].
  split; [intros rs Hr; apply (group_play pf c kw vw bmin), (group_out_good okop _ any kw vw Hok Hle); try done; by apply Forall_forall|].
  apply (group_play pf c kw vw bmin), (iterator_good okop _ any kw vw Hok Hle); try done; lia.
Qed.
Print Assumptions C107_group_tests.
Lemma serial_dom kw vw (m : gmap N N) o : serial_op kw vw o -> (forall k, is_Some (m !! k) -> k < 2^kw) -> forall k, is_Some (fst (spec_step m o) !! k) -> k < 2^kw.
Proof.
  intros Ho Hm k [x Hx]. destruct o as [k'|k'|k' v|k'|k' v|k'|k'| | |q| |]; cbn [serial_op] in Ho; try done; cbn [spec_step fst] in Hx.
  - apply Hm. by eexists.
  - apply lookup_insert_Some in Hx as [[<- _]|[_ Hx]]; [apply Ho|apply Hm; by eexists].
  - destruct (m !! k'); cbn [fst] in Hx; [apply lookup_delete_Some in Hx as [_ Hx]|]; apply Hm; by eexists.
Qed.
(** The serialization test, with any number of elements per round *)
Theorem C107_serialize_test : forall pf c kw vw bmin kw0 vw0 bmin0 fuel f cap rounds, group_ok c kw vw bmin -> group_ok c kw0 vw0 bmin0 ->
  (64 <= fuel)%nat -> (cap <= f)%nat -> N.of_nat cap < 2^64 ->
  Forall (fun l => Forall (triple_ok kw vw) l /\ (length l <= cap)%nat) rounds -> succeeds (test_group_serialize pf c fuel f kw vw kw0 vw0 rounds).
Proof.
  intros pf c kw vw bmin kw0 vw0 bmin0 fuel f cap rounds OK OK0 Hf Hcf Hcap Hr.
  pose (R er t m := gmrep pf c kw vw bmin er t m /\ forall k, is_Some (m !! k) -> k < 2^kw).
  eapply (serial_ok _ _ _ _ _ _ kw vw cap (R True) (R False)); [..|exact Hr| |rewrite map_size_empty; lia].
  - intros t m o [HR Hd] Ho _ _. assert (Hops : valid_ops kw vw bmin (zbmax (gc_hash c) kw) [o]) by (apply List.Forall_cons; [by destruct o|apply List.Forall_nil]).
    destruct (group_run pf c kw vw bmin OK True fuel [o] t m Hf HR Hops (or_introl I)) as (t' & E & HR' & _). specialize (HR' I).
    cbn [m_run_ops spec_run] in E, HR'. destruct (m_run_op (g_impl pf c fuel) t o) as [[t1 x]| | |]; cbn [mbind res_bind] in E; [|done..].
    pose proof (serial_dom kw vw m o Ho Hd) as Hd'. destruct (spec_step m o) as [m1 y]. cbn [fst snd] in *. injection E as -> ->. by exists t'.
  - intros t m k [HR Hd] Hk. assert (Hops : valid_ops kw vw bmin (zbmax (gc_hash c) kw) [OpFind k]) by (apply List.Forall_cons; [done|apply List.Forall_nil]).
    destruct (group_run pf c kw vw bmin OK False fuel [OpFind k] t m Hf HR Hops) as (t' & E & _ & HR'); [right; apply List.Forall_cons; [done|apply List.Forall_nil]|].
    cbn [m_run_ops spec_run] in E, HR'. destruct (m_run_op (g_impl pf c fuel) t (OpFind k)) as [[t1 x]| | |]; cbn [mbind res_bind] in E; [|done..].
    cbn [spec_step fst snd] in *. injection E as -> ->. by exists t'.
  - intros t m [HR Hd] Hs. destruct (gmrep_roundtrip pf c kw vw bmin OK True t m HR ltac:(lia)) as (s & Es & HD).
    destruct (HD (g_new kw0 vw0) []) as (t2 & E2 & HR2); [eapply (gmrep_clearable pf c kw0 vw0 bmin0 OK0 True), gmrep_new|]. rewrite app_nil_r in E2.
    destruct (gmrep_forward pf c kw vw bmin OK _ t2 m f HR2) as (l & El & Hl); [lia|].
    destruct (group_run pf c kw vw bmin OK _ fuel [] t2 m Hf HR2 (List.Forall_nil _) (or_intror (List.Forall_nil _))) as (t3 & E3 & _ & HR3).
    injection E3 as <-. exists s, t2, l. split; [done|]. rewrite E2. split; [done|]. split; [done|]. split; [done|].
    intros [k v] He. rewrite Hl in He. by apply elem_of_map_to_list in He.
  - intros t m [HR Hd] Hs. destruct (gmrep_forward pf c kw vw bmin OK _ t m f HR) as (l & El & Hl); [lia|]. exists l. split; [done|].
    intros [k v] He. rewrite Hl in He. by apply elem_of_map_to_list in He.
  - intros t m [HR _]. destruct (gmrep_clearable pf c kw vw bmin OK _ t m HR) as (t' & E). by exists t'.
  - intros t m k [_ Hd]. apply Hd.
  - split; [apply gmrep_new|]. by intros k [x Hx].
Qed.
Print Assumptions C107_serialize_test.
(** The three tables of the file: (32, 32), (10, 13) and (7, 3); a default-constructed one has widths 64 and 64. *)
Example C107_case : Forall (fun w => group_ok ex_gx (fst w) (snd w) 1 /\ fst w < 2^snd w) [(32, 32); (10, 13); (7, 3); (64, 64)]
  /\ snd <$> test_group_serialize strict_pf ex_gx 64 255 7 3 64 64 ex_rounds = Ok true
  /\ snd <$> test_group strict_pf ex_gx 64 255 10 13 (test_map_outlier 10) = Ok true.
Proof.
  split; [|vm_compute; split; reflexivity].
  repeat (apply List.Forall_cons; [split; [apply gx_ok; cbn; lia|vm_compute; reflexivity]|]). apply List.Forall_nil.
Qed.
