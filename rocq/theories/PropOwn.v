(** Property theorems about ownership: swap, moves, destruction. *)
From Verif Require Export OwnFacts PropSerial.

(** A heap that holds a table, for the examples: the four arrays at [base] and above, then the storage of the buckets. *)
Fixpoint place_data (a : N) (bs : list bucket) (h : heap) : heap * list ptr :=
  match bs with
  | [] => (h, [])
  | None :: bs => let '(h, l) := place_data (a + 1) bs h in (h, None :: l)
  | Some (t, d) :: bs => let '(h, l) := place_data (a + 1) bs (<[a := BData t d]> h) in (h, Some a :: l)
  end.
Definition place (c : cfg) (base : N) (t : table) (h : heap) : heap * obj :=
  let ov := match t_ov t with ODummy => PDummy | OArray _ _ e f => PArray None None e f | OUmap nb els f => PUmap nb els f end in
  match t_slots t with
  | None => (h, Obj None None None None (t_b t) (t_n t) (t_kw t) (t_vw t) (t_kw t) ov)
  | Some sl =>
      let '(h, lk) := place_data (base + 4) (map s_keys sl) h in
      let '(h, lv) := place_data (base + 4 + N.of_nat (length sl)) (map s_vals sl) h in
      let h := <[base := BSizes (map s_size sl)]> (<[base + 1 := BArr lk]> h) in
      let h := if is_set c then h else <[base + 2 := BArr lv]> h in
      let h := if c_arb c then <[base + 3 := BCaps (map s_cap sl)]> h else h in
      (h, Obj (Some (base + 1)) (if is_set c then None else Some (base + 2)) (Some base) (if c_arb c then Some (base + 3) else None)
            (t_b t) (t_n t) (t_kw t) (t_vw t) (t_kw t) ov)
  end.
Definition owns_all (c : cfg) (h : heap) (os : list obj) : Prop := forall a, is_Some (h !! a) <-> a ∈ concat (map (foot c h) os).
Lemma owns_all_dec c h os : forallb (fun a => bool_decide (a ∈ concat (map (foot c h) os))) (map fst (map_to_list h)) = true ->
  forallb (fun a => bool_decide (is_Some (h !! a))) (concat (map (foot c h) os)) = true -> owns_all c h os.
Proof.
  intros H1 H2 a. rewrite forallb_forall in H1, H2. split.
  - intros [b Hb]. apply elem_of_map_to_list in Hb. specialize (H1 a). apply bool_decide_eq_true in H1; [done|].
    apply in_map_iff. exists (a, b). split; [done|]. by apply elem_of_list_In.
  - intros Ha. specialize (H2 a). apply bool_decide_eq_true in H2; [done|]. by apply elem_of_list_In.
Qed.
Lemma disjoint_dec (l1 l2 : list N) : forallb (fun a => negb (bool_decide (a ∈ l2))) l1 = true -> forall a, a ∈ l1 -> a ∉ l2.
Proof.
  intros H a Ha. rewrite forallb_forall in H. specialize (H a). apply negb_true_iff, bool_decide_eq_false in H; [done|]. by apply elem_of_list_In.
Qed.
Ltac nodup_solve := match goal with |- NoDup ?l => apply (bool_decide_eq_true_1 (NoDup l)); vm_compute; reflexivity end.
Ltac object_solve := constructor; [vm_compute; reflexivity|nodup_solve|vm_compute; discriminate|vm_compute; discriminate].
Ltac owns_solve := apply owns_all_dec; vm_compute; reflexivity.

Definition ex_set_hist (ops : list sop) : table :=
  match run_sops lax_pf ex_set 64 (new_table lax_pf ex_set 30 0) ops with Ok (t, _) => t | _ => new_table lax_pf ex_set 30 0 end.
Definition ex_sops : list sop := [SInsert 5; SInsert 1048575; SInsert 77; SInsert 5; SInsert 1; SErase 77; SInsert 2; SInsert 3].
Lemma ex_set_alive : exists m, alive lax_pf ex_set 30 0 (ex_set_hist ex_sops) m.
Proof.
  eexists. eapply al_set with (fuel := 64%nat) (ops := ex_sops); [apply al_new; [params_solve|done]|lia|done| |].
  - repeat (apply List.Forall_cons; [vm_compute; auto|]). apply List.Forall_nil.
  - vm_compute. reflexivity.
Qed.
Definition ex_h1 : heap * obj := place ex_var 100 (ex_hist ex_var 20 9 ex_ops) ∅.
Definition ex_h2 : heap * obj := place ex_var 1000 (ex_hist ex_var 12 3 [OpInsert 4 7; OpInsert 100 1]) (fst ex_h1).
Lemma ex_alive2 : exists m, alive lax_pf ex_var 12 3 (ex_hist ex_var 12 3 [OpInsert 4 7; OpInsert 100 1]) m.
Proof.
  eexists. eapply al_map with (fuel := 64%nat) (ops := [OpInsert 4 7; OpInsert 100 1]); [apply al_new; [params_solve|done]|lia|done| |].
  - repeat (apply List.Forall_cons; [vm_compute; auto|]). apply List.Forall_nil.
  - vm_compute. reflexivity.
Qed.
Definition ex_hs : heap * obj := place ex_set 7 (ex_set_hist ex_sops) ∅.

(** C32: swap exchanges the tables that two objects hold, whatever they are; no block is touched.  [mv_nb], [mv_els]
    and [mv_full] are the contents of moved-from standard containers. *)
Theorem C32_swap : forall pf c mv_nb mv_els mv_full h x y tx ty,
  object_of c h x tx -> object_of c h y ty ->
  exists x' y', own_swap pf c mv_nb mv_els mv_full h x y = Ok (h, (x', y')) /\ object_of c h x' ty /\ object_of c h y' tx.
Proof. exact swap_fact. Qed.
Print Assumptions C32_swap.
(** Two maps of different widths, bucket counts and contents. *)
Example C32_case :
  object_of ex_var (fst ex_h2) (snd ex_h1) (ex_hist ex_var 20 9 ex_ops)
  /\ object_of ex_var (fst ex_h2) (snd ex_h2) (ex_hist ex_var 12 3 [OpInsert 4 7; OpInsert 100 1])
  /\ match own_swap lax_pf ex_var 0 [] [] (fst ex_h2) (snd ex_h1) (snd ex_h2) with
     | Ok (h, (x, y)) => o_kw x = 12 /\ o_kw y = 20 /\ o_n y = 6
         /\ (load ex_var h y ≫= fun t => match lookup_of lax_pf ex_var t 1048575 with Ok v => v | _ => None end) = Some 511
     | _ => False
     end.
Proof. split; [object_solve|]. split; [object_solve|]. vm_compute. auto. Qed.

(** C33 for sets: the new object holds the table; destroying both objects, in either order, releases every block exactly once. *)
Theorem C33_set_move_partial : forall pf c mv_nb mv_els mv_full kw vw t m h o,
  class_ok pf c -> alive pf c kw vw t m -> c_val c = KNull -> object_of c h o t -> owns_all c h [o] ->
  let '(n, s) := move_construct c mv_nb mv_els mv_full o in
  object_of c h n t
  /\ (h1 ← destroy pf c h n; destroy pf c h1 s) = Ok ∅ /\ (h1 ← destroy pf c h s; destroy pf c h1 n) = Ok ∅.
Proof.
  intros pf c mv_nb mv_els mv_full kw vw t m h o CL Ha Hv Ho Hall. destruct (alive_rep pf c CL _ _ _ _ Ha) as [[P _] Hr].
  pose proof (move_set pf c mv_nb mv_els mv_full h o t Hv Ho (rep_good _ _ _ _ _ _ P Hr)) as H. unfold moved in H.
  destruct (move_construct _ _ _ _ o) as [n s]. apply H. intros a Hx. apply Hall in Hx. cbn in Hx. by rewrite app_nil_r in Hx.
Qed.
Print Assumptions C33_set_move_partial.
Example C33_set_case : (exists m, alive lax_pf ex_set 30 0 (ex_set_hist ex_sops) m)
  /\ object_of ex_set (fst ex_hs) (snd ex_hs) (ex_set_hist ex_sops) /\ owns_all ex_set (fst ex_hs) [snd ex_hs]
  /\ length (foot ex_set (fst ex_hs) (snd ex_hs)) = 7%nat.
Proof. split; [exact ex_set_alive|]. split; [object_solve|]. split; [owns_solve|]. vm_compute. reflexivity. Qed.

(** C33 fails for move construction of maps: whichever of the two objects is destroyed first, destroying the other is
    undefined, for every map that ever had buckets. *)
Theorem C33_map_move_refuted : forall pf c mv_nb mv_els mv_full kw vw t m h o a,
  class_ok pf c -> alive pf c kw vw t m -> c_val c <> KNull -> object_of c h o t -> o_vals o = Some a ->
  let '(n, s) := move_construct c mv_nb mv_els mv_full o in
  is_ub (h1 ← destroy pf c h n; destroy pf c h1 s) = true /\ is_ub (h1 ← destroy pf c h s; destroy pf c h1 n) = true.
Proof.
  intros pf c mv_nb mv_els mv_full kw vw t m h o a CL Ha Hv Ho Ea. destruct (alive_rep pf c CL _ _ _ _ Ha) as [[P _] Hr].
  pose proof (move_map pf c mv_nb mv_els mv_full h o t a Hv Ho (rep_good _ _ _ _ _ _ P Hr) Ea) as H. unfold moved in H.
  by destruct (move_construct _ _ _ _ o) as [n s].
Qed.
Print Assumptions C33_map_move_refuted.
Example C33_map_case : alive lax_pf ex_var 20 9 (ex_hist ex_var 20 9 ex_ops) (fst (spec_run ∅ ex_ops))
  /\ object_of ex_var (fst ex_h1) (snd ex_h1) (ex_hist ex_var 20 9 ex_ops) /\ o_vals (snd ex_h1) = Some 102
  /\ (let '(n, s) := move_construct ex_var 0 [] [] (snd ex_h1) in
      (h1 ← destroy lax_pf ex_var (fst ex_h1) n; destroy lax_pf ex_var h1 s) = Ub DoubleFree
      /\ (h1 ← destroy lax_pf ex_var (fst ex_h1) s; destroy lax_pf ex_var h1 n) = Ub OobRead).
Proof. split; [exact ex_alive|]. split; [object_solve|]. split; [vm_compute; reflexivity|]. vm_compute. auto. Qed.

(** C33 for move assignment: the destination holds the source's table; destroying both objects, in either order, releases
    every block exactly once except the destination's old array of value buckets, which is never released.  For sets
    nothing is left. *)
Theorem C33_assign_partial : forall pf c mv_nb mv_els mv_full kw vw t m h d kw' vw' t' m' s,
  class_ok pf c -> alive pf c kw vw t m -> object_of c h d t -> alive pf c kw' vw' t' m' -> object_of c h s t' ->
  (forall a, a ∈ foot c h d -> a ∉ foot c h s) -> owns_all c h [d; s] ->
  exists h1 d' s' h2, move_assign pf c mv_nb mv_els mv_full h d s = Ok (h1, (d', s')) /\ object_of c h1 d' t'
    /\ (h' ← destroy pf c h1 d'; destroy pf c h' s') = Ok h2 /\ (h' ← destroy pf c h1 s'; destroy pf c h' d') = Ok h2
    /\ (forall a, is_Some (h2 !! a) <-> c_val c <> KNull /\ o_vals d = Some a).
Proof.
  intros pf c mv_nb mv_els mv_full kw vw t m h d kw' vw' t' m' s CL Ha Hd Ha' Hs Hdis Hall.
  destruct (alive_rep pf c CL _ _ _ _ Ha) as [[P _] Hr]. destruct (alive_rep pf c CL _ _ _ _ Ha') as [[P' _] Hr'].
  apply (move_assign_fact pf c mv_nb mv_els mv_full h d s t t' Hd (rep_good _ _ _ _ _ _ P Hr) Hs (rep_good _ _ _ _ _ _ P' Hr') Hdis).
  intros a. rewrite (Hall a). cbn. rewrite app_nil_r. by rewrite elem_of_app.
Qed.
Print Assumptions C33_assign_partial.
Example C33_assign_case : (exists m, alive lax_pf ex_var 12 3 (ex_hist ex_var 12 3 [OpInsert 4 7; OpInsert 100 1]) m)
  /\ alive lax_pf ex_var 20 9 (ex_hist ex_var 20 9 ex_ops) (fst (spec_run ∅ ex_ops))
  /\ (forall a, a ∈ foot ex_var (fst ex_h2) (snd ex_h1) -> a ∉ foot ex_var (fst ex_h2) (snd ex_h2)).
Proof.
  split; [exact ex_alive2|]. split; [exact ex_alive|]. apply disjoint_dec. vm_compute. reflexivity.
Qed.
(** The leak of the destination's value buckets. *)
Theorem C33_assign_refuted : exists h d s h1 d' s' h2, owns_all ex_var h [d; s]
  /\ object_of ex_var h d (ex_hist ex_var 20 9 ex_ops) /\ object_of ex_var h s (ex_hist ex_var 12 3 [OpInsert 4 7; OpInsert 100 1])
  /\ move_assign lax_pf ex_var 0 [] [] h d s = Ok (h1, (d', s')) /\ (h' ← destroy lax_pf ex_var h1 d'; destroy lax_pf ex_var h' s') = Ok h2
  /\ is_Some (h2 !! 102).
Proof.
  exists (fst ex_h2), (snd ex_h1), (snd ex_h2). destruct C33_assign_case as ([m2 A2] & A1 & Hdis).
  assert (O1 : object_of ex_var (fst ex_h2) (snd ex_h1) (ex_hist ex_var 20 9 ex_ops)) by object_solve.
  assert (O2 : object_of ex_var (fst ex_h2) (snd ex_h2) (ex_hist ex_var 12 3 [OpInsert 4 7; OpInsert 100 1])) by object_solve.
  assert (Hall : owns_all ex_var (fst ex_h2) [snd ex_h1; snd ex_h2]) by owns_solve.
  destruct (C33_assign_partial lax_pf ex_var 0 [] [] _ _ _ _ _ _ _ _ _ _ _ ltac:(by split) A1 O1 A2 O2 Hdis Hall) as (h1 & d' & s' & h2 & E1 & _ & E2 & _ & H2).
  exists h1, d', s', h2. split; [done|]. split; [done|]. split; [done|]. split; [done|]. split; [done|]. apply H2. split; [done|]. vm_compute. reflexivity.
Qed.
Print Assumptions C33_assign_refuted.

(** C50, without class_bucket (or with memory functions that do not care): in every history, including deserialize, every
    call succeeds on every platform, also where releasing a block with the wrong function is undefined.  The destructor
    releases every block of the table, each with the matching function.  Missing: class_bucket, see the refutation. *)
Theorem C50_releases_partial : forall pf c kw vw t m,
  class_ok pf c -> alive pf c kw vw t m ->
  (forall fuel ops, (64 <= fuel)%nat -> c_val c <> KNull -> valid_ops kw vw 1 (bits_max c kw) ops -> exists r, run_ops pf c fuel t ops = Ok r)
  /\ (forall fuel ops, (64 <= fuel)%nat -> c_val c = KNull -> Forall (valid_sop kw 1 (bits_max c kw)) ops -> exists r, run_sops pf c fuel t ops = Ok r)
  /\ (forall h o, object_of c h o t -> owns_all c h [o] -> destroy pf c h o = Ok ∅).
Proof.
  intros pf c kw vw t m CL Ha. destruct (alive_rep pf c CL _ _ _ _ Ha) as [[P Hb] Hr]. split; [|split].
  - intros fuel ops Hf Hv Ho.
    destruct (run_rep pf c kw vw 1 (bits_max c kw) False fuel (params_ok pf c _ _ P) Hf ops _ _ Hr (params_init _ _ _ _ P) Hv) as (t2 & E & _);
      [intros v Hlt; eapply cfg_values; [apply P|done|done]|done|by apply (noarr_ops _ _ _ _ P)|by eexists].
  - intros fuel ops Hf Hv Ho.
    destruct (set_run_rep pf c kw vw 1 (bits_max c kw) False fuel (params_ok pf c _ _ P) Hf ops t (dom m)) as (t2 & E & _);
      [by exists m|apply (params_init _ _ _ _ P)|done|done|by eexists].
  - intros h o Ho Hall. destruct (destroy_ok pf c h o (object_wf _ _ _ _ _ Ho (rep_good _ _ _ _ _ _ P Hr))) as (h' & -> & H). f_equal.
    eapply without_all; [exact H|]. intros a Hx. apply Hall in Hx. cbn in Hx. by rewrite app_nil_r in Hx.
Qed.
Print Assumptions C50_releases_partial.
(** lax_pf does not tolerate mismatches. *)
Example C50_case : loose_free lax_pf = false /\ class_ok lax_pf ex_var
  /\ alive lax_pf ex_var 20 9 (ex_hist ex_var 20 9 ex_ops) (fst (spec_run ∅ ex_ops))
  /\ object_of ex_var (fst ex_h1) (snd ex_h1) (ex_hist ex_var 20 9 ex_ops) /\ owns_all ex_var (fst ex_h1) [snd ex_h1].
Proof. split; [done|]. split; [by split|]. split; [exact ex_alive|]. split; [object_solve|owns_solve]. Qed.

(** C50 fails for class_bucket: deserialize allocates with malloc, clear releases with delete[]. *)
Definition ex_class : cfg := Cfg (KClass 32) (KPlain 16) (HBij Xorshift) 32 false 2 OvDummy.
Theorem C50_class_refuted : exists t m d t', params lax_pf ex_class 20 9 /\ reachable lax_pf ex_class 20 9 t m /\ serialize lax_pf ex_class t = Ok d
  /\ deserialize lax_pf ex_class 64 (new_table lax_pf ex_class 20 9) d = Ok (t', [])
  /\ shows lax_pf ex_class 20 t m /\ (exists t1, clear lax_pf ex_class t = Ok t1) /\ clear lax_pf ex_class t' = Ub BadFree.
Proof.
  assert (P : params lax_pf ex_class 20 9) by params_solve.
  assert (R : reachable lax_pf ex_class 20 9 (ex_hist ex_class 20 9 ex_ops) (fst (spec_run ∅ ex_ops))).
  { apply ex_hist_reach; [done|done|apply ex_ops_valid; cbn; lia]. }
  exists (ex_hist ex_class 20 9 ex_ops), (fst (spec_run ∅ ex_ops)).
  destruct (serialize lax_pf ex_class (ex_hist ex_class 20 9 ex_ops)) as [d| | |] eqn:E; [|by vm_compute in E..]. exists d.
  destruct (deserialize lax_pf ex_class 64 (new_table lax_pf ex_class 20 9) d) as [[t' s]| | |] eqn:E';
    [|vm_compute in E; injection E as <-; by vm_compute in E'..].
  exists t'. split; [done|]. split; [done|]. split; [done|]. vm_compute in E. injection E as <-. vm_compute in E'. injection E' as <- <-.
  split; [done|]. split; [apply (rep_shows _ _ _ _ P), (reachable_rep _ _ _ _ P), R|]. split; [|vm_compute; reflexivity].
  eexists. vm_compute. reflexivity.
Qed.
Print Assumptions C50_class_refuted.

(** C55 fails for maps, holds for sets: a table that is cleared, gets new buckets (reserve or an insertion; at addresses
    that are not in use) and is destroyed leaves exactly the array of value buckets that it had before clear(). *)
Theorem C55_clear_reuse_partial : forall pf c kw vw t m h o bits ac ak av as_,
  class_ok pf c -> alive pf c kw vw t m -> object_of c h o t -> owns_all c h [o] ->
  NoDup [ac; ak; av; as_] -> (forall a, a ∈ [ac; ak; av; as_] -> h !! a = None) ->
  exists h1 o1 h3, own_clear pf c h o = Ok (h1, o1)
    /\ (let '(h2, o2) := own_alloc pf c h1 o1 bits ac ak av as_ in destroy pf c h2 o2 = Ok h3)
    /\ (forall a, is_Some (h3 !! a) <-> c_val c <> KNull /\ o_vals o = Some a).
Proof.
  intros pf c kw vw t m h o bits ac ak av as_ CL Ha Ho Hall Hnd Hfr. destruct (alive_rep pf c CL _ _ _ _ Ha) as [[P _] Hr].
  apply (clear_reuse pf c h o t bits ac ak av as_ Ho (rep_good _ _ _ _ _ _ P Hr)); [|done|done].
  intros a. rewrite (Hall a). cbn. by rewrite app_nil_r.
Qed.
Print Assumptions C55_clear_reuse_partial.
Example C55_case : alive lax_pf ex_var 20 9 (ex_hist ex_var 20 9 ex_ops) (fst (spec_run ∅ ex_ops))
  /\ object_of ex_var (fst ex_h1) (snd ex_h1) (ex_hist ex_var 20 9 ex_ops) /\ owns_all ex_var (fst ex_h1) [snd ex_h1]
  /\ NoDup [1; 2; 3; 4] /\ Forall (fun a => fst ex_h1 !! a = None) [1; 2; 3; 4].
Proof.
  split; [exact ex_alive|]. split; [object_solve|]. split; [owns_solve|]. split; [nodup_solve|].
  repeat (apply List.Forall_cons; [vm_compute; reflexivity|]). apply List.Forall_nil.
Qed.
Theorem C55_leak_refuted : exists h o t m h1 o1 h2 o2 h3, alive lax_pf ex_var 20 9 t m /\ object_of ex_var h o t /\ owns_all ex_var h [o]
  /\ own_clear lax_pf ex_var h o = Ok (h1, o1) /\ own_alloc lax_pf ex_var h1 o1 4 1 2 3 4 = (h2, o2) /\ destroy lax_pf ex_var h2 o2 = Ok h3
  /\ is_Some (h3 !! 102).
Proof.
  destruct C55_case as (A & O & Hall & Hnd & Hfr). rewrite Forall_forall in Hfr.
  destruct (C55_clear_reuse_partial lax_pf ex_var _ _ _ _ _ _ 4 1 2 3 4 ltac:(by split) A O Hall Hnd Hfr) as (h1 & o1 & h3 & E1 & E3 & H3).
  exists (fst ex_h1), (snd ex_h1), (ex_hist ex_var 20 9 ex_ops), (fst (spec_run ∅ ex_ops)), h1, o1.
  destruct (own_alloc lax_pf ex_var h1 o1 4 1 2 3 4) as [h2 o2]. exists h2, o2, h3. do 6 (split; [done|]). apply H3. split; [done|]. vm_compute. reflexivity.
Qed.
Print Assumptions C55_leak_refuted.

(** C56 fails: a moved-from table with buckets still reports its old size and bucket count, every lookup and insertion
    dereferences a null pointer, and clear() does not change that. *)
Theorem C56_moved_from_refuted : forall pf c mv_nb mv_els mv_full kw vw t m h o k,
  class_ok pf c -> alive pf c kw vw t m -> object_of c h o t -> t_b t <> 0 -> t_ov t = ODummy -> k < 2^kw ->
  let s := snd (move_construct c mv_nb mv_els mv_full o) in
  exists ts, load c h s = Some ts /\ TableModel.size ts = TableModel.size t /\ bucket_count ts = bucket_count t
    /\ TableModel.find pf c ts k = Ub NullDeref /\ (forall fuel v, find_or_insert pf c (S fuel) ts k v = Ub NullDeref)
    /\ own_clear pf c h s = Ok (h, s).
Proof.
  intros pf c mv_nb mv_els mv_full kw vw t m h o k CL Ha Ho Hb Hov Hk. destruct (alive_rep pf c CL _ _ _ _ Ha) as [[P _] Hr].
  exact (moved_from pf c mv_nb mv_els mv_full h o t kw vw m k Ho P Hr Hb Hov Hk).
Qed.
Print Assumptions C56_moved_from_refuted.
Example C56_case : alive lax_pf ex_var 20 9 (ex_hist ex_var 20 9 ex_ops) (fst (spec_run ∅ ex_ops))
  /\ object_of ex_var (fst ex_h1) (snd ex_h1) (ex_hist ex_var 20 9 ex_ops) /\ t_b (ex_hist ex_var 20 9 ex_ops) = 6
  /\ t_ov (ex_hist ex_var 20 9 ex_ops) = ODummy.
Proof. split; [exact ex_alive|]. split; [object_solve|]. vm_compute. auto. Qed.
