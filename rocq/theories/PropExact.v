(** C111: how much memory the buckets hold (README: erase does not free memory, shrink_to_fit does; with
    incremental_resize a bucket is always full). *)
From Verif Require Import ExactProofs BytesProofs PropTable.

Lemma rmap_Forall2 {A B} (f : A -> res B) l l' : rmap f l = Ok l' -> Forall2 (fun x y => f x = Ok y) l l'.
Proof. revert l'. induction l as [|x l IH]; intros l'; cbn [rmap]; intros H; [injection H as <-; constructor|]. rinv H. rinv H. injection H as <-. constructor; auto. Qed.
Lemma get_in t bk s : get_slot t bk = Ok s -> s ∈ slots_of t.
Proof.
  unfold get_slot, slots_of. destruct (t_slots t) as [sl|]; [|done]. destruct (bk <? _); [|done]. destruct (sl !! N.to_nat bk) eqn:E; [|done].
  intros H. injection H as <-. by eapply elem_of_list_lookup_2.
Qed.

(** After shrink_to_fit every plain, class and avx2 block has exactly the size of its bucket, whatever was inserted and erased before;
    hence the blocks have altogether as many elements as the map. *)
Definition tight (kd : bkind) (b : bucket) (s : slot) : Prop := array_kind kd -> block_len b = N.to_nat (s_size s).
Lemma shrink_tight pf c kw vw t m t' : params pf c kw vw -> reachable pf c kw vw t m -> shrink_to_fit pf c t = Ok t' ->
  Forall (fun s => tight (c_key c) (s_keys s) s /\ tight (c_val c) (s_vals s) s) (slots_of t').
Proof.
  intros P Hr E. pose proof (reachable_rep pf c kw vw P t m Hr) as Hrep. destruct Hrep as [[Hz ->]|(sl & ess & ovl & H & Hm)].
  - rewrite (shrink_zero pf c kw vw) in E by done. injection E as <-. destruct Hz as (_ & _ & _ & _ & _ & Hs). unfold slots_of.
    destruct (t_slots t) as [sl|]; [|apply List.Forall_nil]. eapply Forall_impl; [exact Hs|]. by intros s ->.
  - destruct (shrink_spec _ _ _ _ _ _ _ (reach_ok0 pf c kw vw P) _ _ _ _ H) as (u & sl' & E' & H' & Hb & HF).
    rewrite E in E'. injection E' as <-. unfold slots_of. rewrite (ti_slots _ _ _ _ _ _ _ _ _ _ _ H').
    destruct (c_arb c) eqn:Ea.
    + pose proof (cap_reach pf c kw vw Ea t m Hr) as Hc.
      assert (Hc' : Forall (cap_slot c (t_b t')) sl').
      { assert (Ht : tI kw vw (cap_slot c) t) by (split; [apply H|]; split; [apply H|done]).
        apply (shrink_tI pf c kw vw (cap_slot c)) with (t' := t') in Ht; [|intros; by eapply cap_shrink|done].
        destruct Ht as (_ & _ & Ht). unfold slots_of in Ht. by rewrite (ti_slots _ _ _ _ _ _ _ _ _ _ _ H') in Ht. }
      apply Forall_lookup. intros i s' Hi. destruct (Forall2_lookup_r _ _ _ _ _ HF Hi) as (s & Hs & Hsz & Hcap).
      destruct (Forall2_lookup_l _ _ _ _ _ (ti_repr _ _ _ _ _ _ _ _ _ _ _ H) Hs) as (es & _ & (_ & _ & _ & _ & _ & Hsc)).
      assert (s_cap s' = s_size s') as Heq by (rewrite Hsz; apply Hcap; [done|by apply Hsc]).
      apply (Forall_lookup_1 _ _ _ _ Hc') in Hi as (_ & H1 & H2). unfold tight. by rewrite <-Heq.
    + unfold shrink_to_fit in E. destruct (tinv_bc _ _ _ _ _ _ _ (reach_ok0 pf c kw vw P) _ _ _ _ H) as [Hb0 Hbc]. rewrite Hb0, Hbc in E.
      rewrite (ti_slots _ _ _ _ _ _ _ _ _ _ _ H) in E. pose proof (ti_len _ _ _ _ _ _ _ _ _ _ _ H) as Hl. rewrite take_ge, drop_ge in E by lia. rinv E.
      injection E as <-. pose proof (ti_slots _ _ _ _ _ _ _ _ _ _ _ H') as Hs'. cbn [t_slots] in Hs'. injection Hs' as <-. rewrite app_nil_r in *.
      apply rmap_Forall2 in E0. apply Forall_lookup. intros i s' Hi. destruct (Forall2_lookup_r _ _ _ _ _ E0 Hi) as (s & Hs & Hsh).
      destruct (Forall2_lookup_l _ _ _ _ _ (ti_repr _ _ _ _ _ _ _ _ _ _ _ H) Hs) as (es & _ & (Hsz & _ & Hes & _)).
      unfold shrink_slot in Hsh. destruct (N.eqb_spec (s_size s) 0) as [E0'|E0'].
      * injection Hsh as <-. destruct es; [|cbn in Hsz; lia]. by rewrite Hes.
      * unfold rs_can_shrink in Hsh. rewrite Ea in Hsh. cbv zeta in Hsh. rinv Hsh. rinv Hsh. injection Hsh as <-. unfold tight. cbn [s_keys s_vals s_size].
        split; intros Hq; by eapply resize_array_len.
Qed.
Lemma total_tight f kd (sl : list slot) : array_kind kd -> Forall (fun s => tight kd (f s) s) sl ->
  N.of_nat (sum_list_with (fun s => block_len (f s)) sl) = foldr (fun s a => s_size s + a) 0 sl.
Proof. intros Hk. induction 1 as [|s l Hs _ IH]; [done|]. cbn [sum_list_with foldr]. rewrite Hs by done. lia. Qed.

Theorem C111_shrink_exact : forall pf c kw vw t m, params pf c kw vw -> reachable pf c kw vw t m ->
  exists t', shrink_to_fit pf c t = Ok t'
    /\ (forall bk s, get_slot t' bk = Ok s ->
          (array_kind (c_key c) -> block_len (s_keys s) = N.to_nat (s_size s))
          /\ (array_kind (c_val c) -> block_len (s_vals s) = N.to_nat (s_size s)))
    /\ (c_ov c = OvDummy -> (array_kind (c_key c) -> total_len s_keys t' = size m) /\ (array_kind (c_val c) -> total_len s_vals t' = size m)).
Proof.
  intros pf c kw vw t m P Hr. destruct (shrink_fact pf c kw vw P t m Hr) as (t' & E & Hrep & _). exists t'. split; [done|].
  pose proof (shrink_tight pf c kw vw t m t' P Hr E) as HF. split.
  - intros bk s Hg%get_in. by apply (proj1 (Forall_forall _ _) HF).
  - intros Hd. unfold total_len. apply Forall_and in HF as [HK HV]. destruct Hrep as [[Hz ->]|(sl & ess & ovl & H & Hm)].
    + rewrite map_size_empty. destruct Hz as (_ & _ & _ & _ & _ & Hs). unfold slots_of.
      destruct (t_slots t') as [sl|]; [|done]. clear -Hs. induction Hs as [|s l -> _ IH]; [done|]. done.
    + unfold slots_of in *. rewrite (ti_slots _ _ _ _ _ _ _ _ _ _ _ H) in *. destruct (dummy_nil _ _ _ _ _ _ _ _ _ _ _ H Hd) as [_ ->].
      assert (Hsum : N.of_nat (size m) = foldr (fun s a => s_size s + a) 0 sl).
      { rewrite (sizes_sum pf c kw vw True _ _ _ (ti_repr _ _ _ _ _ _ _ _ _ _ _ H)), <-Hm. rewrite emap_size by apply H. by rewrite app_nil_r. }
      split; intros Hk; [pose proof (total_tight s_keys _ _ Hk HK)|pose proof (total_tight s_vals _ _ Hk HV)]; lia.
Qed.
Print Assumptions C111_shrink_exact.

(** varwidth_bucket::resize allocates only if the number of units grows, so shrink_to_fit frees nothing: for every table
    all key blocks stay as they are, and there are tables with capacity() = size() whose blocks are several times as long as needed. *)
Definition needed_len (c : cfg) (t : table) : nat := sum_list_with (fun s => exact_len (c_key c) (N.to_nat (s_size s)) (qwidth c t)) (slots_of t).
Definition ex_packed : cfg := Cfg (KVar 8) (KVar 8) (HBij Xorshift) 64 true 9 OvDummy.
Lemma ex_packed_ok : params lax_pf ex_packed 20 9.
Proof. params_solve. Qed.
Definition ex_spare : list op := ex_fill 40 ++ map (fun i => OpErase (N.of_nat i)) (seq 0 32).
Theorem C111_shrink_packed_refuted :
  (forall pf c t t' iw, c_key c = KVar iw -> shrink_to_fit pf c t = Ok t' -> map s_keys (slots_of t') = map s_keys (slots_of t))
  /\ (forall pf c t t' iw, c_val c = KVar iw -> shrink_to_fit pf c t = Ok t' -> map s_vals (slots_of t') = map s_vals (slots_of t))
  /\ exists t t', reachable lax_pf ex_packed 20 9 t (fst (spec_run ∅ ex_spare)) /\ shrink_to_fit lax_pf ex_packed t = Ok t'
       /\ capacity ex_packed t' = Ok (TableModel.size t') /\ (2 * needed_len ex_packed t' < total_len s_keys t')%nat.
Proof.
  assert (Hs : forall pf iw b n w b', b_resize pf (KVar iw) b n n w = Ok b' -> b' = b).
  { intros pf iw b n w b'. cbn [b_resize]. rewrite (proj2 (Nat.ltb_ge _ _)) by done. intros H. by injection H as <-. }
  assert (Hg : forall pf c t t' (f : slot -> bucket), shrink_to_fit pf c t = Ok t' -> (forall s s', shrink_slot pf c t s = Ok s' -> f s' = f s) ->
    map f (slots_of t') = map f (slots_of t)).
  { intros pf c t t' f E Hf. unfold shrink_to_fit in E. destruct (t_b t =? 0); [by injection E as <-|]. unfold slots_of.
    destruct (t_slots t) as [sl|] eqn:Es; [|done]. rinv E. injection E as <-. cbn [t_slots]. transitivity (map f (take (N.to_nat (bucket_count t)) sl ++ drop (N.to_nat (bucket_count t)) sl)); [|by rewrite take_drop].
    rewrite !map_app. f_equal. apply rmap_Forall2 in E0. induction E0 as [|s s' l l' H0 _ IH]; [done|]. cbn [map]. by rewrite IH, (Hf s s'). }
  split; [|split].
  - intros pf c t t' iw Hk E. apply (Hg pf c t t' s_keys E). intros s s'. unfold shrink_slot. destruct (_ =? 0); [intros H; by injection H as <-|].
    destruct (rs_can_shrink _ _ _); [|intros H; by injection H as <-]. cbv zeta. intros H. rinv H. rinv H. injection H as <-. rewrite Hk in E0. by apply Hs in E0.
  - intros pf c t t' iw Hk E. apply (Hg pf c t t' s_vals E). intros s s'. unfold shrink_slot. destruct (_ =? 0); [intros H; by injection H as <-|].
    destruct (rs_can_shrink _ _ _); [|intros H; by injection H as <-]. cbv zeta. intros H. rinv H. rinv H. injection H as <-. rewrite Hk in E1. by apply Hs in E1.
  - assert (Hr : reachable lax_pf ex_packed 20 9 (ex_hist ex_packed 20 9 ex_spare) (fst (spec_run ∅ ex_spare))).
    { apply ex_hist_reach; [exact ex_packed_ok|discriminate|]. unfold ex_spare, ex_fill. apply Forall_app. split; apply Forall_map, Forall_forall; intros i Hi%elem_of_seq; cbn [valid_op]; lia. }
    destruct (shrink_fact _ _ _ _ ex_packed_ok _ _ Hr) as (t' & E & _). exists (ex_hist ex_packed 20 9 ex_spare), t'. split; [exact Hr|]. split; [exact E|]. clear Hr Hs Hg.
    assert (Hc : match shrink_to_fit lax_pf ex_packed (ex_hist ex_packed 20 9 ex_spare) with
      | Ok u => (match capacity ex_packed u with Ok n => n =? TableModel.size u | _ => false end) && (2 * needed_len ex_packed u <? total_len s_keys u)%nat | _ => false end = true).
    { vm_compute. reflexivity. }
    rewrite E in Hc. apply andb_true_iff in Hc as [H1 H2]. split; [|by apply Nat.ltb_lt].
    destruct (capacity ex_packed t') as [n| | |]; [|discriminate H1..]. apply N.eqb_eq in H1. by rewrite H1.
Qed.
Print Assumptions C111_shrink_packed_refuted.

(** incremental_resize as long as nothing is erased: a plain, class or avx2 block has exactly the size of its bucket, a packed value block
    exactly the units its values need.  A packed key block may be as long as one key of the full key width (find_or_insert allocates the first
    element with key_width() instead of the width of the quotient). *)
Definition key_len_ok (c : cfg) (kw : N) (t : table) (s : slot) : Prop :=
  let n := N.to_nat (s_size s) in
  match c_key c with
  | KVar iw => (packed iw n (qwidth c t) <= block_len (s_keys s) <= Nat.max (packed iw n (qwidth c t)) (packed iw 1 (N.to_nat kw)))%nat
  | _ => block_len (s_keys s) = n
  end.
Lemma full_final pf c kw vw t m bk s : params pf c kw vw -> reachable pf c kw vw t m -> tI kw vw (full_slot c kw vw) t -> get_slot t bk = Ok s ->
  block_len (s_vals s) = exact_len (c_val c) (N.to_nat (s_size s)) (N.to_nat vw) /\ key_len_ok c kw t s.
Proof.
  intros P Hr (Ek & _ & HF) Hg%get_in. pose proof (proj1 (Forall_forall _ _) HF s Hg) as (_ & HK & HV). split; [done|].
  rewrite <-(qwn_eq c kw t Ek) in HK. unfold key_len_ok. pose proof (ok_key _ _ _ _ _ _ (reach_ok0 pf c kw vw P)) as Hn. destruct (c_key c) as [| | |iw|]; try done.
  1-3: by destruct HK as [HK|(? & ? & _)].
  cbn [exact_len] in HK. destruct HK as [->|(iw' & Ei & Hp & ->)]; [lia|]. injection Ei as <-. split; [|lia].
  rewrite Hp. unfold packed. apply Nat.mul_le_mono_l. destruct iw as [|iw]; [done|]. apply Nat.div_le_mono; [done|].
  pose proof (reach_width pf c kw vw (reach_ok0 pf c kw vw P) ltac:(apply P) t m (reachable_rep pf c kw vw P t m Hr)). unfold qwidth. lia.
Qed.
Theorem C111_incremental_exact : forall pf c kw vw fuel, params pf c kw vw -> c_arb c = false -> (64 <= fuel)%nat ->
  (forall ops t outs, c_val c <> KNull -> valid_ops kw vw 1 (bits_max c kw) ops -> (forall k, OpErase k ∉ ops /\ OpEraseIt k ∉ ops) ->
     run_ops pf c fuel (new_table pf c kw vw) ops = Ok (t, outs) -> forall bk s, get_slot t bk = Ok s ->
     block_len (s_vals s) = exact_len (c_val c) (N.to_nat (s_size s)) (N.to_nat vw) /\ key_len_ok c kw t s)
  /\ (forall ops t outs, c_val c = KNull -> Forall (valid_sop kw 1 (bits_max c kw)) ops -> (forall k, SErase k ∉ ops) ->
     run_sops pf c fuel (new_table pf c kw vw) ops = Ok (t, outs) -> forall bk s, get_slot t bk = Ok s ->
     block_len (s_vals s) = 0%nat /\ key_len_ok c kw t s).
Proof.
  intros pf c kw vw fuel P Hi Hf. pose proof (reach_ok0 pf c kw vw P) as OK. pose proof (ok_maxb _ _ _ _ _ _ OK) as Hmb. split.
  - intros ops t outs Hn Hv Hne E bk s. eapply full_final; [done|by eapply reach_map|]. eapply full_run; [done|lia|apply (ok_key _ _ _ _ _ _ OK)|lia| |exact E].
    apply Forall_forall. intros o Ho He. destruct o as [| | | | |k|k| | | | |]; try done; destruct (Hne k) as [X Y]; first [by apply X|by apply Y].
  - intros ops t outs Hn Hv Hne E bk s Hg.
    destruct (full_final pf c kw vw t _ bk s P (reach_set _ _ _ _ _ _ _ _ Hf Hn Hv E)) as [H1 H2]; [|done|by rewrite Hn in H1].
    eapply full_srun; [done|lia|apply (ok_key _ _ _ _ _ _ OK)|lia| |exact E].
    apply Forall_forall. intros o Ho He. destruct o as [| | |k| | | | |]; try done; by apply (Hne k).
Qed.
Print Assumptions C111_incremental_exact.
Definition ex_tail : cfg := Cfg (KVar 8) (KVar 8) (HBij Xorshift) 64 false 9 OvDummy.
Lemma ex_tail_ok : params lax_pf ex_tail 20 9.
Proof. params_solve. Qed.
Example C111_incremental_case : forall t outs, run_ops lax_pf ex_tail 64 (new_table lax_pf ex_tail 20 9) (ex_fill 40) = Ok (t, outs) ->
  forall bk s, get_slot t bk = Ok s -> block_len (s_vals s) = packed 8 (N.to_nat (s_size s)) 9 /\ key_len_ok ex_tail 20 t s.
Proof.
  intros t outs. apply (C111_incremental_exact lax_pf ex_tail 20 9 64 ex_tail_ok eq_refl (le_n 64)); [discriminate| |].
  - unfold ex_fill. apply Forall_map, Forall_forall; intros i Hi%elem_of_seq; cbn [valid_op]; lia.
  - unfold ex_fill. intros k. split; intros (i & Hi & _)%elem_of_list_fmap; discriminate Hi.
Qed.

(** erase frees a block only when its bucket becomes empty; in all other cases every block keeps its length. *)
Theorem C111_erase_keeps : forall pf c t k t' n, erase pf c t k = Ok (t', n) ->
  forall bk s', get_slot t' bk = Ok s' -> s' = empty_slot
    \/ exists s, get_slot t bk = Ok s /\ block_len (s_keys s') = block_len (s_keys s) /\ block_len (s_vals s') = block_len (s_vals s).
Proof.
  intros pf c t k t' n E bk s' Hg. unfold erase in E. destruct (t_b t =? 0); [injection E as <- <-; right; by exists s'|]. rinv E. destruct a as [i pos].
  revert E. generalize (match pos with Some p => p | None => ones64 end) as p. intros p E. clear E0. unfold erase_at in E.
  destruct (p =? ones64); [injection E as <- <-; right; by exists s'|].
  destruct ((0 <? ov_size (t_ov t)) && (i =? bucket_count t)).
  { rinv E. injection E as <- <-. right. by exists s'. }
  rinv E. rinv E. rinv E. cbv zeta in E.
  assert (Hset : forall x, get_slot (set_slot (set_n t (sub64 (t_n t) 1)) i x) bk = Ok s' -> s' = x /\ i = bk \/ get_slot t bk = Ok s').
  { intros x. unfold get_slot in *. cbn [set_slot set_n t_slots]. destruct (t_slots t) as [sl|]; [|done]. cbn [fmap option_fmap option_map]. rewrite insert_length.
    destruct (bk <? N.of_nat (length sl)); [|done]. destruct (decide (i = bk)) as [->|Hne].
    - destruct (bk <? N.of_nat (length sl)); [|done]. destruct (sl !! N.to_nat bk) eqn:El; [|done]. rewrite list_lookup_insert by (by eapply lookup_lt_Some).
      intros H. injection H as <-. by left.
    - rewrite list_lookup_insert_ne by lia. by right. }
  destruct (s_size _ =? 0).
  - rinv E. injection E as <- <-. apply clear_slot_empty in E3 as ->. destruct (Hset _ Hg) as [[-> _]|H]; [by left|right; by exists s'].
  - injection E as <- <-. right. destruct (Hset _ Hg) as [[-> ->]|H]; [|by exists s'].
    exists a. split; [done|]. cbn [s_keys s_vals]. split; by eapply erase_len.
Qed.
Print Assumptions C111_erase_keeps.

(** So with incremental_resize a bucket need not be full: after one erasure the block has room for two elements although capacity() = size() = 1.
    And the first key of a bucket takes 24 bits where 16 suffice (key width 20, 16 buckets). *)
Definition ex_incr : cfg := Cfg (KPlain 32) (KPlain 32) (HBij Xorshift) 32 false 9 OvDummy.
Lemma ex_incr_ok : params lax_pf ex_incr 20 9.
Proof. params_solve. Qed.
Theorem C111_always_full_refuted :
  (exists ops t s, reachable lax_pf ex_incr 20 9 t (fst (spec_run ∅ ops)) /\ get_slot t 0 = Ok s /\ s_size s = 1
     /\ capacity ex_incr t = Ok (TableModel.size t) /\ block_len (s_keys s) = 2%nat)
  /\ (exists ops t s, reachable lax_pf ex_tail 20 9 t (fst (spec_run ∅ ops)) /\ get_slot t 5 = Ok s /\ s_size s = 1
     /\ block_len (s_keys s) = 24%nat /\ packed 8 1 (qwidth ex_tail t) = 16%nat).
Proof.
  split.
  - exists [OpInsert 0 1; OpInsert 11 2; OpErase 11], (ex_hist ex_incr 20 9 [OpInsert 0 1; OpInsert 11 2; OpErase 11]). eexists. split.
    + apply ex_hist_reach; [exact ex_incr_ok|discriminate|]. repeat (apply List.Forall_cons; [cbn [valid_op]; lia|]). apply List.Forall_nil.
    + split; [vm_compute; reflexivity|]. split; [reflexivity|]. split; vm_compute; reflexivity.
  - exists [OpInsert 6 1], (ex_hist ex_tail 20 9 [OpInsert 6 1]). eexists. split.
    + apply ex_hist_reach; [exact ex_tail_ok|discriminate|]. repeat (apply List.Forall_cons; [cbn [valid_op]; lia|]). apply List.Forall_nil.
    + split; [vm_compute; reflexivity|]. split; [reflexivity|]. split; vm_compute; reflexivity.
Qed.
Print Assumptions C111_always_full_refuted.
Example C111_shrink_case : let t := ex_hist ex_incr 20 9 [OpInsert 0 1; OpInsert 11 2; OpErase 11] in
  total_len s_keys t = 2%nat /\ match shrink_to_fit lax_pf ex_incr t with Ok u => total_len s_keys u = 1%nat /\ total_len s_vals u = 1%nat | _ => False end.
Proof. vm_compute. auto. Qed.
