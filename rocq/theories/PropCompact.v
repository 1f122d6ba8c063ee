(** Properties of compact_chaining_map: C22, C50 (releases), C59, C60, C61. *)
From Verif Require Import CompactProofs PropBucket PropSerial.

(** Results that agree in everything except the key an iterator reports. *)
Definition same_but_keys (a e : out) : Prop :=
  match a, e with
  | OutEntry (Some (_, v)), OutEntry (Some (_, v')) => v = v'
  | _, _ => a = e
  end.
(** The quotients fit into storage_t (iterator.hpp:53 passes them through a variable of this type). *)
Definition quotients_fit (c : ccfg) (kw bmin : N) : Prop :=
  match cc_hash c with HBij _ => kw - bmin | HAdapter _ => kw end <= N.of_nat (cc_sb c).

Lemma cokey_fit c kw bmin : quotients_fit c kw bmin -> cokey c kw bmin = eq.
Proof. intros H. unfold cokey. by rewrite (proj2 (N.ltb_ge _ _)). Qed.
Lemma oout_weak okey a e : oout okey a e -> same_but_keys a e.
Proof. destruct a as [|[[]|]| |], e as [|[[]|]| |]; cbn; try done. by intros [_ ?]. Qed.

(** ** C22: any history, for every width of storage_t and of the hash mapping's key_type.
    All results are those of a finite map, up to the keys reported by iterators; these are right as well if the quotients
    fit into storage_t.  Parameters (compact_ok): an allocator that tolerates delete[] of malloc'd memory (otherwise see
    C50_compact_refuted), 8 accessible bytes after each block unless storage_t is uint64_t, key widths from 3 on; OpReserve n
    with 2^bmin/2 < n <= 2^bmax. *)
Theorem C22_history_partial : forall pf c kw vw bmin fuel ops, compact_ok pf c kw vw bmin -> (64 <= fuel)%nat ->
  valid_ops kw vw bmin (zbmax (cc_hash c) kw) ops ->
  exists t rs, m_run_ops (c_impl pf c fuel) (c_new kw vw) ops = Ok (t, rs)
    /\ Forall2 same_but_keys rs (snd (spec_run ∅ ops))
    /\ (quotients_fit c kw bmin -> rs = snd (spec_run ∅ ops)).
Proof.
  intros pf c kw vw bmin fuel ops OK Hf Hv.
  destruct (m_run_rep _ _ _ _ _ _ _ _ _ _ _ _ _ _ (compact_chain pf c kw vw bmin OK fuel Hf) ops (c_new kw vw) ∅) as (t & rs & E & Hr & _).
  { by left. } { done. }
  exists t, rs. split; [exact E|]. split.
  - eapply Forall2_impl; [exact Hr|]. intros a e. apply oout_weak.
  - intros Hfit. rewrite cokey_fit in Hr by done. by apply oout_eq.
Qed.
Print Assumptions C22_history_partial.


(** uint64_t storage with quotienting; uint8_t storage (the default) with splitmix and wide keys. *)
Definition ex_c64 : ccfg := CCfg (HBij Xorshift) 64 64 64.
Definition ex_c8 : ccfg := CCfg (HAdapter splitmix) 32 64 8.
Ltac compact_solve := constructor; [constructor; cbn; try lia; repeat split; lia|split; vm_compute; repeat split; congruence|lia|
  unfold width_ok; cbn; lia|cbn; lia|done|cbn; try done].
Lemma ex_c64_ok : compact_ok loose_pf ex_c64 20 9 1.
Proof. compact_solve. Qed.
Lemma ex_c8_ok : compact_ok loose_pf ex_c8 32 64 1.
Proof. compact_solve. apply splitmix_spreading; lia. Qed.
Ltac valid_solve := repeat (apply List.Forall_cons; [cbn [valid_op]; vm_compute; repeat split; congruence|]); apply List.Forall_nil.
Definition ex_c_ops : list op :=
  [OpInsert 5 7; OpWrite 1048575 511; OpInsert 77 0; OpInsert 5 9; OpInsert 1 1; OpInsert 2 2; OpInsert 3 3; OpInsert 4 4;
   OpWrite 77 8; OpErase 2; OpErase 2; OpReserve 64; OpErase 4; OpFind 77; OpRead 1048575; OpFind 6; OpCount 5; OpSize; OpReserve 2;
   OpEraseIt 77; OpRead 3; OpSize; OpClear; OpFind 3; OpInsert 9 1; OpEmpty].
Definition ex_c_run (c : ccfg) (kw vw : N) : res (list out) := snd <$> m_run_ops (c_impl loose_pf c 64) (c_new kw vw) ex_c_ops.
Example C22_case : compact_ok loose_pf ex_c64 20 9 1 /\ quotients_fit ex_c64 20 1 /\ valid_ops 20 9 1 (zbmax (cc_hash ex_c64) 20) ex_c_ops
  /\ ex_c_run ex_c64 20 9 = Ok (snd (spec_run ∅ ex_c_ops))
  /\ compact_ok loose_pf ex_c8 32 64 1 /\ is_ok (ex_c_run ex_c8 32 64) = true.
Proof.
  split; [exact ex_c64_ok|]. split; [vm_compute; congruence|].
  split; [valid_solve|].
  split; [vm_compute; reflexivity|]. split; [exact ex_c8_ok|]. vm_compute. reflexivity.
Qed.

(** C22 fails for iterators if the quotients do not fit: find(300) returns an iterator to key 44 (uint8_t storage, as in
    test/compact.hpp's compact_map_32_8). *)
Theorem C22_iterator_key_refuted : exists c kw vw ops, compact_ok loose_pf c kw vw 1 /\ valid_ops kw vw 1 (zbmax (cc_hash c) kw) ops
  /\ (snd <$> m_run_ops (c_impl loose_pf c 64) (c_new kw vw) ops) = Ok [OutEntry (Some (44, 1)); OutEntry (Some (44, 1))]
  /\ snd (spec_run ∅ ops) = [OutEntry (Some (300, 1)); OutEntry (Some (300, 1))].
Proof.
  exists ex_c8, 32, 64, [OpInsert 300 1; OpFind 300]. split; [exact ex_c8_ok|].
  split; [valid_solve|].
  split; vm_compute; reflexivity.
Qed.
Print Assumptions C22_iterator_key_refuted.

(** ** C50 for the compact map: every map with buckets releases malloc'd memory with delete[].  On an allocator that does not
    tolerate this, destroying any map that ever stored an element is undefined behaviour. *)
Lemma clear_strict pf t : loose_free pf = false -> cm_slots t <> None -> c_clear pf t = Ub BadFree.
Proof.
  intros Hf Hs. unfold c_clear. destruct (cm_slots t) as [sl|]; [|done].
  assert (Hr : forall l, rmap (fun s => if cs_size s =? 0 then Ok s else c_clear_slot pf s) l = Ub BadFree \/
    exists ys, rmap (fun s => if cs_size s =? 0 then Ok s else c_clear_slot pf s) l = Ok ys).
  { induction l as [|s l IH]; [right; by exists []|]. cbn [rmap].
    assert (Hs1 : (if cs_size s =? 0 then Ok s else c_clear_slot pf s) = Ub BadFree \/ exists y, (if cs_size s =? 0 then Ok s else c_clear_slot pf s) = Ok y).
    { destruct (cs_size s =? 0); [right; by exists s|]. unfold c_clear_slot, c_delete. rewrite Hf.
      destruct (cs_data s); [by left|right; by eexists]. }
    destruct Hs1 as [-> | [y ->]]; [by left|]. cbn [mbind res_bind]. destruct IH as [-> | [ys ->]]; [by left|]. right. by eexists. }
  destruct (Hr (take (N.to_nat (c_bucket_count t)) sl)) as [-> | [ys ->]]; [done|]. cbn [mbind res_bind].
  unfold c_clear_structure. cbn [cm_slots]. by rewrite Hf.
Qed.
Theorem C50_compact_refuted : forall pf c kw vw fuel k v t x, loose_free pf = false ->
  c_find_or_insert pf c fuel (c_new kw vw) k v = Ok (t, x) -> c_destroy pf t = Ub BadFree.
Proof.
  intros pf c kw vw fuel k v t x Hf E.
  assert (Hs : cm_slots t <> None).
  { destruct fuel as [|f]; [done|]. cbn [c_find_or_insert c_new cm_b N.eqb] in E. unfold c_alloc in E.
    destruct (reserve_bits (N.min (sub64 (cm_kw (c_new kw vw)) 1) 16)) as [b| | |]; try done. cbn [mbind res_bind cm_kw cm_vw cm_b cm_n] in E.
    set (t1 := CMap _ _ _ _ _) in E. change (cm_kw (c_new kw vw)) with kw in E. destruct (hash_map (chm c kw) k b) as [[q bk]| | |]; try done. cbn [mbind res_bind] in E.
    destruct (c_slot t1 bk) as [s| | |] eqn:Es; try done. cbn [mbind res_bind] in E.
    assert (Hs0 : cs_size s = 0).
    { unfold c_slot in Es. cbn [t1 cm_slots] in Es. destruct (bk <? _); [|done].
      destruct (replicate (N.to_nat (2^b)) (CSlot None 0) !! N.to_nat bk) as [s'|] eqn:E1; [|done]. cbn in Es.
      apply lookup_replicate in E1 as [-> _]. by injection Es as <-. }
    destruct (c_locate_q pf c t1 bk q) as [[p|]| | |]; try done; cbn [mbind res_bind] in E.
    - injection E as <- _. done.
    - rewrite Hs0 in E. change (0 =? c_max_bucket) with false in E. cbn [cm_n] in E.
      destruct (cs_enlarge pf c s (cqw c t1) (cvw t1)) as [s1| | |]; try done; cbn [mbind res_bind] in E.
      destruct (cs_set_quot pf c s1 (N.to_nat 0) (cqw c t1) q) as [s2| | |]; try done; cbn [mbind res_bind] in E.
      destruct (cs_set_value pf c s2 (N.to_nat 0) (cqw c t1) (cvw t1) v) as [s3| | |]; try done; cbn [mbind res_bind] in E.
      injection E as <- _. done. }
  unfold c_destroy. by rewrite clear_strict.
Qed.
Print Assumptions C50_compact_refuted.
Example C50_compact_case : loose_free lax_pf = false /\ is_ok (c_find_or_insert lax_pf ex_c8 64 (c_new 32 64) 300 1) = true.
Proof. vm_compute. repeat split. Qed.

(** ** C59: forward iteration over the map left by any history yields each pair once. *)
Definition same_value (a e : N * N) : Prop := snd a = snd e.
Theorem C59_compact_forward : forall pf c kw vw bmin fuel ops t rs f, compact_ok pf c kw vw bmin -> (64 <= fuel)%nat ->
  valid_ops kw vw bmin (zbmax (cc_hash c) kw) ops -> m_run_ops (c_impl pf c fuel) (c_new kw vw) ops = Ok (t, rs) ->
  (size (fst (spec_run ∅ ops)) <= f)%nat ->
  exists l E, c_forward pf c f t = Ok l /\ E ≡ₚ map_to_list (fst (spec_run ∅ ops)) /\ Forall2 same_value l E
    /\ (quotients_fit c kw bmin -> l = E).
Proof.
  intros pf c kw vw bmin fuel ops t rs f OK Hf Hv Hrun Hsz.
  destruct (m_run_rep _ _ _ _ _ _ _ _ _ _ _ _ _ _ (compact_chain pf c kw vw bmin OK fuel Hf) ops (c_new kw vw) ∅) as (t' & rs' & E & _ & HR).
  { by left. } { done. }
  rewrite Hrun in E. injection E as <- <-. destruct HR as [[Hz Em]|(ess & HR & Hm)].
  - exists [], []. rewrite Em, map_to_list_empty. destruct Hz as (_ & _ & Hb & _). unfold c_forward, v_begin. cbn [c_view v_count].
    unfold c_bucket_count. rewrite Hb. cbn [N.eqb N.to_nat v_begin_scan mbind res_bind].
    split; [|split; [done|split; [constructor|done]]].
    assert (Ee : vn_eq (c_view pf c t) end_nav end_nav = Ok true).
    { unfold vn_eq, vn_invalid, end_nav. cbn [c_view v_count]. unfold c_bucket_count. rewrite Hb. done. }
    destruct f; cbn [v_iterate]; by rewrite Ee.
  - pose proof (cshows pf c kw vw bmin OK t ess HR) as Hsh. rewrite <-Hm in *.
    rewrite emap_size in Hsz by (by eapply cr_nodup).
    destruct (v_forward_spec _ _ _ _ Hsh f Hsz) as (l & El & HF). exists l, (concat ess). split; [exact El|].
    split; [symmetry; apply map_to_list_to_map; by eapply cr_nodup|]. split.
    + eapply Forall2_impl; [exact HF|]. by intros a e [_ ?].
    + intros Hfit. rewrite cokey_fit in HF by done. by apply oent_eq.
Qed.
Print Assumptions C59_compact_forward.
Example C59_case : let ops := take 16 ex_c_ops in
  (r ← m_run_ops (c_impl loose_pf ex_c64 64) (c_new 20 9) ops; c_forward loose_pf ex_c64 10 (fst r))
    = Ok [(1048575, 511); (77, 8); (5, 7); (3, 3); (1, 1)].
Proof. vm_compute. reflexivity. Qed.

(** ** C60: reverse iteration.  With elements it yields each pair once, in the reverse order of forward iteration. *)
Theorem C60_compact_backward_partial : forall pf c kw vw bmin fuel ops t rs f, compact_ok pf c kw vw bmin -> (64 <= fuel)%nat ->
  valid_ops kw vw bmin (zbmax (cc_hash c) kw) ops -> m_run_ops (c_impl pf c fuel) (c_new kw vw) ops = Ok (t, rs) ->
  fst (spec_run ∅ ops) <> ∅ -> (size (fst (spec_run ∅ ops)) <= f)%nat ->
  exists l E, c_backward pf c f t = Ok l /\ E ≡ₚ map_to_list (fst (spec_run ∅ ops)) /\ Forall2 same_value l E
    /\ (quotients_fit c kw bmin -> l = E /\ c_forward pf c f t = Ok (rev l)).
Proof.
  intros pf c kw vw bmin fuel ops t rs f OK Hf Hv Hrun Hne Hsz.
  destruct (m_run_rep _ _ _ _ _ _ _ _ _ _ _ _ _ _ (compact_chain pf c kw vw bmin OK fuel Hf) ops (c_new kw vw) ∅) as (t' & rs' & E & _ & HR).
  { by left. } { done. }
  rewrite Hrun in E. injection E as <- <-. destruct HR as [[Hz Em]|(ess & HR & Hm)]; [done|].
  pose proof (cshows pf c kw vw bmin OK t ess HR) as Hsh. rewrite <-Hm in *.
  rewrite emap_size in Hsz by (by eapply cr_nodup).
  assert (Hne' : concat ess <> []) by (intros Ec; by rewrite Ec in Hne).
  destruct (v_backward_spec _ _ _ _ Hsh f Hne' Hsz) as (l & El & HF). destruct (v_forward_spec _ _ _ _ Hsh f Hsz) as (l2 & El2 & HF2).
  exists l, (rev (concat ess)). split; [exact El|].
  split; [rewrite <-Permutation_rev; symmetry; apply map_to_list_to_map; by eapply cr_nodup|]. split.
  - eapply Forall2_impl; [exact HF|]. by intros a e [_ ?].
  - intros Hfit. rewrite cokey_fit in HF, HF2 by done. apply oent_eq in HF, HF2. subst l l2. split; [done|].
    by rewrite rev_involutive.
Qed.
Print Assumptions C60_compact_backward_partial.
Example C60_case : let ops := take 16 ex_c_ops in
  (r ← m_run_ops (c_impl loose_pf ex_c64 64) (c_new 20 9) ops; c_backward loose_pf ex_c64 10 (fst r))
    = @rev (N * N) <$> (r ← m_run_ops (c_impl loose_pf ex_c64 64) (c_new 20 9) ops; c_forward loose_pf ex_c64 10 (fst r)).
Proof. vm_compute. reflexivity. Qed.

(** C60 fails whenever the map is empty and has buckets: rbegin_nav reads before its size array. *)
Lemma rbegin_scan_empty V n bk : (forall i, i <= bk -> v_size V i = Ok 0) -> v_size V ones64 = Ub OobRead -> bk < 2^64 ->
  (N.to_nat bk + 1 < n)%nat -> v_rbegin_scan V n bk = Ub OobRead.
Proof.
  intros H0 H1. revert bk H0. induction n as [|n IH]; intros bk H0 H64 Hn; [lia|]. cbn [v_rbegin_scan].
  rewrite H0 by lia. cbn [mbind res_bind]. change (0 <? 0) with false. cbn [negb].
  destruct (N.eq_dec bk 0) as [->|Hb].
  - change (sub64 0 1) with ones64. destruct n as [|n]; [lia|]. cbn [v_rbegin_scan]. by rewrite H1.
  - rewrite sub64_small by lia. apply IH; [intros i Hi; apply H0; lia|lia|lia].
Qed.
Theorem C60_rbegin_refuted : forall pf c kw vw bmin fuel ops t rs f, compact_ok pf c kw vw bmin -> (64 <= fuel)%nat ->
  valid_ops kw vw bmin (zbmax (cc_hash c) kw) ops -> m_run_ops (c_impl pf c fuel) (c_new kw vw) ops = Ok (t, rs) ->
  fst (spec_run ∅ ops) = ∅ -> c_bucket_count t <> 0 -> c_backward pf c f t = Ub OobRead.
Proof.
  intros pf c kw vw bmin fuel ops t rs f OK Hf Hv Hrun Hem Hbc.
  destruct (m_run_rep _ _ _ _ _ _ _ _ _ _ _ _ _ _ (compact_chain pf c kw vw bmin OK fuel Hf) ops (c_new kw vw) ∅) as (t' & rs' & E & _ & HR).
  { by left. } { done. }
  rewrite Hrun in E. injection E as <- <-. destruct HR as [[Hz Em]|(ess & HR & Hm)].
  { destruct Hz as (_ & _ & Hb & _). unfold c_bucket_count in Hbc. by rewrite Hb in Hbc. }
  pose proof (cshows pf c kw vw bmin OK t ess HR) as Hsh. pose proof (cr_nodup _ _ _ _ _ _ HR) as Hnd.
  assert (Hc : concat ess = []).
  { apply length_zero_iff_nil. rewrite <-emap_size, Hm, Hem by done. apply map_size_empty. }
  unfold c_backward, v_rbegin. rewrite (sh_count _ _ _ _ Hsh).
  pose proof (sh_pow _ _ _ _ Hsh) as Hp. pose proof (sh_len _ _ _ _ Hsh) as Hlen.
  rewrite (proj2 (N.eqb_neq _ _)) by lia. rewrite sub64_small by lia.
  rewrite rbegin_scan_empty; [done|..|lia|lia].
  - intros i Hi. destruct (sh_lookup _ _ _ _ Hsh i) as (es & He); [lia|]. destruct (sh_size _ _ _ _ Hsh _ _ He) as [-> _].
    destruct es as [|e es]; [done|]. exfalso. assert (Hin : e ∈ concat ess) by (apply elem_of_concat; eexists _, _; split; [done|]; by left).
    rewrite Hc in Hin. by apply elem_of_nil in Hin.
  - cbn [c_view v_size]. unfold c_bucket_size, c_slot. destruct (cr_slots _ _ _ _ _ _ HR) as (sl & -> & HF).
    rewrite (proj2 (N.ltb_ge _ _)); [done|]. rewrite (Forall2_length _ _ _ HF), Hlen. transitivity (2^63); [lia|]. done.
Qed.
Print Assumptions C60_rbegin_refuted.
Example C60_rbegin_case : let ops := [OpInsert 5 7; OpErase 5] in fst (spec_run ∅ ops) = ∅ /\
  match m_run_ops (c_impl loose_pf ex_c64 64) (c_new 20 9) ops with
  | Ok (t, _) => c_bucket_count t = 16 /\ c_backward loose_pf ex_c64 10 t = Ub OobRead
  | _ => False end.
Proof. split; [apply map_size_empty_iff; vm_compute; reflexivity|]. vm_compute. split; reflexivity. Qed.

(** ** C61: swap and move assignment between maps of any widths. *)
Definition c_like (pf : platform) (c : ccfg) (kw vw bmin : N) (fuel : nat) (t : cmap) (m : gmap N N) : Prop :=
  forall ops, valid_ops kw vw bmin (zbmax (cc_hash c) kw) ops ->
  exists t' rs, m_run_ops (c_impl pf c fuel) t ops = Ok (t', rs) /\ Forall2 same_but_keys rs (snd (spec_run m ops))
    /\ (quotients_fit c kw bmin -> rs = snd (spec_run m ops)).
(** The state of a map after a history. *)
Definition c_after (pf : platform) (c : ccfg) (kw vw bmin : N) (fuel : nat) (t : cmap) (m : gmap N N) : Prop :=
  exists ops rs, valid_ops kw vw bmin (zbmax (cc_hash c) kw) ops
    /\ m_run_ops (c_impl pf c fuel) (c_new kw vw) ops = Ok (t, rs) /\ fst (spec_run ∅ ops) = m.
Lemma c_after_rep pf c kw vw bmin fuel t m : compact_ok pf c kw vw bmin -> (64 <= fuel)%nat -> c_after pf c kw vw bmin fuel t m ->
  mrep (crep c kw vw bmin) (czero kw vw) t m.
Proof.
  intros OK Hf (ops & rs & Hv & Hrun & <-).
  destruct (m_run_rep _ _ _ _ _ _ _ _ _ _ _ _ _ _ (compact_chain pf c kw vw bmin OK fuel Hf) ops (c_new kw vw) ∅) as (t' & rs' & E & _ & HR).
  { by left. } { done. }
  rewrite Hrun in E. by injection E as <- <-.
Qed.
Lemma c_rep_like pf c kw vw bmin fuel t m : compact_ok pf c kw vw bmin -> (64 <= fuel)%nat ->
  mrep (crep c kw vw bmin) (czero kw vw) t m -> c_like pf c kw vw bmin fuel t m.
Proof.
  intros OK Hf HR ops Hv.
  destruct (m_run_rep _ _ _ _ _ _ _ _ _ _ _ _ _ _ (compact_chain pf c kw vw bmin OK fuel Hf) ops t m) as (t' & rs' & E & Hr & _); [done|done|].
  exists t', rs'. split; [exact E|]. split.
  - eapply Forall2_impl; [exact Hr|]. intros a e. apply oout_weak.
  - intros Hfit. rewrite cokey_fit in Hr by done. by apply oout_eq.
Qed.
Theorem C61_swap_and_assign : forall pf c kw vw bmin kw' vw' bmin' fuel a ma o mo,
  compact_ok pf c kw vw bmin -> compact_ok pf c kw' vw' bmin' -> (64 <= fuel)%nat ->
  c_after pf c kw vw bmin fuel a ma -> c_after pf c kw' vw' bmin' fuel o mo ->
  (c_like pf c kw' vw' bmin' fuel (fst (c_swap a o)) mo /\ c_like pf c kw vw bmin fuel (snd (c_swap a o)) ma)
  /\ exists a' o', c_move_assign pf a o = Ok (a', o') /\ c_like pf c kw' vw' bmin' fuel a' mo /\ c_destroy pf o' = Ok tt.
Proof.
  intros pf c kw vw bmin kw' vw' bmin' fuel a ma o mo OK OK' Hf Ha Ho.
  apply c_after_rep in Ha; [|done|done]. apply c_after_rep in Ho; [|done|done].
  split; [split; by apply c_rep_like|].
  assert (Hcl : exists t', c_clear pf a = Ok t').
  { destruct Ha as [[Hz _]|(ess & HR & _)].
    - destruct Hz as (_ & _ & _ & _ & Hs). exists a. unfold c_clear. by rewrite Hs.
    - destruct (cclear pf c kw vw bmin OK a ess HR) as (t' & E & _). by exists t'. }
  destruct Hcl as (t' & Hcl). eexists _, _. unfold c_move_assign. rewrite Hcl. cbn [mbind res_bind].
  split; [done|]. split; [by apply c_rep_like|]. done.
Qed.
Print Assumptions C61_swap_and_assign.
Example C61_case : exists a o, c_after loose_pf ex_c64 20 9 1 64 a {[5 := 7]} /\ c_after loose_pf ex_c64 30 12 1 64 o {[100000000 := 4000]}
  /\ is_ok (c_move_assign loose_pf a o) = true.
Proof.
  eexists _, _. split; [|split].
  - exists [OpInsert 5 7]. eexists. split; [valid_solve|]. split; [vm_compute; reflexivity|vm_compute; reflexivity].
  - exists [OpInsert 100000000 4000]. eexists. split; [valid_solve|]. split; [vm_compute; reflexivity|vm_compute; reflexivity].
  - vm_compute. reflexivity.
Qed.
(** The map moved from cannot be used again, except for destroying or assigning to it: it keeps its number of buckets. *)
Theorem C61_moved_from_refuted : forall pf c kw vw bmin fuel a o a' o' k, compact_ok pf c kw vw bmin ->
  c_bucket_count o <> 0 -> bmin <= cm_b o <= zbmax (cc_hash c) kw -> cm_kw o = kw -> k < 2^kw ->
  c_move_assign pf a o = Ok (a', o') ->
  c_find pf c o' k = Ub NullDeref /\ c_find_or_insert pf c (S fuel) o' k 0 = Ub NullDeref /\ v_begin (c_view pf c o') = Ub NullDeref.
Proof.
  intros pf c kw vw bmin fuel a o a' o' k OK Hb0 Hb Hkw Hk E. unfold c_move_assign in E.
  destruct (c_clear pf a) as [x| | |]; try done. cbn [mbind res_bind] in E. injection E as <- <-.
  assert (Hbz : cm_b o <> 0) by (intros Ez; unfold c_bucket_count in Hb0; by rewrite Ez in Hb0).
  destruct (z_map _ _ _ _ _ (CompactProofs.co_hash _ _ _ _ _ OK) (cm_b o) k Hb Hk) as (Em & _).
  unfold c_find. cbn [c_find_or_insert cm_b cm_kw]. rewrite (proj2 (N.eqb_neq _ _)) by done. cbn [mbind res_bind cm_b cm_kw].
  rewrite Hkw. unfold chm. fold (zm (cc_hash c) (cc_keybits c) (cc_hbits c) kw). rewrite Em. cbn [mbind res_bind].
  split; [done|]. split; [done|]. unfold v_begin. cbn [c_view v_count]. unfold c_bucket_count. cbn [cm_b].
  rewrite (proj2 (N.eqb_neq _ _)) by done. destruct (N.to_nat (2^cm_b o)) eqn:En; [pose proof (pow2_pos (cm_b o)); lia|]. done.
Qed.
Print Assumptions C61_moved_from_refuted.
Example C61_moved_from_case : match c_find_or_insert loose_pf ex_c64 64 (c_new 20 9) 5 7 with
  | Ok (o, _) => c_bucket_count o = 16 /\ cm_b o = 4 /\ is_ok (c_move_assign loose_pf (c_new 8 8) o) = true
  | _ => False end.
Proof. vm_compute. repeat split. Qed.
