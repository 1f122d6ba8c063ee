(** Properties of group_chaining_table: C20, C21, C26, C36 (core_group), C42, C43, C53, C54. *)
From Verif Require Import GroupHist PropBucket PropCompact.

(** ** C20: a keyvalue_group is an array of lists of pairs.  Any history of push_back, erase, write_value, reads, sizes and searches
    on a group of n initialized buckets returns what the array of lists returns, for every number of buckets per group from 1 to 255
    (bucketindex_t is uint8_t) and every platform.  A push needs room in m_groupsize (uint32_t); the table never exceeds 255 elements. *)
Theorem C20_group_history : forall pf n kw vw g0 ops, (1 <= n <= 255)%nat -> (1 <= kw <= 64)%nat -> (1 <= vw <= 64)%nat ->
  gvalid_ops kw vw (replicate n []) ops ->
  exists g, grun pf n kw vw (kv_init g0 n kw vw) ops = Ok (g, snd (gspec_run (replicate n []) ops)).
Proof.
  intros pf n kw vw g0 ops Hn Hk Hv Hval.
  assert (H : kv_rep True pf kw vw (kv_init g0 n kw vw) (replicate n [])) by (apply kv_init_rep; lia).
  destruct (kv_history pf kw vw Hk Hv ops _ _ H Hval) as (g & E & _). rewrite replicate_length in E. by exists g.
Qed.
Print Assumptions C20_group_history.
Definition ex_g_ops : list gop :=
  [GPush 2 5 511; GPush 0 7 1; GPush 2 6 2; GPush 69 8191 3; GPush 2 5 4; GSize 2; GSize 1; GRead 2 1; GFind 2 5; GErase 2 0;
   GFind 2 5; GRead 2 0; GWrite 69 0 77; GRead 69 0; GErase 0 0; GSize 0; GRead 2 1; GRead 69 0; GFind 0 7].
Example C20_case : gvalid_ops 13 9 (replicate 70 []) ex_g_ops
  /\ (snd <$> grun strict_pf 70 13 9 (kv_init kv_new 70 13 9) ex_g_ops) =
     Ok [GUnit; GUnit; GUnit; GUnit; GUnit; GNum 3; GNum 0; GPair (6, 2); GPos (Some 0%nat); GUnit; GPos (Some 1%nat); GPair (6, 2); GUnit;
         GPair (8191, 77); GUnit; GNum 0; GPair (5, 4); GPair (8191, 77); GPos None].
Proof.
  split; [|vm_compute; reflexivity]. unfold ex_g_ops. cbn [gvalid_ops]. vm_compute.
  repeat first [split | apply le_n | apply le_S | discriminate | exact I | reflexivity].
Qed.

(** ** C21: any history on a group_chaining_table, on any platform, returns what a finite map returns.
    Parameters (group_ok): key widths from 3 on (narrower ones: C28), value widths 1..64, OpReserve n with 2^bmin/2 < n <= 2^bmax. *)
Theorem C21_group_table : forall pf c kw vw bmin fuel ops, group_ok c kw vw bmin -> (64 <= fuel)%nat ->
  valid_ops kw vw bmin (zbmax (gc_hash c) kw) ops ->
  exists t, m_run_ops (g_impl pf c fuel) (g_new kw vw) ops = Ok (t, snd (spec_run ∅ ops)).
Proof.
  intros pf c kw vw bmin fuel ops OK Hf Hv.
  destruct (group_run pf c kw vw bmin OK True fuel ops (g_new kw vw) ∅ Hf) as (t & E & _); [apply gmrep_new|done|by left|]. by exists t.
Qed.
Print Assumptions C21_group_table.
Definition ex_gx : gcfg := GCfg (HBij Xorshift) 64.
Definition ex_gs : gcfg := GCfg (HAdapter splitmix) 64.
Ltac group_solve := constructor; [constructor; cbn; try lia; repeat split; lia|split; [lia|vm_compute; split; congruence]|lia|cbn; try done].
Lemma ex_gx_ok : group_ok ex_gx 20 9 1.
Proof. group_solve. Qed.
Lemma ex_gs_ok : group_ok ex_gs 64 64 1.
Proof. group_solve. apply splitmix_gspreading. lia. Qed.
(** The shipped mappings meet the parameters for all widths in the property's range. *)
Lemma log_range kw : 3 <= kw -> 1 <= N.log2_up (N.min (kw - 1) 8) <= 3 /\ N.log2_up (N.min (kw - 1) 8) <= kw - 1.
Proof.
  intros H. assert (1 <= N.log2_up (N.min (kw - 1) 8)) by (apply (N.log2_up_le_mono 2); lia).
  assert (N.log2_up (N.min (kw - 1) 8) <= 3) by (apply (N.log2_up_le_mono _ 8); lia). split; [lia|].
  destruct (N.le_gt_cases 4 kw); [lia|]. replace kw with 3 by lia. vm_compute. discriminate.
Qed.
Lemma gs_ok kw vw : 3 <= kw <= 64 -> 1 <= vw <= 64 -> group_ok ex_gs kw vw 1.
Proof.
  intros H Hv. pose proof (log_range kw ltac:(lia)). constructor; [constructor; cbn; try lia; repeat split; lia| |lia|apply splitmix_gspreading; lia].
  split; [lia|]. cbn [gc_hash ex_gs zbmax]. lia.
Qed.
Lemma gx_ok x kw vw : 3 <= kw <= 64 -> 1 <= vw <= 64 -> group_ok (GCfg (HBij x) 64) kw vw 1.
Proof.
  intros H Hv. pose proof (log_range kw ltac:(lia)). constructor; [constructor; cbn; try lia; repeat split; lia| |lia|done].
  split; [lia|]. cbn [gc_hash zbmax]. lia.
Qed.
Corollary C21_shipped_mappings : forall pf kw vw, 3 <= kw <= 64 -> 1 <= vw <= 64 ->
  (forall ops, valid_ops kw vw 1 63 ops -> exists t, m_run_ops (g_impl pf ex_gs 64) (g_new kw vw) ops = Ok (t, snd (spec_run ∅ ops)))
  /\ (forall x ops, valid_ops kw vw 1 (kw - 1) ops ->
        exists t, m_run_ops (g_impl pf (GCfg (HBij x) 64) 64) (g_new kw vw) ops = Ok (t, snd (spec_run ∅ ops))).
Proof.
  intros pf kw vw Hk Hv. split; [intros ops Ho|intros x ops Ho].
  - apply (C21_group_table pf ex_gs kw vw 1 64 ops); [by apply gs_ok|lia|exact Ho].
  - apply (C21_group_table pf (GCfg (HBij x) 64) kw vw 1 64 ops); [by apply gx_ok|lia|exact Ho].
Qed.
Print Assumptions C21_shipped_mappings.
Definition ex_gt_run (c : gcfg) (kw vw : N) (ops : list op) : res (list out) := snd <$> m_run_ops (g_impl strict_pf c 64) (g_new kw vw) ops.
Example C21_case : group_ok ex_gx 20 9 1 /\ group_ok ex_gs 64 64 1 /\ valid_ops 20 9 1 (zbmax (gc_hash ex_gx) 20) ex_c_ops
  /\ ex_gt_run ex_gx 20 9 ex_c_ops = Ok (snd (spec_run ∅ ex_c_ops)) /\ ex_gt_run ex_gs 64 64 ex_c_ops = Ok (snd (spec_run ∅ ex_c_ops)).
Proof.
  split; [exact ex_gx_ok|]. split; [exact ex_gs_ok|]. split; [valid_solve|]. vm_compute. repeat split.
Qed.

(** Tables left by histories, with the finite map that the history describes. *)
Definition g_reached (pf : platform) (c : gcfg) (kw vw bmin : N) (t : gtable) (m : gmap N N) : Prop :=
  exists fuel ops rs, group_ok c kw vw bmin /\ (64 <= fuel)%nat /\ valid_ops kw vw bmin (zbmax (gc_hash c) kw) ops
    /\ m_run_ops (g_impl pf c fuel) (g_new kw vw) ops = Ok (t, rs) /\ m = fst (spec_run ∅ ops).
Lemma g_reached_rep pf c kw vw bmin t m : g_reached pf c kw vw bmin t m -> group_ok c kw vw bmin /\ gmrep pf c kw vw bmin True t m.
Proof.
  intros (fuel & ops & rs & OK & Hf & Hv & E & ->). split; [done|].
  destruct (group_run pf c kw vw bmin OK True fuel ops (g_new kw vw) ∅ Hf) as (t' & E' & HR & _); [apply gmrep_new|done|by left|].
  rewrite E' in E. injection E as <- _. by apply HR.
Qed.

(** ** C42: forward iteration over any such table yields every pair exactly once. *)
Theorem C42_group_forward : forall pf c kw vw bmin t m f, g_reached pf c kw vw bmin t m -> (size m <= f)%nat ->
  exists l, g_forward pf c f t = Ok l /\ l ≡ₚ map_to_list m.
Proof.
  intros pf c kw vw bmin t m f (OK & HR)%g_reached_rep Hf. by eapply gmrep_forward.
Qed.
Print Assumptions C42_group_forward.
Definition ex_g_ins : list op :=
  [OpInsert 5 7; OpInsert 1048575 511; OpInsert 77 0; OpInsert 1 1; OpInsert 2 2; OpErase 1; OpInsert 3 3; OpInsert 4 4; OpReserve 300; OpInsert 99 12].
Definition ex_g_tab : gtable := match m_run_ops (g_impl strict_pf ex_gx 64) (g_new 20 9) ex_g_ins with Ok (t, _) => t | _ => g_new 20 9 end.
Definition ex_g_map : gmap N N := fst (spec_run ∅ ex_g_ins).
Lemma ex_g_reached : g_reached strict_pf ex_gx 20 9 1 ex_g_tab ex_g_map.
Proof.
  exists 64%nat, ex_g_ins, (snd (spec_run ∅ ex_g_ins)). split; [exact ex_gx_ok|]. split; [lia|]. split; [valid_solve|].
  split; [|reflexivity]. vm_compute. reflexivity.
Qed.
Example C42_case : g_reached strict_pf ex_gx 20 9 1 ex_g_tab ex_g_map /\ size ex_g_map = 7%nat
  /\ (length <$> g_forward strict_pf ex_gx 7 ex_g_tab) = Ok 7%nat.
Proof. split; [exact ex_g_reached|]. vm_compute. repeat split. Qed.

(** ** C43: rbegin_nav() returns a position past the last element, so the navigator equals rend_nav() at once: reverse iteration
    visits nothing, whatever is stored.  (Stepping back once first, --rbegin_nav(), visits everything in reverse order.) *)
Theorem C43_reverse_visits_nothing_refuted : forall pf c kw vw bmin t m f, g_reached pf c kw vw bmin t m -> m <> ∅ -> g_backward pf c f t = Ok [].
Proof.
  intros pf c kw vw bmin t m f (OK & [[_ ->]|(ess & H & _)])%g_reached_rep Hm; [done|]. by eapply gbackward.
Qed.
Print Assumptions C43_reverse_visits_nothing_refuted.
Theorem C43_reverse_refuted : exists pf c kw vw bmin t m, g_reached pf c kw vw bmin t m /\ size m = 7%nat /\ forall f, g_backward pf c f t = Ok [].
Proof.
  exists strict_pf, ex_gx, 20, 9, 1, ex_g_tab, ex_g_map. split; [exact ex_g_reached|]. split; [vm_compute; reflexivity|].
  intros f. eapply C43_reverse_visits_nothing_refuted; [exact ex_g_reached|]. intros E. apply (f_equal size) in E. revert E. vm_compute. discriminate.
Qed.
Print Assumptions C43_reverse_refuted.
Theorem C43_reverse_from_prev_partial : forall pf c kw vw bmin t m f, g_reached pf c kw vw bmin t m -> m <> ∅ -> (size m <= f)%nat ->
  exists l, (x ← g_rbegin t; x ← vn_prev (g_view pf c t) x; v_iterate_rev (g_view pf c t) f x) = Ok l
    /\ l ≡ₚ map_to_list m /\ g_forward pf c f t = Ok (rev l).
Proof.
  intros pf c kw vw bmin t m f (OK & [[_ ->]|(ess & H & <-)])%g_reached_rep Hm Hf; [done|].
  rewrite emap_size in Hf by apply H. exists (rev (concat ess)). split; [|split].
  - eapply gbackward_prev; try done. intros E. by rewrite E in Hm.
  - rewrite <-Permutation_rev. symmetry. apply map_to_list_to_map, H.
  - rewrite rev_involutive. by eapply gforward.
Qed.
Print Assumptions C43_reverse_from_prev_partial.

(** ** C26: the round trip of any such table, into any such table t0 of whatever widths.  Exactly the written part of the stream is
    consumed; iteration yields the same pairs; every further history returns what the map returns.
    Erasing in the restored table needs 8 accessible bytes after a block (C54_erase_after_deserialize_refuted). *)
Theorem C26_group_roundtrip : forall pf c kw vw bmin t m kw0 vw0 bmin0 t0 m0, g_reached pf c kw vw bmin t m -> g_reached pf c kw0 vw0 bmin0 t0 m0 ->
  N.of_nat (size m) < 2^64 ->
  exists s, g_serialize c t = Ok s /\ forall s', exists t' l,
    g_deserialize pf c t0 (s ++ s') = Ok (t', s')
    /\ g_forward pf c (size m) t' = Ok l /\ l ≡ₚ map_to_list m
    /\ forall fuel ops, (64 <= fuel)%nat -> valid_ops kw vw bmin (zbmax (gc_hash c) kw) ops -> (8 <= slack pf)%nat \/ Forall no_erase ops ->
       exists t2, m_run_ops (g_impl pf c fuel) t' ops = Ok (t2, snd (spec_run m ops)).
Proof.
  intros pf c kw vw bmin t m kw0 vw0 bmin0 t0 m0 (OK & HR)%g_reached_rep (OK0 & HR0)%g_reached_rep Hsz.
  destruct (gmrep_roundtrip pf c kw vw bmin OK True t m HR Hsz) as (s & Es & Hd). exists s. split; [done|]. intros s'.
  destruct (Hd t0 s') as (t' & Ed & HR'); [by eapply gmrep_clearable|].
  destruct (gmrep_forward pf c kw vw bmin OK _ t' m (size m) HR') as (l & El & Hl); [lia|].
  exists t', l. split; [done|]. split; [done|]. split; [done|]. intros fuel ops Hf Hv Hno.
  destruct (group_run pf c kw vw bmin OK _ fuel ops t' m Hf HR' Hv Hno) as (t2 & E2 & _). by exists t2.
Qed.
Print Assumptions C26_group_roundtrip.

(** A restored table on a platform with 16 accessible bytes, then a history with erasures. *)
Definition ex_g_restore : res (stream * list out) :=
  s ← g_serialize ex_gx ex_g_tab;
  r ← g_deserialize lax_pf ex_gx (g_new 7 3) (s ++ [Some true]);
  x ← m_run_ops (g_impl lax_pf ex_gx 64) (fst r) [OpErase 77; OpRead 5; OpFind 77; OpInsert 8 8; OpEraseIt 99; OpRead 8; OpSize];
  Ok (snd r, snd x).
Example C26_case : g_reached strict_pf ex_gx 20 9 1 ex_g_tab ex_g_map /\ size ex_g_map = 7%nat /\ (8 <= slack lax_pf)%nat
  /\ ex_g_restore = Ok ([Some true], snd (spec_run ex_g_map [OpErase 77; OpRead 5; OpFind 77; OpInsert 8 8; OpEraseIt 99; OpRead 8; OpSize])).
Proof. split; [exact ex_g_reached|]. split; [vm_compute; reflexivity|]. split; [cbn; lia|]. vm_compute. reflexivity. Qed.

(** ** C53: reserve(n, w) rehashes a table with buckets to key width w and keeps its contents; further histories may use keys of w bits. *)
Theorem C53_reserve_width_partial : forall pf c kw vw bmin t m n w bmin' fuel, g_reached pf c kw vw bmin t m -> gt_b t <> 0 ->
  group_ok c w vw bmin' -> 1 <= n <= 2^63 -> bmin' <= N.log2_up n <= zbmax (gc_hash c) w -> (64 <= fuel)%nat ->
  (forall k v, m !! k = Some v -> k < 2^w) ->
  exists t', g_reserve pf c fuel t n w = Ok t' /\ gt_kw t' = w
    /\ forall fuel2 ops, (64 <= fuel2)%nat -> valid_ops w vw bmin' (zbmax (gc_hash c) w) ops ->
       exists t2, m_run_ops (g_impl pf c fuel2) t' ops = Ok (t2, snd (spec_run m ops)).
Proof.
  intros pf c kw vw bmin t m n w bmin' fuel (OK & [[(_ & _ & Hb & _) _]|(ess & H & <-)])%g_reached_rep Hb0 OK' Hn Hr Hf Hk; [done|].
  destruct (greserve_width pf c kw vw bmin OK True fuel t ess n w bmin' Hf H OK' Hn Hr) as (t' & ess' & E & HR & HP).
  { intros k v Hin. apply (Hk k v). unfold emap. apply elem_of_list_to_map; [apply H|done]. }
  exists t'. split; [done|]. split; [apply HR|]. intros fuel2 ops Hf2 Hv.
  assert (HM : gmrep pf c w vw bmin' True t' (emap (concat ess))).
  { right. exists ess'. split; [done|]. unfold emap. apply list_to_map_proper; [|done]. apply HR. }
  destruct (group_run pf c w vw bmin' OK' True fuel2 ops t' _ Hf2 HM Hv) as (t2 & E2 & _); [by left|]. by exists t2.
Qed.
Print Assumptions C53_reserve_width_partial.
Lemma ex_gx_ok32 : group_ok ex_gx 32 9 1.
Proof. group_solve. Qed.
Definition ex_g_widen : res (N * list out) :=
  t ← g_reserve strict_pf ex_gx 64 ex_g_tab 64 32;
  x ← m_run_ops (g_impl strict_pf ex_gx 64) t [OpFind 1048575; OpInsert 4294967295 3; OpRead 4294967295; OpErase 5; OpSize];
  Ok (g_max_key t, snd x).
Example C53_case : g_reached strict_pf ex_gx 20 9 1 ex_g_tab ex_g_map /\ gt_b ex_g_tab = 9 /\ group_ok ex_gx 32 9 1
  /\ ex_g_widen = Ok (4294967295, snd (spec_run ex_g_map [OpFind 1048575; OpInsert 4294967295 3; OpRead 4294967295; OpErase 5; OpSize])).
Proof. split; [exact ex_g_reached|]. split; [vm_compute; reflexivity|]. split; [exact ex_gx_ok32|]. vm_compute. reflexivity. Qed.

(** Without buckets the new width is dropped (964-977 do not use it): max_key() stays 2^kw-1, and a key of w bits is not found after
    it was inserted. *)
Theorem C53_reserve_width_refuted : exists pf c kw vw w n k v t' t2, g_reached pf c kw vw 1 (g_new kw vw) ∅ /\ group_ok c w vw 1
  /\ g_reserve pf c 64 (g_new kw vw) n w = Ok t' /\ kw < w /\ g_max_key t' = 2^kw - 1 /\ k < 2^w
  /\ m_run_ops (g_impl pf c 64) t' [OpWrite k v; OpFind k] = Ok (t2, [OutUnit; OutEntry None]).
Proof.
  exists strict_pf, ex_gs, 20, 9, 32, 16, 4294967295, 3. do 2 eexists. split.
  { exists 64%nat, [], []. split; [apply gs_ok; lia|]. split; [lia|]. split; [apply List.Forall_nil|]. split; reflexivity. }
  split; [apply gs_ok; lia|]. split; [vm_compute; reflexivity|]. split; [lia|]. split; [vm_compute; reflexivity|]. split; [lia|]. vm_compute. reflexivity.
Qed.
Print Assumptions C53_reserve_width_refuted.

(** ** C54: on every platform, any history on a core_group from initialize on accesses its block only, and computes what a list does. *)
Theorem C54_core_history_partial : forall pf w ops, (1 <= w <= 64)%nat -> cvalid_ops w [] ops ->
  exists d, crun pf w (cg_init w, 0%nat) ops = Ok (d, length (fst (cspec_run [] ops)), snd (cspec_run [] ops)).
Proof.
  intros pf w ops Hw Hv. destruct (core_history pf w Hw ops (cg_init w) []) as (d & E & _); [apply core_init; lia|done|]. by exists d.
Qed.
Print Assumptions C54_core_history_partial.
Definition ex_core_ops : list cop :=
  [CIns 0 (2^37-1); CIns 0 5; CIns 1 6; CIns 3 7; CGet 1; CDel 0; CGet 0; CGet 1; CSet 2 9; CFind 0 3 9; CFind 0 2 9; CDel 2; CDel 0; CGet 0; CDel 0; CIns 0 1].
Example C54_case : cvalid_ops 37 [] ex_core_ops
  /\ (snd <$> crun strict_pf 37 (cg_init 37, 0%nat) ex_core_ops) = Ok [CUnit; CUnit; CUnit; CUnit; CNum 6; CUnit; CNum 6; CNum (2^37-1); CUnit;
       CPos (Some 2%nat); CPos None; CUnit; CUnit; CNum (2^37-1); CUnit; CUnit].
Proof.
  split; [|vm_compute; reflexivity]. vm_compute. repeat first [split | apply le_n | apply le_S | discriminate | exact I | reflexivity].
Qed.

(** deserialize allocates exactly the words of the stored elements (75-77), whereas insert keeps room for one more element.  erase moves
    length-index elements (111), reading one element past the end: after deserialize this leaves the block. *)
Theorem C54_erase_after_deserialize_refuted : exists c kw vw k v t x s t', g_find_or_insert strict_pf c 64 (g_new kw vw) k v = Ok (t, x)
  /\ is_ok (g_erase strict_pf c t k) = true
  /\ g_serialize c t = Ok s /\ g_deserialize strict_pf c (g_new kw vw) s = Ok (t', []) /\ g_erase strict_pf c t' k = Ub OobRead.
Proof.
  exists ex_gs, 64, 64, 5, 6. do 4 eexists. split; [vm_compute; reflexivity|]. split; [vm_compute; reflexivity|].
  split; [vm_compute; reflexivity|]. split; [vm_compute; reflexivity|]. vm_compute. reflexivity.
Qed.
Print Assumptions C54_erase_after_deserialize_refuted.

(** ** C36 for core_group: erase changes nothing before the erased element or after the last one; insert nothing before the inserted
    element, nor, without reallocation, behind the elements; for any block, platform, width, position and length. *)
Theorem C36_core_group : forall pf l i w n,
  (forall l', (i < n)%nat -> cg_erase pf (Some l) i w n = Ok l' ->
     exists m : bits, l' = Some m /\ length m = length l /\ forall k, (k < i * w \/ n * w <= k)%nat -> m !! k = l !! k)
  /\ (forall x l', (i <= n)%nat -> (n * w <= length l)%nat -> cg_insert pf (Some l) i x w n = Ok l' ->
     exists m : bits, l' = Some m /\ (forall k, (k < i * w)%nat -> m !! k = l !! k)
       /\ (cdiv (w * n) 64 = cdiv (w * (n + 2)) 64 -> length m = length l /\ forall k, ((n + 1) * w <= k)%nat -> m !! k = l !! k)).
Proof. intros pf l i w n. split; [intros l'; apply erase_outside|intros x l'; apply insert_outside]. Qed.
Print Assumptions C36_core_group.
Definition ex_block : bits := nbits 128 0xABCDEF0123456789FEDCBA.
Example C36_core_case : (match cg_insert strict_pf (Some ex_block) 2 9 11 6 with Ok (Some m) => m <> ex_block /\ length m = 128%nat | _ => False end)
  /\ (match cg_erase strict_pf (Some ex_block) 2 11 6 with Ok (Some m) => m <> ex_block /\ take 22 m = take 22 ex_block | _ => False end)
  /\ cdiv (11 * 6) 64 = cdiv (11 * 8) 64 /\ (6 * 11 <= length ex_block)%nat.
Proof. vm_compute. repeat split; try discriminate. repeat first [apply le_n | apply le_S]. Qed.

(** ** C62: swap exchanges two tables of any widths; after a = std::move(b), a holds what b held and b is an empty table of a's former
    widths.  All further histories on both return what the maps return. *)
Definition behaves (pf : platform) (c : gcfg) (kw vw bmin : N) (t : gtable) (m : gmap N N) : Prop :=
  forall fuel ops, (64 <= fuel)%nat -> valid_ops kw vw bmin (zbmax (gc_hash c) kw) ops ->
  exists t', m_run_ops (g_impl pf c fuel) t ops = Ok (t', snd (spec_run m ops)).
Lemma gmrep_behaves pf c kw vw bmin t m : group_ok c kw vw bmin -> gmrep pf c kw vw bmin True t m -> behaves pf c kw vw bmin t m.
Proof.
  intros OK HR fuel ops Hf Hv. destruct (group_run pf c kw vw bmin OK True fuel ops t m Hf HR Hv) as (t' & E & _); [by left|]. by exists t'.
Qed.
Theorem C62_group_swap_and_assign : forall pf c kw vw bmin a m kw' vw' bmin' b m',
  g_reached pf c kw vw bmin a m -> g_reached pf c kw' vw' bmin' b m' ->
  (behaves pf c kw' vw' bmin' (fst (g_swap a b)) m' /\ behaves pf c kw vw bmin (snd (g_swap a b)) m)
  /\ exists a2 b2, g_move_assign a b = Ok (a2, b2) /\ behaves pf c kw' vw' bmin' a2 m' /\ behaves pf c kw vw bmin b2 ∅ /\ g_size_of b2 = 0.
Proof.
  intros pf c kw vw bmin a m kw' vw' bmin' b m' (OK & HR)%g_reached_rep (OK' & HR')%g_reached_rep. split.
  { split; by apply gmrep_behaves. }
  assert (Hc : exists a', g_clear a = Ok a' /\ gzero kw vw a').
  { destruct HR as [[HZ _]|(ess & H & _)]; [exists a; split; [by eapply gclear0|done]|by eapply gclear]. }
  destruct Hc as (a' & Ec & HZ). unfold g_move_assign. rewrite Ec. cbn [mbind res_bind]. exists b, a'. split; [done|].
  split; [by apply gmrep_behaves|]. split; [|apply HZ]. apply gmrep_behaves; [done|]. by left.
Qed.
Print Assumptions C62_group_swap_and_assign.
Definition ex_g_assign : res (list out * list out) :=
  r ← g_move_assign (GTable None 0 0 7 3 3) ex_g_tab;
  x ← m_run_ops (g_impl strict_pf ex_gx 64) (fst r) [OpRead 5; OpSize];
  y ← m_run_ops (g_impl strict_pf ex_gx 64) (snd r) [OpSize; OpInsert 100 5; OpFind 5; OpFind 100];
  Ok (snd x, snd y).
Example C62_case : g_reached strict_pf ex_gx 20 9 1 ex_g_tab ex_g_map
  /\ ex_g_assign = Ok ([OutNum 7; OutNum 7], [OutNum 0; OutEntry (Some (100, 5)); OutEntry None; OutEntry (Some (100, 5))]).
Proof. split; [exact ex_g_reached|]. vm_compute. reflexivity. Qed.

(** ** C63: no group holds more than 255 elements, and size() is at most capacity() (unless the product in capacity() wraps). *)
Theorem C63_group_limits : forall pf c kw vw bmin t m, g_reached pf c kw vw bmin t m ->
  (forall g, g ∈ default [] (gt_groups t) -> g_size g <= 255)
  /\ exists n, g_capacity t = Ok n /\ (N.of_nat (length (default [] (gt_groups t))) * 255 < 2^64 -> g_size_of t <= n).
Proof.
  intros pf c kw vw bmin t m (OK & [[(_ & _ & _ & Hn & Hg & _) _]|(ess & H & _)])%g_reached_rep.
  { rewrite Hg. split; [intros g Hin; by apply elem_of_nil in Hin|]. unfold g_capacity, g_group_count. rewrite Hg. exists 0. split; [done|].
    intros _. unfold g_size_of. lia. }
  destruct (gr_groups _ _ _ _ _ _ _ _ H) as (gs & Hgs & Hl & Hg). rewrite Hgs. change (default [] (Some gs)) with gs. split.
  - intros g (i & Hi)%elem_of_list_lookup. pose proof (Hg i g Hi) as Hr. rewrite (grepr_size _ _ _ _ _ _ _ _ Hr). destruct Hr as (Hr & _). lia.
  - unfold g_capacity. rewrite (ggroup_count _ _ _ _ _ _ OK _ _ _ H Hgs Hl). cbn [mbind res_bind]. eexists. split; [done|].
    intros Hlt. unfold g_max_group, g_size_of. rewrite u64_small by done. rewrite (gr_n _ _ _ _ _ _ _ _ H).
    etransitivity; [apply N.mod_le; lia|]. pose proof (ggroups_enough _ _ _ _ _ _ _ _ _ H Hl) as He.
    rewrite <-(chunks_concat (gbpg t) ess (length gs) He).
    assert (Hsum : forall k, (k <= length gs)%nat ->
      (length (concat (map (fun i => concat (chunk (gbpg t) ess i)) (seq 0 k))) <= k * 255)%nat).
    { induction k as [|k IH]; intros Hk; [cbn; lia|]. rewrite seq_S, map_app, concat_app, app_length. cbn [map concat Nat.add].
      rewrite app_nil_r. specialize (IH ltac:(lia)). destruct (lookup_lt_is_Some_2 gs k ltac:(lia)) as (g & Hi).
      destruct (Hg k g Hi) as (Hr & _). lia. }
    specialize (Hsum (length gs) ltac:(lia)). lia.
Qed.
Print Assumptions C63_group_limits.
Example C63_case : g_reached strict_pf ex_gx 20 9 1 ex_g_tab ex_g_map /\ length (default [] (gt_groups ex_g_tab)) = 9%nat
  /\ g_capacity ex_g_tab = Ok 2295 /\ g_size_of ex_g_tab = 7.
Proof. split; [exact ex_g_reached|]. vm_compute. repeat split. Qed.
