(** C122 for compact_chaining_map. *)
From Verif Require Import MallocModel MallocProofs MallocCompact PropMalloc CompactProofs PropSerial PropCompact.

Section compact.
Context (pf : platform) (c : ccfg).
Lemma asks_calloc t n : asks 2 (mc_alloc t n) (c_alloc t n).
Proof.
  unfold mc_alloc. destruct (c_alloc t n) as [t'|u| |]; cbn [mbind res_bind]; [|intros h; by split..].
  intros h. destruct h as [|[|] [|[|] h]]; cbn; split; try done; by rewrite ?drop_0.
Qed.
(** Does one more element need a larger block? *)
Definition grow_requests (s : cslot) (w : nat) : nat :=
  let new := N.to_nat (u8 (cs_size s + 1)) in
  if negb (cdiv (N.to_nat (sub64 (u8 (cs_size s + 1)) 1) * w) (cc_sb c) =? cdiv (new * w) (cc_sb c))%nat && negb (cdiv (new * w) (cc_sb c) =? 0)%nat then 1%nat else 0%nat.
Lemma asks_cinsert {A} (K : cslot -> A) s q v qw vw : asks (grow_requests s (qw + vw))
  (fun h => r ← mc_enlarge pf c s qw vw h; let '(s', h) := (r : cslot * answers) in
     s' ← cs_set_quot pf c s' (N.to_nat (cs_size s)) qw q; s' ← cs_set_value pf c s' (N.to_nat (cs_size s)) qw vw v; Ok (K s', h))
  (s' ← cs_enlarge pf c s qw vw; s' ← cs_set_quot pf c s' (N.to_nat (cs_size s)) qw q; s' ← cs_set_value pf c s' (N.to_nat (cs_size s)) qw vw v; Ok (K s')).
Proof.
  intros h. unfold mc_enlarge, cs_enlarge, mc_realloc, grow_requests. cbv zeta. cbn [cs_size cs_data].
  set (b := negb _ && negb _).
  destruct (ask_cases b h) as [[-> ->]|(-> & -> & Hb)].
  - split; [|done]. intros _.
    destruct (rfold _ _ _); cbn [mbind res_bind]; [|done..]. destruct (cs_set_quot _ _ _ _ _ _); cbn [mbind res_bind]; [|done..].
    by destruct (cs_set_value _ _ _ _ _ _ _).
  - split; [done|]. intros _ a _. cbn [cs_size cs_data]. destruct (N.to_nat (cs_size s)) as [|n]; [reflexivity|]. reflexivity.
Qed.
Lemma asksx_crehash_slot mins ins t tmp ib : (forall t k v, asksx (mins t k v) (ins t k v)) ->
  asksx (fun h => mc_rehash_slot pf c mins t (tmp, h) ib) (c_rehash_slot pf c ins t tmp ib).
Proof.
  intros H. destruct ib as [i s]. unfold mc_rehash_slot, c_rehash_slot. destruct (cs_size s =? 0); [apply asksx_ret|].
  eapply asksx_bind.
  - apply asksx_rfold. intros a j.
    apply (asksx_let (cs_quot pf c s j (cqw c t))). intros q.
    apply (asksx_let (hash_inv_map (chm c (cm_kw t)) q (N.of_nat i) (cm_b t))). intros k.
    apply (asksx_let (cs_value pf c s j (cqw c t) (cvw t))). intros v.
    eapply asksx_bind; [apply H|]. intros [t' x]. cbn [fst snd]. apply asksx_ret.
  - intros a. apply (asksx_let (c_clear_slot pf s)). intros _. apply asksx_ret.
Qed.
Lemma asksx_creserve mins ins t n : (forall t k v, asksx (mins t k v) (ins t k v)) ->
  asksx (mc_reserve_with pf c mins t n) (c_reserve_with pf c ins t n).
Proof.
  intros H. unfold mc_reserve_with, c_reserve_with. destruct (cm_b t =? 0); [eexists; apply asks_calloc|].
  apply (asksx_let (reserve_bits n)). intros bits.
  eapply asksx_bind; [eexists; apply asks_calloc|]. intros tmp.
  destruct (cm_slots t) as [sl|]; [|exists O; intros h; by split].
  eapply asksx_bind; [apply asksx_rfold; intros a x; by apply asksx_crehash_slot|]. intros tmp'.
  apply (asksx_let (c_clear_structure pf t)). intros _. apply asksx_ret.
Qed.
Lemma asksx_cfoi f : forall t k v, asksx (mc_find_or_insert pf c f t k v) (c_find_or_insert pf c f t k v).
Proof.
  induction f as [|f IH]; intros t k v; cbn [mc_find_or_insert c_find_or_insert]; [exists O; intros h; by split|].
  eapply asksx_bind.
  { destruct (cm_b t =? 0); [eexists; apply asks_calloc|apply asksx_ret]. }
  clear t. intros t.
  apply (asksx_let (hash_map (chm c (cm_kw t)) k (cm_b t))). intros [q bk].
  apply (asksx_let (c_slot t bk)). intros s.
  apply (asksx_let (c_locate_q pf c t bk q)). intros [p|]; [apply asksx_ret|].
  destruct (cs_size s =? c_max_bucket).
  - apply (asksx_let (shl64 1 (cm_b t + 1))). intros n.
    eapply asksx_bind; [by apply asksx_creserve|]. intros t'. apply IH.
  - cbv zeta. exists (grow_requests s (cqw c t + cvw t)).
    apply (asks_cinsert (fun s' => (c_set (c_set_n t (u64 (cm_n t + 1))) bk s', (bk, sub64 (cs_size s') 1)))).
Qed.
End compact.

Lemma c_insert_ok pf c kw vw bmin fuel t m k v : compact_ok pf c kw vw bmin -> (64 <= fuel)%nat -> c_after pf c kw vw bmin fuel t m -> k < 2^kw -> v < 2^vw ->
  exists t' x, c_find_or_insert pf c fuel t k v = Ok (t', x).
Proof.
  intros OK Hf Ha Hk Hv. destruct (c_rep_like pf c kw vw bmin fuel t m OK Hf (c_after_rep _ _ _ _ _ _ _ _ OK Hf Ha) [OpInsert k v]) as (t' & rs & E & _).
  { apply List.Forall_cons; [by split|apply List.Forall_nil]. }
  cbn [m_run_ops m_run_op c_impl i_insert] in E. rinv E. rinv E0. destruct a0 as [t0 x]. by exists t0, x.
Qed.
(** C122: insertions and reservations of the compact map: as for separate_chaining_table. *)
Theorem C122_compact_insert_refuted : forall pf c kw vw bmin fuel t m k v,
  compact_ok pf c kw vw bmin -> (64 <= fuel)%nat -> c_after pf c kw vw bmin fuel t m -> k < 2^kw -> v < 2^vw ->
  exists n t' x, c_find_or_insert pf c fuel t k v = Ok (t', x) /\ all_or_ub n (mc_find_or_insert pf c fuel t k v) (t', x).
Proof.
  intros pf c kw vw bmin fuel t m k v OK Hf Ha Hk Hv. destruct (c_insert_ok _ _ _ _ _ _ _ _ _ _ OK Hf Ha Hk Hv) as (t' & x & E).
  destruct (asksx_cfoi pf c fuel t k v) as [n Hn]. exists n, t', x. split; [done|]. by eapply asks_all.
Qed.
Print Assumptions C122_compact_insert_refuted.
Lemma asks_cinsert_at pf c f t k v q bk s : (cm_b t =? 0) = false -> hash_map (chm c (cm_kw t)) k (cm_b t) = Ok (q, bk) -> c_slot t bk = Ok s ->
  c_locate_q pf c t bk q = Ok None -> (cs_size s =? c_max_bucket) = false ->
  asks (grow_requests c s (cqw c t + cvw t)) (mc_find_or_insert pf c (S f) t k v) (c_find_or_insert pf c (S f) t k v).
Proof.
  intros Hb Hh Hs Hl Hc. cbn [c_find_or_insert].
  apply (asks_ext _ (fun h => r ← mc_enlarge pf c s (cqw c t) (cvw t) h; let '(s', h) := (r : cslot * answers) in
     s' ← cs_set_quot pf c s' (N.to_nat (cs_size s)) (cqw c t) q; s' ← cs_set_value pf c s' (N.to_nat (cs_size s)) (cqw c t) (cvw t) v;
     Ok (c_set (c_set_n t (u64 (cm_n t + 1))) bk s', (bk, sub64 (cs_size s') 1), h))).
  { intros h. cbn [mc_find_or_insert]. rewrite Hb. cbn [mbind res_bind]. rewrite Hh. cbn [mbind res_bind]. rewrite Hs. cbn [mbind res_bind].
    rewrite Hl. cbn [mbind res_bind]. by rewrite Hc. }
  rewrite Hb. cbn [mbind res_bind]. rewrite Hh. cbn [mbind res_bind]. rewrite Hs. cbn [mbind res_bind]. rewrite Hl. cbn [mbind res_bind]. rewrite Hc.
  apply (asks_cinsert pf c (fun s' => (c_set (c_set_n t (u64 (cm_n t + 1))) bk s', (bk, sub64 (cs_size s') 1)))).
Qed.
(** A present key asks for nothing; an absent one asks once if its bucket needs another word, else not at all. *)
Theorem C122_compact_requests : forall pf c kw vw bmin fuel t m k v q bk s,
  compact_ok pf c kw vw bmin -> (64 <= fuel)%nat -> c_after pf c kw vw bmin fuel t m -> k < 2^kw -> v < 2^vw -> c_bucket_count t <> 0 ->
  hash_map (chm c (cm_kw t)) k (cm_b t) = Ok (q, bk) -> c_slot t bk = Ok s -> is_Some (m !! k) \/ cs_size s < 255 ->
  exists r, c_find_or_insert pf c fuel t k v = Ok r
    /\ all_or_ub (if decide (m !! k = None /\ cdiv (N.to_nat (cs_size s) * (cqw c t + cvw t)) (cc_sb c) <> cdiv ((N.to_nat (cs_size s) + 1) * (cqw c t + cvw t)) (cc_sb c))
                  then 1%nat else 0%nat) (mc_find_or_insert pf c fuel t k v) r.
Proof.
  intros pf c kw vw bmin fuel t m k v q bk s OK Hf Ha Hk Hv Hb Hh Hs Hsz. destruct (c_insert_ok _ _ _ _ _ _ _ _ _ _ OK Hf Ha Hk Hv) as (t' & x & E).
  exists (t', x). split; [done|]. eapply asks_all; [|exact E].
  destruct (c_after_rep _ _ _ _ _ _ _ _ OK Hf Ha) as [[Hz _]|(ess & HR & HM)].
  { destruct Hz as (_ & _ & Hz & _). destruct Hb. unfold c_bucket_count. by rewrite Hz. }
  destruct (b_range pf c kw vw bmin OK t ess HR) as [Hb1 _].
  assert (Hb0 : (cm_b t =? 0) = false) by (apply N.eqb_neq; lia).
  rewrite (cmap_hash pf c kw vw bmin OK t ess k HR Hk) in Hh. injection Hh as <- <-.
  set (bk := zb (cc_hash c) (cc_keybits c) (cc_hbits c) kw (cm_b t) k) in *. set (q := zq (cc_hash c) (cc_keybits c) (cc_hbits c) kw (cm_b t) k) in *.
  assert (He : is_Some (ess !! N.to_nat bk)).
  { destruct (cr_slots _ _ _ _ _ _ HR) as (sl & Hsl & HF). unfold c_slot in Hs. rewrite Hsl in Hs. destruct (N.ltb_spec bk (N.of_nat (length sl))); [|done].
    apply lookup_lt_is_Some_2. rewrite <- (Forall2_length _ _ _ HF). lia. }
  destruct He as (es & He). pose proof (clocate pf c kw vw bmin OK t ess es k HR Hk He) as Hl. fold bk q in Hl.
  assert (Hh : hash_map (chm c (cm_kw t)) k (cm_b t) = Ok (q, bk)) by (apply (cmap_hash pf c kw vw bmin OK t ess k HR Hk)).
  assert (Hm : m !! k = None <-> first_index k (keys_of es) = None).
  { rewrite <- HM, emap_None, fi_None. split; intros Hn Hc; apply Hn; apply keys_elem in Hc as (w & Hc); apply elem_of_list_fmap; exists (k, w); (split; [done|]).
    - apply elem_of_concat. eauto.
    - apply elem_of_concat in Hc as (j & es' & Hj & Hc). pose proof (cr_placed _ _ _ _ _ _ HR _ _ _ _ Hj Hc) as Hp. fold bk in Hp. rewrite Hp, Nat2N.id in He. congruence. }
  destruct (first_index k (keys_of es)) as [p|] eqn:Ep; cbn [fmap option_fmap option_map] in Hl.
  { destruct (decide _) as [[Hc _]|_]; [by apply Hm in Hc|]. destruct fuel as [|f]; [lia|].
    intros h. cbn [mc_find_or_insert c_find_or_insert]. rewrite Hb0. cbn [mbind res_bind]. rewrite Hh. cbn [mbind res_bind]. rewrite Hs. cbn [mbind res_bind]. rewrite Hl.
    split; [|done]. intros _. by rewrite drop_0. }
  assert (Hn : m !! k = None) by (by apply Hm). destruct Hsz as [[? Hc]|Hsz]; [congruence|].
  destruct fuel as [|f]; [lia|].
  match goal with |- asks ?n _ _ => replace n with (grow_requests c s (cqw c t + cvw t)) end.
  { apply (asks_cinsert_at pf c f t k v q bk s); try done. apply N.eqb_neq. unfold c_max_bucket. lia. }
  unfold grow_requests. assert (Hu : u8 (cs_size s + 1) = cs_size s + 1) by (apply N.mod_small; change (2^8) with 256; lia). rewrite Hu.
  assert (Hu' : sub64 (cs_size s + 1) 1 = cs_size s) by (rewrite TableProofs.sub64_small by lia; lia). rewrite Hu'. replace (N.to_nat (cs_size s + 1)) with (N.to_nat (cs_size s) + 1)%nat by lia.
  pose proof (co_sb _ _ _ _ _ OK) as Hsb. apply BucketProofs.width_ok_pos in Hsb.
  pose proof (BucketProofs.cdiv_ge ((N.to_nat (cs_size s) + 1) * (cqw c t + cvw t)) (cc_sb c) Hsb) as Hge.
  rewrite (cvw_eq vw) in * by apply HR. pose proof (vw_range pf c kw vw bmin OK) as Hvw.
  destruct (Nat.eqb_spec (cdiv ((N.to_nat (cs_size s) + 1) * (cqw c t + N.to_nat vw)) (cc_sb c)) 0) as [Ez|_]; [rewrite Ez in Hge; nia|].
  destruct (Nat.eqb_spec (cdiv (N.to_nat (cs_size s) * (cqw c t + N.to_nat vw)) (cc_sb c)) (cdiv ((N.to_nat (cs_size s) + 1) * (cqw c t + N.to_nat vw)) (cc_sb c))) as [Ee|Ee].
  - rewrite decide_False by (intros [_ ?]; done). done.
  - rewrite decide_True by done. done.
Qed.
Print Assumptions C122_compact_requests.
Theorem C122_compact_reserve_refuted : forall pf c kw vw bmin fuel t m n,
  compact_ok pf c kw vw bmin -> (64 <= fuel)%nat -> c_after pf c kw vw bmin fuel t m -> 2^bmin / 2 < n -> n <= 2^zbmax (cc_hash c) kw ->
  exists N t', c_reserve pf c fuel t n = Ok t' /\ all_or_ub N (mc_reserve pf c fuel t n) t'.
Proof.
  intros pf c kw vw bmin fuel t m n OK Hf Ha Hn1 Hn2.
  destruct (c_rep_like pf c kw vw bmin fuel t m OK Hf (c_after_rep _ _ _ _ _ _ _ _ OK Hf Ha) [OpReserve n]) as (t' & rs & E & _).
  { apply List.Forall_cons; [by split|apply List.Forall_nil]. }
  cbn [m_run_ops m_run_op c_impl i_reserve] in E. rinv E. rinv E0.
  destruct (asksx_creserve pf c (mc_find_or_insert pf c fuel) (c_find_or_insert pf c fuel) t n) as [x Hx]; [intros; apply asksx_cfoi|].
  exists x. eexists. split; [done|]. by eapply asks_all.
Qed.
Print Assumptions C122_compact_reserve_refuted.
(** erase gives memory back with realloc.  If this fails, the call is defined and reports success, but every later search in the bucket
    dereferences a null pointer: all its elements are lost. *)
Theorem C122_compact_erase_refuted : forall pf c kw vw bmin fuel t m k t1 q bk s,
  compact_ok pf c kw vw bmin -> (64 <= fuel)%nat -> c_after pf c kw vw bmin fuel t m -> k < 2^kw ->
  c_erase pf c t k = Ok (t1, 1) -> hash_map (chm c (cm_kw t)) k (cm_b t) = Ok (q, bk) -> c_slot t bk = Ok s -> 2 <= cs_size s ->
  cdiv (N.to_nat (cs_size s) * (cqw c t + cvw t)) (cc_sb c) <> cdiv ((N.to_nat (cs_size s) - 1) * (cqw c t + cvw t)) (cc_sb c) ->
  exists t', mc_erase pf c t k [false] = Ok (t', 1, []) /\ c_size t' = c_size t1 /\ c_bucket_size t' bk = c_bucket_size t1 bk
    /\ forall k' q', hash_map (chm c (cm_kw t)) k' (cm_b t) = Ok (q', bk) -> c_find pf c t' k' = Ub NullDeref.
Proof.
  intros pf c kw vw bmin fuel t m k t1 q bk s OK Hf Ha Hk He Hh Hs Hsz Hw.
  assert (H255 : cs_size s <= 255 /\ (1 <= cqw c t + cvw t)%nat).
  { destruct (c_after_rep _ _ _ _ _ _ _ _ OK Hf Ha) as [[Hz _]|(ess & HR & _)].
    - destruct Hz as (_ & _ & _ & _ & Hz). unfold c_slot in Hs. by rewrite Hz in Hs.
    - split; [|rewrite (cvw_eq vw) by apply HR; pose proof (vw_range pf c kw vw bmin OK); lia].
      destruct (cr_slots _ _ _ _ _ _ HR) as (sl & Hsl & HF). unfold c_slot in Hs. rewrite Hsl in Hs. destruct (bk <? N.of_nat (length sl)); [|done].
      destruct (sl !! N.to_nat bk) as [s0|] eqn:E0; [|done]. injection Hs as ->. destruct (Forall2_lookup_l _ _ _ _ _ HF E0) as (es & _ & Hc).
      apply crepr_size in Hc as [-> ?]. lia. }
  destruct H255 as [H255 Hcw].
  assert (Hs8 : sub8 (cs_size s) 1 = cs_size s - 1).
  { unfold sub8, u8. change (2^8) with 256. rewrite (N.mod_small 1) by lia. replace (cs_size s + 256 - 1) with (cs_size s - 1 + 1 * 256) by lia. rewrite N.mod_add by lia. apply N.mod_small. lia. }
  pose proof (co_sb _ _ _ _ _ OK) as Hsb. apply BucketProofs.width_ok_pos in Hsb.
  unfold c_erase in He. unfold mc_erase. destruct (cm_b t =? 0) eqn:Eb; [by injection He|].
  unfold c_locate in *. rewrite Eb, Hh in *. cbn [mbind res_bind] in *.
  destruct (c_locate_q pf c t bk q) as [pos| | |]; [|done..]. cbn [mbind res_bind] in *.
  unfold c_erase_at in He. unfold mc_erase_at. destruct (_ =? ones64); [by injection He|]. rewrite Hs in *. cbn [mbind res_bind] in *. rinv He.
  injection He as <-. unfold cs_erase in E. unfold mc_cs_erase. cbv zeta in *. rinv E. cbn [mbind res_bind]. rinv E. cbn [mbind res_bind]. rinv E. cbn [mbind res_bind].
  unfold mc_realloc. cbn [cs_size]. rewrite Hs8 in *. replace (N.to_nat (cs_size s - 1)) with (N.to_nat (cs_size s) - 1)%nat by lia.
  replace (N.to_nat (cs_size s) - 1 + 1)%nat with (N.to_nat (cs_size s)) by lia.
  rewrite (proj2 (Nat.eqb_neq _ _) Hw).
  assert (Hw0 : cdiv ((N.to_nat (cs_size s) - 1) * (cqw c t + cvw t)) (cc_sb c) <> 0%nat).
  { pose proof (BucketProofs.cdiv_ge ((N.to_nat (cs_size s) - 1) * (cqw c t + cvw t)) (cc_sb c) Hsb). intros Hc. rewrite Hc in *. nia. }
  rewrite (proj2 (Nat.eqb_neq _ _) Hw0). cbn [negb andb ask cs_size]. rewrite (proj2 (N.eqb_neq _ _)) by lia. cbn [mbind res_bind].
  eexists. split; [reflexivity|]. split; [done|].
  match type of E with context [cs_realloc ?a ?b ?d ?e ?g] => set (s1 := cs_realloc a b d e g) in E; assert (Hn1 : cs_size s1 = cs_size s - 1) end.
  { unfold s1, cs_realloc. cbn [cs_size]. by repeat case_match. }
  rewrite Hn1, (proj2 (N.eqb_neq _ _)) in E by lia. injection E as <-. clearbody s1.
  unfold c_slot in Hs. destruct (cm_slots t) as [sl|] eqn:Esl; [|done]. destruct (bk <? N.of_nat (length sl)) eqn:Ebk; [|done].
  assert (Hget : forall n x, c_slot (c_set (c_set_n t n) bk x) bk = Ok x).
  { intros n x. unfold c_slot, c_set, c_set_n. cbn [cm_slots]. rewrite Esl. cbn [fmap option_fmap option_map]. rewrite insert_length, Ebk.
    rewrite list_lookup_insert by (apply N.ltb_lt in Ebk; lia). done. }
  split; [unfold c_bucket_size; rewrite !Hget; cbn [mbind res_bind cs_size]; by rewrite Hn1|].
  intros k' q' Hh'. unfold c_find, c_locate_q. cbn [cm_b cm_kw c_set c_set_n]. rewrite Eb, Hh'. cbn [mbind res_bind].
  change (CMap ?x (cm_b t) ?n (cm_kw t) (cm_vw t)) with (c_set (c_set_n t n) bk (CSlot None (cs_size s - 1))).
  rewrite Hget. cbn [mbind res_bind cs_size]. destruct (N.to_nat (cs_size s - 1)) eqn:En; [lia|]. done.
Qed.
Print Assumptions C122_compact_erase_refuted.
(** The keys 5, 21 and 37 are in bucket 6; together with their values they take two words, two of them take one. *)
Example C122_compact_case : exists t m, c_after loose_pf ex_c64 20 9 1 64 t m
  /\ map (fun k => hash_map (chm ex_c64 20) k (cm_b t)) [5; 21; 37; 6] = [Ok (64250, 6); Ok (64505, 6); Ok (64760, 6); Ok (64266, 5)]
  /\ c_bucket_size t 6 = Ok 3
  /\ map (fun h => outcome (mc_find_or_insert loose_pf ex_c64 64 t 6 1 h)) [[false]; [true]; [true; false]] = [1; 0; 0]
  /\ map (fun h => outcome (mc_reserve loose_pf ex_c64 64 t 32 h)) [[false]; [true; false]; [true; true; false]; []] = [1; 1; 1; 0]
  /\ match mc_erase loose_pf ex_c64 t 37 [false] with
     | Ok (t', _, _) => c_size t' = 2 /\ map (fun k => outcome (c_find loose_pf ex_c64 t' k)) [5; 21; 6] = [1; 1; 0]
     | _ => False end.
Proof.
  eexists _, _. split; [|split; [|split; [|split; [|split]]]].
  - exists [OpInsert 5 7; OpInsert 21 8; OpInsert 37 9]. eexists. split; [valid_solve|]. split; [vm_compute; reflexivity|reflexivity].
  - vm_compute. done.
  - vm_compute. done.
  - vm_compute. done.
  - vm_compute. done.
  - vm_compute. done.
Qed.
