(** C122: separate_chaining_table on a heap where malloc, realloc and _mm_malloc can fail. *)
From Verif Require Import MallocModel MallocProofs PropTable PropAlloc PropIdle.

(** The first n answers are all positive. *)
Definition outcome {A} (r : res A) : N := match r with Ok _ => 0 | Ub NullDeref => 1 | Ub _ => 2 | Throw => 3 | Timeout => 4 end.
Definition granted (n : nat) (h : list bool) : Prop := forall i, (i < n)%nat -> h !! i <> Some false.
#[global] Instance granted_dec n h : Decision (granted n h).
Proof.
  destruct (all_given n h) eqn:E; [left|right]; unfold all_given, granted in *.
  - intros i Hi Hf. rewrite forallb_forall in E. assert (Hin : false ∈ take n h) by (apply (elem_of_list_lookup_2 _ i); by rewrite lookup_take).
    apply elem_of_list_In in Hin. by specialize (E _ Hin).
  - intros H. apply not_true_iff_false in E. apply E. apply forallb_forall. intros [|] Hin; [done|].
    apply elem_of_list_In, elem_of_list_lookup in Hin as [i Hi]. exfalso.
    assert (i < n)%nat by (apply lookup_lt_Some in Hi; rewrite take_length in Hi; lia).
    rewrite lookup_take in Hi by done. by apply (H i).
Defined.
Lemma granted_all n h : all_given n h = bool_decide (granted n h).
Proof.
  unfold all_given, granted. apply eq_bool_prop_intro. rewrite bool_decide_spec. split.
  - intros E%Is_true_true i Hi Hf. rewrite forallb_forall in E. assert (Hin : false ∈ take n h) by (apply (elem_of_list_lookup_2 _ i); by rewrite lookup_take).
    apply elem_of_list_In in Hin. by specialize (E _ Hin).
  - intros H. apply Is_true_true, forallb_forall. intros [|] Hin; [done|].
    apply elem_of_list_In, elem_of_list_lookup in Hin as [i Hi]. exfalso.
    assert (i < n)%nat by (apply lookup_lt_Some in Hi; rewrite take_length in Hi; lia).
    rewrite lookup_take in Hi by done. by apply (H i).
Qed.
(** f makes exactly n requests; it returns a if they are all granted and dereferences a null pointer otherwise. *)
Definition all_or_ub {A} (n : nat) (f : list bool -> res (A * list bool)) (a : A) : Prop :=
  forall h, (granted n h -> f h = Ok (a, drop n h)) /\ (~ granted n h -> f h = Ub NullDeref).
Lemma asks_all {A} n (f : list bool -> res (A * list bool)) r a : asks n f r -> r = Ok a -> all_or_ub n f a.
Proof.
  intros H -> h. specialize (H h). rewrite granted_all in H. destruct (decide (granted n h)) as [G|G].
  - rewrite bool_decide_true in H by done. destruct H as [H _]. split; [|done]. intros _. by apply H.
  - rewrite bool_decide_false in H by done. destruct H as [_ H]. split; [done|]. intros _. by apply (H eq_refl a).
Qed.

(** An insertion makes a number of requests that depends on the table, the key and the value only.  It is undefined as soon as one of them fails;
    otherwise it does what it does when memory is never exhausted. *)
Theorem C122_insert_refuted : forall pf c kw vw t m fuel k v,
  params pf c kw vw -> reachable pf c kw vw t m -> (64 <= fuel)%nat -> k < 2^kw -> c_val c = KNull \/ v < 2^vw ->
  exists n t' x, find_or_insert pf c fuel t k v = Ok (t', x) /\ all_or_ub n (m_find_or_insert pf c fuel t k v) (t', x).
Proof.
  intros pf c kw vw t m fuel k v P Hr Hf Hk Hv. destruct (growth_fact pf c kw vw P t m fuel k v Hr Hf Hk Hv) as (t' & x & E & _).
  destruct (asksx_insert pf c fuel t k v) as [n Hn]. exists n, t', x. split; [done|]. by eapply asks_all.
Qed.
Print Assumptions C122_insert_refuted.
Theorem C122_reserve_refuted : forall pf c kw vw t m fuel b,
  params pf c kw vw -> reachable pf c kw vw t m -> (64 <= fuel)%nat -> 2 <= b <= 2^bits_max c kw ->
  exists n t', reserve pf c fuel t b = Ok t' /\ (1 <= n)%nat /\ all_or_ub n (m_reserve pf c fuel t b) t'.
Proof.
  intros pf c kw vw t m fuel b P Hr Hf Hb. destruct (reserve_fact pf c kw vw P t m fuel b Hr Hf Hb) as (t' & E & _).
  destruct (asksx_reserve pf c (m_find_or_insert pf c fuel) (find_or_insert pf c fuel) t b (asksx_insert pf c fuel)) as [n Hn].
  exists n, t'. split; [done|]. pose proof (asks_all n _ _ t' Hn E) as HA. split; [|done].
  destruct n as [|n]; [|lia]. exfalso. destruct (HA [false; false]) as [H1 _]. assert (G : granted 0 [false; false]) by (intros i; lia). specialize (H1 G). clear HA Hn G.
  assert (HX : forall u z, m_alloc_table pf c u z [false; false] = Ub NullDeref \/ forall a, m_alloc_table pf c u z [false; false] <> Ok a).
  { intros u z. unfold m_alloc_table. destruct (alloc_table pf u z); cbn [mbind res_bind]; [|by right..]. left. by destruct (c_arb c). }
  unfold m_reserve_with in H1. destruct (t_b t =? 0).
  - destruct (HX t b) as [E1|E1]; [by rewrite E1 in H1|by apply E1 in H1].
  - rinv H1. rinv H1. destruct (HX (new_table pf c (t_kw t) (t_vw t)) (2^a)) as [E9|E9]; [congruence|by apply E9 in E1].
Qed.
Print Assumptions C122_reserve_refuted.
(** The first reserve asks for the buckets and, with arbitrary_resize, for the array of capacities. *)
Theorem C122_reserve_first : forall pf c kw vw t m fuel b,
  params pf c kw vw -> reachable pf c kw vw t m -> (64 <= fuel)%nat -> 2 <= b <= 2^bits_max c kw -> bucket_count t = 0 ->
  exists t', reserve pf c fuel t b = Ok t' /\ all_or_ub (if c_arb c then 2 else 1)%nat (m_reserve pf c fuel t b) t'.
Proof.
  intros pf c kw vw t m fuel b P Hr Hf Hb Hbc. destruct (reserve_fact pf c kw vw P t m fuel b Hr Hf Hb) as (t' & E & _).
  exists t'. split; [done|]. eapply asks_all; [|exact E]. unfold m_reserve, m_reserve_with, reserve, reserve_with.
  assert (Hb0 : (t_b t =? 0) = true) by (unfold bucket_count in Hbc; destruct (t_b t =? 0); [done|by apply N.pow_nonzero in Hbc]).
  rewrite Hb0. apply asks_alloc.
Qed.
Print Assumptions C122_reserve_first.

(** How many requests there are.  A key that is present costs none. *)
Theorem C122_present : forall pf c kw vw t m fuel k v,
  params pf c kw vw -> c_ov c = OvDummy -> reachable pf c kw vw t m -> (64 <= fuel)%nat -> is_Some (m !! k) ->
  exists x, forall h, m_find_or_insert pf c fuel t k v h = Ok (t, x, h).
Proof.
  intros pf c kw vw t m fuel k v P D Hr Hf [w Hw]. pose proof (reachable_keys _ _ _ _ P _ _ _ _ Hr Hw) as Hk.
  apply (reachable_rep _ _ _ _ P) in Hr as [[_ ->]|(sl & ess & ovl & H & <-)]; [by rewrite lookup_empty in Hw|].
  pose proof (tinv_dummy _ _ _ _ _ _ _ D _ _ _ _ H) as [Hdum ->]. rewrite app_nil_r in *.
  pose proof (reach_ok0 pf c kw vw P) as OK. pose proof (kdom_intro _ _ _ (noarr _ _ _ _ P) Hk) as Hkd.
  destruct (tinv_hash _ _ _ _ _ _ _ OK _ _ _ _ _ H Hkd) as (Eh & _). destruct (tinv_bc _ _ _ _ _ _ _ OK _ _ _ _ H) as [Hb0 _]. apply N.eqb_neq in Hb0.
  destruct (locate_q_spec _ _ _ _ _ _ _ OK _ _ _ _ _ H Hkd) as (s & es1 & Hg & _ & _ & _ & [(p & v0 & El & _)|[_ Hn]]).
  - exists (hb c kw (t_b t) k, p). intros h. destruct fuel as [|f]; [lia|].
    pose proof (asks_present pf c f t k v _ _ _ Hb0 Eh El) as HA.
    assert (E : find_or_insert pf c (S f) t k v = Ok (t, (hb c kw (t_b t) k, p))).
    { cbn [find_or_insert]. rewrite (proj2 (N.eqb_neq _ _) Hb0). cbn [mbind res_bind]. rewrite Eh. cbn [mbind res_bind]. rewrite Hg. cbn [mbind res_bind]. by rewrite El. }
    destruct (HA h) as [HA' _]. rewrite HA' by done. by rewrite E, drop_0.
  - exfalso. apply Hn. apply emap_Some in Hw; [|pose proof (ti_nodup _ _ _ _ _ _ _ _ _ _ _ H) as X; by rewrite app_nil_r in X].
    apply elem_of_list_fmap. by exists (k, w).
Qed.
Print Assumptions C122_present.
(** A new key in a bucket that is not full costs one request for each bucket that uses malloc, unless capacities are recorded and there is room:
    a successful insertion is possible without memory exactly then. *)
Definition kinds_asking (c : cfg) : nat := (match c_key c with KClass _ => 0 | _ => 1 end) + (match c_val c with KPlain _ | KAvx _ | KVar _ => 1 | _ => 0 end).
Definition not_packed (kd : bkind) : Prop := match kd with KVar _ => False | _ => True end.
Lemma push_count pf c kw vw t s : params pf c kw vw -> not_packed (c_key c) -> not_packed (c_val c) -> s_size s < c_maxb c ->
  push_requests c t s = if decide (s_size s <> 0 /\ c_arb c = true /\ s_size s + 1 < s_cap s) then 0%nat else kinds_asking c.
Proof.
  intros P HK HV Hs. pose proof (co_maxb _ _ _ _ _ (proj1 P)) as Hmx. pose proof (co_key _ _ _ _ _ (proj1 P)) as Hck.
  assert (HR : forall kd o n w, not_packed kd -> resize_requests kd o n w = init_requests kd) by (intros kd o n w; by destruct kd).
  assert (Hki : init_requests (c_key c) = match c_key c with KClass _ => 0%nat | _ => 1%nat end) by (destruct (c_key c); done).
  assert (Hvi : init_requests (c_val c) = match c_val c with KPlain _ | KAvx _ | KVar _ => 1%nat | _ => 0%nat end) by (by destruct (c_val c)).
  unfold push_requests, kinds_asking. rewrite <- Hki, <- Hvi.
  destruct (N.eqb_spec (s_size s) 0) as [E|E]; [by rewrite decide_False by (intros [? _]; done)|].
  unfold rs_needs_resize, arb_needs_resize, inc_needs_resize. cbv zeta. rewrite !HR by done.
  assert (Hu : u8 (s_size s + 1) = s_size s + 1) by (apply N.mod_small; change (2^8) with 256; lia). rewrite !Hu.
  destruct (c_arb c).
  - destruct (N.leb_spec (s_cap s) (s_size s + 1)); [rewrite decide_False by lia|rewrite decide_True by (repeat split; try done; lia)]; done.
  - by rewrite decide_False by (intros (_ & ? & _); done).
Qed.
Theorem C122_requests : forall pf c kw vw t m fuel k v q bk s,
  params pf c kw vw -> c_ov c = OvDummy -> not_packed (c_key c) -> not_packed (c_val c) -> reachable pf c kw vw t m -> (64 <= fuel)%nat ->
  k < 2^kw -> c_val c = KNull \/ v < 2^vw -> m !! k = None -> bucket_count t <> 0 ->
  hash_map (hm c t) k (t_b t) = Ok (q, bk) -> get_slot t bk = Ok s -> s_size s < c_maxb c ->
  exists r, find_or_insert pf c fuel t k v = Ok r
    /\ all_or_ub (if decide (s_size s <> 0 /\ c_arb c = true /\ s_size s + 1 < s_cap s) then 0%nat else kinds_asking c) (m_find_or_insert pf c fuel t k v) r.
Proof.
  intros pf c kw vw t m fuel k v q bk s P D HK HV Hr Hf Hk Hv Hm Hb Hh Hs Hlt.
  destruct (growth_fact pf c kw vw P t m fuel k v Hr Hf Hk Hv) as (t' & x & E & _). exists (t', x). split; [done|].
  rewrite <- (push_count pf c kw vw t s P HK HV Hlt). eapply asks_all; [|exact E].
  pose proof (reach_ok0 pf c kw vw P) as OK. pose proof (kdom_intro _ _ _ (noarr _ _ _ _ P) Hk) as Hkd.
  apply (reachable_rep _ _ _ _ P) in Hr as [[(Hz & _) _]|(sl & ess & ovl & H & HM)]; [destruct Hb; unfold bucket_count; by rewrite Hz|].
  pose proof (tinv_dummy _ _ _ _ _ _ _ D _ _ _ _ H) as [Hdum ->]. rewrite app_nil_r in HM.
  destruct (tinv_hash _ _ _ _ _ _ _ OK _ _ _ _ _ H Hkd) as (Eh & _). rewrite Hh in Eh. injection Eh as -> ->.
  destruct (tinv_bc _ _ _ _ _ _ _ OK _ _ _ _ H) as [Hb0 _]. apply N.eqb_neq in Hb0.
  destruct (locate_q_spec _ _ _ _ _ _ _ OK _ _ _ _ _ H Hkd) as (s1 & es1 & Hg & _ & He & _ & [(p & v0 & _ & Hp)|[El _]]).
  - exfalso. rewrite <- HM in Hm. apply emap_None in Hm.
    apply Hm. apply elem_of_list_fmap. exists (k, v0). split; [done|]. apply elem_of_list_lookup_2 in Hp, He. apply elem_of_list_In, in_concat. exists es1. by split; apply elem_of_list_In.
  - destruct fuel as [|f]; [lia|]. apply (asks_insert pf c f t k v (hq c kw (t_b t) k) (hb c kw (t_b t) k) s); try done; [by rewrite Hdum|lia].
Qed.
Print Assumptions C122_requests.

(** shrink_to_fit: packed buckets never ask for memory; for plain keys a failing realloc loses the bucket, the call itself is defined, and finding
    any key of such a bucket dereferences a null pointer. *)
Theorem C122_shrink_packed : forall pf c t h, kind_asks (c_key c) = false \/ (exists iw, c_key c = KVar iw) -> kind_asks (c_val c) = false \/ (exists iw, c_val c = KVar iw) ->
  m_shrink_to_fit pf c t h = (t' ← shrink_to_fit pf c t; Ok (t', h)).
Proof.
  intros pf c t h HK HV. unfold m_shrink_to_fit, shrink_to_fit. destruct (t_b t =? 0); [done|]. destruct (t_slots t) as [sl|]; [|done]. cbv zeta.
  assert (HR : forall kd b n w h, kind_asks kd = false \/ (exists iw, kd = KVar iw) -> m_resize pf kd b n n w h = (b' ← b_resize pf kd b n n w; Ok (b', h))).
  { intros kd b n w h' Hkd. unfold m_resize. assert (E : resize_asks kd n n w = false).
    { destruct kd; try (destruct Hkd as [?|[? ?]]; done). cbn. apply Nat.ltb_irrefl. }
    rewrite E. cbn [ask]. done. }
  assert (HS : forall l, m_shrink_slots pf c t l h = (l' ← rmap (shrink_slot pf c t) l; Ok (l', h))).
  { induction l as [|s l IH]; cbn [m_shrink_slots rmap]; [done|].
    assert (E : m_shrink_slot pf c t s h = (s' ← shrink_slot pf c t s; Ok (s', h))).
    { unfold m_shrink_slot, shrink_slot. destruct (s_size s =? 0); [done|]. destruct (rs_can_shrink c (s_cap s) (s_size s)); [|done]. cbv zeta.
      rewrite HR by done. destruct (b_resize pf (c_key c) _ _ _ _); cbn [mbind res_bind]; [|done..].
      rewrite HR by done. by destruct (b_resize pf (c_val c) _ _ _ _). }
    rewrite E. destruct (shrink_slot pf c t s); cbn [mbind res_bind]; [|done..]. rewrite IH. by destruct (rmap _ l). }
  rewrite HS. by destruct (rmap _ _).
Qed.
Print Assumptions C122_shrink_packed.

Lemma shrink_none pf c t es : c_key c = KPlain es -> (forall es, c_val c <> KAvx es) -> forall sl sl1 n, rmap (shrink_slot pf c t) sl = Ok sl1 -> (2 * length sl <= n)%nat ->
  exists sl' n', m_shrink_slots pf c t sl (replicate n false) = Ok (sl', replicate n' false)
    /\ Forall2 (fun s s' => s_size s' = s_size s /\ (worked_on c s -> s_keys s' = None)) sl sl'.
Proof.
  intros HK HV. induction sl as [|s sl IH]; intros sl1 n E Hn; cbn [m_shrink_slots rmap length] in *; [by exists [], n|].
  rinv E. rinv E. injection E as <-.
  assert (HS : exists s' n1, m_shrink_slot pf c t s (replicate n false) = Ok (s', replicate n1 false) /\ (n <= n1 + 2)%nat
     /\ s_size s' = s_size s /\ (worked_on c s -> s_keys s' = None)).
  { unfold shrink_slot, m_shrink_slot in *. destruct (N.eqb_spec (s_size s) 0) as [Ez|Ez].
    { exists s, n. split; [done|]. split; [lia|]. split; [done|]. by intros [? _]. }
    destruct (rs_can_shrink c (s_cap s) (s_size s)) eqn:Hsh.
    2:{ exists s, n. split; [done|]. split; [lia|]. split; [done|]. intros [_ Hw]. exfalso.
        unfold rs_can_shrink, arb_can_shrink in Hsh. destruct (c_arb c); [|done]. specialize (Hw eq_refl). lia. }
    cbv zeta in *. rinv E0. rinv E0. unfold m_resize. rewrite HK in *. rewrite E, E2. cbn [mbind res_bind resize_asks kind_asks].
    destruct n as [|n]; [lia|]. cbn [ask replicate]. cbn [mbind res_bind].
    destruct (resize_asks (c_val c) (N.to_nat (s_size s)) (N.to_nat (s_size s)) (vwidth t)) eqn:Ea; cbn [ask].
    - destruct n as [|n]; [lia|]. cbn [replicate].
      destruct (c_val c) eqn:Ev; cbn [mbind res_bind]; (try by destruct (HV es0)); eexists _, n; (split; [reflexivity|]); (split; [lia|]); done.
    - cbn [mbind res_bind]. eexists _, n. split; [reflexivity|]. split; [lia|]. done. }
  destruct HS as (s' & n1 & -> & Hn1 & Hs). cbn [mbind res_bind].
  destruct (IH _ n1 eq_refl) as (sl' & n' & -> & HF); [lia|]. cbn [mbind res_bind]. exists (s' :: sl'), n'. split; [done|]. by constructor.
Qed.
Theorem C122_shrink_refuted : forall pf c kw vw t m n es,
  params pf c kw vw -> c_ov c = OvDummy -> c_key c = KPlain es -> (forall es, c_val c <> KAvx es) -> reachable pf c kw vw t m -> (2 * N.to_nat (bucket_count t) <= n)%nat ->
  exists t' h, m_shrink_to_fit pf c t (replicate n false) = Ok (t', h) /\ TableModel.size t' = TableModel.size t
    /\ forall k q bk s, is_Some (m !! k) -> hash_map (hm c t) k (t_b t) = Ok (q, bk) -> get_slot t bk = Ok s -> worked_on c s -> TableModel.find pf c t' k = Ub NullDeref.
Proof.
  intros pf c kw vw t m n es P D HK HV Hr Hn. pose proof (reachable_keys _ _ _ _ P t m) as Hks. pose proof (reach_ok0 pf c kw vw P) as OK.
  pose proof (fun k v => Hks k v Hr) as Hk'. clear Hks.
  apply (reachable_rep _ _ _ _ P) in Hr as [[(Hz & _) ->]|(sl & ess & ovl & H & HM)].
  { exists t, (replicate n false). split; [|split; [done|]]. { unfold m_shrink_to_fit. by rewrite Hz. } intros k q bk s [? X]. by rewrite lookup_empty in X. }
  destruct (shrink_spec _ _ _ _ _ _ _ OK _ _ _ _ H) as (u & sl1 & Es & _).
  pose proof (tinv_dummy _ _ _ _ _ _ _ D _ _ _ _ H) as [Hdum ->]. destruct (tinv_bc _ _ _ _ _ _ _ OK _ _ _ _ H) as [Hb0 Hbc].
  pose proof (ti_len _ _ _ _ _ _ _ _ _ _ _ H) as Hlen. pose proof (ti_slots _ _ _ _ _ _ _ _ _ _ _ H) as Hsl.
  unfold shrink_to_fit in Es. unfold m_shrink_to_fit. rewrite Hb0, Hsl in *. cbv zeta in *.
  assert (Hnb : N.to_nat (bucket_count t) = length sl) by lia. rewrite Hnb, firstn_all in *. rinv Es.
  destruct (shrink_none pf c t es HK HV sl a n E Hn) as (sl' & n' & E' & HF). rewrite E'. cbn [mbind res_bind]. rewrite drop_all, app_nil_r.
  eexists _, _. split; [reflexivity|]. split; [done|]. intros k q bk s [w Hw] Hh Hs Hwo.
  unfold TableModel.find. cbn [t_b t_ov]. rewrite Hb0, Hdum. cbn [ov_size]. change (0 <? 0) with false. cbn [mbind res_bind].
  change (hm c (Table _ _ _ _ _ _)) with (hm c t). rewrite Hh. cbn [mbind res_bind]. unfold locate_q, get_slot in *. cbn [t_slots].
  rewrite Hsl in Hs. rewrite <- (Forall2_length _ _ _ HF). destruct (bk <? N.of_nat (length sl)); [|done].
  destruct (sl !! N.to_nat bk) as [s0|] eqn:E0; [|done]. injection Hs as ->.
  destruct (Forall2_lookup_l _ _ _ _ _ HF E0) as (s' & -> & Hz & Hnone). cbn [of_option mbind res_bind]. rewrite (Hnone Hwo), Hz, HK. cbn [b_find].
  rewrite (proj2 (Nat.eqb_neq _ _)); [done|]. destruct Hwo. lia.
Qed.
Print Assumptions C122_shrink_refuted.

(** A table with two buckets, of which one has two elements and room for a third: that one is inserted without memory, a key of the other bucket is not.
    Growing to four buckets fails at the first, second or fifth request. *)
Definition ex_pl4 : cfg := Cfg (KPlain 32) (KPlain 16) (HBij Xorshift) 32 true 4 OvDummy.
Definition ex_pl4_ops : list op := [OpReserve 2; OpInsert 0 0; OpInsert 2 2].
Definition ex_pl4_t : table := ex_small ex_pl4 ex_pl4_ops.
Example C122_case : reachable lax_pf ex_pl4 4 16 ex_pl4_t (fst (spec_run ∅ ex_pl4_ops))
  /\ not_packed (c_key ex_pl4) /\ kinds_asking ex_pl4 = 2%nat
  /\ map (fun k => outcome (m_find_or_insert lax_pf ex_pl4 64 ex_pl4_t k 1 [false])) [0; 1; 2; 3; 4; 5; 6] = [0; 1; 0; 1; 0; 1; 0]
  /\ map (fun h => outcome (m_find_or_insert lax_pf ex_pl4 64 ex_pl4_t 1 1 h)) [[true; false]; [true; true]; [true; true; false]] = [1; 0; 0]
  /\ map (fun h => outcome (m_reserve lax_pf ex_pl4 64 ex_pl4_t 4 h)) [[false]; [true; false]; [true; true; true; true; false]; []] = [1; 1; 1; 0].
Proof. split; [small_solve|]. split; [done|]. split; [done|]. vm_compute. done. Qed.
(** shrink_to_fit without memory: the keys 0 and 2 cannot be looked up any more. *)
Example C122_shrink_case : match m_shrink_to_fit lax_pf ex_pl4 ex_pl4_t (replicate 4 false) with
  | Ok (t, h) => h = [false; false] /\ t_n t = 2 /\ map (fun k => outcome (TableModel.find lax_pf ex_pl4 t k)) [0; 2; 1] = [1; 1; 0]
  | _ => False end.
Proof. vm_compute. done. Qed.
Example C122_first_case : reachable lax_pf ex_pl4 4 16 (new_table lax_pf ex_pl4 4 16) ∅ /\ bucket_count (new_table lax_pf ex_pl4 4 16) = 0
  /\ map (fun h => outcome (m_reserve lax_pf ex_pl4 64 (new_table lax_pf ex_pl4 4 16) 4 h)) [[false]; [true; false]; [true; true; false]] = [1; 1; 0].
Proof. split; [apply (reach_map _ _ _ _ 64 [] _ []); [lia|done|apply List.Forall_nil|done]|]. split; [done|]. vm_compute. done. Qed.
