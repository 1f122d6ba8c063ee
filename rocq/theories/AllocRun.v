(** Histories of separate_chaining_table in which any call can run out of memory. *)
From Verif Require Export AllocStrong TableReach.

(** A call of a history with the requests that succeed during it; None is std::bad_alloc. *)
Section run.
Context (pf : platform) (c : cfg) (fuel : nat).
Definition a_run_op (t : table) (o : op) (h : heap) : res (table * option out) :=
  match o with
  | OpInsert k v =>
      r ← a_find_or_insert pf c fuel t k v h;
      match (r : inserted) with
      | Bad t => Ok (t, None)
      | Done (t, x) _ => e ← iter_at pf c t x; Ok (t, Some (OutEntry e))
      end
  | OpRead k =>
      r ← a_find_or_insert pf c fuel t k 0 h;
      match (r : inserted) with
      | Bad t => Ok (t, None)
      | Done (t, x) _ => v ← nav_value pf c t x; Ok (t, Some (OutNum v))
      end
  | OpWrite k v =>
      r ← a_find_or_insert pf c fuel t k 0 h;
      match (r : inserted) with
      | Bad t => Ok (t, None)
      | Done (t, x) _ => t ← write_value pf c t x v; Ok (t, Some OutUnit)
      end
  | OpReserve n =>
      r ← a_reserve pf c fuel t n h;
      match (r : tried table table) with Bad t => Ok (t, None) | Done t _ => Ok (t, Some OutUnit) end
  | OpShrink =>
      r ← a_shrink_to_fit pf c t h;
      match (r : tried table table) with Bad t => Ok (t, None) | Done t _ => Ok (t, Some OutUnit) end
  | _ => r ← run_op pf c fuel t o; let '(t, x) := (r : table * out) in Ok (t, Some x)
  end.
Fixpoint a_run (t : table) (ops : list (op * heap)) : res (table * list (option out)) :=
  match ops with
  | [] => Ok (t, [])
  | (o, h) :: ops' =>
      r ← a_run_op t o h;
      let '(t, x) := (r : table * option out) in
      rs ← a_run t ops';
      let '(t, xs) := (rs : table * list (option out)) in
      Ok (t, x :: xs)
  end.
End run.

(** ** Specification *)
(** Calls that may throw on a map holding m: those that add an element, and reserve. *)
Definition may_throw (m : gmap N N) (o : op) : Prop :=
  match o with OpInsert k _ | OpRead k | OpWrite k _ => m !! k = None | _ => False end.
(** Every call returns what the finite map returns, or throws and changes nothing; without a failing request nothing throws. *)
Inductive failing_run : gmap N N -> list (op * option nat) -> list (option out) -> gmap N N -> Prop :=
| fr_nil m : failing_run m [] [] m
| fr_done m o h ops outs m' : failing_run (fst (spec_step m o)) ops outs m' -> failing_run m ((o, h) :: ops) (Some (snd (spec_step m o)) :: outs) m'
| fr_throw m o n ops outs m' : may_throw m o -> failing_run m ops outs m' -> failing_run m ((o, Some n) :: ops) (None :: outs) m'.

Section facts.
Context (pf : platform) (c : cfg) (kw vw : N).
Hypothesis P : params pf c kw vw.
Hypothesis DUM : c_ov c = OvDummy.
Notation bmax := (bits_max c kw).
Notation trep := (trep pf c kw vw 1 bmax True).
Notation trep_full := (trep_full pf c kw vw 1 bmax True).
Notation tinv := (tinv pf c kw vw 1 bmax True).
Notation reach_ok0 := (reach_ok0 pf c kw vw P).
Notation SP := (ok_spread _ _ _ _ _ _ (reach_ok pf c kw vw P)).

Lemma bmax_fuel fuel b : (64 <= fuel)%nat -> (N.to_nat (bmax - b) < fuel)%nat.
Proof. intros Hf. pose proof (ok_b _ _ _ _ _ _ reach_ok0). lia. Qed.

(** The first insertion allocates the buckets. *)
Lemma a_insert_zero t f k v h : tzero pf c kw vw t ->
  a_find_or_insert pf c (S f) t k v h = Ok (Bad t) /\ h <> None
  \/ exists t1 h1 sl ess, a_find_or_insert pf c (S f) t k v h = a_find_or_insert pf c (S f) t1 k v h1 /\ tinv t1 sl ess [] /\ concat ess = [] /\ (h = None -> h1 = None).
Proof.
  intros Hz. destruct (params_init _ _ _ _ P) as [Hkw Hi]. pose proof (ok_kw _ _ _ _ _ _ reach_ok0) as Hk64.
  destruct (alloc_spec pf c kw vw 1 bmax True reach_ok0 t (N.min (kw - 1) 16) Hz) as (t1 & Ha & Hb & sl & ess & H & Hc); [lia|done|].
  pose proof Hz as (Hb0 & _ & Hk & _).
  assert (Hreq : request true h = None -> h <> None) by (by destruct h as [[|]|]).
  assert (Hreq2 : forall h1, request true h = Some h1 -> (h = None -> h1 = None) /\ (request (has_values (c_val c)) h1 = None -> h <> None)).
  { intros h1. destruct h as [[|n]|]; cbn; [done|intros [= <-]|intros [= <-]]; (split; [done|]); [done|]. by destruct (has_values _). }
  assert (Hreq3 : forall b h1 h2, request b h1 = Some h2 -> h1 = None -> h2 = None) by (intros [] h1 h2 E ->; cbn in E; by injection E as <-).
  destruct (tinv_bc _ _ _ _ _ _ _ reach_ok0 _ _ _ _ H) as [Hb1 _].
  set (R0 := a_find_or_insert pf c (S f) t k v h). cbn [a_find_or_insert] in R0. unfold R0. clear R0. rewrite Hb0. cbn [N.eqb].
  rewrite Hk, sub64_small by lia. unfold a_alloc_table. rewrite Ha. cbn [mbind res_bind].
  destruct (request true h) as [h1|]; cbn [mbind res_bind]; [|left; split; [done|by apply Hreq]].
  destruct (Hreq2 h1 eq_refl) as [H1 H2].
  destruct (request (has_values (c_val c)) h1) as [h2|] eqn:E2; cbn [mbind res_bind]; [|left; split; [done|by apply H2]].
  right. exists t1, h2, sl, ess. split; [|split; [done|split; [done|]]].
  - cbn [a_find_or_insert]. by rewrite Hb1.
  - intros Hh. eapply Hreq3; [exact E2|]. by apply H1.
Qed.

(** ** Any kind of bucket *)
Lemma a_insert_any t m k v h fuel : trep t m -> (64 <= fuel)%nat -> kdom c kw k -> nv c vw v = v \/ c_val c = KNull ->
  (exists r h', a_find_or_insert pf c fuel t k v h = Ok (Done r h'))
  \/ (exists t' t'', a_find_or_insert pf c fuel t k v h = Ok (Bad t') /\ clear pf c t' = Ok t'').
Proof.
  intros [[Hz ->]|(sl & ess & ovl & H & Hm)] Hf Hk Hv.
  - destruct fuel as [|f]; [lia|]. destruct (a_insert_zero t f k v h Hz) as [[-> _]|(t1 & h1 & sl & ess & -> & H & Hc & _)].
    + right. destruct (clear_zero pf c kw vw t (noarr _ _ _ _ P) Hz) as (t'' & E & _). by exists t, t''.
    + destruct (a_insert_safe pf c kw vw 1 bmax True reach_ok0 SP DUM (S f) t1 sl ess [] k v h1 H (bmax_fuel _ _ Hf) Hk Hv) as [?|(t' & -> & Ht')]; [by left|].
      right. destruct (clear_free pf c t' Ht') as (t'' & E). by exists t', t''.
  - destruct (a_insert_safe pf c kw vw 1 bmax True reach_ok0 SP DUM fuel t sl ess ovl k v h H (bmax_fuel _ _ Hf) Hk Hv) as [?|(t' & -> & Ht')]; [by left|].
    right. destruct (clear_free pf c t' Ht') as (t'' & E). by exists t', t''.
Qed.
Lemma a_reserve_any t m n h fuel : trep t m -> (64 <= fuel)%nat -> 2 <= n <= 2^bmax ->
  (exists t' h', a_reserve pf c fuel t n h = Ok (Done t' h'))
  \/ (exists t' t'', a_reserve pf c fuel t n h = Ok (Bad t') /\ clear pf c t' = Ok t'').
Proof.
  intros Hr Hf Hn.
  destruct (log2_up_range pf c kw vw 1 bmax fuel (reach_ok _ _ _ _ P) Hf n) as [Hn1 Hb]; [change (2^1/2) with 1; lia|lia|].
  destruct Hr as [[Hz ->]|(sl & ess & ovl & H & Hm)].
  - unfold a_reserve, a_reserve_with. pose proof Hz as (-> & _). cbn [N.eqb]. unfold a_alloc_table.
    destruct (alloc_spec pf c kw vw 1 bmax True reach_ok0 t n Hz Hn1 Hb) as (t1 & -> & _). cbn [mbind res_bind].
    destruct (clear_zero pf c kw vw t (noarr _ _ _ _ P) Hz) as (t'' & E & _).
    destruct (request true h) as [h1|]; [|right; by exists t, t'']. destruct (request (has_values (c_val c)) h1) as [h2|]; [|right; by exists t, t''].
    left. by exists t1, h2.
  - destruct (tinv_dummy _ _ _ _ _ _ _ DUM _ _ _ _ H) as [_ ->]. set (B := N.log2_up n) in *.
    assert (H63 : B <= 63) by (pose proof (ok_bounds _ _ _ _ _ _ reach_ok0 B ltac:(lia)); lia).
    assert (Hl2 : N.log2_up (2^B) = B) by (apply N.log2_up_pow2; lia).
    destruct (alloc_spec pf c kw vw 1 bmax True reach_ok0 (new_table pf c kw vw) (2^B)) as (tmp & Ea & Hb' & sl0 & ess0 & Hi0 & Hc0).
    { by apply (new_table_zero pf c kw vw 1 bmax), reach_ok0. }
    { split; [|by apply pow2_le_63]. pose proof (N.pow_nonzero 2 B ltac:(done)). lia. }
    { rewrite Hl2. lia. }
    unfold a_reserve.
    destruct (a_reserve_with_safe pf c kw vw 1 bmax True reach_ok0 DUM (a_find_or_insert pf c fuel) (tcon pf c kw vw 1 bmax True B) (tfree pf c) (concat ess) (tcon_perm _ _ _ _ _ _ _ _))
      with (t := t) (sl := sl) (ess := ess) (n := n) (tmp0 := tmp) (h := h)
      as [(t1 & h1 & Et1 & Ht1)|[Eb|(tmp1 & i & Eb & _ & _)]].
    { intros tmp1 E1 k1 v1 h1 (sl1 & ess1 & ovl1 & H1 & HB1 & HE1) Hin Hni _ _.
      destruct (ti_range _ _ _ _ _ _ _ _ _ _ _ H k1 v1 ltac:(apply elem_of_app; by left)) as [Hk1 Hv1].
      destruct (a_insert_safe pf c kw vw 1 bmax True reach_ok0 SP DUM fuel tmp1 sl1 ess1 ovl1 k1 v1 h1 H1 (bmax_fuel _ _ Hf) Hk1 ltac:(by left)) as [(r & h2 & Er1)|Hbad]; [|by right].
      left. exists r, h2. split; [done|]. apply a_insert_done in Er1.
      destruct (find_or_insert_spec pf c kw vw 1 bmax True reach_ok0 SP fuel tmp1 sl1 ess1 ovl1 k1 v1 H1 (bmax_fuel _ _ Hf) Hk1 ltac:(by left)) as (t2 & x2 & sl2 & ess2 & ovl2 & Er2 & H2 & Hle%grown_le & Hres).
      rewrite Er1 in Er2. injection Er2 as ->. cbn [fst]. rewrite (proj2 (emap_None _ k1)) in Hres by (rewrite HE1; done). destruct Hres as [Hres _].
      exists sl2, ess2, ovl2. split; [done|]. split; [lia|]. by rewrite Hres, HE1, Hv1. }
    { done. } { done. } { done. } { done. }
    { exists sl0, ess0, []. split; [done|]. split; [rewrite Hb', Hl2; lia|]. by rewrite Hc0. }
    { done. }
    + left. eauto.
    + right. destruct (clear_free pf c t) as (t'' & E); [by eapply (tinv_free pf c kw vw 1 bmax True)|]. by exists t, t''.
    + right. eexists. destruct (clear_free pf c (with_slots t (replicate i empty_slot ++ drop i sl))) as (t'' & E); [|by exists t''].
      apply with_slots_free; [apply H|by eapply (tinv_free pf c kw vw 1 bmax True)].
Qed.

Lemma a_shrink_any t m h : trep t m ->
  (exists t' h', a_shrink_to_fit pf c t h = Ok (Done t' h'))
  \/ (exists t' t'', a_shrink_to_fit pf c t h = Ok (Bad t') /\ clear pf c t' = Ok t'' /\ (kind_new (c_val c) = false \/ c_arb c = false -> trep t' m)).
Proof.
  intros [[Hz ->]|(sl & ess & ovl & H & Hm)].
  - left. exists t, h. unfold a_shrink_to_fit. by destruct Hz as (-> & _).
  - destruct (a_shrink_safe pf c kw vw 1 bmax True reach_ok0 t sl ess ovl h H) as [?|(t' & E & Ht' & Hk)]; [by left|].
    right. destruct (clear_free pf c t' Ht') as (t'' & Ec). exists t', t''. split; [done|]. split; [done|]. intros Hx. destruct (Hk Hx) as (sl' & H').
    right. by exists sl', ess, ovl.
Qed.

(** ** Buckets of class keys *)
(** The first element of a bucket: the counters are incremented although the bucket gets no memory. *)
Lemma a_class_insert t m f k v es q bk : trep t m -> c_key c = KClass es -> kdom c kw k -> t_b t <> 0 ->
  hash_map (hm c t) k (t_b t) = Ok (q, bk) -> bucket_size t bk = Ok 0 ->
  exists t', a_find_or_insert pf c (S f) t k v (Some O) = Ok (Bad t') /\ TableModel.size t' = u64 (TableModel.size t + 1) /\ TableModel.find pf c t' k = Ub NullDeref.
Proof.
  intros [[(Hz & _) _]|(sl & ess & ovl & H & Hm)] Hc Hk Hb Hh Hs; [done|].
  pose proof (tinv_dummy _ _ _ _ _ _ _ DUM _ _ _ _ H) as [Hdum ->].
  destruct (tinv_hash _ _ _ _ _ _ _ reach_ok0 _ _ _ _ _ H Hk) as (Eh & Hlt & _). pose proof Eh as Eh2. rewrite Hh in Eh2. injection Eh2 as -> ->.
  destruct (locate_q_spec _ _ _ _ _ _ _ reach_ok0 _ _ _ _ _ H Hk) as (s & es1 & Hg & Hsl & He & Hr & Hloc).
  unfold bucket_size in Hs. rewrite Hg in Hs. cbn [mbind res_bind] in Hs. injection Hs as Hs.
  pose proof Hr as (Hsz & _ & Hes & _). assert (es1 = []) as -> by (destruct es1; [done|cbn in Hsz; lia]). subst s.
  destruct Hloc as [(p & v0 & _ & Hp)|[El Hn]]; [by rewrite lookup_nil in Hp|].
  cbn [a_find_or_insert]. destruct (tinv_bc _ _ _ _ _ _ _ reach_ok0 _ _ _ _ H) as [Hb0 Hbc]. rewrite Hb0. cbn [mbind res_bind].
  rewrite Eh. cbn [mbind res_bind]. rewrite Hg. cbn [mbind res_bind]. rewrite El. cbn [mbind res_bind]. rewrite Hdum. cbn [ov_need_consult mbind res_bind].
  pose proof (co_maxb _ _ _ _ _ (proj1 P)) as Hmx. rewrite (proj2 (N.eqb_neq _ _)) by (cbn; lia).
  unfold a_push_slot. cbn [empty_slot s_size N.eqb]. rewrite Hc. cbn [kind_new request mbind res_bind].
  eexists. split; [done|]. split; [done|].
  set (t' := set_slot _ _ _).
  assert (Hg' : get_slot t' (hb c kw (t_b t) k) = Ok (Slot None None 1 0)).
  { unfold get_slot, t'. cbn [set_slot set_n t_slots]. rewrite (ti_slots _ _ _ _ _ _ _ _ _ _ _ H). cbn [fmap option_fmap option_map].
    assert (N.to_nat (hb c kw (t_b t) k) < length sl)%nat by (by eapply lookup_lt_Some).
    rewrite insert_length, (proj2 (N.ltb_lt _ _)) by lia. by rewrite list_lookup_insert by done. }
  unfold TableModel.find. change (t_b t') with (t_b t). rewrite Hb0. change (t_ov t') with (t_ov t). rewrite Hdum. cbn [ov_size]. change (0 <? 0) with false.
  cbn [mbind res_bind]. change (hm c t') with (hm c t). rewrite Eh. cbn [mbind res_bind]. unfold locate_q. rewrite Hg'. cbn [mbind res_bind].
  rewrite Hc. cbn [b_find s_keys s_size]. done.
Qed.

(** ** Buckets that do not use operator new *)
Hypothesis NK : kind_new (c_key c) = false.
Hypothesis NV : kind_new (c_val c) = false.
Lemma REF : forall b b' k k', 1 <= b -> b <= b' -> b' <= bmax -> hb c kw b' k = hb c kw b' k' -> hb c kw b k = hb c kw b k'.
Proof. intros b b' k k'. eapply bucket_refines. apply P. Qed.

Lemma a_insert_keeps t m k v h fuel : trep t m -> (64 <= fuel)%nat -> kdom c kw k -> nv c vw v = v \/ c_val c = KNull ->
  (exists r h', a_find_or_insert pf c fuel t k v h = Ok (Done r h'))
  \/ (exists t', a_find_or_insert pf c fuel t k v h = Ok (Bad t') /\ trep t' m /\ (trep_full t m -> trep_full t' m) /\ m !! k = None /\ h <> None).
Proof.
  intros Hr Hf Hk Hv.
  assert (Hh : forall t', a_find_or_insert pf c fuel t k v h = Ok (Bad t') -> h <> None).
  { intros t' E ->. rewrite a_insert_none in E. unfold sure in E. by destruct (find_or_insert pf c fuel t k v). }
  destruct Hr as [[Hz ->]|(sl & ess & ovl & H & Hm)].
  - destruct fuel as [|f]; [lia|]. destruct (a_insert_zero t f k v h Hz) as [[E _]|(t1 & h1 & sl & ess & E & H & Hc & _)].
    + right. exists t. split; [done|]. split; [by left|]. split; [done|]. split; [by rewrite lookup_empty|by eapply Hh].
    + destruct (a_insert_strong pf c kw vw 1 bmax True reach_ok0 SP DUM NK NV REF (S f) t1 sl ess k v h1 H (bmax_fuel _ _ Hf) Hk Hv) as [?|(t' & sl' & ess' & E' & H' & HE & _)].
      * left. by rewrite E.
      * right. exists t'. rewrite E, E'. split; [done|].
        assert (trep_full t' ∅). { exists sl', ess', []. split; [done|]. rewrite Hc in HE. symmetry in HE. apply Permutation_nil in HE. by rewrite HE. }
        split; [by right|]. split; [done|]. split; [by rewrite lookup_empty|]. apply (Hh t'). congruence.
  - destruct (tinv_dummy _ _ _ _ _ _ _ DUM _ _ _ _ H) as [_ ->].
    destruct (a_insert_strong pf c kw vw 1 bmax True reach_ok0 SP DUM NK NV REF fuel t sl ess k v h H (bmax_fuel _ _ Hf) Hk Hv) as [?|(t' & sl' & ess' & E' & H' & HE & _ & Hn)]; [by left|].
    right. exists t'. split; [done|].
    assert (trep_full t' m). { exists sl', ess', []. split; [done|]. rewrite <-Hm. rewrite !app_nil_r. apply emap_perm; [|done]. pose proof (ti_nodup _ _ _ _ _ _ _ _ _ _ _ H') as Hnd. by rewrite app_nil_r in Hnd. }
    split; [by right|]. split; [done|]. split; [|by eapply Hh]. rewrite <-Hm, app_nil_r. by apply emap_None.
Qed.

Lemma a_reserve_keeps t m n h fuel : trep t m -> (64 <= fuel)%nat -> 2 <= n <= 2^bmax -> bucket_count t <= n ->
  (exists t' h', a_reserve pf c fuel t n h = Ok (Done t' h')) \/ a_reserve pf c fuel t n h = Ok (Bad t).
Proof.
  intros Hr Hf Hn Hbc.
  destruct (log2_up_range pf c kw vw 1 bmax fuel (reach_ok _ _ _ _ P) Hf n) as [Hn1 Hb]; [change (2^1/2) with 1; lia|lia|].
  destruct Hr as [[Hz ->]|(sl & ess & ovl & H & Hm)].
  - unfold a_reserve, a_reserve_with. pose proof Hz as (-> & _). cbn [N.eqb]. unfold a_alloc_table.
    destruct (alloc_spec pf c kw vw 1 bmax True reach_ok0 t n Hz Hn1 Hb) as (t1 & -> & _). cbn [mbind res_bind].
    destruct (request true h) as [h1|]; [|by right]. destruct (request (has_values (c_val c)) h1) as [h2|]; [|by right]. left. by exists t1, h2.
  - destruct (tinv_dummy _ _ _ _ _ _ _ DUM _ _ _ _ H) as [_ ->]. destruct (tinv_bc _ _ _ _ _ _ _ reach_ok0 _ _ _ _ H) as [_ Ebc].
    assert (Hle : t_b t <= N.log2_up n).
    { rewrite Ebc in Hbc. etrans; [|apply N.log2_up_le_mono, Hbc]. rewrite N.log2_up_pow2; lia. }
    destruct (a_reserve_strong pf c kw vw 1 bmax True reach_ok0 SP DUM NK NV REF fuel t sl ess n h H Hn1) as [(t' & h' & E & _)|E]; [lia|by apply bmax_fuel| |by right].
    left. by exists t', h'.
Qed.

(** ** Histories *)
Lemma a_step t m o h fuel : trep t m -> c_val c <> KNull -> (64 <= fuel)%nat -> valid_op kw vw 1 bmax o ->
  (forall n, o = OpReserve n -> h = None) ->
  exists t', (a_run_op pf c fuel t o h = Ok (t', Some (snd (spec_step m o))) /\ trep t' (fst (spec_step m o)))
    \/ (a_run_op pf c fuel t o h = Ok (t', None) /\ trep t' m /\ may_throw m o /\ exists n, h = Some n).
Proof.
  intros Hr Hval Hf Ho Hres.
  assert (Hnv : forall v, v < 2^vw -> nv c vw v = v) by (intros; eapply cfg_values; [apply P|done|done]).
  destruct (step_rep pf c kw vw 1 bmax True fuel (reach_ok _ _ _ _ P) Hf t m o Hr) as (t1 & Eo & Ht1).
  { left. intros _. apply (params_init _ _ _ _ P). } { done. } { apply Hnv, pow2_pos. } { done. } { by intros ?%(noarr _ _ _ _ P). }
  { destruct o; cbn in Ho |- *; try done; apply Hnv; apply Ho. }
  assert (Hrep1 : trep t1 (fst (spec_step m o))).
  { destruct o; try done; try (by destruct Ht1 as [-> ?]); by destruct Ht1. }
  assert (Hkd : forall k, k < 2^kw -> kdom c kw k) by (intros k; apply kdom_intro, (noarr _ _ _ _ P)).
  assert (Hn0 : forall h, h <> None -> exists n : nat, h = Some n) by (intros [n|]; [eauto|done]).
  assert (Hother : (match o with OpInsert _ _ | OpRead _ | OpWrite _ _ | OpReserve _ | OpShrink => False | _ => True end) ->
    a_run_op pf c fuel t o h = Ok (t1, Some (snd (spec_step m o)))).
  { intros Hx. destruct o; try done; unfold a_run_op; rewrite Eo; done. }
  destruct o as [k|k|k v|k|k v|k|k| | |n| |]; try (exists t1; left; split; [by apply Hother|done]); clear Hother; cbn [a_run_op run_op valid_op] in *.
  - destruct Ho as [Hk Hv]. destruct (a_insert_keeps t m k v h fuel Hr Hf (Hkd _ Hk) ltac:(left; by apply Hnv)) as [(r & h' & E)|(t' & E & Ht' & _ & Hm & Hh)]; rewrite E; cbn [mbind res_bind].
    + apply a_insert_done in E. rewrite E in Eo. cbn [mbind res_bind] in Eo. destruct r as [t2 x2]. rinv Eo. injection Eo as <- Eo. exists t2. left. cbn [mbind res_bind]. by rewrite Eo.
    + exists t'. right. split; [done|]. split; [done|]. split; [done|]. by apply Hn0.
  - destruct (a_insert_keeps t m k 0 h fuel Hr Hf (Hkd _ Ho) ltac:(left; apply Hnv, pow2_pos)) as [(r & h' & E)|(t' & E & Ht' & _ & Hm & Hh)]; rewrite E; cbn [mbind res_bind].
    + apply a_insert_done in E. unfold index in Eo. rewrite E in Eo. cbn [mbind res_bind] in Eo. destruct r as [t2 x2]. rinv Eo. injection Eo as <- Eo. exists t2. left. cbn [mbind res_bind]. by rewrite Eo.
    + exists t'. right. split; [done|]. split; [done|]. split; [done|]. by apply Hn0.
  - destruct Ho as [Hk Hv]. destruct (a_insert_keeps t m k 0 h fuel Hr Hf (Hkd _ Hk) ltac:(left; apply Hnv, pow2_pos)) as [(r & h' & E)|(t' & E & Ht' & _ & Hm & Hh)]; rewrite E; cbn [mbind res_bind].
    + apply a_insert_done in E. unfold index in Eo. rewrite E in Eo. cbn [mbind res_bind] in Eo. destruct r as [t2 x2]. rinv Eo. injection Eo as <-. exists a. by left.
    + exists t'. right. split; [done|]. split; [done|]. split; [done|]. by apply Hn0.
  - rewrite (Hres n eq_refl), a_reserve_none. unfold sure. rinv Eo. injection Eo as <-. exists a. by left.
  - rinv Eo. injection Eo as <-. exists a. left. rewrite (a_shrink_malloc pf c NK NV _ _ _ E). by split.
Qed.

Lemma a_history fuel : forall ops t m, trep t m -> c_val c <> KNull -> (64 <= fuel)%nat -> valid_ops kw vw 1 bmax (map fst ops) ->
  (forall n h, (OpReserve n, h) ∈ ops -> h = None) ->
  exists t' outs m', a_run pf c fuel t ops = Ok (t', outs) /\ failing_run m ops outs m' /\ trep t' m'.
Proof.
  induction ops as [|[o h] ops IH]; intros t m Hr Hval Hf Hops Hres; [exists t, [], m; repeat split; [constructor|done]|].
  cbn [map fst] in Hops. apply Forall_cons in Hops as [Ho Hops].
  assert (Hres2 : forall n h, (OpReserve n, h) ∈ ops -> h = None) by (intros n h' Hin; apply (Hres n h'); by right).
  cbn [a_run]. destruct (a_step t m o h fuel Hr Hval Hf Ho) as (t1 & [[E Ht]|(E & Ht & Hmay & n & ->)]).
  { intros n ->. apply (Hres n h). by left. }
  - rewrite E. cbn [mbind res_bind]. destruct (IH t1 _ Ht Hval Hf Hops Hres2) as (t' & outs & m' & -> & HF & Ht').
    cbn [mbind res_bind]. eexists t', _, m'. split; [done|]. split; [by constructor|done].
  - rewrite E. cbn [mbind res_bind]. destruct (IH t1 _ Ht Hval Hf Hops Hres2) as (t' & outs & m' & -> & HF & Ht').
    cbn [mbind res_bind]. eexists t', _, m'. split; [done|]. split; [by constructor|done].
Qed.
End facts.
