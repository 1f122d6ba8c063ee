(** C122: erase and shrink_to_fit when every request is answered. *)
From Verif Require Import MallocModel MallocCompact MallocGroupOv MallocProofs PropMalloc PropMallocGroup PropMallocGroupOv PropGroup PropGroupOv PropSerial.

(** If its n requests are answered with yes, f takes n answers and is r. *)
Definition given {A} (n : nat) (f : list bool -> res (A * list bool)) (r : res A) : Prop :=
  forall h, granted n h -> f h = (a ← r; Ok (a, drop n h)).

Lemma given_ret {A} (a : A) : given 0 (fun h => Ok (a, h)) (Ok a).
Proof. intros h _. cbn [mbind res_bind]. by rewrite drop_0. Qed.
Lemma granted_app n n' h : granted (n + n') h -> granted n h /\ granted n' (drop n h).
Proof. intros G. split; intros i Hi; [apply G; lia|]. rewrite lookup_drop. apply G. lia. Qed.
Lemma given_bind {A B} n (f : list bool -> res (A * list bool)) r (g : A * list bool -> res (B * list bool)) r' m :
  given n f r -> (forall a, exists n', (n' <= m)%nat /\ given n' (fun h => g (a, h)) (r' a)) ->
  exists n', (n' <= n + m)%nat /\ given n' (fun h => x ← f h; g x) (a ← r; r' a).
Proof.
  intros Hf Hg. destruct r as [a|u| |]; cbn [mbind res_bind].
  - destruct (Hg a) as (n' & Hn & H). exists (n + n')%nat. split; [lia|]. intros h [G1 G2]%granted_app.
    rewrite (Hf h G1). cbn [mbind res_bind]. rewrite (H _ G2). by rewrite drop_drop.
  - exists n. split; [lia|]. intros h G. rewrite (Hf h G). done.
  - exists n. split; [lia|]. intros h G. rewrite (Hf h G). done.
  - exists n. split; [lia|]. intros h G. rewrite (Hf h G). done.
Qed.
Lemma given_let {A B} (r : res A) (g : A -> list bool -> res (B * list bool)) r' m :
  (forall a, exists n', (n' <= m)%nat /\ given n' (g a) (r' a)) -> exists n', (n' <= m)%nat /\ given n' (fun h => a ← r; g a h) (a ← r; r' a).
Proof. intros H. destruct r as [a|u| |]; cbn [mbind res_bind]; [exact (H a)|exists O; split; [lia|by intros h _]..]. Qed.
Lemma ask_given b h : granted (b2n b) h -> ask b h = (true, drop (b2n b) h).
Proof.
  destruct b; cbn [Nat.b2n ask]; [|by rewrite drop_0]. intros G. destruct h as [|[] h]; [done|done|]. exfalso. by apply (G 0%nat); [lia|].
Qed.
Lemma b2n_1 b : (b2n b <= 1)%nat.
Proof. destruct b; cbn; lia. Qed.

Lemma given_ret' {A} (a : A) m : exists n, (n <= m)%nat /\ given n (fun h => Ok (a, h)) (Ok a).
Proof. exists O. split; [lia|apply given_ret]. Qed.
Lemma given_weaken {A} (f : list bool -> res (A * list bool)) r m m' : (m <= m')%nat -> (exists n, (n <= m)%nat /\ given n f r) -> exists n, (n <= m')%nat /\ given n f r.
Proof. intros Hm (n & Hn & H). exists n. split; [lia|done]. Qed.

(** erase(key) of compact_chaining_map *)
Theorem C122_compact_erase_granted : forall pf c t k, exists n, (n <= 1)%nat /\ given n (mc_erase pf c t k) (c_erase pf c t k).
Proof.
  intros pf c t k. unfold mc_erase, c_erase. destruct (cm_b t =? 0); [apply given_ret'|].
  apply (given_let (c_locate pf c t k)). intros [bk pos]. unfold mc_erase_at, c_erase_at.
  destruct (_ =? ones64); [apply given_ret'|].
  apply (given_let (c_slot t bk)). intros s.
  assert (H : forall pos qw vw, exists n, (n <= 1)%nat /\ given n (mc_cs_erase pf c s pos qw vw) (cs_erase pf c s pos qw vw)).
  { intros p qw vw. unfold mc_cs_erase, cs_erase. cbv zeta. do 3 (apply given_let; intros ?). unfold mc_realloc. cbv zeta.
    set (b := negb _ && negb _). set (s1 := cs_realloc _ _ _ _ _). exists (b2n b). split; [apply b2n_1|].
    intros h G. rewrite (ask_given b h G). destruct (cs_size s1 =? 0); [|done]. by destruct (c_clear_slot pf s1). }
  destruct (H (N.to_nat (match pos with Some p => p | None => ones64 end)) (cqw c t) (cvw t)) as (n & Hn & Hg).
  destruct (given_bind n _ _ (fun r => let '(s, h) := (r : cslot * answers) in Ok (c_set (c_set_n t (sub64 (cm_n t) 1)) bk s, 1, h)) (fun s => Ok (c_set (c_set_n t (sub64 (cm_n t) 1)) bk s, 1)) 0 Hg) as (n' & Hn' & Hg').
  { intros a. apply given_ret'. }
  exists n'. split; [lia|]. exact Hg'.
Qed.
Print Assumptions C122_compact_erase_granted.

(** erase(key) and erase(bucket, position) of group_chaining_table, first with the dummy overflow.  An element of the overflow is erased without a request. *)
Lemma erase_at_granted pf c t x : exists n, (n <= 1)%nat /\ given n (mg_erase_at pf c t x) (g_erase_at pf c t x).
Proof.
  destruct x as [bk pos]. unfold mg_erase_at, g_erase_at. destruct (pos =? ones64); [apply given_ret'|].
  apply (given_let (g_group t bk)). intros g. unfold mkv_erase.
  destruct (kv_erase pf g (gbpg t) (g_rank t bk) (N.to_nat pos) (gqw c t) (gvw t)) as [g'| | |]; cbn [mbind res_bind]; [|exists O; split; [lia|by intros h _]..].
  set (b := (_ <? _)%nat). exists (b2n b). split; [apply b2n_1|]. intros h G. by rewrite (ask_given b h G).
Qed.
Theorem C122_group_erase_granted : forall pf c t k, exists n, (n <= 1)%nat /\ given n (mg_erase pf c t k) (g_erase pf c t k).
Proof.
  intros pf c t k. unfold mg_erase, g_erase. destruct (gt_b t =? 0); [apply given_ret'|].
  apply (given_let (g_locate pf c t k)). intros [bk pos]. apply erase_at_granted.
Qed.
Print Assumptions C122_group_erase_granted.
Theorem C122_gov_erase_granted : forall pf c t k, exists n, (n <= 1)%nat /\ given n (mgo_erase pf c t k) (go_erase pf c t k)
  /\ (forall p, go_locate pf c t k = Ok (go_bucket_count t, Some p) -> 0 < ov_size (go_ov t) -> n = 0%nat).
Proof.
  intros pf c t k. unfold mgo_erase, go_erase. destruct (gt_b (go_g t) =? 0); [exists O; split; [lia|]; split; [apply given_ret|done]|].
  destruct (go_locate pf c t k) as [[bk pos]| | |]; cbn [mbind res_bind]; [|exists O; split; [lia|by split; [intros h _|]]..].
  unfold mgo_erase_at, go_erase_at. cbn [fst snd]. destruct (_ =? ones64) eqn:Ep; [exists O; split; [lia|]; split; [apply given_ret|done]|].
  destruct ((0 <? ov_size (go_ov t)) && (bk =? go_bucket_count t)) eqn:Eo.
  - exists O. split; [lia|]. split; [|done]. intros h _. rewrite drop_0. by destruct (ov_erase pf (go_ov t) _).
  - set (x := (bk, _)). destruct (erase_at_granted pf c (go_g t) x) as (n & Hn & Hg). exists n. split; [done|]. split.
    + intros h G. rewrite (Hg h G). by destruct (g_erase_at pf c (go_g t) x) as [[? ?]| | |].
    + intros p [= -> _] Hs. rewrite (proj2 (N.ltb_lt _ _) Hs), N.eqb_refl in Eo. done.
Qed.
Print Assumptions C122_gov_erase_granted.

(** shrink_to_fit of separate_chaining_table *)
Lemma resize_granted pf kd b old new w : given (b2n (resize_asks kd old new w)) (m_resize pf kd b old new w) (b_resize pf kd b old new w).
Proof. intros h G. unfold m_resize. rewrite (ask_given _ h G). by destruct (b_resize pf kd b old new w). Qed.
Theorem C122_shrink_granted : forall pf c t, exists n, (n <= 2 * N.to_nat (bucket_count t))%nat /\ given n (m_shrink_to_fit pf c t) (shrink_to_fit pf c t).
Proof.
  intros pf c t. unfold m_shrink_to_fit, shrink_to_fit. destruct (t_b t =? 0); [apply given_ret'|].
  destruct (t_slots t) as [sl|]; [|exists O; split; [lia|by intros h _]].
  assert (HS : forall s, exists n, (n <= 2)%nat /\ given n (m_shrink_slot pf c t s) (shrink_slot pf c t s)).
  { intros s. unfold m_shrink_slot, shrink_slot. destruct (s_size s =? 0); [apply given_ret'|]. destruct (rs_can_shrink _ _ _); [|apply given_ret'].
    cbv zeta. eapply given_weaken; [|eapply given_bind; [apply resize_granted|]].
    2: { intros k. cbn beta iota. eapply (given_weaken _ _ _ 1); [|eapply (given_bind _ _ _ _ _ 0); [apply resize_granted|intros v; apply given_ret']].
      pose proof (b2n_1 (resize_asks (c_val c) (N.to_nat (s_size s)) (N.to_nat (s_size s)) (vwidth t))). lia. }
    pose proof (b2n_1 (resize_asks (c_key c) (N.to_nat (s_size s)) (N.to_nat (s_size s)) (qwidth c t))). lia. }
  assert (HL : forall l, exists n, (n <= 2 * length l)%nat /\ given n (m_shrink_slots pf c t l) (rmap (shrink_slot pf c t) l)).
  { induction l as [|s l IH]; cbn [m_shrink_slots rmap]; [apply given_ret'|]. destruct (HS s) as (n & Hn & Hs).
    eapply given_weaken; [|eapply given_bind; [exact Hs|]].
    2: { intros s'. cbn beta iota. destruct IH as (n' & Hn' & IH). eapply given_weaken; [exact Hn'|]. eapply given_weaken; [|eapply (given_bind _ _ _ _ _ 0); [exact IH|intros l'; apply given_ret']]. lia. }
    cbn [length]. lia. }
  destruct (HL (take (N.to_nat (bucket_count t)) sl)) as (n & Hn & Hl). rewrite take_length in Hn.
  eapply given_weaken; [|eapply (given_bind _ _ _ _ _ 0); [exact Hl|intros l'; apply given_ret']]. lia.
Qed.
Print Assumptions C122_shrink_granted.

(** The erasure of C122_group_case takes one answer.  In the full group of C71_case key 255 is in the overflow, and its erasure takes none. *)
Definition answers_left {A} (r : res (A * list bool)) : option (list bool) := match r with Ok (_, h) => Some h | _ => None end.
Example C122_granted_case : answers_left (mg_erase loose_pf ex_gx ex_mg_tab 4 [true; false]) = Some [false]
  /\ answers_left (mgo_erase lax_pf ex_gx ex_go1 255 [false]) = Some [false]
  /\ go_locate lax_pf ex_gx ex_go1 255 = Ok (go_bucket_count ex_go1, Some 7) /\ ov_size (go_ov ex_go1) = 1.
Proof. vm_compute. done. Qed.
