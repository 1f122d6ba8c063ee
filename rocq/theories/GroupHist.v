(** Histories of calls on a core_group and on a keyvalue_group, and what they mean on lists. *)
From Verif Require Export GroupSerial.
#[local] Open Scope nat_scope.

(** ** core_group: a list of numbers *)
Inductive cop := CIns (i : nat) (x : N) | CDel (i : nat) | CGet (i : nat) | CSet (i : nat) (x : N) | CFind (i n : nat) (x : N).
Inductive cout := CUnit | CNum (x : N) | CPos (p : option nat).
(** Specification.  find reports the first position in [i, i+n) that holds x. *)
Definition cspec_step (xs : list N) (o : cop) : list N * cout :=
  match o with
  | CIns i x => (take i xs ++ x :: drop i xs, CUnit)
  | CDel i => (delete i xs, CUnit)
  | CGet i => (xs, CNum (nth i xs 0%N))
  | CSet i x => (<[i := x]> xs, CUnit)
  | CFind i n x => (xs, CPos ((fun j => i + j) <$> first_index x (take n (drop i xs))))
  end.
Definition cvalid (w : nat) (xs : list N) (o : cop) : Prop :=
  match o with
  | CIns i x => i <= length xs /\ (x < 2^N.of_nat w)%N
  | CDel i | CGet i => i < length xs
  | CSet i x => i < length xs /\ (x < 2^N.of_nat w)%N
  | CFind i n x => i + n <= length xs
  end.
Fixpoint cvalid_ops (w : nat) (xs : list N) (ops : list cop) : Prop :=
  match ops with [] => True | o :: ops => cvalid w xs o /\ cvalid_ops w (fst (cspec_step xs o)) ops end.
Fixpoint cspec_run (xs : list N) (ops : list cop) : list N * list cout :=
  match ops with
  | [] => (xs, [])
  | o :: ops => let '(xs, r) := cspec_step xs o in let '(xs, rs) := cspec_run xs ops in (xs, r :: rs)
  end.
(** The same calls on the model; the caller passes the number of elements. *)
Definition crun_step (pf : platform) (w : nat) (dn : core * nat) (o : cop) : res (core * nat * cout) :=
  let '(d, n) := dn in
  match o with
  | CIns i x => d ← cg_insert pf d i x w n; Ok (d, S n, CUnit)
  | CDel i => d ← cg_erase pf d i w n; Ok (d, n - 1, CUnit)
  | CGet i => x ← cg_read pf d i w; Ok (d, n, CNum x)
  | CSet i x => d ← cg_write pf d i x w; Ok (d, n, CUnit)
  | CFind i m x => p ← cg_find pf d i m w x; Ok (d, n, CPos p)
  end.
Fixpoint crun (pf : platform) (w : nat) (dn : core * nat) (ops : list cop) : res (core * nat * list cout) :=
  match ops with
  | [] => Ok (dn, [])
  | o :: ops =>
      r ← crun_step pf w dn o;
      let '(dn, x) := (r : core * nat * cout) in
      rs ← crun pf w dn ops;
      let '(dn, xs) := (rs : core * nat * list cout) in Ok (dn, x :: xs)
  end.
Lemma core_history pf w : 1 <= w <= 64 -> forall ops d xs, core_rep True pf w d xs -> cvalid_ops w xs ops ->
  exists d', crun pf w (d, length xs) ops = Ok (d', length (fst (cspec_run xs ops)), snd (cspec_run xs ops))
    /\ core_rep True pf w d' (fst (cspec_run xs ops)).
Proof.
  intros Hw. induction ops as [|o ops IH]; intros d xs H Hv; [by exists d|]. cbn [cvalid_ops cspec_run] in *.
  destruct (cspec_step xs o) as [xs' r] eqn:Es. destruct Hv as [Ho HP]. cbn [fst snd] in *.
  assert (Hstep : exists d', crun_step pf w (d, length xs) o = Ok (d', length xs', r) /\ core_rep True pf w d' xs').
  { destruct o as [i x|i|i|i x|i n x]; cbn [cspec_step cvalid crun_step] in *; injection Es as <- <-.
    - destruct Ho as [Hi Hx]. destruct (core_insert pf True True w d xs i x Hw H Hi Hx) as (d' & -> & Hd). exists d'. split; [|done].
      cbn [mbind res_bind]. do 3 f_equal. rewrite app_length, take_length. cbn [length]. rewrite drop_length. lia.
    - destruct (core_erase pf True w d xs i I Hw H Ho) as (d' & -> & Hd). exists d'. split; [|done]. cbn [mbind res_bind]. do 3 f_equal.
      rewrite length_delete by (by apply lookup_lt_is_Some_2). lia.
    - destruct (lookup_lt_is_Some_2 xs i Ho) as (x & Hx). rewrite (core_read pf True w d xs i x Hw H Hx). exists d. split; [|done].
      cbn [mbind res_bind]. do 3 f_equal. symmetry. by apply nth_lookup_Some with (d := 0%N) in Hx.
    - destruct Ho as [Hi Hx]. destruct (core_write pf True w d xs i x Hw H Hi Hx) as (d' & -> & Hd). exists d'. split; [|done].
      cbn [mbind res_bind]. by rewrite insert_length.
    - rewrite (core_find pf True w d xs x Hw H n i Ho). exists d. done. }
  destruct Hstep as (d' & E & Hd). cbn [crun]. rewrite E. cbn [mbind res_bind].
  destruct (IH d' xs' Hd HP) as (d2 & E2 & H2). destruct (cspec_run xs' ops) as [ys rs]. cbn [fst snd] in *. rewrite E2. cbn [mbind res_bind]. by exists d2.
Qed.

(** ** keyvalue_group: an array of lists of pairs *)
Inductive gop := GPush (i : nat) (k v : N) | GErase (i p : nat) | GWrite (i p : nat) (v : N) | GRead (i p : nat) | GSize (i : nat) | GFind (i : nat) (k : N).
Inductive gout := GUnit | GPair (e : N * N) | GNum (n : nat) | GPos (p : option nat).
Definition gspec_step (bss : list entries) (o : gop) : list entries * gout :=
  match o with
  | GPush i k v => (<[i := nth i bss [] ++ [(k, v)]]> bss, GUnit)
  | GErase i p => (<[i := delete p (nth i bss [])]> bss, GUnit)
  | GWrite i p v => (<[i := <[p := (fst (nth p (nth i bss []) (0, 0)%N), v)]> (nth i bss [])]> bss, GUnit)
  | GRead i p => (bss, GPair (nth p (nth i bss []) (0, 0)%N))
  | GSize i => (bss, GNum (length (nth i bss [])))
  | GFind i k => (bss, GPos (first_index k (fst <$> nth i bss [])))
  end.
Definition gvalid (kw vw : nat) (bss : list entries) (o : gop) : Prop :=
  match o with
  | GPush i k v => i < length bss /\ (k < 2^N.of_nat kw)%N /\ (v < 2^N.of_nat vw)%N /\ (N.of_nat (length (concat bss)) + 513 <= 2^32)%N
  | GErase i p | GRead i p => i < length bss /\ p < length (nth i bss [])
  | GWrite i p v => i < length bss /\ p < length (nth i bss []) /\ (v < 2^N.of_nat vw)%N
  | GSize i | GFind i _ => i < length bss
  end.
Fixpoint gvalid_ops (kw vw : nat) (bss : list entries) (ops : list gop) : Prop :=
  match ops with [] => True | o :: ops => gvalid kw vw bss o /\ gvalid_ops kw vw (fst (gspec_step bss o)) ops end.
Fixpoint gspec_run (bss : list entries) (ops : list gop) : list entries * list gout :=
  match ops with
  | [] => (bss, [])
  | o :: ops => let '(bss, r) := gspec_step bss o in let '(bss, rs) := gspec_run bss ops in (bss, r :: rs)
  end.
Definition grun_step (pf : platform) (bpg kw vw : nat) (g : kvgroup) (o : gop) : res (kvgroup * gout) :=
  match o with
  | GPush i k v => g ← kv_push pf g bpg i k kw v vw; Ok (g, GUnit)
  | GErase i p => g ← kv_erase pf g bpg i p kw vw; Ok (g, GUnit)
  | GWrite i p v => g ← kv_write_value pf g i p v vw; Ok (g, GUnit)
  | GRead i p => e ← kv_read pf g i p kw vw; Ok (g, GPair e)
  | GSize i => n ← kv_bucketsize g i; Ok (g, GNum n)
  | GFind i k => p ← kv_find pf g i k kw; Ok (g, GPos p)
  end.
Fixpoint grun (pf : platform) (bpg kw vw : nat) (g : kvgroup) (ops : list gop) : res (kvgroup * list gout) :=
  match ops with
  | [] => Ok (g, [])
  | o :: ops =>
      r ← grun_step pf bpg kw vw g o;
      let '(g, x) := (r : kvgroup * gout) in
      rs ← grun pf bpg kw vw g ops;
      let '(g, xs) := (rs : kvgroup * list gout) in Ok (g, x :: xs)
  end.
Lemma nth_bucket (bss : list entries) i : i < length bss -> bss !! i = Some (nth i bss []).
Proof. intros H. destruct (lookup_lt_is_Some_2 bss i H) as (es & He). rewrite He. f_equal. symmetry. by apply nth_lookup_Some with (d := []) in He. Qed.
Lemma nth_pair (es : entries) p : p < length es -> es !! p = Some (nth p es (0, 0)%N).
Proof. intros H. destruct (lookup_lt_is_Some_2 es p H) as (e & He). rewrite He. f_equal. symmetry. by apply nth_lookup_Some with (d := (0, 0)%N) in He. Qed.
Lemma kv_history pf kw vw : 1 <= kw <= 64 -> 1 <= vw <= 64 -> forall ops g bss, kv_rep True pf kw vw g bss ->
  gvalid_ops kw vw bss ops ->
  exists g', grun pf (length bss) kw vw g ops = Ok (g', snd (gspec_run bss ops))
    /\ kv_rep True pf kw vw g' (fst (gspec_run bss ops)).
Proof.
  intros Hk Hv. induction ops as [|o ops IH]; intros g bss H Hval; [by exists g|]. cbn [gvalid_ops gspec_run length] in *.
  destruct (gspec_step bss o) as [bss' r] eqn:Es. destruct Hval as [Ho HP]. cbn [fst snd] in *.
  assert (Hstep : exists g', grun_step pf (length bss) kw vw g o = Ok (g', r) /\ kv_rep True pf kw vw g' bss' /\ length bss' = length bss).
  { destruct o as [i k v|i p|i p v|i p|i|i k]; cbn [gspec_step gvalid grun_step] in *; injection Es as <- <-.
    - destruct Ho as (Hi & Hkk & Hvv & Hn). apply nth_bucket in Hi.
      destruct (kv_push_spec pf True True kw vw g bss i _ k v Hk Hv H Hi Hkk Hvv) as (g' & -> & Hg & _); [destruct H as (_ & -> & _); done|]. exists g'.
      split; [done|]. split; [done|]. apply insert_length.
    - destruct Ho as (Hi & Hp). apply nth_bucket in Hi.
      destruct (kv_erase_spec pf True kw vw g bss i _ p I Hk Hv H Hi Hp) as (g' & -> & Hg & _). exists g'.
      split; [done|]. split; [done|]. apply insert_length.
    - destruct Ho as (Hi & Hp & Hvv). apply nth_bucket in Hi. apply nth_pair in Hp.
      destruct (nth p (nth i bss []) (0, 0)%N) as [q v0] eqn:Ee.
      destruct (kv_write_spec pf True kw vw g bss i _ p q v0 v Hv H Hi Hp Hvv) as (g' & -> & Hg & _). exists g'.
      split; [done|]. split; [done|]. apply insert_length.
    - destruct Ho as (Hi & Hp). apply nth_bucket in Hi. apply nth_pair in Hp. destruct (nth p (nth i bss []) (0, 0)%N) as [q v0] eqn:Ee.
      rewrite (kv_read_spec pf True kw vw g bss i _ p q v0 Hk Hv H Hi Hp). by exists g.
    - apply nth_bucket in Ho. rewrite (kv_bucketsize_spec pf True kw vw g bss i _ H Ho). by exists g.
    - apply nth_bucket in Ho. rewrite (kv_find_spec pf True kw vw g bss i _ k Hk H Ho). by exists g. }
  destruct Hstep as (g' & E & Hg & Hl). cbn [grun]. rewrite E. cbn [mbind res_bind].
  destruct (IH g' bss' Hg) as (g2 & E2 & H2); [done|]. destruct (gspec_run bss' ops) as [css rs]. cbn [fst snd] in *. rewrite <-Hl, E2. cbn [mbind res_bind]. by exists g2.
Qed.

(** ** Bits left alone by erase and insert, for any block *)
Lemma copy_outside pf l f t n l' : cg_copy pf (Some l) (f, t, n) = Ok l' -> exists m : bits, l' = Some m /\ length m = length l
  /\ forall k, k < t \/ t + n <= k -> m !! k = l !! k.
Proof.
  unfold cg_copy. intros H. destruct (read_raw pf l (f / 64 * 64) (f mod 64) n) as [r| | |] eqn:E; cbn [mbind res_bind] in H; try done.
  destruct (write_raw pf l (t / 64 * 64) (t mod 64) r) as [l1| | |] eqn:E0; cbn [mbind res_bind] in H; try done. injection H as <-.
  apply read_raw_inv in E. apply write_raw_inv in E0 as (-> & Hl & _). subst.
  rewrite rdbits_length in Hl. rewrite pos64 in *. eexists. split; [done|]. split.
  { apply wrbits_length. rewrite rdbits_length. lia. }
  intros k Hk. rewrite wrbits_lookup by (rewrite rdbits_length; lia). rewrite decide_False; [done|]. rewrite rdbits_length. lia.
Qed.
Lemma copies_outside pf lo hi ms : Forall (fun m => lo <= snd (fst m) /\ snd (fst m) + snd m <= hi) ms -> forall l l',
  rfold (cg_copy pf) ms (Some l) = Ok l' -> exists m : bits, l' = Some m /\ length m = length l /\ forall k, k < lo \/ hi <= k -> m !! k = l !! k.
Proof.
  induction 1 as [|[[f t] n] ms [H1 H2] _ IH]; intros l l' H; cbn [rfold] in H.
  { injection H as <-. by exists l. }
  cbn [fst snd] in *. destruct (cg_copy pf (Some l) (f, t, n)) as [l1| | |] eqn:E; cbn [mbind res_bind] in H; try done.
  apply copy_outside in E as (m & -> & Hm & Ho). apply IH in H as (m' & -> & Hm' & Ho'). exists m'. split; [done|]. split; [lia|].
  intros k Hk. rewrite Ho' by done. apply Ho. lia.
Qed.
Lemma erase_moves_in i w n : i < n -> Forall (fun m => i * w <= snd (fst m) /\ snd (fst m) + snd m <= n * w) (erase_moves i w n).
Proof.
  intros Hi. unfold erase_moves. set (T := (n - i) * w). assert (HT : i * w + T = n * w) by (subst T; rewrite <-Nat.mul_add_distr_r; f_equal; lia).
  pose proof (Nat.div_mod T 64 ltac:(lia)) as Hd. pose proof (Nat.mod_upper_bound T 64 ltac:(lia)).
  apply Forall_app. split.
  - apply Forall_forall. intros m Hm. change (map ?f ?l) with (f <$> l) in Hm. apply elem_of_list_fmap in Hm as (j & -> & Hj). apply elem_of_seq in Hj. cbn [fst snd].
    assert (64 * j + 64 <= 64 * (T / 64)) by lia. lia.
  - destruct (T mod 64 =? 0); [constructor|]. constructor; [|constructor]. cbn [fst snd]. lia.
Qed.
Lemma erase_outside pf l i w n l' : i < n -> cg_erase pf (Some l) i w n = Ok l' ->
  exists m : bits, l' = Some m /\ length m = length l /\ forall k, k < i * w \/ n * w <= k -> m !! k = l !! k.
Proof.
  intros Hi H. unfold cg_erase in H. rewrite (proj2 (Nat.ltb_ge _ _) (Nat.lt_le_incl _ _ Hi)) in H. destruct (rfold (cg_copy pf) (erase_moves i w n) (Some l)) as [d| | |] eqn:E; cbn [mbind res_bind] in H; try done.
  assert (Hnm : cdiv (w * (n - 1)) 64 <= cdiv (w * n) 64) by (apply cdiv_mono, Nat.mul_le_mono_l; lia).
  rewrite (proj2 (Nat.ltb_ge _ _) Hnm), andb_false_r in H. injection H as <-.
  eapply copies_outside; [by apply erase_moves_in|done].
Qed.

(** insert into a block of at least n elements leaves the elements before i alone, also when the block is reallocated;
    without reallocation the bits after the n+1 elements as well. *)
Lemma insert_moves_in i w n : i <= n -> Forall (fun m => i * w <= snd (fst m) /\ snd (fst m) + snd m <= (n + 1) * w) (insert_moves i w n).
Proof.
  intros Hi. unfold insert_moves. set (T := (n - i) * w). assert (HT : i * w + T = n * w) by (subst T; rewrite <-Nat.mul_add_distr_r; f_equal; lia).
  pose proof (Nat.div_mod T 64 ltac:(lia)) as Hd. pose proof (Nat.mod_upper_bound T 64 ltac:(lia)).
  apply Forall_app. split.
  - apply Forall_forall. intros m Hm. change (map ?f ?l) with (f <$> l) in Hm. apply elem_of_list_fmap in Hm as (j & -> & Hj). apply elem_of_seq in Hj. cbn [fst snd].
    assert (64 * j + 64 <= 64 * (T / 64)) by lia. lia.
  - destruct (_ && _); [|constructor]. constructor; [|constructor]. cbn [fst snd]. lia.
Qed.
Lemma insert_outside pf l i x w n l' : i <= n -> n * w <= length l -> cg_insert pf (Some l) i x w n = Ok l' ->
  exists m : bits, l' = Some m /\ (forall k, k < i * w -> m !! k = l !! k)
    /\ (cdiv (w * n) 64 = cdiv (w * (n + 2)) 64 -> length m = length l /\ forall k, (n + 1) * w <= k -> m !! k = l !! k).
Proof.
  intros Hi Hn H. unfold cg_insert in H. rewrite (proj2 (Nat.ltb_ge _ _) Hi) in H. set (new := cdiv (w * (n + 2)) 64) in *.
  assert (Hiw : i * w <= n * w) by (by apply Nat.mul_le_mono_r).
  pose proof (cdiv_ge (w * n) 64 ltac:(lia)) as Hcd.
  destruct (_ <? new) eqn:Er.
  - apply Nat.ltb_lt in Er. cbn [mbind res_bind default from_option id] in H.
    set (l0 := wrbits _ _ _) in H.
    assert (Hl0 : forall k, k < i * w -> l0 !! k = l !! k).
    { intros k Hk. subst l0. rewrite wrbits_lookup by (rewrite replicate_length, rbits_length; lia). rewrite decide_False by lia.
      unfold realloc_bits. rewrite lookup_app_l by (rewrite take_length; lia). apply lookup_take. lia. }
    destruct (rfold (cg_copy pf) (insert_moves i w n) (Some l0)) as [d| | |] eqn:E; cbn [mbind res_bind] in H; try done.
    apply (copies_outside pf (i * w) ((n + 1) * w)) in E as (m & -> & Hm & Ho); [|by apply insert_moves_in].
    unfold cg_put, write_int in H. destruct (write_raw _ _ _ _ _) as [m'| | |] eqn:E; cbn [mbind res_bind] in H; try done. injection H as <-.
    apply write_raw_inv in E as (-> & Hl & _). rewrite pos64 in *. eexists. split; [done|]. split; [|lia].
    intros k Hk. rewrite wrbits_lookup by done. rewrite decide_False by lia. rewrite Ho by lia. by apply Hl0.
  - cbn [mbind res_bind] in H.
    destruct (rfold (cg_copy pf) (insert_moves i w n) (Some l)) as [d| | |] eqn:E; cbn [mbind res_bind] in H; try done.
    apply (copies_outside pf (i * w) ((n + 1) * w)) in E as (m & -> & Hm & Ho); [|by apply insert_moves_in].
    unfold cg_put, write_int in H. destruct (write_raw _ _ _ _ _) as [m'| | |] eqn:E; cbn [mbind res_bind] in H; try done. injection H as <-.
    apply write_raw_inv in E as (-> & Hl & _). rewrite pos64 in *.
    assert (Hb : length (map Some (bits_of w x)) = w) by (rewrite map_length; apply bits_of_length).
    eexists. split; [done|]. split.
    + intros k Hk. rewrite wrbits_lookup by done. rewrite decide_False by lia. by rewrite Ho by lia.
    + intros _. split; [by rewrite wrbits_length|]. intros k Hk. rewrite wrbits_lookup by done.
      rewrite decide_False; [by rewrite Ho by lia|]. rewrite Hb. assert ((i + 1) * w <= (n + 1) * w) by (apply Nat.mul_le_mono_r; lia). lia.
Qed.
