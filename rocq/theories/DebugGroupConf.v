(** Histories of the debug build of group_chaining: no check fails on valid calls; values and keys that do not fit are caught. *)
From Verif Require Export DebugGroupTable.
#[local] Open Scope nat_scope.

(** ** Histories of core_group *)
Definition dcrun_step (pf : platform) (w : nat) (dn : dcore * nat) (o : cop) : res (dcore * nat * cout) :=
  let '(d, n) := dn in
  match o with
  | CIns i x => d ← dc_insert pf d i x w n; Ok (d, S n, CUnit)
  | CDel i => d ← dc_erase pf d i w n; Ok (d, n - 1, CUnit)
  | CGet i => x ← dc_read pf d i w; Ok (d, n, CNum x)
  | CSet i x => d ← dc_write pf d i x w; Ok (d, n, CUnit)
  | CFind i m x => p ← dc_find pf d i m w x; Ok (d, n, CPos p)
  end.
Fixpoint dcrun (pf : platform) (w : nat) (dn : dcore * nat) (ops : list cop) : res (dcore * nat * list cout) :=
  match ops with
  | [] => Ok (dn, [])
  | o :: ops =>
      r ← dcrun_step pf w dn o;
      let '(dn, x) := (r : dcore * nat * cout) in
      rs ← dcrun pf w dn ops;
      let '(dn, xs) := (rs : dcore * nat * list cout) in Ok (dn, x :: xs)
  end.
Definition cstrip (dn : dcore * nat) : core * nat := (c_d (fst dn), snd dn).
(** find is called for at least one element (DDCHECK_GT(length, 0), line 312) *)
Definition cfind_some (o : cop) : Prop := match o with CFind _ n _ => 0 < n | _ => True end.

Lemma dcrun_step_eq pf w dn o dn' r : dcrun_step pf w dn o = Ok (dn', r) -> crun_step pf w (cstrip dn) o = Ok (cstrip dn', r).
Proof.
  destruct dn as [d n]. unfold cstrip. destruct o as [i x|i|i|i x|i m x]; cbn [dcrun_step crun_step fst snd]; intros H; dinv1 H; injection H as <- <-.
  - by rewrite (dc_insert_eq _ _ _ _ _ _ _ E).
  - by rewrite (dc_erase_eq _ _ _ _ _ _ E).
  - by rewrite (dc_read_eq _ _ _ _ _ E).
  - by rewrite (dc_write_eq _ _ _ _ _ _ E).
  - by rewrite (dc_find_eq _ _ _ _ _ _ _ E).
Qed.
Lemma dcrun_eq pf w : forall ops dn dn' rs, dcrun pf w dn ops = Ok (dn', rs) -> crun pf w (cstrip dn) ops = Ok (cstrip dn', rs).
Proof.
  induction ops as [|o ops IH]; intros dn dn' rs H; cbn [dcrun crun] in *; [by injection H as <- <-|]. dinv1 H. destruct a as [dn1 x].
  rewrite (dcrun_step_eq _ _ _ _ _ _ E). cbn [mbind res_bind]. dinv1 H. destruct a as [dn2 xs]. injection H as <- <-.
  by rewrite (IH _ _ _ E0).
Qed.
Lemma dcore_history pf w : 1 <= w <= 64 -> forall ops d xs, dcore_rep pf w d xs -> cvalid_ops w xs ops -> Forall cfind_some ops ->
  exists d', dcrun pf w (d, length xs) ops = Ok (d', length (fst (cspec_run xs ops)), snd (cspec_run xs ops))
    /\ dcore_rep pf w d' (fst (cspec_run xs ops)).
Proof.
  intros Hw. induction ops as [|o ops IH]; intros d xs H Hv HF; [by exists d|]. cbn [cvalid_ops cspec_run] in *. apply Forall_cons in HF as [Hpos HF].
  destruct (cspec_step xs o) as [xs' r] eqn:Es. destruct Hv as [Ho HP]. cbn [fst snd] in *.
  assert (Hstep : exists d', dcrun_step pf w (d, length xs) o = Ok (d', length xs', r) /\ dcore_rep pf w d' xs').
  { destruct o as [i x|i|i|i x|i n x]; cbn [cspec_step cvalid dcrun_step cfind_some] in *; injection Es as <- <-.
    - destruct Ho as [Hi Hx]. destruct (dcore_insert pf w d xs i x Hw H Hi Hx) as (d' & -> & Hd). exists d'. split; [|done].
      cbn [mbind res_bind]. do 3 f_equal. rewrite app_length, take_length. cbn [length]. rewrite drop_length. lia.
    - destruct (dcore_erase pf w d xs i Hw H Ho) as (d' & -> & Hd). exists d'. split; [|done]. cbn [mbind res_bind]. do 3 f_equal.
      rewrite length_delete by (by apply lookup_lt_is_Some_2). lia.
    - destruct (lookup_lt_is_Some_2 xs i Ho) as (x & Hx). rewrite (dcore_read pf w d xs i x Hw H Hx). exists d. split; [|done].
      cbn [mbind res_bind]. do 3 f_equal. symmetry. by apply nth_lookup_Some with (d := 0%N) in Hx.
    - destruct Ho as [Hi Hx]. destruct (dcore_write pf w d xs i x Hw H Hi Hx) as (d' & -> & Hd). exists d'. split; [|done].
      cbn [mbind res_bind]. by rewrite insert_length.
    - rewrite (dcore_find pf w d xs x n i Hw H Hpos Ho). exists d. done. }
  destruct Hstep as (d' & E & Hd). cbn [dcrun]. rewrite E. cbn [mbind res_bind].
  destruct (IH d' xs' Hd HP HF) as (d2 & E2 & H2). destruct (cspec_run xs' ops) as [ys rs]. cbn [fst snd] in *. rewrite E2. cbn [mbind res_bind]. by exists d2.
Qed.

(** ** Histories of keyvalue_group *)
Definition dgrun_step (pf : platform) (bpg kw vw : nat) (g : dkv) (o : gop) : res (dkv * gout) :=
  match o with
  | GPush i k v => g ← dkv_push pf g bpg i k kw v vw; Ok (g, GUnit)
  | GErase i p => g ← dkv_erase pf g bpg i p kw vw; Ok (g, GUnit)
  | GWrite i p v => g ← dkv_write_value pf g i p v vw; Ok (g, GUnit)
  | GRead i p => e ← dkv_read pf g i p kw vw; Ok (g, GPair e)
  | GSize i => n ← dkv_bucketsize g i; Ok (g, GNum n)
  | GFind i k => p ← dkv_find pf g i k kw; Ok (g, GPos p)
  end.
Fixpoint dgrun (pf : platform) (bpg kw vw : nat) (g : dkv) (ops : list gop) : res (dkv * list gout) :=
  match ops with
  | [] => Ok (g, [])
  | o :: ops =>
      r ← dgrun_step pf bpg kw vw g o;
      let '(g, x) := (r : dkv * gout) in
      rs ← dgrun pf bpg kw vw g ops;
      let '(g, xs) := (rs : dkv * list gout) in Ok (g, x :: xs)
  end.
Lemma dgrun_step_eq pf bpg kw vw g o g' r : dgrun_step pf bpg kw vw g o = Ok (g', r) -> grun_step pf bpg kw vw (kstrip g) o = Ok (kstrip g', r).
Proof.
  destruct o as [i k v|i p|i p v|i p|i|i k]; cbn [dgrun_step grun_step]; intros H; dinv1 H; injection H as <- <-.
  - by erewrite dkv_push_eq by done.
  - by erewrite dkv_erase_eq by done.
  - by erewrite dkv_write_value_eq by done.
  - by erewrite dkv_read_eq by done.
  - by erewrite dkv_bucketsize_eq by done.
  - by erewrite dkv_find_eq by done.
Qed.
Lemma dgrun_eq pf bpg kw vw : forall ops g g' rs, dgrun pf bpg kw vw g ops = Ok (g', rs) -> grun pf bpg kw vw (kstrip g) ops = Ok (kstrip g', rs).
Proof.
  induction ops as [|o ops IH]; intros g g' rs H; cbn [dgrun grun] in *; [by injection H as <- <-|]. dinv1 H. destruct a as [g1 x].
  rewrite (dgrun_step_eq _ _ _ _ _ _ _ _ E). cbn [mbind res_bind]. dinv1 H. destruct a as [g2 xs]. injection H as <- <-.
  by rewrite (IH _ _ _ E0).
Qed.
Lemma dkv_history pf kw vw : 1 <= kw <= 64 -> 1 <= vw <= 64 -> forall ops g bss, dkv_rep pf kw vw g bss ->
  gvalid_ops kw vw bss ops ->
  exists g', dgrun pf (length bss) kw vw g ops = Ok (g', snd (gspec_run bss ops))
    /\ dkv_rep pf kw vw g' (fst (gspec_run bss ops)).
Proof.
  intros Hk Hv. induction ops as [|o ops IH]; intros g bss H Hval; [by exists g|]. cbn [gvalid_ops gspec_run length] in *.
  destruct (gspec_step bss o) as [bss' r] eqn:Es. destruct Hval as [Ho HP]. cbn [fst snd] in *.
  assert (Hstep : exists g', dgrun_step pf (length bss) kw vw g o = Ok (g', r) /\ dkv_rep pf kw vw g' bss' /\ length bss' = length bss).
  { destruct o as [i k v|i p|i p v|i p|i|i k]; cbn [gspec_step gvalid dgrun_step] in *; injection Es as <- <-.
    - destruct Ho as (Hi & Hkk & Hvv & Hn). apply nth_bucket in Hi.
      destruct (dkv_push_spec pf kw vw g bss i _ k v Hk Hv H Hi Hkk Hvv) as (g' & -> & Hg & _); [destruct H as ((_ & Es & _) & _); cbn [kstrip g_size] in Es; rewrite Es; lia|]. exists g'.
      split; [done|]. split; [done|]. apply insert_length.
    - destruct Ho as (Hi & Hp). apply nth_bucket in Hi.
      destruct (dkv_erase_spec pf kw vw g bss i _ p Hk Hv H Hi Hp) as (g' & -> & Hg & _). exists g'.
      split; [done|]. split; [done|]. apply insert_length.
    - destruct Ho as (Hi & Hp & Hvv). apply nth_bucket in Hi. apply nth_pair in Hp.
      destruct (nth p (nth i bss []) (0, 0)%N) as [q v0] eqn:Ee.
      destruct (dkv_write_spec pf kw vw g bss i _ p q v0 v Hv H Hi Hp Hvv) as (g' & -> & Hg & _). exists g'.
      split; [done|]. split; [done|]. apply insert_length.
    - destruct Ho as (Hi & Hp). apply nth_bucket in Hi. apply nth_pair in Hp. destruct (nth p (nth i bss []) (0, 0)%N) as [q v0] eqn:Ee.
      rewrite (dkv_read_spec pf kw vw g bss i _ p q v0 Hk Hv H Hi Hp). by exists g.
    - apply nth_bucket in Ho. rewrite (dkv_bucketsize_spec pf kw vw g bss i _ H Ho). by exists g.
    - apply nth_bucket in Ho. rewrite (dkv_find_spec pf kw vw g bss i _ k Hk H Ho). by exists g. }
  destruct Hstep as (g' & E & Hg & Hl). cbn [dgrun]. rewrite E. cbn [mbind res_bind].
  destruct (IH g' bss' Hg) as (g2 & E2 & H2); [done|]. destruct (gspec_run bss' ops) as [css rs]. cbn [fst snd] in *. rewrite <-Hl, E2. cbn [mbind res_bind]. by exists g2.
Qed.

(** ** A value that does not fit *)
Section wide.
Context (pf : platform).
Lemma put_mod d off w x : cg_put pf d off w (x mod 2^N.of_nat w) = cg_put pf d off w x.
Proof. unfold cg_put, write_int. destruct d; [|done]. by rewrite bits_of_mod. Qed.
Lemma insert_mod d i x w n : cg_insert pf d i (x mod 2^N.of_nat w) w n = cg_insert pf d i x w n.
Proof.
  unfold cg_insert. cbv zeta. destruct (n <? i)%nat; [done|]. match goal with |- mbind _ ?m = _ => destruct m as [e| | |]; cbn [mbind res_bind]; try done end.
  destruct (rfold _ _ _) as [e'| | |]; cbn [mbind res_bind]; try done. apply put_mod.
Qed.

(** Inserting a number with more than w bits: either the comparison of the plain data with the cells fails, or, at the
    end of the group, the next read of that cell. *)
Lemma dcore_insert_wide w d xs i x : 1 <= w <= 64 -> dcore_rep pf w d xs -> i <= length xs -> (2^N.of_nat w <= x)%N ->
  dc_insert pf d i x w (length xs) = Throw
  \/ i = length xs /\ exists d', dc_insert pf d i x w (length xs) = Ok d' /\ dc_read pf d' i w = Throw.
Proof.
  intros Hw H Hi Hx. set (x0 := (x mod 2^N.of_nat w)%N). assert (Hx0 : (x0 < 2^N.of_nat w)%N) by (apply N.mod_lt; apply N.pow_nonzero; lia).
  destruct (dcore_insert pf w d xs i x0 Hw H Hi Hx0) as (d0 & E0 & H0). pose proof H as (_ & _ & El & _ & P & EP & HP).
  pose proof (take_len _ _ HP) as HlP.
  unfold dc_insert in *. rewrite (dcore_width pf _ _ _ H), EP, El in *. cbn [known of_option mbind res_bind] in *. rewrite N.eqb_refl in *. cbn [chk mbind res_bind] in *.
  rewrite (proj2 (Nat.ltb_ge _ _) Hi), (proj2 (Nat.ltb_ge _ _) HlP) in *. cbn [orb mbind res_bind] in *. cbv zeta in *.
  do 4 (dinv1 E0; cbn [chk mbind res_bind]). unfold x0 in E0. rewrite insert_mod in E0. fold x0 in E0. dinv1 E0. cbn [mbind res_bind]. dinv1 E0. injection E0 as <-.
  match goal with E : cg_insert _ _ _ _ _ _ = Ok ?b |- _ => rename E into Ey; set (y := b) in * end.
  set (d' := DCore y (c_kw d) (Some (N.of_nat (length xs + 1))) (Some (N.of_nat (cdiv (w * (length xs + 2)) 64))) (Some (take i P ++ x :: take (length xs - i) (drop i P)))).
  set (d0 := DCore y (c_kw d) (Some (N.of_nat (length xs + 1))) (Some (N.of_nat (cdiv (w * (length xs + 2)) 64))) (Some (take i P ++ x0 :: take (length xs - i) (drop i P)))) in *.
  assert (HiP : length (take i P) = i) by (rewrite take_length; lia).
  assert (Hpl : dc_plain d' i = Ok x) by (cbn; by rewrite lookup_app_r, HiP, Nat.sub_diag by lia).
  assert (Hpl0 : dc_plain d0 i = Ok x0) by (cbn; by rewrite lookup_app_r, HiP, Nat.sub_diag by lia).
  assert (Hxi : (take i xs ++ x0 :: drop i xs) !! i = Some x0) by (rewrite lookup_app_r by (rewrite take_length; lia); rewrite take_length; replace (i - i `min` length xs) with 0 by lia; done).
  assert (Hrd : dc_read pf d' i w = Throw).
  { pose proof (dcore_read pf w d0 _ i x0 Hw H0 Hxi) as Er. unfold dc_read in *. change (dc_width d' w) with (dc_width d0 w). change (c_len d') with (c_len d0). change (c_d d') with (c_d d0).
    rewrite Hpl. rewrite Hpl0 in Er. dinv_all Er. cbn [chk mbind res_bind].
    match goal with E : (x0 =? _)%N = true |- _ => apply N.eqb_eq in E; rewrite <-E end. rewrite (proj2 (N.eqb_neq _ _)) by lia.
    repeat match goal with |- mbind _ (chk ?b) = Throw => destruct b; cbn [chk mbind res_bind]; [|done] end. done. }
  destruct (decide (i = length xs)) as [Ei|Ei].
  2: { left. assert (Hc : dc_check pf d' (length xs) w = Throw); [|by rewrite Hc].
    unfold dc_check. replace (length xs) with (i + S (length xs - i - 1)) by lia. rewrite seq_app, rfold_app. cbn [Nat.add seq].
    assert (Hbelow : rfold (fun _ j => p ← dc_plain d' j; r ← dc_read pf d' j w; chk (p =? r)%N) (seq 0 i) tt = Ok tt).
    { apply rfold_tt. intros [] j Hj. apply elem_of_seq in Hj.
      assert (Hj1 : dc_plain d' j = dc_plain d0 j) by (cbn; by rewrite !lookup_app_l by lia).
      assert (Hj2 : dc_read pf d' j w = dc_read pf d0 j w) by (unfold dc_read; rewrite Hj1; done). rewrite Hj1, Hj2.
      destruct (lookup_lt_is_Some_2 (take i xs ++ x0 :: drop i xs) j) as (z & Hz); [rewrite app_length, take_length; cbn [length]; lia|].
      rewrite (dcore_plain pf w d0 _ j z H0 Hz), (dcore_read pf w d0 _ j z Hw H0 Hz). cbn [mbind res_bind]. by rewrite N.eqb_refl. }
    rewrite Hbelow. cbn [mbind res_bind rfold]. rewrite Hpl. cbn [mbind res_bind]. rewrite Hrd. done. }
  right. split; [done|]. exists d'. split; [|exact Hrd].
  assert (Hc : dc_check pf d' (length xs) w = Ok tt); [|by rewrite Hc].
  apply rfold_tt. intros [] j Hj. apply elem_of_seq in Hj.
  assert (Hj1 : dc_plain d' j = dc_plain d0 j) by (cbn; by rewrite !lookup_app_l by lia).
  assert (Hj2 : dc_read pf d' j w = dc_read pf d0 j w) by (unfold dc_read; rewrite Hj1; done). rewrite Hj1, Hj2.
  destruct (lookup_lt_is_Some_2 (take i xs ++ x0 :: drop i xs) j) as (z & Hz); [rewrite app_length, take_length; cbn [length]; lia|].
  rewrite (dcore_plain pf w d0 _ j z H0 Hz), (dcore_read pf w d0 _ j z Hw H0 Hz). cbn [mbind res_bind]. by rewrite N.eqb_refl.
Qed.

(** The same for push_back *)
Definition with_vals (g : dkv) (vs : dcore) : dkv := DKv (k_size g) (k_keys g) vs (k_border g) (k_blen g) (k_barr g) (k_gs g).
Lemma dkv_push_wide qw vw g bss i es q v : 1 <= qw <= 64 -> 1 <= vw <= 64 -> dkv_rep pf qw vw g bss -> bss !! i = Some es ->
  (q < 2^N.of_nat qw)%N -> (2^N.of_nat vw <= v)%N -> (k_size g + 513 <= 2^32)%N ->
  dkv_push pf g (length bss) i q qw v vw = Throw
  \/ exists g0 vs, dkv_push pf g (length bss) i q qw (v mod 2^N.of_nat vw) vw = Ok g0
     /\ dkv_push pf g (length bss) i q qw v vw = Ok (with_vals g0 vs) /\ dkv_read_value pf (with_vals g0 vs) i (length es) vw = Throw.
Proof.
  intros Hqw Hvw H He Hq Hv Hs. set (v0 := (v mod 2^N.of_nat vw)%N). assert (Hv0 : (v0 < 2^N.of_nat vw)%N) by (apply N.mod_lt; apply N.pow_nonzero; lia).
  pose proof (lookup_lt_Some _ _ _ He) as Hi.
  destruct (dkv_push_spec pf qw vw g bss i es q v0 Hqw Hvw H He Hq Hv0 Hs) as (g0 & E0 & H0 & _). rewrite E0.
  pose proof (dkv_position_spec pf qw vw g bss i H Hi) as Ep.
  pose proof H as ((_ & Esz & _) & Hvals & _). cbn [kstrip g_size] in Esz.
  assert (Hpos : off bss (S i) + i - i <= length ((concat bss).*2)) by (rewrite fmap_length; pose proof (off_le bss (S i)); lia).
  assert (Hvr : dcore_rep pf vw (k_vals g) (concat bss).*2) by apply H.
  pose proof (dcore_insert_wide vw (k_vals g) _ _ v Hvw Hvr Hpos Hv) as Hcase. rewrite fmap_length in Hcase.
  unfold dkv_push in *. rewrite Ep in *. dinv1 E0. cbn [mbind res_bind chk] in *. dinv1 E0. cbn [mbind res_bind]. 
  replace (N.to_nat (k_size g)) with (length (concat bss)) in * by lia.
  destruct Hcase as [->|(Hend & vs & -> & Hrd)]; [by left|]. right. cbn [mbind res_bind]. exists g0, vs. split; [done|].
  assert (Hread : dkv_read_value pf (with_vals g0 vs) i (length es) vw = Throw).
  { assert (Hi' : i < length (<[i := es ++ [(q, v0)]]> bss)) by (by rewrite insert_length). unfold dkv_read_value.
    change (dkv_index (with_vals g0 vs) i) with (dkv_index g0 i). change (dkv_begin (with_vals g0 vs) i) with (dkv_begin g0 i).
    rewrite (dkv_index_ok pf qw vw g0 _ i H0 Hi'), (dkv_begin_spec pf qw vw g0 _ i H0 Hi'). cbn [mbind res_bind with_vals k_vals].
    pose proof (off_upd bss i es (es ++ [(q, v0)]) i He) as Hoff. rewrite Nat.ltb_irrefl in Hoff. pose proof (off_S bss i es He).
    replace (off (<[i:=es ++ [(q, v0)]]> bss) i + i + length es - i) with (off bss (S i) + i - i) by lia. exact Hrd. }
  split; [|exact Hread]. dinv1 E0. dinv1 E0. cbn [mbind res_bind]. dinv1 E0. cbn [mbind res_bind]. cbv zeta in *. dinv1 E0. cbn [chk mbind res_bind]. dinv1 E0. cbn [mbind res_bind].
  dinv1 E0. injection E0 as <-.
  match goal with E : dkv_check ?g _ = Ok ?u |- mbind _ (dkv_check ?g' ?n) = _ => assert (E' : dkv_check g' n = Ok u) by exact E; rewrite E' end. done.
Qed.
End wide.
#[local] Close Scope nat_scope.

(** ** Tables *)
Section table.
Context (pf : platform) (c : gcfg) (kw vw bmin : N).
Hypothesis OK : group_ok c kw vw bmin.
Notation bmax := (zbmax (gc_hash c) kw).
Notation bq := (zq (gc_hash c) (gc_keybits c) 64 kw).
Notation bb := (zb (gc_hash c) (gc_keybits c) 64 kw).
Notation bw b := (N.to_nat (zw (gc_hash c) (gc_keybits c) 64 kw b)).
Notation vwn := (N.to_nat vw).
Notation qent := (qent c kw).
Notation qbss := (qbss c kw).
Notation dgrep := (dgrep pf c kw vw bmin).
Notation dgzero := (dgzero kw vw).
Notation dgrepr := (dgrepr pf c kw vw).
Local Lemma Hho' : hash_ok (gc_hash c) (gc_keybits c) 64 kw bmin.
Proof. apply OK. Qed.

Definition dgmrep (t : dgtable) (m : gmap N N) : Prop := mrep dgrep dgzero t m.
Lemma debug_group_run fuel ops t m : (64 <= fuel)%nat -> dgmrep t m -> valid_ops kw vw bmin bmax ops ->
  exists t', m_run_ops (dg_impl pf c fuel) t ops = Ok (t', snd (spec_run m ops)) /\ dgmrep t' (fst (spec_run m ops)).
Proof.
  intros Hf HR Hv. destruct (m_run_rep _ _ _ _ _ _ _ _ _ _ _ _ _ _ (debug_group_chain pf c kw vw bmin OK fuel Hf) ops t m HR Hv) as (t' & rs & E & Hr & HR').
  rewrite (oout_eq _ _ Hr) in E. by exists t'.
Qed.

(** *** Iteration *)
Lemma dfirst_bucket b g bss : dgrepr b g bss -> forall n r, (r + n = length bss)%nat -> exists x, dg_first_bucket g n r = Ok x.
Proof.
  intros H. induction n as [|n IH]; intros r Hr; cbn [dg_first_bucket]; [by eexists|].
  destruct (lookup_lt_is_Some_2 bss r ltac:(lia)) as (es & He). destruct (dgrepr_bucketsize _ _ _ _ _ _ _ _ _ H He) as [-> _]. cbn [mbind res_bind].
  destruct (0 <? length es)%nat; [by eexists|]. apply IH. lia.
Qed.
Lemma dbegin_scan t : forall gs gi, (forall g, g ∈ gs -> exists bss, dgrepr (dg_b t) g bss /\ length bss = gbpg (gstrip t)) -> exists x, dg_begin_scan t gs gi = Ok x.
Proof.
  induction gs as [|g gs IH]; intros gi H; cbn [dg_begin_scan]; [by eexists|].
  assert (E : exists r, (if k_size g =? 0 then Ok None else dg_first_bucket g (gbpg (gstrip t)) 0) = Ok r).
  { destruct (k_size g =? 0); [by eexists|]. destruct (H g) as (bss & Hr & Hl); [left|]. by eapply dfirst_bucket. }
  destruct E as (r & ->). cbn [mbind res_bind]. destruct r; [by eexists|]. apply IH. intros g' Hg'. apply H. by right.
Qed.
Lemma dbegin t ess : dgrep t ess -> exists x, dg_begin t = Ok x /\ g_begin (gstrip t) = Ok x.
Proof.
  intros H. assert (E : exists x, dg_begin t = Ok x); [|destruct E as (x & E); exists x; split; [done|by apply dg_begin_eq]].
  destruct (dgroups _ _ _ _ _ OK _ _ H) as (gs & Hgs & Hgc & _). destruct (dr_groups _ _ _ _ _ _ _ H) as (gs' & Hgs' & Hg). rewrite Hgs in Hgs'. injection Hgs' as <-.
  unfold dg_begin. rewrite Hgc, Hgs. cbn [mbind res_bind]. change (default [] (Some gs)) with gs. rewrite N.ltb_irrefl, Nat2N.id, take_ge by lia.
  apply dbegin_scan. intros g Hin. apply elem_of_list_lookup in Hin as (i & Hi). exists (chunk (gbpg (gstrip t)) ess i). split; [by apply Hg|apply chunk_length].
Qed.
Lemma dforward t ess f : dgrep t ess -> (length (concat ess) <= f)%nat -> dg_forward pf c f t = Ok (concat ess).
Proof.
  intros H Hf. pose proof (dshows _ _ _ _ _ OK _ _ H) as Hsh. unfold dg_forward. destruct (dbegin _ _ H) as (x & -> & Ex). cbn [mbind res_bind].
  destruct (begin_spec _ _ _ _ _ _ OK _ _ (dr_rep _ _ _ _ _ _ _ H)) as [(r & es & E & He & Hne & Hemp)|[E Hc]]; rewrite Ex in E; injection E as ->.
  - destruct (v_iterate_first _ _ _ _ Hsh r es f He Hne Hemp Hf) as (l & -> & HF). by rewrite (oent_eq _ _ HF).
  - rewrite Hc. by eapply v_iterate_end_nav.
Qed.
Lemma dforward0 t f : dgzero t -> dg_forward pf c f t = Ok [].
Proof.
  intros [(_ & _ & Hb & _ & Hg & _) Hgs]. unfold dg_forward, dg_begin, g_group_count. rewrite Hg, Hgs. cbn [mbind res_bind default length N.of_nat N.ltb].
  assert (Ee : vn_eq (dg_view pf c t) end_nav end_nav = Ok true).
  { unfold vn_eq, vn_invalid, end_nav. cbn [dg_view v_count]. unfold g_bucket_count. by rewrite Hb. }
  cbn. destruct f; cbn [v_iterate]; by rewrite Ee.
Qed.
Lemma dgmrep_forward t m f : dgmrep t m -> (size m <= f)%nat -> exists l, dg_forward pf c f t = Ok l /\ l ≡ₚ map_to_list m.
Proof.
  intros [[HZ ->]|(ess & H & <-)] Hf.
  - exists []. split; [by apply dforward0|by rewrite map_to_list_empty].
  - pose proof (gr_nodup _ _ _ _ _ _ _ _ (dr_rep _ _ _ _ _ _ _ H)) as Hnd. rewrite emap_size in Hf by done. exists (concat ess). split; [by apply dforward|].
    symmetry. by apply map_to_list_to_map.
Qed.

(** *** A new key with a value that does not fit *)
Let bwr := bw_range c kw vw bmin OK.
Let vwr := vw_range c kw vw bmin OK.
Lemma dpush_wide f t ess es k v : dgrep t ess -> k < 2^kw -> 2^vw <= v -> ess !! N.to_nat (bb (dg_b t) k) = Some es ->
  first_index k (keys_of es) = None -> gfullb (gstrip t) ess (bb (dg_b t) k) = false -> dg_find_or_insert pf c (S f) t k v = Throw.
Proof.
  intros H Hk Hv He Hnone Hfull. destruct (dg_enter _ _ _ _ _ OK _ _ H) as [F1 F2]. pose proof (dbb _ _ _ _ _ _ _ H) as Hb.
  destruct (dgroup_at _ _ _ _ _ OK _ _ _ _ H He) as (gs & g & Hgs & Hg & Eg & Hr & Hc). destruct (dgrepr_bucketsize _ _ _ _ _ _ _ _ _ Hr Hc) as [Es H255].
  destruct (dplain_at _ _ _ _ _ OK _ _ _ _ H He) as (ps & p & Hps & Hpl & Ep & Hp).
  set (bk := bb (dg_b t) k) in *. set (bss := chunk (gbpg (gstrip t)) ess (N.to_nat bk / gbpg (gstrip t))) in *.
  assert (Hbl : length bss = gbpg (gstrip t)) by apply chunk_length. unfold gfullb in Hfull. fold bss in Hfull. apply Nat.eqb_neq in Hfull.
  pose proof Hr as (Hr255 & H127 & _). pose proof (bwr _ Hb) as Hbw. pose proof (dz_map _ _ _ _ OK _ _ Hb Hk) as [_ Hinv]. fold bk in Hinv.
  destruct (z_map _ _ _ _ _ Hho' _ _ Hb Hk) as (_ & _ & Hq & _).
  assert (Hv' : 2^N.of_nat vwn <= v) by (by rewrite N2Nat.id).
  set (v0 := v mod 2^N.of_nat vwn). assert (Hv0 : v0 < 2^N.of_nat vwn) by (apply N.mod_lt; apply N.pow_nonzero; lia).
  assert (Hg1 : exists g1, (match k_border g with Some _ => Ok g | None => dkv_init g (gbpg (gstrip t)) (bw (dg_b t)) vwn end) = Ok g1
     /\ dkv_rep pf (bw (dg_b t)) vwn g1 (qbss (dg_b t) bss) /\ k_size g1 = k_size g).
  { destruct Hr as (_ & _ & [[Hf Hem]|Hr]).
    - destruct Hf as (Z & Hbo & [Hba _] & K1 & K2 & V1 & V2). rewrite Hbo.
      destruct (dkv_init_spec pf (bw (dg_b t)) vwn g (gbpg (gstrip t))) as (g1 & E1 & H1 & Z1); try done; try lia; try apply vwr.
      exists g1. split; [done|]. split; [|by rewrite Z]. by rewrite (qbss_nil _ _ _ _ OK _ _ (gbpg (gstrip t)) Hbl Hem).
    - pose proof Hr as ((_ & _ & _ & _ & _ & ws & Hws & _) & _). cbn [kstrip g_border] in Hws. rewrite Hws. eauto. }
  destruct Hg1 as (g1 & Eg1 & Hg1 & Es1).
  assert (Hqb : qbss (dg_b t) bss !! g_rank (gstrip t) bk = Some (qent (dg_b t) <$> es)) by (by apply qbss_lookup).
  assert (Hs1 : k_size g1 + 513 <= 2^32) by (rewrite Es1, (dgrepr_size _ _ _ _ _ _ _ Hr); lia).
  assert (Hq' : bq (dg_b t) k < 2^N.of_nat (bw (dg_b t))) by (by apply small_n).
  pose proof (dkv_push_wide pf (bw (dg_b t)) vwn g1 _ (g_rank (gstrip t) bk) (qent (dg_b t) <$> es) (bq (dg_b t) k) v Hbw vwr Hg1 Hqb Hq' Hv' Hs1) as Hcase.
  destruct (dkv_push_spec pf (bw (dg_b t)) vwn g1 _ (g_rank (gstrip t) bk) (qent (dg_b t) <$> es) (bq (dg_b t) k) v0 Hbw vwr Hg1 Hqb Hq' Hv0 Hs1) as (g2 & E2 & Hg2 & Hs2).
  rewrite qbss_length, Hbl in E2, Hcase.
  assert (Hr2 : dgrepr (dg_b t) g2 (<[g_rank (gstrip t) bk := es ++ [(k, v0)]]> bss)).
  { split; [|split; [by rewrite insert_length|]].
    - rewrite (Permutation_length (concat_upd_push _ _ _ (k, v0) Hc)). cbn [length]. lia.
    - right. rewrite qbss_insert, fmap_app. exact Hg2. }
  assert (Hc2 : <[g_rank (gstrip t) bk := es ++ [(k, v0)]]> bss !! g_rank (gstrip t) bk = Some (es ++ [(k, v0)])).
  { apply list_lookup_insert. by eapply lookup_lt_Some. }
  assert (Hlast : (es ++ [(k, v0)]) !! length es = Some (k, v0)) by (by rewrite lookup_app_r, Nat.sub_diag by lia).
  set (p' := if p_size p =? 0 then DPlain (Some [k]) (Some [v]) 1 else DPlain (Some (es.*1 ++ [k])) (Some (es.*2 ++ [v])) (u32 (p_size p + 1))).
  pose proof (prep_push _ _ _ _ OK p es k v (proj1 Hp) H255) as Hp'. fold p' in Hp'.
  assert (Epush : dg_push pf c t bk (bq (dg_b t) k) k v g (length es) = Throw).
  { unfold dg_push. cbv zeta. rewrite (dwidth _ _ _ _ OK (dg_set_n t (u64 (dg_n t + 1))) (dkw _ _ _ _ _ _ _ H) Hb). cbn [mbind res_bind].
    change (gqw c (gstrip (dg_set_n t (u64 (dg_n t + 1))))) with (gqw c (gstrip t)). change (gvw (gstrip (dg_set_n t (u64 (dg_n t + 1))))) with (gvw (gstrip t)).
    change (gbpg (gstrip (dg_set_n t (u64 (dg_n t + 1))))) with (gbpg (gstrip t)). change (g_rank (gstrip (dg_set_n t (u64 (dg_n t + 1))))) with (g_rank (gstrip t)).
    change (g_max_key (gstrip (dg_set_n t (u64 (dg_n t + 1))))) with (g_max_key (gstrip t)). change (dg_b (dg_set_n t (u64 (dg_n t + 1)))) with (dg_b t).
    change (dg_kw (dg_set_n t (u64 (dg_n t + 1)))) with (dg_kw t). change (dg_pl (dg_set_n t (u64 (dg_n t + 1))) bk) with (dg_pl t bk).
    rewrite (dqw_eq c kw t), (dvw_eq vw t) by (try apply (dkw _ _ _ _ _ _ _ H); apply (dvw _ _ _ _ _ _ _ H)). rewrite Eg1. cbn [mbind res_bind]. rewrite Ep. cbn [mbind res_bind].
    destruct Hp as [[Hps0 Hps1] Hps2]. rewrite Hps0, N.eqb_refl. cbn [chk mbind res_bind].
    assert (Epp : (if N.of_nat (length es) =? 0 then
         _ ← chk (match p_keys p with None => true | _ => false end);
         _ ← chk (match p_vals p with None => true | _ => false end);
         Ok (DPlain (Some [k]) (Some [v]) 1)
       else
         match p_keys p, p_vals p with
         | Some ks, Some vs =>
             if (length ks <? length es)%nat || (length vs <? length es)%nat then Ub OobRead
             else Ok (DPlain (Some (take (length es) ks ++ [k])) (Some (take (length es) vs ++ [v])) (u32 (N.of_nat (length es) + 1)))
         | _, _ => Ub NullDeref
         end) = Ok p').
    { subst p'. rewrite Hps0. destruct es as [|e es].
      - destruct Hps2 as [-> ->]; [done|]. done.
      - destruct Hps1 as [-> ->]; [done|]. rewrite (proj2 (N.eqb_neq _ _)) by (cbn [length]; lia). rewrite !fmap_length, !Nat.ltb_irrefl. cbn [orb].
        rewrite !take_ge by (by rewrite fmap_length). done. }
    rewrite Epp. cbn [mbind res_bind]. rewrite (dmax_key _ _ _ _ OK t k (dkw _ _ _ _ _ _ _ H) Hk). cbn [chk mbind res_bind].
    rewrite (proj2 (Nat.ltb_lt _ _)) by (apply pos_small; lia). cbn [chk mbind res_bind].
    rewrite (proj2 (Nat.leb_le _ _)) by lia. cbn [chk mbind res_bind].
    destruct Hcase as [->|(g0 & vs & E0 & -> & Hrd)]; [done|]. fold v0 in E0. rewrite E2 in E0. injection E0 as <-. cbn [mbind res_bind].
    change (dkv_bucketsize (with_vals g2 vs)) with (dkv_bucketsize g2). change (dkv_read_key pf (with_vals g2 vs)) with (dkv_read_key pf g2).
    destruct (dgrepr_bucketsize _ _ _ _ _ _ _ _ _ Hr2 Hc2) as [-> _]. cbn [mbind res_bind]. destruct Hp' as [[Hs' Hcell'] _]. rewrite Hs', !app_length, N.eqb_refl. cbn [chk mbind res_bind].
    rewrite (dgrepr_key _ _ _ _ _ OK _ _ _ _ _ _ _ _ Hb Hr2 Hc2 Hlast). cbn [mbind res_bind]. rewrite (dkw _ _ _ _ _ _ _ H), Hinv. cbn [mbind res_bind]. rewrite N.eqb_refl. cbn [chk mbind res_bind].
    assert (Hlast' : (es ++ [(k, v)]) !! length es = Some (k, v)) by (by rewrite lookup_app_r, Nat.sub_diag by lia).
    destruct (prep0_cells _ _ _ _ _ (conj Hs' Hcell') Hlast') as [_ ->]. cbn [mbind res_bind]. rewrite fmap_length in Hrd. rewrite Hrd. done. }
  cbn [dg_find_or_insert]. rewrite F1, F2. cbn [chk mbind res_bind]. rewrite (dmap_ok _ _ _ _ OK t k (dkw _ _ _ _ _ _ _ H) Hb Hk). cbn [mbind res_bind]. fold bk.
  rewrite Eg. cbn [mbind res_bind]. rewrite Es. cbn [mbind res_bind]. subst bk. rewrite (dlocate _ _ _ _ _ OK _ _ _ _ H Hk He), Hnone. cbn [mbind res_bind fmap option_fmap option_map].
  unfold g_max_group. rewrite (proj2 (N.eqb_neq _ _)) by (rewrite (dgrepr_size _ _ _ _ _ _ _ Hr); lia). rewrite Epush. done.
Qed.
Lemma foi_wide fuel : (64 <= fuel)%nat -> forall f t ess k v, dgrep t ess -> (N.to_nat (bmax - dg_b t) < f)%nat -> k < 2^kw -> 2^vw <= v ->
  emap (concat ess) !! k = None -> dg_find_or_insert pf c f t k v = Throw.
Proof.
  intros Hfuel. pose proof (debug_group_chain pf c kw vw bmin OK fuel Hfuel) as C.
  induction f as [|f IH]; intros t ess k v HR Hf Hk Hv Hnk; [lia|].
  destruct (ch_bucket _ _ _ _ _ _ _ _ _ _ _ _ _ _ C _ _ _ HR Hk) as (es & He). pose proof (ch_lookup _ _ _ _ _ _ _ _ _ _ _ _ _ _ C _ _ _ _ HR He) as Hl.
  pose proof (ch_bits _ _ _ _ _ _ _ _ _ _ _ _ _ _ C _ _ HR) as Hb. pose proof (ch_b _ _ _ _ _ _ _ _ _ _ _ _ _ _ C) as Hbb.
  destruct (first_index k (keys_of es)) as [p|] eqn:Ep; [destruct Hl as (v0 & Hm & _); congruence|].
  destruct (gfullb (gstrip t) ess (bb (dg_b t) k)) eqn:Efull; [|by eapply dpush_wide].
  assert (Hnk' : k ∉ keys_of (concat ess)) by (by apply emap_None).
  pose proof (ch_grow _ _ _ _ _ _ _ _ _ _ _ _ _ _ C t ess k HR Hk Hnk' Efull) as Hlt.
  rewrite (dfull _ _ _ _ _ OK f t ess es k v HR Hk He Ep Efull).
  rewrite shl64_1 by lia. cbn [mbind res_bind].
  assert (Hlog : N.log2_up (2^(dg_b t + 1)) = dg_b t + 1) by (apply N.log2_up_pow2; lia).
  destruct (ch_resv _ _ _ _ _ _ _ _ _ _ _ _ _ _ C t ess (2^(dg_b t + 1)) HR) as (tmp & ess0 & fin & HR0 & Hc0 & Hb0 & Hfin & ->).
  { split; [pose proof (pow2_pos (dg_b t + 1)); lia|]. apply pow2_le_63. lia. }
  { rewrite Hlog. lia. }
  rewrite Hlog in Hb0.
  destruct (ins_fold_spec kw vw dg_b dgrep (dg_find_or_insert pf c f) (dg_b t + 1)) with (E := concat ess) (tmp := tmp) (ess0 := ess0)
    as (t1 & ess1 & -> & HR1 & Hb1 & HP1); [|done|lia| |intros; eapply (ch_range _ _ _ _ _ _ _ _ _ _ _ _ _ _ C); [exact HR|done]|].
  { intros t2 ess2 k2 v2 HR2 Hb2 Hk2 Hv2. apply (foi_spec _ _ _ _ _ _ _ _ _ _ _ _ _ _ C); [done| |done|done]. pose proof (ch_bits _ _ _ _ _ _ _ _ _ _ _ _ _ _ C _ _ HR2). lia. }
  { rewrite Hc0, app_nil_r. by eapply (ch_nodup _ _ _ _ _ _ _ _ _ _ _ _ _ _ C). }
  cbn [mbind res_bind]. rewrite Hc0, app_nil_r in HP1. rewrite (Hfin _ _ HR1 HP1). cbn [mbind res_bind].
  eapply IH; [exact HR1| |done|done|]; [pose proof (ch_bits _ _ _ _ _ _ _ _ _ _ _ _ _ _ C _ _ HR1); lia|].
  assert (Em : emap (concat ess1) = emap (concat ess)).
  { apply emap_perm; [by eapply (ch_nodup _ _ _ _ _ _ _ _ _ _ _ _ _ _ C)|done]. }
  by rewrite Em.
Qed.
Lemma insert_wide fuel t m k v : (64 <= fuel)%nat -> dgmrep t m -> k < 2^kw -> 2^vw <= v -> m !! k = None -> dg_find_or_insert pf c fuel t k v = Throw.
Proof.
  intros Hf HR Hk Hv Hm. pose proof (debug_group_chain pf c kw vw bmin OK fuel Hf) as C.
  assert (Hgo : forall t ess, dgrep t ess -> emap (concat ess) = m -> dg_find_or_insert pf c fuel t k v = Throw).
  { intros t' ess H He. eapply (foi_wide fuel Hf); [exact H|by eapply (ch_fuel_enough _ _ _ _ _ _ _ _ _ _ _ _ _ _ C)|done|done|by rewrite He]. }
  destruct HR as [[Hz ->]|(ess & HR & He)]; [|by eapply Hgo]. destruct fuel as [|f]; [lia|].
  destruct (ch_first _ _ _ _ _ _ _ _ _ _ _ _ _ _ C f t Hz) as (t1 & ess1 & HR1 & Hc1 & ->).
  eapply Hgo; [exact HR1|]. by rewrite Hc1.
Qed.

Lemma insert_throws_iff fuel t m k v : (64 <= fuel)%nat -> dgmrep t m -> k < 2^kw ->
  (dg_find_or_insert pf c fuel t k v = Throw <-> m !! k = None /\ 2^vw <= v)
  /\ (~ (m !! k = None /\ 2^vw <= v) -> exists t' x, dg_find_or_insert pf c fuel t k v = Ok (t', x) /\ dgmrep t' (match m !! k with None => <[k := v]> m | Some _ => m end)).
Proof.
  intros Hf HR Hk. pose proof (debug_group_chain pf c kw vw bmin OK fuel Hf) as C.
  assert (Hok : ~ (m !! k = None /\ 2^vw <= v) -> exists t' x, dg_find_or_insert pf c fuel t k v = Ok (t', x) /\ dgmrep t' (match m !! k with None => <[k := v]> m | Some _ => m end)).
  { intros Hn. destruct (N.lt_ge_cases v (2^vw)) as [Hv|Hv].
    - destruct (insert_rep_gen _ _ _ _ _ _ _ _ _ _ _ _ _ _ C t m k v HR Hk Hv) as (t' & x & ess & E & HR' & Hpost). cbn [dg_impl i_insert] in E. exists t', x. split; [done|].
      right. exists ess. split; [done|]. destruct (m !! k) as [v0|] eqn:Em; apply Hpost.
    - destruct (m !! k) as [v0|] eqn:Em; [|by destruct Hn]. destruct HR as [[_ ->]|(ess & HR & He)]; [done|].
      destruct (ch_bucket _ _ _ _ _ _ _ _ _ _ _ _ _ _ C _ _ _ HR Hk) as (es & Hes). pose proof (ch_lookup _ _ _ _ _ _ _ _ _ _ _ _ _ _ C _ _ _ _ HR Hes) as Hl.
      destruct (first_index k (keys_of es)) as [p|] eqn:Ep; [|rewrite He in Hl; congruence]. destruct fuel as [|g]; [lia|].
      rewrite (ch_found _ _ _ _ _ _ _ _ _ _ _ _ _ _ C g t ess es k v p HR Hk Hes Ep). eexists t, _. split; [done|]. right. by exists ess. }
  split; [|done]. split.
  - intros E. destruct (decide (m !! k = None /\ 2^vw <= v)) as [D|D]; [done|]. destruct (Hok D) as (? & ? & E' & _). congruence.
  - intros [Hm Hv]. by eapply insert_wide.
Qed.

(** *** A key that does not fit *)
Lemma dgmap_wide t k f : gc_hash c = HBij f -> 1 <= dg_kw t <= 64 -> 2^(dg_kw t) <= k -> dg_map c t k = Throw.
Proof.
  intros Hh Hw Hk. unfold dg_map, dhash_map, ghm. cbn [h_kind h_width]. rewrite Hh.
  rewrite (proj2 (N.leb_le 1 _)), (proj2 (N.leb_le _ 64)) by lia. cbn [andb]. unfold dbij_hash. rewrite mask_ones, N.ones_equiv by done.
  rewrite (proj2 (N.leb_gt _ _)) by lia. done.
Qed.
Lemma insert_wide_key fuel t m k v f : (64 <= fuel)%nat -> dgmrep t m -> gc_hash c = HBij f -> 2^kw <= k -> dg_find_or_insert pf c fuel t k v = Throw.
Proof.
  intros Hf HR Hh Hk. pose proof (debug_group_chain pf c kw vw bmin OK fuel Hf) as C. pose proof (dkw_range _ _ _ _ OK).
  destruct fuel as [|g]; [lia|].
  assert (Hgo : forall t ess, dgrep t ess -> dg_find_or_insert pf c (S g) t k v = Throw).
  { intros t' ess H'. destruct (dg_enter _ _ _ _ _ OK _ _ H') as [F1 F2]. cbn [dg_find_or_insert]. rewrite F1, F2. cbn [chk mbind res_bind].
    rewrite (dgmap_wide _ _ f) by (try done; rewrite (dkw _ _ _ _ _ _ _ H'); lia). done. }
  destruct HR as [[Hz ->]|(ess & HR & He)]; [|by eapply Hgo].
  destruct (ch_first _ _ _ _ _ _ _ _ _ _ _ _ _ _ C g t Hz) as (t1 & ess1 & HR1 & Hc1 & ->). by eapply Hgo.
Qed.
Lemma find_wide_key t m k f : dgmrep t m -> gc_hash c = HBij f -> 2^kw <= k -> dg_b t <> 0 -> dg_find pf c t k = Throw.
Proof.
  intros HR Hh Hk Hb. pose proof (dkw_range _ _ _ _ OK). destruct HR as [[[(_ & _ & Hz & _) _] _]|(ess & HR & He)]; [done|].
  unfold dg_find. rewrite (proj2 (N.eqb_neq _ _) Hb). rewrite (dgmap_wide _ _ f) by (try done; rewrite (dkw _ _ _ _ _ _ _ HR); lia). done.
Qed.
End table.
(** write_value refuses the value in every state *)
Lemma write_wide pf t bk pos v : bk < g_bucket_count (gstrip t) -> g_max_value (gstrip t) < v -> dg_write_value pf t (bk, pos) v = Throw.
Proof.
  intros Hb Hv. unfold dg_write_value. rewrite (proj2 (N.eqb_neq _ _)), (proj2 (N.ltb_lt bk _)) by lia. cbn [chk mbind res_bind].
  by rewrite (proj2 (N.leb_gt _ _)) by lia.
Qed.

(** reserve(n, nkw) on a table with buckets *)
Lemma dreserve_width pf c kw vw bmin fuel t ess n nkw bmin' : group_ok c kw vw bmin -> (64 <= fuel)%nat -> dgrep pf c kw vw bmin t ess -> group_ok c nkw vw bmin' ->
  1 <= n <= 2^63 -> bmin' <= N.log2_up n <= zbmax (gc_hash c) nkw -> (forall k v, (k, v) ∈ concat ess -> k < 2^nkw) ->
  exists t' ess', dg_reserve pf c fuel t n nkw = Ok t' /\ dgrep pf c nkw vw bmin' t' ess' /\ concat ess' ≡ₚ concat ess.
Proof.
  intros OK Hf H OK' Hn Hb Hk. pose proof (ho_kw _ _ _ _ _ (go_hash _ _ _ _ OK')) as Hnkw. pose proof (zbmax_le _ _ _ _ _ (go_hash _ _ _ _ OK')).
  assert (Hlog : N.log2_up (2^N.log2_up n) = N.log2_up n) by (apply N.log2_up_pow2; lia).
  destruct (dalloc pf c nkw vw bmin' OK' (DGTable None 0 0 nkw vw 64 None) (2^N.log2_up n)) as (tmp & ess0 & Ea & HR & Hc & Hbt); try done.
  { split; [pose proof (pow2_pos (N.log2_up n)); lia|]. apply pow2_le_63. lia. }
  { by rewrite Hlog. }
  pose proof (debug_group_chain pf c nkw vw bmin' OK' fuel Hf) as C.
  destruct (fun h => ins_fold_spec nkw vw dg_b (dgrep pf c nkw vw bmin') (dg_find_or_insert pf c fuel) 0 h (concat ess) tmp ess0) as (t' & ess' & E & HR' & _ & HP).
  { intros t1 ess1 k v HR1 _ Hk1 Hv1. eapply (foi_spec _ _ _ _ _ _ _ _ _ _ _ _ _ _ C); try done. lia. }
  { done. }
  { lia. }
  { rewrite Hc, app_nil_r. apply (gr_nodup _ _ _ _ _ _ _ _ (dr_rep _ _ _ _ _ _ _ H)). }
  { intros k v Hin. split; [by eapply Hk|]. by eapply (gr_range _ _ _ _ _ _ _ _ (dr_rep _ _ _ _ _ _ _ H)). }
  rewrite Hc, app_nil_r in HP. exists t', ess'. split; [|done].
  unfold dg_reserve, dg_reserve_with. rewrite (proj2 (N.eqb_neq nkw 0)) by lia. pose proof (db_range _ _ _ _ _ OK _ _ H). rewrite (proj2 (N.eqb_neq (dg_b t) _)) by lia.
  rewrite reserve_bits_spec by done. cbn [mbind res_bind]. rewrite (dvw _ _ _ _ _ _ _ H). destruct (dg_new_ok _ _ _ _ OK') as (t0 & -> & _). cbn [mbind res_bind].
  rewrite (u8_small nkw) by lia. rewrite Ea. cbn [mbind res_bind]. destruct (dgroups _ _ _ _ _ OK _ _ H) as (gs & Hgs & Hgc & Hen & Hg & _). rewrite Hgc. cbn [mbind res_bind].
  rewrite (dwidth _ _ _ _ OK t (dkw _ _ _ _ _ _ _ H) (dbb _ _ _ _ _ _ _ H)). cbn [mbind res_bind]. rewrite Hgs, N.ltb_irrefl, Nat2N.id, take_ge by lia.
  unfold dg_elements. rewrite (delements _ _ _ _ _ OK t ess gs 0 0 Hg). cbn [mbind res_bind]. rewrite N.add_0_l.
  rewrite (chunks_concat _ _ _ Hen). rewrite (dn_eq _ _ _ _ _ _ _ H), N.eqb_refl. cbn [chk mbind res_bind].
  pose proof (drehash _ _ _ _ _ OK (dg_find_or_insert pf c fuel) t ess gs H Hgs Hg gs 0 tmp (fun j g E => E)) as Hre. change (imap (fun j g => ((0 + j)%nat, g)) gs) with (imap pair gs) in Hre. rewrite Hre.
  rewrite (chunks_concat _ _ _ Hen). rewrite E. cbn [mbind res_bind]. rewrite (dn_eq _ _ _ _ _ _ _ HR'), (Permutation_length HP), N.eqb_refl. done.
Qed.
