(** C116: keysplit_adapter variables, their maps on the heap, and the copies that the compiler generates; C117: max_key(). *)
From Verif Require Import KsOwnModel KsProofs PropKs PropTable PropSerial.

(** ** Specification: variables that hold finite maps *)
Notation kspec := (list (option (gmap N N))).
Definition kspec_step (e : kspec) (p : kstmt) : kspec * out :=
  match p with
  | KNew i => (<[i := Some ∅]> e, OutUnit)
  | KOp i x => match e !! i with Some (Some m) => let '(m, y) := spec_step m x in (<[i := Some m]> e, y) | _ => (e, OutUnit) end
  | KDel i => (<[i := None]> e, OutUnit)
  | KCopy i j | KAssign i j => match e !! j with Some x => (<[i := x]> e, OutUnit) | None => (e, OutUnit) end
  end.
Fixpoint kspec_run (e : kspec) (l : list kstmt) : kspec * list out :=
  match l with
  | [] => (e, [])
  | p :: l => let '(e, x) := kspec_step e p in let '(e, xs) := kspec_run e l in (e, x :: xs)
  end.
(** Well-formed programs: a variable is constructed once and used until the end of its scope, calls exist and have arguments in range. *)
Definition kvalid (mb vw : N) (e : kspec) (p : kstmt) : Prop :=
  match p with
  | KNew i => e !! i = Some None
  | KOp i x => (exists m, e !! i = Some (Some m)) /\ ks_has_op x /\ valid_op mb vw 0 0 x
  | KDel i => exists m, e !! i = Some (Some m)
  | KCopy i j => e !! i = Some None /\ exists m, e !! j = Some (Some m)
  | KAssign i j => exists m m', e !! i = Some (Some m) /\ e !! j = Some (Some m')
  end.
Fixpoint kvalids (mb vw : N) (e : kspec) (l : list kstmt) : Prop :=
  match l with [] => True | p :: l => kvalid mb vw e p /\ kvalids mb vw (fst (kspec_step e p)) l end.
Definition copies (p : kstmt) : Prop := match p with KCopy _ _ | KAssign _ _ => True | _ => False end.

(** ** Heap lemmas *)
Lemma load_at h o s : ko_load h o = Ok s <-> Forall2 (fun a t => h !! a = Some (Some t)) o s.
Proof.
  revert s. induction o as [|a o IH]; intros s; unfold ko_load; cbn [rmap].
  - split; [intros [= <-]; constructor|]. intros H. by inversion H.
  - split.
    + intros H. rinv H. rinv H. injection H as <-. destruct (h !! a) as [[t|]|] eqn:Ea; try done. injection E as ->. constructor; [done|]. by apply IH.
    + intros H. inversion H as [|a' t o' s' Ha HF]; subst. rewrite Ha. cbn [mbind res_bind]. apply IH in HF. unfold ko_load in HF. by rewrite HF.
Qed.
Lemma store_length o : forall h s, length (ko_store h o s) = length h.
Proof. induction o as [|a o IH]; intros h [|t s]; cbn; try done. by rewrite IH, insert_length. Qed.
Lemma store_other o : forall h s b, b ∉ o -> ko_store h o s !! b = h !! b.
Proof.
  induction o as [|a o IH]; intros h [|t s] b Hb; cbn; try done. apply not_elem_of_cons in Hb as [Hb1 Hb2]. rewrite IH by done. by rewrite list_lookup_insert_ne.
Qed.
Lemma store_at o : forall h s, NoDup o -> (forall a, a ∈ o -> (a < length h)%nat) -> length s = length o ->
  Forall2 (fun a t => ko_store h o s !! a = Some (Some t)) o s.
Proof.
  induction o as [|a o IH]; intros h [|t s] Hn Ha Hl; cbn in *; try done. apply NoDup_cons in Hn as [Hn1 Hn2]. constructor.
  - rewrite store_other by done. apply list_lookup_insert. apply Ha. by left.
  - apply IH; [done| |lia]. intros b Hb. rewrite insert_length. apply Ha. by right.
Qed.
Section prog.
Context (pf : platform) (c : cfg) (vw : N) (fuel : nat) (mb ml interval : N).
Hypothesis Hpar : params pf c mb vw.
Hypothesis Hval : c_val c <> KNull.
Hypothesis Hfuel : (64 <= fuel)%nat.
Hypothesis Hlen : 1 <= ml < 2^63.
Hypothesis Hint : ks_interval mb ml = Ok interval.
Hypothesis H3 : 3 <= interval.
Local Lemma Hb : 1 <= mb <= 64. Proof. apply Hpar. Qed.
Local Lemma Hp : forall i, (i < N.to_nat ml)%nat -> params pf c (ks_width mb interval (N.of_nat i)) vw.
Proof. intros i Hi. apply (params_narrow pf c mb); [done|]. unfold ks_width. pose proof (proj2 Hpar). nia. Qed.
Notation krep := (krep pf c vw mb ml interval).

Lemma clears s m : krep s m -> Forall (fun t => exists t', clear pf c t = Ok t') s.
Proof.
  intros H. destruct (ks_step pf c vw fuel mb ml interval Hb Hlen Hint Hp Hval Hfuel s m OpClear H Logic.I Logic.I) as (s' & E & _).
  cbn [ks_run_op] in E. rinv E. clear E. unfold ks_clear in E0. clear H. revert a E0. induction s as [|t s IH]; intros a E; [constructor|].
  cbn [rmap] in E. rinv E. rinv E. constructor; [by eexists|]. by eapply IH.
Qed.
Lemma destroy_ok o : forall h s, NoDup o -> Forall2 (fun a t => h !! a = Some (Some t)) o s -> Forall (fun t => exists t', clear pf c t = Ok t') s ->
  exists h', ko_destroy pf c h o = Ok h' /\ length h' = length h /\ (forall a, a ∈ o -> h' !! a = Some None) /\ (forall a, a ∉ o -> h' !! a = h !! a).
Proof.
  unfold ko_destroy. induction o as [|a o IH]; intros h s Hn HF HC; cbn [rfold].
  - exists h. split; [done|]. split; [done|]. split; [|done]. intros a Ha. by apply elem_of_nil in Ha.
  - apply NoDup_cons in Hn as [Hn1 Hn2]. inversion HF as [|? t ? s' Ha HF']; subst. apply Forall_cons in HC as [[t' Ht] HC].
    assert (E0 : ko_delete pf c h a = Ok (<[a := None]> h)) by (unfold ko_delete; rewrite Ha, Ht; done). rewrite E0. cbn [mbind res_bind].
    destruct (IH (<[a := None]> h) s') as (h' & E & Hl & H1 & H2); [done| |done|].
    { apply Forall2_same_length_lookup. apply Forall2_same_length_lookup in HF' as [Hl HF']. split; [done|]. intros i b x Hi Hx.
      rewrite list_lookup_insert_ne; [by eapply HF'|]. intros ->. apply Hn1. by eapply elem_of_list_lookup_2. }
    exists h'. split; [done|]. rewrite insert_length in Hl. split; [done|]. split.
    + intros b Hb'. apply elem_of_cons in Hb' as [->|Hb']; [|by apply H1]. rewrite H2 by done. apply list_lookup_insert. by eapply lookup_lt_Some.
    + intros b Hb'. apply not_elem_of_cons in Hb' as [Hne Hb']. rewrite H2 by done. by rewrite list_lookup_insert_ne.
Qed.
Lemma destroy_twice o h h' : o <> [] -> ko_destroy pf c h o = Ok h' -> ko_destroy pf c h' o = Ub DoubleFree.
Proof.
  intros Ho H. destruct o as [|a o]; [done|]. clear Ho. unfold ko_destroy in *. cbn [rfold] in *. rinv H. unfold ko_delete in E.
  destruct (h !! a) as [[t|]|] eqn:Ea; try done. rinv E. injection E as <-.
  assert (Hd : forall l h1 h2, rfold (ko_delete pf c) l h1 = Ok h2 -> h1 !! a = Some None -> h2 !! a = Some None).
  { clear. induction l as [|b l IH]; intros h1 h2 H Ha; cbn [rfold] in H; [by injection H as <-|]. rinv H. eapply IH; [exact H|].
    unfold ko_delete in E. destruct (h1 !! b) as [[t|]|] eqn:Eb; try done. rinv E. injection E as <-.
    destruct (decide (a = b)) as [->|Hne]; [by rewrite Ha in Eb|]. by rewrite list_lookup_insert_ne. }
  assert (Hn : h' !! a = Some None).
  { eapply Hd; [exact H|]. apply list_lookup_insert. by eapply lookup_lt_Some. }
  assert (E1 : ko_delete pf c h' a = Ub DoubleFree) by (unfold ko_delete; by rewrite Hn). by rewrite E1.
Qed.

(** ** The invariant of programs without copies *)
Record kinv (e : list (option kobj)) (h : kheap) (q : kspec) : Prop := {
  ki_len : length e = length q;
  ki_dead : forall i, e !! i = Some None <-> q !! i = Some None;
  ki_var : forall i o, e !! i = Some (Some o) -> NoDup o /\ exists s m, Forall2 (fun a t => h !! a = Some (Some t)) o s /\ q !! i = Some (Some m) /\ krep s m;
  ki_apart : forall i j o o' a, e !! i = Some (Some o) -> e !! j = Some (Some o') -> a ∈ o -> a ∈ o' -> i = j;
  ki_owned : forall a t, h !! a = Some (Some t) -> exists i o, e !! i = Some (Some o) /\ a ∈ o }.

Lemma kinv_var e h q i m : kinv e h q -> q !! i = Some (Some m) ->
  exists o s, e !! i = Some (Some o) /\ NoDup o /\ Forall2 (fun a t => h !! a = Some (Some t)) o s /\ krep s m.
Proof.
  intros H Hq. assert (Hlt : (i < length e)%nat) by (rewrite (ki_len _ _ _ H); by eapply lookup_lt_Some).
  destruct (lookup_lt_is_Some_2 e i Hlt) as [[o|] He].
  - destruct (ki_var _ _ _ H _ _ He) as (Hn & s & m' & HF & Hq' & HR). rewrite Hq in Hq'. injection Hq' as <-. by exists o, s.
  - apply (ki_dead _ _ _ H) in He. by rewrite He in Hq.
Qed.
Lemma alive_in (h : kheap) (o : kobj) (s : list table) a : Forall2 (fun a t => h !! a = Some (Some t)) o s -> a ∈ o -> exists t : table, h !! a = Some (Some t).
Proof. intros HF [k Hk]%elem_of_list_lookup. destruct (Forall2_lookup_l _ _ _ _ _ HF Hk) as (t & _ & Ht). by exists t. Qed.

Lemma kstep_ok e h q p : kinv e h q -> kvalid mb vw q p -> ~ copies p ->
  exists e' h', kstep pf c vw fuel mb ml e h p = Ok (e', h', snd (kspec_step q p)) /\ kinv e' h' (fst (kspec_step q p)).
Proof.
  intros H Hv Hc. destruct p as [i|i x|i|i j|i j]; cbn [kvalid copies] in *; try done.
  - (* KNew *)
    cbn [kstep kspec_step fst snd]. unfold ko_new. destruct (krep_new pf c vw mb ml interval Hint Hp) as (s & -> & HR). cbn [mbind res_bind].
    do 2 eexists. split; [done|]. pose proof Hv as Hd. apply (ki_dead _ _ _ H) in Hd. pose proof (lookup_lt_Some _ _ _ Hd) as Hlt.
    assert (Hlq : (i < length q)%nat) by (by eapply lookup_lt_Some).
    assert (Hold : forall a t, (h ++ (Some <$> s)) !! a = Some (Some t) -> (a < length h)%nat -> h !! a = Some (Some t)) by (intros a t Ha Hl; by rewrite lookup_app_l in Ha).
    assert (Hk : forall a t, h !! a = Some (Some t) -> (h ++ (Some <$> s)) !! a = Some (Some t)) by (intros a t Ha; by apply lookup_app_l_Some).
    split.
    + rewrite !insert_length. apply H.
    + intros j. destruct (decide (i = j)) as [->|Hne]; [rewrite !list_lookup_insert by done; done|]. rewrite !list_lookup_insert_ne by done. apply H.
    + intros j o He. destruct (decide (i = j)) as [->|Hne].
      * rewrite list_lookup_insert in He by done. injection He as <-. split; [apply NoDup_seq|]. exists s, ∅. split; [|split; [by rewrite list_lookup_insert|done]].
        apply Forall2_same_length_lookup. split; [by rewrite seq_length|]. intros k a t Ha Ht. apply lookup_seq in Ha as [-> _]. rewrite lookup_app_r by lia.
        replace (length h + k - length h)%nat with k by lia. by rewrite list_lookup_fmap, Ht.
      * rewrite list_lookup_insert_ne in He by done. destruct (ki_var _ _ _ H _ _ He) as (Hn & s0 & m & HF & Hq & HR'). split; [done|]. exists s0, m.
        split; [|split; [by rewrite list_lookup_insert_ne|done]]. eapply Forall2_impl; [exact HF|]. intros a t. apply Hk.
    + intros j k o o' a He He' Ha Ha'.
      assert (Hsep : forall j o, j <> i -> e !! j = Some (Some o) -> a ∈ o -> (a < length h)%nat).
      { intros j1 o1 _ He1 Ha1. destruct (ki_var _ _ _ H _ _ He1) as (_ & s0 & m & HF & _). destruct (alive_in _ _ _ _ HF Ha1) as (t & Ht). by eapply lookup_lt_Some. }
      destruct (decide (j = i)) as [->|Hj], (decide (k = i)) as [->|Hk2]; try done.
      * rewrite list_lookup_insert in He by done. injection He as <-. rewrite list_lookup_insert_ne in He' by done. specialize (Hsep k o' ltac:(done) He' Ha'). apply elem_of_seq in Ha. lia.
      * rewrite list_lookup_insert in He' by done. injection He' as <-. rewrite list_lookup_insert_ne in He by done. specialize (Hsep j o ltac:(done) He Ha). apply elem_of_seq in Ha'. lia.
      * rewrite list_lookup_insert_ne in He, He' by done. by eapply (ki_apart _ _ _ H).
    + intros a t Ha. destruct (decide (a < length h)%nat) as [Hl|Hl].
      * destruct (ki_owned _ _ _ H a t (Hold _ _ Ha Hl)) as (j & o & He & Hin). exists j, o. split; [|done]. rewrite list_lookup_insert_ne; [done|]. intros ->. by rewrite Hd in He.
      * exists i. eexists. split; [by rewrite list_lookup_insert|]. apply lookup_lt_Some in Ha. rewrite app_length, fmap_length in Ha. apply elem_of_seq. lia.
  - (* KOp *)
    destruct Hv as ((m & Hq) & Hh & Hx). destruct (kinv_var _ _ _ _ _ H Hq) as (o & s & He & Hn & HF & HR).
    destruct (ks_step pf c vw fuel mb ml interval Hb Hlen Hint Hp Hval Hfuel s m x HR Hh Hx) as (s' & E & HR').
    cbn [kstep kspec_step]. unfold ko_var. rewrite He. cbn [mbind res_bind]. unfold ko_op. rewrite (proj2 (load_at _ _ _) HF). cbn [mbind res_bind]. rewrite E. cbn [mbind res_bind].
    rewrite Hq. destruct (spec_step m x) as [m' y]. cbn [fst snd] in *. do 2 eexists. split; [done|].
    assert (Hls : length s' = length o) by (rewrite (kr_len _ _ _ _ _ _ _ _ HR'), <-(kr_len _ _ _ _ _ _ _ _ HR); by rewrite (Forall2_length _ _ _ HF)).
    assert (Hin : forall a, a ∈ o -> (a < length h)%nat) by (intros a Ha; destruct (alive_in _ _ _ _ HF Ha) as (t & Ht); by eapply lookup_lt_Some).
    assert (Hlq : (i < length q)%nat) by (by eapply lookup_lt_Some).
    split.
    + rewrite insert_length. apply H.
    + intros j. destruct (decide (i = j)) as [->|Hne]; [rewrite list_lookup_insert by done; by rewrite He|]. rewrite list_lookup_insert_ne by done. apply H.
    + intros j o' He'. destruct (decide (i = j)) as [->|Hne].
      * rewrite He in He'. injection He' as <-. split; [done|]. exists s', m'. split; [by apply store_at|]. split; [by rewrite list_lookup_insert|done].
      * destruct (ki_var _ _ _ H _ _ He') as (Hn' & s0 & m0 & HF' & Hq' & HR0). split; [done|]. exists s0, m0. split; [|split; [by rewrite list_lookup_insert_ne|done]].
        apply Forall2_same_length_lookup. apply Forall2_same_length_lookup in HF' as [Hl HF']. split; [done|]. intros k a t Ha Ht. rewrite store_other; [by eapply HF'|].
        intros Ho. apply Hne. eapply (ki_apart _ _ _ H); [exact He|exact He'|exact Ho|by eapply elem_of_list_lookup_2].
    + apply H.
    + intros a t Ha. destruct (decide (a ∈ o)) as [Ho|Ho]; [by exists i, o|]. rewrite store_other in Ha by done. by apply (ki_owned _ _ _ H a t).
  - (* KDel *)
    destruct Hv as (m & Hq). destruct (kinv_var _ _ _ _ _ H Hq) as (o & s & He & Hn & HF & HR). cbn [kstep kspec_step fst snd]. unfold ko_var. rewrite He. cbn [mbind res_bind].
    destruct (destroy_ok o h s Hn HF (clears _ _ HR)) as (h' & -> & Hl & H1 & H2). cbn [mbind res_bind]. do 2 eexists. split; [done|].
    assert (Hlq : (i < length q)%nat) by (by eapply lookup_lt_Some). assert (Hle : (i < length e)%nat) by (by eapply lookup_lt_Some).
    split.
    + rewrite !insert_length. apply H.
    + intros j. destruct (decide (i = j)) as [->|Hne]; [rewrite !list_lookup_insert by done; done|]. rewrite !list_lookup_insert_ne by done. apply H.
    + intros j o' He'. destruct (decide (i = j)) as [->|Hne]; [by rewrite list_lookup_insert in He'|]. rewrite list_lookup_insert_ne in He' by done.
      destruct (ki_var _ _ _ H _ _ He') as (Hn' & s0 & m0 & HF' & Hq' & HR0). split; [done|]. exists s0, m0. split; [|split; [by rewrite list_lookup_insert_ne|done]].
      apply Forall2_same_length_lookup. apply Forall2_same_length_lookup in HF' as [Hl' HF']. split; [done|]. intros k a t Ha Ht. rewrite H2; [by eapply HF'|].
      intros Ho. apply Hne. eapply (ki_apart _ _ _ H); [exact He|exact He'|exact Ho|by eapply elem_of_list_lookup_2].
    + intros j k o1 o2 a He1 He2. destruct (decide (i = j)) as [->|Hj]; [by rewrite list_lookup_insert in He1|]. destruct (decide (i = k)) as [->|Hk]; [by rewrite list_lookup_insert in He2|].
      rewrite list_lookup_insert_ne in He1, He2 by done. by apply (ki_apart _ _ _ H).
    + intros a t Ha. destruct (decide (a ∈ o)) as [Ho|Ho]; [by rewrite (H1 _ Ho) in Ha|]. rewrite H2 in Ha by done. destruct (ki_owned _ _ _ H a t Ha) as (j & o' & He' & Hin).
      exists j, o'. split; [|done]. rewrite list_lookup_insert_ne; [done|]. intros ->. rewrite He in He'. by injection He' as <-.
Qed.
Lemma kruns_ok l : forall e h q, kinv e h q -> kvalids mb vw q l -> Forall (fun p => ~ copies p) l ->
  exists e' h', kruns pf c vw fuel mb ml e h l = Ok (e', h', snd (kspec_run q l)) /\ kinv e' h' (fst (kspec_run q l)).
Proof.
  induction l as [|p l IH]; intros e h q H Hv Hc; [by do 2 eexists|]. destruct Hv as [Hp0 Hv]. apply Forall_cons in Hc as [Hc0 Hc].
  destruct (kstep_ok e h q p H Hp0 Hc0) as (e1 & h1 & E1 & H1). cbn [kruns kspec_run]. rewrite E1. cbn [mbind res_bind].
  destruct (kspec_step q p) as [q1 x]. cbn [fst snd] in *. destruct (IH e1 h1 q1 H1 Hv Hc) as (e2 & h2 & E2 & H2). rewrite E2. cbn [mbind res_bind].
  destruct (kspec_run q1 l) as [q2 xs]. by do 2 eexists.
Qed.
Lemma kinv0 n : kinv (replicate n None) [] (replicate n None).
Proof.
  split; [by rewrite !replicate_length| | | |by intros a t Ha].
  - intros i. split; intros Hi; apply lookup_replicate in Hi as [_ Hi]; by apply lookup_replicate_2.
  - intros i o Hi. apply lookup_replicate in Hi as [Hi _]. done.
  - intros i j o o' a Hi. apply lookup_replicate in Hi as [Hi _]. done.
Qed.
End prog.

(** ** C116 *)
(** Without copies every program behaves like variables that hold finite maps, and every map on the heap belongs to a living variable:
    at the end of all scopes all maps are deleted. *)
Theorem C116_programs : forall pf c vw fuel mb ml interval n l,
  params pf c mb vw -> c_val c <> KNull -> (64 <= fuel)%nat -> 1 <= ml < 2^63 -> ks_interval mb ml = Ok interval -> 3 <= interval ->
  kvalids mb vw (replicate n None) l -> Forall (fun p => ~ copies p) l ->
  exists e h, kruns pf c vw fuel mb ml (replicate n None) [] l = Ok (e, h, snd (kspec_run (replicate n None) l))
    /\ (forall a t, h !! a = Some (Some t) -> exists i o m, e !! i = Some (Some o) /\ a ∈ o /\ fst (kspec_run (replicate n None) l) !! i = Some (Some m))
    /\ (Forall (fun x => x = None) (fst (kspec_run (replicate n None) l)) -> Forall (fun x => x = None) h).
Proof.
  intros pf c vw fuel mb ml interval n l P Hval Hf Hl HI H3 Hv Hc.
  destruct (kruns_ok pf c vw fuel mb ml interval P Hval Hf Hl HI H3 l _ [] _ (kinv0 pf c vw mb ml interval n) Hv Hc) as (e & h & E & H).
  exists e, h. split; [done|].
  assert (Ho : forall a t, h !! a = Some (Some t) -> exists i o m, e !! i = Some (Some o) /\ a ∈ o /\ fst (kspec_run (replicate n None) l) !! i = Some (Some m)).
  { intros a t Ha. destruct (ki_owned _ _ _ _ _ _ _ _ _ H a t Ha) as (i & o & He & Hin). destruct (ki_var _ _ _ _ _ _ _ _ _ H i o He) as (_ & s & m & _ & Hq & _). by exists i, o, m. }
  split; [done|]. intros Hd. apply Forall_lookup. intros a [t|] Ha; [|done]. destruct (Ho a t Ha) as (i & o & m & _ & _ & Hq).
  by apply (proj1 (Forall_lookup _ _) Hd) in Hq.
Qed.
Print Assumptions C116_programs.

Lemma kruns_app pf c vw fuel mb ml l1 l2 : forall e h e1 h1 xs, kruns pf c vw fuel mb ml e h l1 = Ok (e1, h1, xs) ->
  kruns pf c vw fuel mb ml e h (l1 ++ l2) = (r ← kruns pf c vw fuel mb ml e1 h1 l2; let '(e, h, ys) := (r : list (option kobj) * kheap * list out) in Ok (e, h, xs ++ ys)).
Proof.
  induction l1 as [|p l1 IH]; intros e h e1 h1 xs H; cbn [kruns app] in *.
  - injection H as <- <- <-. destruct (kruns pf c vw fuel mb ml e h l2) as [[[a b] d]| | |]; done.
  - rinv H. destruct a as [[e2 h2] x]. rinv H. destruct a as [[e3 h3] ys]. injection H as <- <- <-. cbn [mbind res_bind]. rewrite (IH _ _ _ _ _ E0).
    destruct (kruns pf c vw fuel mb ml e3 h3 l2) as [[[a b] d]| | |]; done.
Qed.
(** A copy shares the maps: whatever the program did before, the destructors of the two variables delete each map twice ... *)
Theorem C116_copy_refuted : forall pf c vw fuel mb ml interval n l i j,
  params pf c mb vw -> c_val c <> KNull -> (64 <= fuel)%nat -> 1 <= ml < 2^63 -> ks_interval mb ml = Ok interval -> 3 <= interval ->
  kvalids mb vw (replicate n None) l -> Forall (fun p => ~ copies p) l -> kvalid mb vw (fst (kspec_run (replicate n None) l)) (KCopy i j) ->
  kruns pf c vw fuel mb ml (replicate n None) [] (l ++ [KCopy i j; KDel i; KDel j]) = Ub DoubleFree.
Proof.
  intros pf c vw fuel mb ml interval n l i j P Hval Hf Hl HI H3 Hv Hc (Hi & m & Hj).
  destruct (kruns_ok pf c vw fuel mb ml interval P Hval Hf Hl HI H3 l _ [] _ (kinv0 pf c vw mb ml interval n) Hv Hc) as (e & h & E & H).
  rewrite (kruns_app _ _ _ _ _ _ _ _ _ _ _ _ _ E). clear E.
  destruct (kinv_var _ _ _ _ _ _ _ _ _ _ _ H Hj) as (o & s & He & Hn & HF & HR). apply (ki_dead _ _ _ _ _ _ _ _ _ H) in Hi.
  pose proof (lookup_lt_Some _ _ _ Hi) as Hlt. assert (Hne : i <> j) by (intros ->; by rewrite Hi in He).
  assert (Ho : o <> []) by (intros ->; apply Forall2_length in HF; rewrite (kr_len _ _ _ _ _ _ _ _ HR) in HF; cbn in HF; lia).
  assert (V1 : ko_var e j = Ok o) by (unfold ko_var; by rewrite He).
  assert (V2 : ko_var (<[i := Some o]> e) i = Ok o) by (unfold ko_var; by rewrite list_lookup_insert).
  cbn [kruns kstep]. rewrite V1. cbn [mbind res_bind]. unfold ko_copy. rewrite V2. cbn [mbind res_bind].
  destruct (destroy_ok pf c o h s Hn HF (clears pf c vw fuel mb ml interval P Hval Hf Hl HI H3 _ _ HR)) as (h' & Eh & _). rewrite Eh. cbn [mbind res_bind].
  unfold ko_var. rewrite !list_lookup_insert_ne by done. rewrite He. cbn [mbind res_bind]. by rewrite (destroy_twice pf c o h h' Ho Eh).
Qed.
Print Assumptions C116_copy_refuted.
(** ... and writing through one variable changes what the other one returns. *)
Theorem C116_shared_refuted : forall pf c vw fuel mb ml interval n l i j k v,
  params pf c mb vw -> c_val c <> KNull -> (64 <= fuel)%nat -> 1 <= ml < 2^63 -> ks_interval mb ml = Ok interval -> 3 <= interval ->
  kvalids mb vw (replicate n None) l -> Forall (fun p => ~ copies p) l -> kvalid mb vw (fst (kspec_run (replicate n None) l)) (KCopy i j) -> k < 2^mb -> v < 2^vw ->
  exists e h, kruns pf c vw fuel mb ml (replicate n None) [] (l ++ [KCopy i j; KOp i (OpWrite k v); KOp j (OpRead k)])
    = Ok (e, h, snd (kspec_run (replicate n None) l) ++ [OutUnit; OutUnit; OutNum v]).
Proof.
  intros pf c vw fuel mb ml interval n l i j k v P Hval Hf Hl HI H3 Hv Hc (Hi & m & Hj) Hk Hvv.
  destruct (kruns_ok pf c vw fuel mb ml interval P Hval Hf Hl HI H3 l _ [] _ (kinv0 pf c vw mb ml interval n) Hv Hc) as (e & h & E & H).
  rewrite (kruns_app _ _ _ _ _ _ _ _ _ _ _ _ _ E). clear E.
  destruct (kinv_var _ _ _ _ _ _ _ _ _ _ _ H Hj) as (o & s & He & Hn & HF & HR). apply (ki_dead _ _ _ _ _ _ _ _ _ H) in Hi.
  pose proof (lookup_lt_Some _ _ _ Hi) as Hlt. assert (Hne : i <> j) by (intros ->; by rewrite Hi in He).
  assert (Hb1 : 1 <= mb <= 64) by apply P. assert (Hp1 : forall i, (i < N.to_nat ml)%nat -> params pf c (ks_width mb interval (N.of_nat i)) vw) by (by eapply Hp).
  destruct (ks_step pf c vw fuel mb ml interval Hb1 Hl HI Hp1 Hval Hf s m (OpWrite k v) HR Logic.I (conj Hk Hvv)) as (s1 & E1 & HR1).
  destruct (ks_step pf c vw fuel mb ml interval Hb1 Hl HI Hp1 Hval Hf s1 _ (OpRead k) HR1 Logic.I Hk) as (s2 & E2 & HR2).
  assert (Hls : length s1 = length o) by (rewrite (kr_len _ _ _ _ _ _ _ _ HR1), <-(kr_len _ _ _ _ _ _ _ _ HR); by rewrite (Forall2_length _ _ _ HF)).
  assert (Hin : forall a, a ∈ o -> (a < length h)%nat) by (intros a Ha; destruct (alive_in _ _ _ _ HF Ha) as (t & Ht); by eapply lookup_lt_Some).
  assert (V1 : ko_var e j = Ok o) by (unfold ko_var; by rewrite He).
  assert (V2 : ko_var (<[i := Some o]> e) i = Ok o) by (unfold ko_var; by rewrite list_lookup_insert).
  cbn [kruns kstep]. rewrite V1. cbn [mbind res_bind]. unfold ko_copy. rewrite V2. cbn [mbind res_bind].
  assert (V3 : ko_op pf c fuel mb ml h o (OpWrite k v) = Ok (ko_store h o s1, OutUnit)).
  { unfold ko_op. rewrite (proj2 (load_at _ _ _) HF). cbn [mbind res_bind]. by rewrite E1. }
  rewrite V3. cbn [mbind res_bind].
  unfold ko_var. rewrite list_lookup_insert_ne by done. rewrite He. cbn [mbind res_bind].
  unfold ko_op. rewrite (proj2 (load_at _ _ _) (store_at o h s1 Hn Hin Hls)). cbn [mbind res_bind]. rewrite E2. cbn [mbind res_bind].
  do 2 eexists. f_equal. f_equal. f_equal. cbn [spec_step fst snd]. by rewrite lookup_insert.
Qed.
Print Assumptions C116_shared_refuted.
(** Assignment forgets the maps of the variable on the left: they are never deleted. *)
Theorem C116_assign_refuted : forall pf c vw fuel mb ml interval n l i j,
  params pf c mb vw -> c_val c <> KNull -> (64 <= fuel)%nat -> 1 <= ml < 2^63 -> ks_interval mb ml = Ok interval -> 3 <= interval ->
  kvalids mb vw (replicate n None) l -> Forall (fun p => ~ copies p) l -> kvalid mb vw (fst (kspec_run (replicate n None) l)) (KAssign i j) -> i <> j ->
  exists e h a t, kruns pf c vw fuel mb ml (replicate n None) [] (l ++ [KAssign i j]) = Ok (e, h, snd (kspec_run (replicate n None) l) ++ [OutUnit])
    /\ h !! a = Some (Some t) /\ forall i' o, e !! i' = Some (Some o) -> a ∉ o.
Proof.
  intros pf c vw fuel mb ml interval n l i j P Hval Hf Hl HI H3 Hv Hc (m & m' & Hi & Hj) Hne.
  destruct (kruns_ok pf c vw fuel mb ml interval P Hval Hf Hl HI H3 l _ [] _ (kinv0 pf c vw mb ml interval n) Hv Hc) as (e & h & E & H).
  rewrite (kruns_app _ _ _ _ _ _ _ _ _ _ _ _ _ E). clear E.
  destruct (kinv_var _ _ _ _ _ _ _ _ _ _ _ H Hj) as (o & s & He & Hn & HF & HR). destruct (kinv_var _ _ _ _ _ _ _ _ _ _ _ H Hi) as (o' & s' & He' & Hn' & HF' & HR').
  cbn [kruns kstep]. unfold ko_var. rewrite He, He'. cbn [mbind res_bind]. unfold ko_copy.
  destruct o' as [|a o']. { apply Forall2_length in HF'. rewrite (kr_len _ _ _ _ _ _ _ _ HR') in HF'. cbn in HF'. lia. }
  destruct (alive_in _ _ _ a HF') as (t & Ht); [by left|]. exists (<[i := Some o]> e), h, a, t. split; [done|]. split; [done|].
  intros k o1 Hk Hin. destruct (decide (k = i)) as [->|Hki].
  - rewrite list_lookup_insert in Hk by (by eapply lookup_lt_Some). injection Hk as <-. apply Hne. eapply (ki_apart _ _ _ _ _ _ _ _ _ H); [exact He'|exact He| |exact Hin]. by left.
  - rewrite list_lookup_insert_ne in Hk by done. apply Hki. eapply (ki_apart _ _ _ _ _ _ _ _ _ H); [exact Hk|exact He'|exact Hin|]. by left.
Qed.
Print Assumptions C116_assign_refuted.
Definition ex_ko_prog : list kstmt :=
  [KNew 0; KNew 1; KOp 0 (OpWrite 5 1); KOp 1 (OpWrite 5 2); KOp 0 (OpWrite 70000 3); KOp 0 (OpRead 5); KDel 0; KOp 1 (OpFind 5); KOp 1 OpSize; KNew 0; KOp 0 OpSize].
Ltac kvalid_solve := repeat first [exact Logic.I | reflexivity | split | eexists].
Example C116_case : params lax_pf ex_var 20 9 /\ ks_interval 20 6 = Ok 4 /\ kvalids 20 9 (replicate 3 None) ex_ko_prog /\ Forall (fun p => ~ copies p) ex_ko_prog
  /\ kvalid 20 9 (fst (kspec_run (replicate 3 None) ex_ko_prog)) (KCopy 2 1) /\ kvalid 20 9 (fst (kspec_run (replicate 3 None) ex_ko_prog)) (KAssign 0 1)
  /\ (snd <$> kruns lax_pf ex_var 9 64 20 6 (replicate 3 None) [] ex_ko_prog) = Ok (snd (kspec_run (replicate 3 None) ex_ko_prog))
  /\ kruns lax_pf ex_var 9 64 20 6 (replicate 3 None) [] (ex_ko_prog ++ [KCopy 2 1; KDel 2; KDel 1]) = Ub DoubleFree.
Proof.
  split; [exact ex_var_ok|]. split; [vm_compute; reflexivity|]. split; [kvalid_solve|].
  split; [repeat (apply List.Forall_cons; [intros []|]); apply List.Forall_nil|]. split; [kvalid_solve|]. split; [kvalid_solve|]. split; vm_compute; reflexivity.
Qed.

(** ** C117: all keys up to max_key() and values up to max_value() can be stored and read back.
    kb and vw: bits of key_type and value_type.  With max_bits above 64, which the static_assert admits, the shift in max_key() is undefined. *)
Theorem C117_max_key : forall mb kb, 1 <= kb <= 64 ->
  (1 <= mb <= 64 -> ks_max_key mb kb = Ok (2^(N.min mb kb) - 1)) /\ (64 < mb < 2^64 -> ks_max_key mb kb = Ub ShiftTooLarge).
Proof.
  intros mb kb Hk. unfold ks_max_key, shr64. split.
  - intros Hm. rewrite sub64_small by lia. destruct (N.ltb_spec (64 - mb) 64) as [_|]; [|lia]. cbn [mbind res_bind]. f_equal.
    assert (E : N.shiftr ones64 (64 - mb) = 2^mb - 1).
    { rewrite N.shiftr_div_pow2. unfold ones64. symmetry. apply N.div_unique with (2^(64 - mb) - 1).
      - pose proof (N.pow_nonzero 2 (64 - mb)). lia.
      - assert (E : 2^64 = 2^(64 - mb) * 2^mb) by (rewrite <-N.pow_add_r; f_equal; lia). change (2^64) with 18446744073709551616 in E.
        pose proof (N.pow_nonzero 2 (64 - mb)). pose proof (N.pow_nonzero 2 mb). nia. }
    rewrite E. destruct (N.le_gt_cases mb kb) as [Hle|Hgt].
    + rewrite (N.min_l mb) by done. assert (2^mb <= 2^kb) by (apply N.pow_le_mono_r; lia). pose proof (N.pow_nonzero 2 mb). rewrite N.mod_small by lia. lia.
    + rewrite (N.min_r mb) by lia. assert (E2 : 2^mb = 2^(mb - kb) * 2^kb) by (rewrite <-N.pow_add_r; f_equal; lia).
      pose proof (N.pow_nonzero 2 (mb - kb)). pose proof (N.pow_nonzero 2 kb).
      replace (2^mb - 1) with (2^kb - 1 + (2^(mb - kb) - 1) * 2^kb) by nia. rewrite N.mod_add by lia. rewrite N.mod_small by lia. lia.
  - intros Hm. assert (Es : sub64 64 mb = 2^64 + 64 - mb).
    { unfold sub64, u64. rewrite N.mod_small by (change (2^64) with 18446744073709551616 in *; lia). lia. }
    rewrite Es. destruct (N.ltb_spec (2^64 + 64 - mb) 64) as [|_]; [lia|]. done.
Qed.
Print Assumptions C117_max_key.
Theorem C117_stored : forall pf c vw fuel mb ml interval kb mk ops k v,
  params pf c mb vw -> c_val c <> KNull -> (64 <= fuel)%nat -> 1 <= ml < 2^63 -> ks_interval mb ml = Ok interval -> 3 <= interval ->
  1 <= kb <= 64 -> ks_max_key mb kb = Ok mk -> Forall ks_has_op ops -> valid_ops mb vw 0 0 ops -> k <= mk -> v <= ks_max_value vw ->
  exists s0 s, ks_new pf c vw mb ml = Ok s0 /\ ks_run pf c fuel mb ml s0 (ops ++ [OpWrite k v; OpRead k]) = Ok (s, snd (spec_run ∅ ops) ++ [OutUnit; OutNum v]).
Proof.
  intros pf c vw fuel mb ml interval kb mk ops k v P Hval Hf Hl HI H3 Hkb Hmk Hh Hv Hk Hvv.
  assert (Hmb : 1 <= mb <= 64) by apply P. rewrite (proj1 (C117_max_key mb kb Hkb) Hmb) in Hmk. injection Hmk as <-.
  assert (Hk2 : k < 2^mb).
  { assert (2^N.min mb kb <= 2^mb) by (apply N.pow_le_mono_r; lia). pose proof (N.pow_nonzero 2 (N.min mb kb)). lia. }
  assert (Hv2 : v < 2^vw) by (unfold ks_max_value in Hvv; pose proof (N.pow_nonzero 2 vw); lia).
  destruct (C24_history_partial pf c vw fuel mb ml interval (ops ++ [OpWrite k v; OpRead k]) P Hval Hf Hl HI H3) as (s0 & s & E0 & E).
  - apply Forall_app. split; [done|]. repeat constructor.
  - apply Forall_app. split; [done|]. repeat constructor; cbn; done.
  - exists s0, s. split; [done|]. rewrite E. f_equal. f_equal. clear. generalize (∅ : gmap N N). induction ops as [|o ops IH]; intros m.
    + cbn [app spec_run spec_step]. rewrite lookup_insert. done.
    + cbn [app spec_run]. destruct (spec_step m o) as [m1 r]. specialize (IH m1). destruct (spec_run m1 (ops ++ _)) as [m2 rs]. destruct (spec_run m1 ops) as [m3 rs3]. cbn [snd] in *. by rewrite IH.
Qed.
Print Assumptions C117_stored.
Example C117_case : ks_max_key 20 64 = Ok 1048575 /\ ks_max_key 64 32 = Ok 4294967295 /\ ks_max_key 64 64 = Ok (2^64 - 1) /\ ks_max_key 65 64 = Ub ShiftTooLarge
  /\ params lax_pf ex_var 20 9 /\ ks_interval 20 6 = Ok 4 /\ Forall ks_has_op ex_ks_ops /\ valid_ops 20 9 0 0 ex_ks_ops /\ ks_max_value 9 = 511.
Proof. do 4 (split; [vm_compute; reflexivity|]). destruct C24_case as (H1 & H2 & H4 & H5 & _). do 4 (split; [assumption|]). vm_compute. reflexivity. Qed.
