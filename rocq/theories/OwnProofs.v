(** Destruction, moves and swap at the level of blocks. *)
From Verif Require Import OwnModel.

Definition opt (p : ptr) : list N := match p with Some a => [a] | None => [] end.
Definition somes (l : list ptr) : list N := concat (map opt l).

Lemma somes_app l1 l2 : somes (l1 ++ l2) = somes l1 ++ somes l2.
Proof. unfold somes. by rewrite map_app, concat_app. Qed.
Lemma somes_replicate n : somes (replicate n None) = [].
Proof. induction n; [done|exact IHn]. Qed.
Lemma somes_in l p : p ∈ somes l <-> Some p ∈ l.
Proof.
  unfold somes. induction l as [|[a|] l IH]; cbn.
  - split; intros H; inversion H.
  - rewrite !elem_of_cons, IH. split; intros [H|H]; auto; left; congruence.
  - rewrite elem_of_cons, IH. split; intros H; [by right|]. by destruct H.
Qed.
Lemma somes_rev l p : p ∈ somes (rev l) <-> p ∈ somes l.
Proof. rewrite !somes_in, !elem_of_list_In. by rewrite <- in_rev. Qed.

Section own.
Context (pf : platform) (c : cfg).
Context (mv_nb : N) (mv_els : list (N * N)) (mv_full : list bool).
Notation is_set := (is_set c).

(** The block of every non-null bucket of kind kd in l is alive and may be released. *)
Definition data_ok (kd : bkind) (h : heap) (l : list ptr) : Prop :=
  forall p, p ∈ somes l -> exists t d, h !! p = Some (BData t d) /\ free_ok pf (kind_tag kd) t = true.

(** h' is h without the blocks F. *)
Definition without (F : list N) (h h' : heap) : Prop := forall a, h' !! a = if decide (a ∈ F) then None else h !! a.

Lemma without_nil h : without [] h h.
Proof. intros a. destruct (decide (a ∈ [])) as [H|]; [inversion H|done]. Qed.
Lemma without_app F1 F2 h1 h2 h3 : without F1 h1 h2 -> without F2 h2 h3 -> without (F1 ++ F2) h1 h3.
Proof.
  intros H1 H2 a. rewrite H2. destruct (decide (a ∈ F2)) as [H|H].
  - rewrite decide_True; [done|]. apply elem_of_app. by right.
  - rewrite H1. destruct (decide (a ∈ F1)) as [H'|H'].
    + rewrite decide_True; [done|]. apply elem_of_app. by left.
    + rewrite decide_False; [done|]. rewrite elem_of_app. tauto.
Qed.
Lemma without_ext F1 F2 h1 h2 : (forall a, a ∈ F1 <-> a ∈ F2) -> without F1 h1 h2 -> without F2 h1 h2.
Proof.
  intros He H a. rewrite H. destruct (decide (a ∈ F1)) as [H1|H1].
  - rewrite decide_True; [done|by apply He].
  - rewrite decide_False; [done|]. by rewrite <- He.
Qed.
Lemma without_delete a h : without [a] h (delete a h).
Proof.
  intros x. destruct (decide (x ∈ [a])) as [H|H].
  - apply elem_of_list_singleton in H as ->. by rewrite lookup_delete.
  - rewrite elem_of_list_singleton in H. by rewrite lookup_delete_ne.
Qed.
Lemma without_notin F h h' a : without F h h' -> a ∉ F -> h' !! a = h !! a.
Proof. intros H Ha. rewrite H. by rewrite decide_False. Qed.

Lemma hfree_ok t h p : (forall a, p = Some a -> exists b, h !! a = Some b /\ free_ok pf t (blk_tag b) = true) ->
  exists h', hfree pf t h p = Ok h' /\ without (opt p) h h'.
Proof.
  intros H. destruct p as [a|]; cbn [hfree opt].
  - destruct (H a eq_refl) as (b & -> & ->). eexists. split; [done|]. apply without_delete.
  - eexists. split; [done|]. apply without_nil.
Qed.

Lemma rfold_free kd l : forall h, NoDup (somes l) -> data_ok kd h l ->
  exists h', rfold (hfree pf (kind_tag kd)) l h = Ok h' /\ without (somes l) h h'.
Proof.
  induction l as [|p l IH]; intros h Hnd Hok; cbn [rfold].
  - eexists. split; [done|]. apply without_nil.
  - change (somes (p :: l)) with (opt p ++ somes l) in *.
    apply NoDup_app in Hnd as (Hnd1 & Hnd2 & Hnd3).
    destruct (hfree_ok (kind_tag kd) h p) as (h1 & -> & H1).
    { intros a ->. destruct (Hok a) as (t & d & E & F). { apply elem_of_app. left. cbn. apply elem_of_list_here. }
      exists (BData t d). done. }
    cbn [mbind res_bind]. destruct (IH h1) as (h2 & -> & H2); [done| |].
    { intros q Hq. destruct (Hok q) as (t & d & E & F). { apply elem_of_app. by right. }
      exists t, d. split; [|done]. rewrite (without_notin _ _ _ _ H1); [done|]. intros Hq'. exact (Hnd2 _ Hq' Hq). }
    eexists. split; [done|]. by apply without_app with h1.
Qed.

Lemma delete_arr_ok kd h a l : h !! a = Some (BArr l) -> NoDup (somes l) -> data_ok kd h l -> a ∉ somes l ->
  exists h', delete_arr pf kd h (Some a) = Ok h' /\ without (a :: somes l) h h'.
Proof.
  intros E Hnd Hok Ha. unfold delete_arr. rewrite E.
  destruct (rfold_free kd (rev l) h) as (h1 & -> & H1).
  - assert (somes (rev l) ≡ₚ somes l) as ->; [|done].
    unfold somes. rewrite map_rev. clear. induction (map opt l) as [|x m IH]; [done|].
    cbn [rev concat]. rewrite concat_app. cbn [concat]. rewrite app_nil_r, IH. apply Permutation_app_comm.
  - intros p Hp. apply Hok. by apply somes_rev.
  - cbn [mbind res_bind]. eexists. split; [done|].
    apply without_ext with (somes (rev l) ++ [a]).
    + intros x. rewrite elem_of_app, somes_rev, elem_of_list_singleton, elem_of_cons. tauto.
    + apply without_app with h1; [done|apply without_delete].
Qed.

(** Contents of an array of buckets. *)
Definition arr (h : heap) (p : ptr) : list ptr :=
  match p with Some a => match h !! a with Some (BArr l) => l | _ => [] end | None => [] end.
Definition ov_ptrs (v : ovobj) : list N := match v with PArray k w _ _ => opt k ++ opt w | _ => [] end.
(** The blocks an object owns.  m_keys counts only while m_bucketsizes is not null. *)
Definition foot (h : heap) (o : obj) : list N :=
  match o_sizes o with
  | Some a => a :: opt (o_keys o) ++ somes (arr h (o_keys o)) ++ (if c_arb c then opt (o_caps o) else [])
  | None => []
  end ++ (if is_set then [] else opt (o_vals o) ++ somes (arr h (o_vals o))) ++ ov_ptrs (o_ov o).

Definition vals_live (h : heap) (o : obj) : Prop :=
  forall a, o_vals o = Some a -> exists l, h !! a = Some (BArr l) /\ data_ok (c_val c) h l.
Definition ov_live (h : heap) (v : ovobj) : Prop :=
  forall a, a ∈ ov_ptrs v -> exists d, h !! a = Some (BData TMalloc d).

Record wf (h : heap) (o : obj) : Prop := {
  wf_nodup : NoDup (foot h o);
  wf_ov : ov_live h (o_ov o);
  wf_vals : is_set = false -> vals_live h o;
  wf_none : o_sizes o = None -> c_arb c = true -> o_caps o = None;
  wf_some : forall a, o_sizes o = Some a -> exists ns ak lk,
    h !! a = Some (BSizes ns) /\ o_keys o = Some ak /\ h !! ak = Some (BArr lk) /\ data_ok (c_key c) h lk
    /\ length lk = length ns
    /\ (is_set = false -> exists av lv, o_vals o = Some av /\ h !! av = Some (BArr lv) /\ length lv = length ns
          /\ (forall i, ns !! i = Some 0 -> lv !! i = Some None))
    /\ (c_arb c = true -> exists ac cs, o_caps o = Some ac /\ h !! ac = Some (BCaps cs) /\ length cs = length ns)
    /\ (forall i, ns !! i = Some 0 -> lk !! i = Some None)
    /\ (if o_b o =? 0 then Forall (fun n => n = 0) ns else N.to_nat (2^(o_b o)) = length ns)
}.

Lemma clear_elem_ok kd h a l i q : h !! a = Some (BArr l) -> l !! i = Some q ->
  (forall x, q = Some x -> x <> a /\ exists t d, h !! x = Some (BData t d) /\ free_ok pf (kind_tag kd) t = true) ->
  exists h', clear_elem pf kd h (Some a) i = Ok h' /\ h' !! a = Some (BArr (<[i := None]> l))
    /\ forall x, x <> a -> h' !! x = if decide (x ∈ opt q) then None else h !! x.
Proof.
  intros E Hi Hq. unfold clear_elem, harr. rewrite E. cbn [mbind res_bind]. rewrite Hi. cbn [of_option mbind res_bind].
  destruct (hfree_ok (kind_tag kd) h q) as (h1 & -> & H1).
  { intros x ->. destruct (Hq x eq_refl) as (_ & t & d & -> & F). by exists (BData t d). }
  cbn [mbind res_bind]. eexists. split; [done|]. split; [by rewrite lookup_insert|].
  intros x Hx. rewrite lookup_insert_ne by done. apply H1.
Qed.

Lemma step_list {A} (x : A) k l : (k < length l)%nat ->
  <[k := x]> (replicate k x ++ drop k l) = replicate (S k) x ++ drop (S k) l.
Proof.
  intros H. destruct (lookup_lt_is_Some_2 l k H) as [y Hy].
  rewrite (drop_S _ _ _ Hy).
  rewrite insert_app_r_alt by (rewrite replicate_length; lia). rewrite replicate_length, Nat.sub_diag. cbn [insert list_insert].
  rewrite replicate_S_end. by rewrite <- app_assoc.
Qed.
Lemma step_list_same {A} (x : A) k l : l !! k = Some x ->
  replicate k x ++ drop k l = replicate (S k) x ++ drop (S k) l.
Proof. intros H. rewrite (drop_S _ _ _ H), replicate_S_end. by rewrite <- app_assoc. Qed.
Lemma mid_lookup {A} (x : A) k l : (replicate k x ++ drop k l) !! k = l !! k.
Proof.
  rewrite lookup_app_r by (rewrite replicate_length; lia). rewrite replicate_length, lookup_drop. f_equal. lia.
Qed.
Lemma somes_take_S k l q : l !! k = Some q -> somes (take (S k) l) = somes (take k l) ++ opt q.
Proof. intros H. rewrite (take_S_r _ _ _ H), somes_app. cbn. by rewrite app_nil_r. Qed.
Lemma rfold_snoc {A B} (f : A -> B -> res A) l x a : rfold f (l ++ [x]) a = (a' ← rfold f l a; f a' x).
Proof.
  revert a. induction l as [|y l IH]; intros a; cbn [rfold app mbind res_bind].
  - by destruct (f a x).
  - destruct (f a y); cbn [mbind res_bind]; done || apply IH.
Qed.
Lemma somes_lookup l k p : l !! k = Some (Some p) -> p ∈ somes l.
Proof. intros H. apply somes_in. by apply elem_of_list_lookup_2 with k. Qed.
Lemma somes_nodup l k p : NoDup (somes l) -> l !! k = Some (Some p) -> p ∉ somes (take k l).
Proof.
  intros Hnd H. rewrite <- (take_drop k l), somes_app in Hnd. apply NoDup_app in Hnd as (_ & Hnd & _).
  intros Hp. apply (Hnd p Hp). rewrite (drop_S _ _ _ H). change (somes (Some p :: drop (S k) l)) with (p :: somes (drop (S k) l)).
  apply elem_of_list_here.
Qed.
Lemma somes_take k l p : p ∈ somes (take k l) -> p ∈ somes l.
Proof. intros H. rewrite <- (take_drop k l), somes_app. apply elem_of_app. by left. Qed.

(** The state of the four arrays after the first k iterations of clear(). *)
Record cleared (h h' : heap) (o : obj) (k : nat) (a : N) (ns : list N) (ak : N) (lk : list ptr) (lv : list ptr) : Prop := {
  cl_sizes : h' !! a = Some (BSizes (replicate k 0 ++ drop k ns));
  cl_keys : h' !! ak = Some (BArr (replicate k None ++ drop k lk));
  cl_vals : is_set = false -> forall av, o_vals o = Some av -> h' !! av = Some (BArr (replicate k None ++ drop k lv));
  cl_caps : c_arb c = true -> forall ac, o_caps o = Some ac -> exists cs, h' !! ac = Some (BCaps cs) /\ length cs = length ns;
  cl_rest : forall x, x <> a -> x <> ak -> (is_set = false -> o_vals o <> Some x) -> (c_arb c = true -> o_caps o <> Some x) ->
    h' !! x = if decide (x ∈ somes (take k lk) ++ (if is_set then [] else somes (take k lv))) then None else h !! x
}.

Lemma clear_loop h o a : wf h o -> o_sizes o = Some a -> exists ns ak lk lv,
  h !! a = Some (BSizes ns) /\ o_keys o = Some ak /\ h !! ak = Some (BArr lk)
  /\ (is_set = false -> exists av, o_vals o = Some av /\ h !! av = Some (BArr lv) /\ length lv = length ns)
  /\ length lk = length ns
  /\ forall k, (k <= length ns)%nat -> exists h', rfold (own_clear_bucket pf c o) (seq 0 k) h = Ok h' /\ cleared h h' o k a ns ak lk lv.
Proof.
  intros W Ha. destruct (wf_some _ _ W a Ha) as (ns & ak & lk & Hns & Hak & Hlk & Dk & Lk & Hv & Hc & Zk & _).
  assert (exists lv, is_set = false -> exists av, o_vals o = Some av /\ h !! av = Some (BArr lv) /\ length lv = length ns
          /\ (forall i, ns !! i = Some 0 -> lv !! i = Some None) /\ data_ok (c_val c) h lv) as [lv Hv'].
  { destruct is_set eqn:Es; [by exists []|]. destruct (Hv eq_refl) as (av & lv & E1 & E2 & E3 & E4). exists lv. intros _.
    exists av. repeat split; try done. destruct (wf_vals _ _ W Es av E1) as (l & E & D). rewrite E2 in E. by injection E as <-. }
  exists ns, ak, lk, lv. split; [done|]. split; [done|]. split; [done|]. split.
  { intros Es. destruct (Hv' Es) as (av & ? & ? & ? & _). by exists av. }
  split; [done|].
  pose proof (wf_nodup _ _ W) as Hnd. unfold foot in Hnd. rewrite Ha, Hak in Hnd. cbn [opt arr] in Hnd. rewrite Hlk in Hnd.
  (* disjointness *)
  assert (Hd : a <> ak /\ NoDup (somes lk) /\ a ∉ somes lk /\ ak ∉ somes lk
    /\ (c_arb c = true -> forall ac, o_caps o = Some ac -> ac <> a /\ ac <> ak /\ ac ∉ somes lk)
    /\ (is_set = false -> forall av, o_vals o = Some av -> av <> a /\ av <> ak /\ av ∉ somes lk /\ av ∉ somes lv /\ NoDup (somes lv)
          /\ a ∉ somes lv /\ ak ∉ somes lv /\ (forall x, x ∈ somes lk -> x ∉ somes lv)
          /\ (c_arb c = true -> forall ac, o_caps o = Some ac -> ac <> av /\ ac ∉ somes lv))).
  { assert (Hv2 : is_set = false -> forall av, o_vals o = Some av -> arr h (o_vals o) = lv).
    { intros Es av E. destruct (Hv' Es) as (av' & E1 & E2 & _). rewrite E1. cbn [arr]. by rewrite E2. }
    clear -Hnd Hv2. cbn [app] in Hnd. apply NoDup_cons in Hnd as [N1 Hnd]. apply NoDup_cons in Hnd as [N2 Hnd].
    rewrite <- !app_assoc in Hnd. apply NoDup_app in Hnd as (N3 & N4 & Hnd). apply NoDup_app in Hnd as (N5 & N6 & Hnd).
    rewrite !elem_of_cons, !elem_of_app in N1. rewrite !elem_of_app in N2.
    split; [intros ->; tauto|]. split; [done|]. split; [tauto|]. split; [tauto|]. split.
    - intros Ea ac E. rewrite Ea, E in *. cbn [opt] in *. setoid_rewrite elem_of_list_singleton in N1. setoid_rewrite elem_of_list_singleton in N2.
      split; [intros ->; tauto|]. split; [intros ->; tauto|]. intros H. apply (N4 _ H). rewrite elem_of_app, elem_of_list_singleton. by left.
    - intros Es av E. pose proof (Hv2 Es av E) as E2. rewrite Es, E2, E in *. cbn [opt] in *.
      cbn [app] in *. rewrite elem_of_cons in N1, N2.
      apply NoDup_cons in Hnd as [N7 Hnd]. apply NoDup_app in Hnd as (N8 & N9 & Hnd). rewrite elem_of_app in N7.
      split; [intros ->; tauto|]. split; [intros ->; tauto|].
      split. { intros H. apply (N4 _ H). rewrite elem_of_app, elem_of_cons. tauto. }
      split; [tauto|]. split; [done|]. split; [tauto|]. split; [tauto|].
      split. { intros x H H'. apply (N4 _ H). rewrite elem_of_app, elem_of_cons, elem_of_app. tauto. }
      intros Ea ac Ec. rewrite Ea, Ec in *. cbn [opt] in *. specialize (N6 ac ltac:(apply elem_of_list_here)).
      rewrite elem_of_cons, elem_of_app in N6. split; [intros ->; tauto|tauto]. }
  destruct Hd as (D1 & D2 & D3 & D4 & D5 & D6).
  induction k as [|k IH]; intros Hk.
  - exists h. split; [done|]. constructor.
    + by rewrite drop_0.
    + by rewrite drop_0.
    + intros Es av E. destruct (Hv' Es) as (av' & E1 & E2 & _). rewrite E1 in E. injection E as <-. by rewrite drop_0.
    + intros Ea ac E. destruct (Hc Ea) as (ac' & cs & E1 & E2 & E3). rewrite E1 in E. injection E as <-. by exists cs.
    + intros x _ _ _ _. rewrite decide_False; [done|]. destruct is_set; intros H; inversion H.
  - destruct IH as (h1 & E1 & [C1 C2 C3 C4 C5]); [lia|].
    rewrite seq_S, rfold_snoc, E1. cbn [mbind res_bind Nat.add].
    destruct (lookup_lt_is_Some_2 ns k ltac:(lia)) as [n Hn].
    destruct (lookup_lt_is_Some_2 lk k ltac:(lia)) as [q Hq].
    unfold own_clear_bucket. rewrite Ha. cbn [get_size]. rewrite C1, mid_lookup, Hn. cbn [of_option mbind res_bind].
    destruct (n =? 0) eqn:En.
    + apply N.eqb_eq in En as ->. exists h1. split; [done|]. pose proof (Zk k Hn) as Zq. rewrite Zq in Hq. injection Hq as <-.
      constructor.
      * rewrite C1. by rewrite (step_list_same _ _ _ Hn).
      * rewrite C2. by rewrite (step_list_same _ _ _ Zq).
      * intros Es av E. rewrite (C3 Es av E). destruct (Hv' Es) as (_ & _ & _ & _ & Zv & _). by rewrite (step_list_same _ _ _ (Zv k Hn)).
      * done.
      * intros x X1 X2 X3 X4. rewrite (C5 x X1 X2 X3 X4). rewrite (somes_take_S _ _ _ Zq). cbn [opt]. rewrite app_nil_r.
        destruct is_set eqn:Es; [done|]. destruct (Hv' eq_refl) as (_ & _ & _ & _ & Zv & _).
        rewrite (somes_take_S _ _ _ (Zv k Hn)). cbn [opt]. by rewrite app_nil_r.
    + (* values *)
      assert (exists h2 qv, (if is_set then Ok h1 else clear_elem pf (c_val c) h1 (o_vals o) k) = Ok h2
        /\ (is_set = false -> lv !! k = Some qv) /\ (is_set = true -> qv = None)
        /\ (is_set = false -> forall av, o_vals o = Some av -> h2 !! av = Some (BArr (replicate (S k) None ++ drop (S k) lv)))
        /\ (forall x, (is_set = false -> o_vals o <> Some x) -> h2 !! x = if decide (x ∈ opt qv) then None else h1 !! x)) as (h2 & qv & E2 & Q1 & Q2 & Q3 & Q4).
      { destruct is_set eqn:Es.
        - exists h1, None. repeat split; try done. 
        - destruct (Hv' eq_refl) as (av & Eav & Hav & Lv & Zv & Dv). destruct (D6 eq_refl av Eav) as (F1 & F2 & F3 & F4 & F5 & F6 & F7 & F8 & F9).
          destruct (lookup_lt_is_Some_2 lv k ltac:(lia)) as [qv Hqv]. rewrite Eav.
          destruct (clear_elem_ok (c_val c) h1 av (replicate k None ++ drop k lv) k qv) as (h2 & E2 & G1 & G2).
          + by apply C3.
          + by rewrite mid_lookup.
          + intros x ->. pose proof (somes_lookup _ _ _ Hqv) as Hx. split; [by intros ->|].
            destruct (Dv x Hx) as (t & d & Et & Ft). exists t, d. split; [|done].
            rewrite C5; [rewrite decide_False; [done|]| | | |].
            * rewrite elem_of_app. intros [H|H]; [by apply (F8 x); [eapply somes_take|]|]. by apply (somes_nodup _ _ _ F5 Hqv).
            * by intros ->.
            * by intros ->.
            * intros _. rewrite Eav. by intros [= ->].
            * intros Ea Ec. by destruct (F9 Ea x Ec).
          + exists h2, qv. repeat split; try done.
            * intros _ av' [= <-]. rewrite G1. f_equal. f_equal. apply step_list. lia.
            * intros x Hx. apply G2. intros ->. by apply (Hx eq_refl). }
      rewrite E2. cbn [mbind res_bind].
      assert (Hqv : forall x, x ∈ opt qv -> is_set = false /\ x ∈ somes lv).
      { intros x Hx. destruct is_set eqn:Es; [rewrite Q2 in Hx by done; inversion Hx|]. split; [done|].
        destruct qv as [y|]; [|inversion Hx]. apply elem_of_list_singleton in Hx as ->. apply somes_lookup with k. by apply Q1. }
      assert (Hne : forall x, x = a \/ x = ak \/ x ∈ somes lk \/ (c_arb c = true /\ o_caps o = Some x) ->
        h2 !! x = h1 !! x).
      { intros x Hx. rewrite Q4.
        - rewrite decide_False; [done|]. intros H. destruct (Hqv x H) as [Es Hl]. destruct (Hv' Es) as (av & Eav & _).
          destruct (D6 Es av Eav) as (F1 & F2 & F3 & F4 & F5 & F6 & F7 & F8 & F9).
          destruct Hx as [->|[->|[Hx|[Ea Ec]]]]; [done|done|by apply (F8 x)|by destruct (F9 Ea x Ec)].
        - intros Es Eav. destruct (D6 Es x Eav) as (F1 & F2 & F3 & F4 & F5 & F6 & F7 & F8 & F9).
          destruct Hx as [->|[->|[Hx|[Ea Ec]]]]; [done|done|done|by destruct (F9 Ea x Ec)]. }
      destruct (clear_elem_ok (c_key c) h2 ak (replicate k None ++ drop k lk) k q) as (h3 & E3 & G1 & G2).
      { rewrite Hne by eauto 6. done. }
      { by rewrite mid_lookup. }
      { intros x ->. pose proof (somes_lookup _ _ _ Hq) as Hx. split; [by intros ->|].
        destruct (Dk x Hx) as (t & d & Et & Ft). exists t, d. split; [|done]. rewrite Hne by eauto 6.
        rewrite C5; [rewrite decide_False; [done|]| | | |].
        - rewrite elem_of_app. intros [H|H]; [by apply (somes_nodup _ _ _ D2 Hq)|].
          destruct is_set eqn:Es; [inversion H|]. destruct (Hv' eq_refl) as (av & Eav & _).
          destruct (D6 eq_refl av Eav) as (_ & _ & _ & _ & _ & _ & _ & F8 & _). apply (F8 x Hx). by apply somes_take with k.
        - by intros ->.
        - by intros ->.
        - intros Es Eav. by destruct (D6 Es x Eav) as (_ & _ & F3 & _).
        - intros Ea Ec. by destruct (D5 Ea x Ec) as (_ & _ & ?). }
      rewrite Hak, E3. cbn [mbind res_bind].
      assert (Ha3 : h3 !! a = Some (BSizes (replicate k 0 ++ drop k ns))).
      { rewrite G2 by done. rewrite decide_False; [by rewrite Hne by eauto 6|]. destruct q as [x|]; [|intros H; inversion H].
        intros H%elem_of_list_singleton. subst x. apply D3. by apply somes_lookup with k. }
      cbn [set_size]. rewrite Ha3. rewrite (proj2 (Nat.ltb_lt _ _)) by (rewrite app_length, replicate_length, drop_length; lia).
      cbn [mbind res_bind]. rewrite step_list by lia.
      set (h4 := <[a := BSizes (replicate (S k) 0 ++ drop (S k) ns)]> h3).
      assert (Hrest : forall x, x <> a -> x <> ak -> (is_set = false -> o_vals o <> Some x) ->
        h4 !! x = if decide (x ∈ opt q ++ opt qv) then None else h1 !! x).
      { intros x X1 X2 X3. subst h4. rewrite lookup_insert_ne by done. rewrite G2 by done. destruct (decide (x ∈ opt q)) as [H|H].
        - rewrite decide_True; [done|]. apply elem_of_app. by left.
        - rewrite Q4 by done. destruct (decide (x ∈ opt qv)) as [H'|H'].
          + rewrite decide_True; [done|]. apply elem_of_app. by right.
          + rewrite decide_False; [done|]. rewrite elem_of_app. tauto. }
      assert (Hq' : forall x, x ∈ opt q -> x ∈ somes lk).
      { intros x Hx. destruct q as [y|]; [|inversion Hx]. apply elem_of_list_singleton in Hx as ->. by apply somes_lookup with k. }
      assert (Hcaps : c_arb c = true -> forall ac, o_caps o = Some ac -> h4 !! ac = h1 !! ac).
      { intros Ea ac Ec. destruct (D5 Ea ac Ec) as (F1 & F2 & F3). rewrite Hrest; [|done|done|].
        - rewrite decide_False; [done|]. rewrite elem_of_app. intros [H|H]; [by apply F3, Hq'|].
          destruct (Hqv _ H) as [Es Hl]. destruct (Hv' Es) as (av & Eav & _).
          destruct (D6 Es av Eav) as (_ & _ & _ & _ & _ & _ & _ & _ & F9). by destruct (F9 Ea ac Ec).
        - intros Es Eav. destruct (D6 Es ac Eav) as (_ & _ & _ & _ & _ & _ & _ & _ & F9). by destruct (F9 Ea ac Ec). }
      assert (Hvals : is_set = false -> forall av, o_vals o = Some av -> h4 !! av = Some (BArr (replicate (S k) None ++ drop (S k) lv))).
      { intros Es av Eav. destruct (D6 Es av Eav) as (F1 & F2 & F3 & _). subst h4. rewrite lookup_insert_ne by done.
        rewrite G2 by done. rewrite decide_False; [by apply Q3|]. intros H. by apply F3, Hq'. }
      assert (Hkeys : h4 !! ak = Some (BArr (replicate (S k) None ++ drop (S k) lk))).
      { subst h4. rewrite lookup_insert_ne by done. rewrite G1. f_equal. f_equal. apply step_list. lia. }
      assert (Htake : forall x, (x ∈ somes (take (S k) lk) ++ (if is_set then [] else somes (take (S k) lv)))
        <-> x ∈ (somes (take k lk) ++ (if is_set then [] else somes (take k lv))) \/ x ∈ opt q ++ opt qv).
      { intros x. rewrite (somes_take_S _ _ _ Hq). destruct is_set eqn:Es.
        - rewrite (Q2 eq_refl). cbn [opt]. rewrite !elem_of_app. set_solver.
        - rewrite (somes_take_S _ _ _ (Q1 eq_refl)). rewrite !elem_of_app. tauto. }
      assert (Hfin : forall x, x <> a -> x <> ak -> (is_set = false -> o_vals o <> Some x) -> (c_arb c = true -> o_caps o <> Some x) ->
        h4 !! x = if decide (x ∈ somes (take (S k) lk) ++ (if is_set then [] else somes (take (S k) lv))) then None else h !! x).
      { intros x X1 X2 X3 X4. rewrite Hrest by done. destruct (decide (x ∈ opt q ++ opt qv)) as [H|H].
        - rewrite decide_True; [done|]. apply Htake. by right.
        - rewrite C5 by done. destruct (decide (x ∈ somes (take k lk) ++ _)) as [H'|H'].
          + rewrite decide_True; [done|]. apply Htake. by left.
          + rewrite decide_False; [done|]. rewrite Htake. tauto. }
      unfold set_cap. destruct (c_arb c) eqn:Ea.
      * destruct (Hc eq_refl) as (ac & cs & Ec & Hcs & Lc). rewrite Ec.
        destruct (C4 eq_refl ac Ec) as (cs1 & Hcs1 & Lc1). rewrite (Hcaps eq_refl ac Ec), Hcs1.
        rewrite (proj2 (Nat.ltb_lt _ _)) by lia. eexists. split; [done|].
        destruct (D5 eq_refl ac Ec) as (F1 & F2 & F3).
        constructor.
        -- rewrite lookup_insert_ne by done. subst h4. by rewrite lookup_insert.
        -- rewrite lookup_insert_ne by done. done.
        -- intros Es av Eav. rewrite lookup_insert_ne; [by apply Hvals|].
           destruct (D6 Es av Eav) as (_ & _ & _ & _ & _ & _ & _ & _ & F9). by destruct (F9 eq_refl ac Ec).
        -- intros _ ac' Ec'. rewrite Ec in Ec'. injection Ec' as <-. eexists. rewrite lookup_insert. split; [done|]. by rewrite insert_length.
        -- intros x X1 X2 X3 X4. rewrite lookup_insert_ne; [apply Hfin; try done; intros _; by apply X4|]. intros ->. by apply (X4 Ea).
      * exists h4. split; [done|]. constructor; try done.
        -- subst h4. by rewrite lookup_insert.
        -- intros Ea2. congruence.
        -- intros. apply Hfin; done.
Qed.

Lemma all_none ns (l : list ptr) : length l = length ns -> Forall (fun n => n = 0) ns -> (forall i, ns !! i = Some 0 -> l !! i = Some None) ->
  l = replicate (length ns) None.
Proof.
  intros Hl Hf Hz. apply list_eq. intros i. destruct (lookup_lt_dec ns i) as [Hi|Hi]
  || destruct (decide (i < length ns)%nat) as [Hi|Hi].
  - rewrite lookup_replicate_2 by done. apply Hz. destruct (lookup_lt_is_Some_2 ns i Hi) as [n Hn]. rewrite Hn.
    by rewrite (Forall_lookup_1 _ _ _ _ Hf Hn).
  - rewrite !lookup_ge_None_2; [done| |]; rewrite ?replicate_length; lia.
Qed.
Lemma zeros_eq ns : Forall (fun n : N => n = 0) ns -> ns = replicate (length ns) 0.
Proof. induction 1 as [|x l -> _ IH]; cbn; [done|by rewrite <- IH]. Qed.
Lemma rep_drop {A} (x : A) n l : length l = n -> replicate n x ++ drop n l = replicate n x.
Proof. intros H. rewrite drop_ge by lia. by rewrite app_nil_r. Qed.

Lemma clear_all h o a : wf h o -> o_sizes o = Some a -> exists h' n,
  rfold (own_clear_bucket pf c o) (seq 0 (if o_b o =? 0 then 0%nat else N.to_nat (2^(o_b o)))) h = Ok h'
  /\ exists ns ak lk lv, h !! a = Some (BSizes ns) /\ o_keys o = Some ak /\ h !! ak = Some (BArr lk)
  /\ (is_set = false -> exists av, o_vals o = Some av /\ h !! av = Some (BArr lv))
  /\ h' !! a = Some (BSizes (replicate n 0)) /\ h' !! ak = Some (BArr (replicate n None))
  /\ (is_set = false -> forall av, o_vals o = Some av -> h' !! av = Some (BArr (replicate n None)))
  /\ (c_arb c = true -> forall ac, o_caps o = Some ac -> exists cs, h' !! ac = Some (BCaps cs))
  /\ (forall x, x <> a -> x <> ak -> (is_set = false -> o_vals o <> Some x) -> (c_arb c = true -> o_caps o <> Some x) ->
    h' !! x = if decide (x ∈ somes lk ++ (if is_set then [] else somes lv)) then None else h !! x).
Proof.
  intros W Ha. destruct (clear_loop h o a W Ha) as (ns & ak & lk & lv & E1 & E2 & E3 & E4 & E5 & E6).
  destruct (wf_some _ _ W a Ha) as (ns' & ak' & lk' & Hns & Hak & Hlk & Dk & Lk & Hv & Hc & Zk & Hb).
  rewrite E1 in Hns. injection Hns as <-. rewrite E2 in Hak. injection Hak as <-. rewrite E3 in Hlk. injection Hlk as <-.
  destruct (o_b o =? 0).
  - exists h, (length ns). split; [done|]. exists ns, ak, lk, lv.
    assert (Hvn : is_set = false -> lv = replicate (length ns) None).
    { intros Es. destruct (E4 Es) as (av & F1 & F2 & F3). destruct (Hv Es) as (av' & lv' & G1 & G2 & G3 & G4).
      rewrite F1 in G1. injection G1 as <-. rewrite F2 in G2. injection G2 as <-. by apply all_none. }
    assert (Hkn : lk = replicate (length ns) None) by by apply all_none.
    repeat split; try done.
    + intros Es. destruct (E4 Es) as (av & F1 & F2 & F3). by exists av.
    + rewrite E1. by rewrite (zeros_eq ns) at 1.
    + rewrite E3. by rewrite Hkn.
    + intros Es av Eav. destruct (E4 Es) as (av' & F1 & F2 & F3). rewrite Eav in F1. injection F1 as <-. by rewrite F2, Hvn.
    + intros Ea ac Ec. destruct (Hc Ea) as (ac' & cs & F1 & F2 & F3). rewrite Ec in F1. injection F1 as <-. by exists cs.
    + intros x _ _ _ _. rewrite decide_False; [done|]. rewrite Hkn, somes_replicate. destruct is_set; [intros H; inversion H|].
      rewrite Hvn by done. rewrite somes_replicate. intros H; inversion H.
  - rewrite Hb. destruct (E6 (length ns)) as (h' & -> & [C1 C2 C3 C4 C5]); [lia|]. exists h', (length ns). split; [done|].
    exists ns, ak, lk, lv. rewrite rep_drop in C1 by done. rewrite rep_drop in C2 by done. repeat split; try done.
    + intros Es. destruct (E4 Es) as (av & F1 & F2 & F3). by exists av.
    + intros Es av Eav. rewrite (C3 Es av Eav). destruct (E4 Es) as (av' & F1 & F2 & F3). by rewrite rep_drop.
    + intros Ea ac Ec. destruct (C4 Ea ac Ec) as (cs & ? & _). by exists cs.
    + intros x X1 X2 X3 X4. rewrite C5 by done. rewrite (take_ge lk) by lia. destruct is_set eqn:Es; [done|].
      destruct (E4 eq_refl) as (av & _ & _ & F). by rewrite (take_ge lv) by lia.
Qed.

Lemma ov_clear_ok h v : NoDup (ov_ptrs v) -> ov_live h v ->
  exists h' v', own_ov_clear pf h v = Ok (h', v') /\ ov_ptrs v' = [] /\ without (ov_ptrs v) h h'.
Proof.
  intros Hnd Hl. destruct v as [|k w e full|nb els full]; cbn [own_ov_clear].
  - exists h, PDummy. split; [done|]. split; [done|]. apply without_nil.
  - cbn [ov_ptrs] in *. apply NoDup_app in Hnd as (_ & Hnd & _).
    destruct (hfree_ok TMalloc h k) as (h1 & -> & H1).
    { intros a ->. destruct (Hl a) as (d & E). { apply elem_of_app. left. apply elem_of_list_here. }
      exists (BData TMalloc d). split; [done|]. cbn [blk_tag]. unfold free_ok. by rewrite bool_decide_true. }
    cbn [mbind res_bind]. destruct (hfree_ok TMalloc h1 w) as (h2 & -> & H2).
    { intros a ->. destruct (Hl a) as (d & E). { apply elem_of_app. right. apply elem_of_list_here. }
      exists (BData TMalloc d). split.
      - rewrite (without_notin _ _ _ _ H1); [done|]. intros Hx. apply (Hnd _ Hx). apply elem_of_list_here.
      - cbn [blk_tag]. unfold free_ok. by rewrite bool_decide_true. }
    cbn [mbind res_bind]. exists h2, (PArray None None e full). split; [done|]. split; [done|]. by apply without_app with h1.
  - exists h, (PUmap nb [] full). split; [done|]. split; [done|]. apply without_nil.
Qed.

(** The blocks that clear() releases. *)
Definition cfoot (h : heap) (o : obj) : list N :=
  match o_sizes o with
  | Some a => a :: opt (o_keys o) ++ somes (arr h (o_keys o)) ++ (if c_arb c then opt (o_caps o) else [])
              ++ (if is_set then [] else somes (arr h (o_vals o)))
  | None => []
  end ++ ov_ptrs (o_ov o).

Lemma own_clear_ok h o : wf h o -> exists h' o', own_clear pf c h o = Ok (h', o')
  /\ o_sizes o' = None /\ o_vals o' = o_vals o /\ (c_arb c = true -> o_caps o' = None) /\ ov_ptrs (o_ov o') = []
  /\ (is_set = false -> forall av, o_vals o = Some av -> exists n,
        h' !! av = match o_sizes o with Some _ => Some (BArr (replicate n None)) | None => h !! av end)
  /\ (forall x, (is_set = false -> o_vals o <> Some x) -> h' !! x = if decide (x ∈ cfoot h o) then None else h !! x).
Proof.
  intros W. unfold own_clear. pose proof (wf_nodup _ _ W) as Hnd. unfold cfoot. destruct (o_sizes o) as [a|] eqn:Ha.
  - destruct (clear_all h o a W Ha) as (h1 & n & -> & ns & ak & lk & lv & E1 & E2 & E3 & E4 & C1 & C2 & C3 & C4 & C5).
    cbn [mbind res_bind]. unfold own_clear_structure. rewrite Ha, E2.
    unfold foot in Hnd. rewrite Ha, E2 in Hnd. cbn [opt arr] in Hnd |- *. rewrite E3 in Hnd |- *.
    (* delete[] m_keys *)
    destruct (delete_arr_ok (c_key c) h1 ak (replicate n None)) as (h2 & -> & H2).
    { done. } { rewrite somes_replicate. constructor. } { intros p. rewrite somes_replicate. intros H; inversion H. }
    { rewrite somes_replicate. intros H; inversion H. }
    rewrite somes_replicate in H2. cbn [mbind res_bind app] in *.
    apply NoDup_cons in Hnd as [N1 Hnd]. apply NoDup_cons in Hnd as [N2 Hnd].
    rewrite elem_of_cons in N1. assert (a <> ak) by (intros ->; tauto).
    destruct (hfree_ok TMalloc h2 (Some a)) as (h3 & -> & H3).
    { intros x [= <-]. exists (BSizes (replicate n 0)). rewrite (without_notin _ _ _ _ H2) by (rewrite elem_of_list_singleton; done).
      split; [done|]. cbn. unfold free_ok. by rewrite bool_decide_true. }
    cbn [mbind res_bind opt] in *.
    assert (H13 : without [ak; a] h1 h3) by by apply (without_app [ak] [a] h1 h2 h3).
    rewrite !elem_of_app in N1, N2. 
    assert (Hc : exists h4, (if c_arb c then hfree pf TMalloc h3 (o_caps o) else Ok h3) = Ok h4
      /\ without (if c_arb c then opt (o_caps o) else []) h3 h4).
    { destruct (c_arb c) eqn:Ea; [|exists h3; split; [done|apply without_nil]].
      apply hfree_ok. intros x Ex. rewrite Ex in *. cbn [opt] in *. destruct (C4 eq_refl x eq_refl) as [cs Hcs].
      rewrite elem_of_list_singleton in N1, N2. exists (BCaps cs). split.
      - rewrite (without_notin _ _ _ _ H13); [done|]. rewrite !elem_of_cons. intros [->|[->|Hx]]; [tauto|tauto|inversion Hx].
      - cbn. unfold free_ok. by rewrite bool_decide_true. }
    destruct Hc as (h4 & -> & H4). cbn [mbind res_bind].
    rewrite <- !app_assoc in Hnd. apply NoDup_app in Hnd as (N3 & N4 & Hnd). apply NoDup_app in Hnd as (N5 & N6 & Hnd).
    apply NoDup_app in Hnd as (N7 & N8 & N9).
    assert (Hov : forall x, x ∈ ov_ptrs (o_ov o) -> h4 !! x = h !! x).
    { intros x Hx. rewrite (without_notin _ _ _ _ H4).
      - rewrite (without_notin _ _ _ _ H13).
        + rewrite C5.
          * rewrite decide_False; [done|]. rewrite elem_of_app. intros [Hx'|Hx'].
            -- apply (N4 _ Hx'). rewrite !elem_of_app. tauto.
            -- destruct is_set eqn:Es; [inversion Hx'|]. destruct (E4 eq_refl) as (av & Ev & Hlv). rewrite Ev in N8. cbn [arr] in N8. rewrite Hlv in N8.
               apply (N8 x); [|done]. rewrite elem_of_app. tauto.
          * intros ->. tauto.
          * intros ->. tauto.
          * intros Es Ev. rewrite Es, Ev in N8. apply (N8 x); [|done]. rewrite elem_of_app. left. apply elem_of_list_here.
          * intros Ea Ec. rewrite Ea, Ec in N6. apply (N6 x); [apply elem_of_list_here|]. rewrite !elem_of_app. tauto.
        + rewrite !elem_of_cons. intros [->|[->|Hx']]; [tauto|tauto|inversion Hx'].
      - intros Hx'. apply (N6 _ Hx'). rewrite !elem_of_app. tauto. }
    destruct (ov_clear_ok h4 (o_ov o)) as (h5 & v & -> & Hv & H5); [done| |].
    { intros x Hx. rewrite Hov by done. by apply (wf_ov _ _ W). }
    cbn [mbind res_bind]. eexists h5, _. split; [done|]. cbn [o_sizes o_vals o_caps o_ov].
    split; [done|]. split; [done|]. split; [by intros ->|]. split; [done|]. split.
    + intros Es av Ev. exists n. destruct (E4 Es) as (av' & Ev' & Hlv). rewrite Ev in Ev'. injection Ev' as <-.
      rewrite Es, Ev in *. cbn [opt arr app] in *.
      setoid_rewrite elem_of_cons in N8. setoid_rewrite elem_of_cons in N6.
      rewrite elem_of_cons in N1, N2.
      rewrite (without_notin _ _ _ _ H5); [rewrite (without_notin _ _ _ _ H4); [rewrite (without_notin _ _ _ _ H13); [by apply C3|]|]|].
      * rewrite !elem_of_cons. intros [->|[->|Hx']]; [tauto|tauto|inversion Hx'].
      * intros Hx. apply (N6 _ Hx). tauto.
      * intros Hx. apply (N8 av); [tauto|done].
    + intros x Hx. assert (without (opt (Some ak) ++ opt (Some a) ++ (if c_arb c then opt (o_caps o) else []) ++ ov_ptrs (o_ov o)) h1 h5) as H15.
      { cbn [opt app]. apply (without_app [ak; a] ((if c_arb c then opt (o_caps o) else []) ++ ov_ptrs (o_ov o)) h1 h3 h5); [done|].
        by apply without_app with h4. }
      rewrite H15. cbn [opt app].
      assert (Har : is_set = false -> arr h (o_vals o) = lv).
      { intros Es. destruct (E4 Es) as (av & -> & Hlv). cbn. by rewrite Hlv. }
      destruct (decide (x ∈ ak :: a :: (if c_arb c then opt (o_caps o) else []) ++ ov_ptrs (o_ov o))) as [Hi|Hi].
      * rewrite decide_True; [done|]. rewrite !elem_of_cons, !elem_of_app in Hi. rewrite !elem_of_cons, !elem_of_app. tauto.
      * rewrite !elem_of_cons, !elem_of_app in Hi. rewrite C5; [|tauto|tauto|done|].
        -- destruct (decide (x ∈ somes lk ++ _)) as [Hj|Hj].
           ++ rewrite decide_True; [done|]. rewrite elem_of_app in Hj. rewrite !elem_of_cons, !elem_of_app. destruct Hj as [Hj|Hj]; [tauto|].
              destruct is_set eqn:Es; [inversion Hj|]. rewrite Har by done. tauto.
           ++ rewrite decide_False; [done|]. rewrite elem_of_app in Hj. rewrite !elem_of_cons, !elem_of_app.
              destruct is_set eqn:Es; [|rewrite Har by done]; tauto.
        -- intros Ea Ec. rewrite Ea, Ec in Hi. cbn [opt] in Hi. rewrite elem_of_list_singleton in Hi. tauto.
  - unfold foot in Hnd. rewrite Ha in Hnd. cbn [app] in *. apply NoDup_app in Hnd as (N1 & N2 & N3).
    destruct (ov_clear_ok h (o_ov o)) as (h1 & v & -> & Hv & H1); [done|apply (wf_ov _ _ W)|].
    cbn [mbind res_bind]. eexists h1, _. split; [done|]. unfold set_o_ov. cbn [o_sizes o_vals o_caps o_ov].
    split; [done|]. split; [done|]. split; [intros Ea; by apply (wf_none _ _ W)|]. split; [done|]. split.
    + intros Es av Ev. exists 0%nat. apply (without_notin _ _ _ _ H1). intros Hx. rewrite Es, Ev in N2. apply (N2 av); [|done].
      rewrite elem_of_app. left. apply elem_of_list_here.
    + intros x _. apply H1.
Qed.

Lemma foot_split h o x : x ∈ foot h o <-> x ∈ cfoot h o \/ (is_set = false /\ (o_vals o = Some x \/ (o_sizes o = None /\ x ∈ somes (arr h (o_vals o))))).
Proof.
  unfold foot, cfoot. destruct (o_sizes o) as [a|]; destruct is_set; rewrite ?elem_of_cons, ?elem_of_app, ?elem_of_cons, ?elem_of_app, ?elem_of_nil.
  - intuition (try congruence).
  - assert (x ∈ opt (o_vals o) <-> o_vals o = Some x) as ->.
    { destruct (o_vals o) as [y|]; cbn; [rewrite elem_of_list_singleton|rewrite elem_of_nil]; naive_solver. }
    intuition (try congruence).
  - intuition (try congruence).
  - assert (x ∈ opt (o_vals o) <-> o_vals o = Some x) as ->.
    { destruct (o_vals o) as [y|]; cbn; [rewrite elem_of_list_singleton|rewrite elem_of_nil]; naive_solver. }
    intuition (try congruence).
Qed.

Lemma destroy_ok h o : wf h o -> exists h', destroy pf c h o = Ok h' /\ without (foot h o) h h'.
Proof.
  intros W. unfold destroy. destruct (own_clear_ok h o W) as (h1 & o1 & -> & S1 & S2 & S3 & S4 & S5 & S6).
  cbn [mbind res_bind]. destruct (ov_clear_ok h1 (o_ov o1)) as (h2 & v & -> & Hv & H2).
  { rewrite S4. constructor. } { intros x. rewrite S4. intros H; inversion H. }
  rewrite S4 in H2. cbn [mbind res_bind].
  assert (Heq : forall x, h2 !! x = h1 !! x) by (intros x; apply (without_notin _ _ _ _ H2); intros H; inversion H).
  assert (exists h3, (if is_set then Ok h2 else delete_arr pf (c_val c) h2 (o_vals o1)) = Ok h3
    /\ forall x, h3 !! x = if decide (x ∈ foot h o) then None else h !! x) as (h3 & -> & H3).
  { destruct is_set eqn:Es.
    - exists h2. split; [done|]. intros x. rewrite Heq, S6 by done.
      destruct (decide (x ∈ cfoot h o)) as [Hi|Hi].
      + rewrite decide_True; [done|]. apply foot_split. by left.
      + rewrite decide_False; [done|]. rewrite foot_split, Es. naive_solver.
    - rewrite S2. destruct (o_vals o) as [av|] eqn:Ev.
      + destruct (wf_vals _ _ W Es av Ev) as (lv & Hlv & Dv). destruct (S5 eq_refl av eq_refl) as [n Hn].
        pose proof (wf_nodup _ _ W) as Hnd. unfold foot in Hnd. rewrite Es, Ev in Hnd. apply NoDup_app in Hnd as (_ & N1 & Hnd).
        apply NoDup_app in Hnd as (Hnd & N2 & _). cbn [opt arr app] in Hnd. rewrite Hlv in Hnd. apply NoDup_cons in Hnd as [N3 N4].
        assert (exists l, h2 !! av = Some (BArr l) /\ NoDup (somes l) /\ data_ok (c_val c) h2 l /\ av ∉ somes l
          /\ forall x, x ∈ somes l <-> o_sizes o = None /\ x ∈ somes lv) as (l & L1 & L2 & L3 & L4 & L5).
        { rewrite Heq, Hn. destruct (o_sizes o) as [a|] eqn:Ha.
          - exists (replicate n None). rewrite somes_replicate. repeat split; try done.
            + constructor. + intros p. rewrite somes_replicate. intros H; inversion H. + intros H; inversion H.
            + inversion H. + inversion H. + by intros [? ?].
          - exists lv. repeat split; try done; try tauto. intros p Hp. rewrite Heq, S6.
            + rewrite decide_False; [by apply Dv|]. unfold cfoot. rewrite Ha. cbn [app]. intros Hx. apply (N2 p); [|done].
              cbn [opt arr app]. rewrite Hlv. by right.
            + intros _ [= ->]. done. }
        destruct (delete_arr_ok (c_val c) h2 av l L1 L2 L3 L4) as (h3 & -> & H3). exists h3. split; [done|].
        intros x. rewrite H3. destruct (decide (x ∈ av :: somes l)) as [Hi|Hi].
        * rewrite decide_True; [done|]. apply foot_split. right. split; [done|]. rewrite Ev. cbn [arr]. rewrite Hlv.
          apply elem_of_cons in Hi as [->|Hi]; [by left|]. right. by apply L5.
        * rewrite elem_of_cons, L5 in Hi. rewrite Heq, S6 by (intros _ [= ->]; tauto). destruct (decide (x ∈ cfoot h o)) as [Hj|Hj].
          -- rewrite decide_True; [done|]. apply foot_split. by left.
          -- rewrite decide_False; [done|]. rewrite foot_split, Ev. cbn [arr]. rewrite Hlv. intros [?|(_ & [[= ->]|?])]; tauto.
      + exists h2. split; [done|]. intros x. rewrite Heq, S6 by done. destruct (decide (x ∈ cfoot h o)) as [Hi|Hi].
        * rewrite decide_True; [done|]. apply foot_split. by left.
        * rewrite decide_False; [done|]. rewrite foot_split, Ev. cbn [arr]. intros [?|(_ & [?|[_ H]])]; try done. inversion H. }
  cbn [mbind res_bind]. destruct (c_arb c) eqn:Ea; [rewrite (S3 eq_refl); cbn [hfree]|]; by exists h3.
Qed.
End own.
