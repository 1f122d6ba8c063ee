(** The test programs succeed on every container that behaves like a finite map (or a finite set). *)
From Verif Require Export ClientModel SelectProofs.

(** ** Programs over a specification *)
Section good.
Context {O X S : Type} (sstep : S -> O -> S * X) (okop : S -> O -> Prop) (okiter : S -> Prop) (holds : S -> N -> N -> Prop).
(** All checks of a program succeed if the container returns what the specification returns, and all calls meet their
    preconditions; loops may see any pairs that are stored. *)
Fixpoint good (s : S) (p : prog O X) : Prop :=
  match p with
  | Pass => True
  | Call o k => okop s o /\ good (fst (sstep s o)) (k (snd (sstep s o)))
  | Iter _ k => okiter s /\ forall l, (forall e, e ∈ l -> holds s (fst e) (snd e)) -> good s (k l)
  | Assert b p => b = true /\ good s p
  end.

Section sim.
Context {T : Type} (step : T -> O -> res (T * X)) (fwd bwd : T -> res (list (N * N))) (R : T -> S -> Prop).
Hypothesis Hstep : forall t s o, R t s -> okop s o -> exists t', step t o = Ok (t', snd (sstep s o)) /\ R t' (fst (sstep s o)).
Hypothesis Hiter : forall t s, R t s -> okiter s -> exists l1 l2, fwd t = Ok l1 /\ bwd t = Ok l2 /\ forall e, e ∈ l1 \/ e ∈ l2 -> holds s (fst e) (snd e).
Lemma good_play p : forall t s, R t s -> good s p -> exists t', play step fwd bwd t p = Ok (t', true).
Proof.
  induction p as [|o k IH|back k IH|b p IH]; intros t s HR Hg; cbn [good] in Hg; cbn [play].
  - by exists t.
  - destruct Hg as [Ho Hg]. destruct (Hstep t s o HR Ho) as (t' & E & HR'). rewrite E. cbn [mbind res_bind]. by eapply IH.
  - destruct Hg as [Ho Hg]. destruct (Hiter t s HR Ho) as (l1 & l2 & E1 & E2 & Hl).
    destruct back; [rewrite E2|rewrite E1]; cbn [mbind res_bind]; eapply IH; try exact HR; apply Hg; intros e He; apply Hl; auto.
  - destruct Hg as [-> Hg]. by eapply IH.
Qed.
End sim.

(** Loops, with an invariant about the number of rounds done or about the elements left. *)
Lemma good_each {A} (l : list A) (body : A -> prog O X -> prog O X) rest (I : list A -> S -> Prop) s :
  (forall x l s p, I (x :: l) s -> (forall s', I l s' -> good s' p) -> good s (body x p)) ->
  I l s -> (forall s', I [] s' -> good s' rest) -> good s (each l body rest).
Proof.
  intros Hb HI Hr. unfold each. revert s HI. induction l as [|x l IH]; intros s HI; cbn [fold_right]; [by apply Hr|].
  eapply Hb; [exact HI|]. intros s' Hs'. by apply IH.
Qed.
Lemma good_each_const {A} (l : list A) (body : A -> prog O X -> prog O X) rest s :
  (forall x p, x ∈ l -> good s p -> good s (body x p)) -> good s rest -> good s (each l body rest).
Proof.
  intros Hb Hr. unfold each. induction l as [|x l IH]; cbn [fold_right]; [done|]. apply Hb; [by left|]. apply IH. intros y p Hy. apply Hb. by right.
Qed.
Lemma upto_from n (body : N -> prog O X -> prog O X) rest (I : N -> S -> Prop) s :
  (forall i s p, i < n -> I i s -> (forall s', I (i + 1) s' -> good s' p) -> good s (body i p)) ->
  I 0 s -> (forall s', I n s' -> good s' rest) -> good s (each (upto n) body rest).
Proof.
  intros Hb HI Hr. unfold upto.
  apply (good_each _ _ _ (fun l s => exists a, l = map N.of_nat (seq a (N.to_nat n - a)) /\ (a <= N.to_nat n)%nat /\ I (N.of_nat a) s)).
  - intros x l s' p (a & E & Ha & HI') Hp. destruct (N.to_nat n - a)%nat as [|d] eqn:Ed; [done|]. cbn [seq map] in E. injection E as -> ->.
    apply Hb; [lia|done|]. intros s'' H''. apply Hp. exists (1 + a)%nat. replace (N.to_nat n - (1 + a))%nat with d by lia. split; [done|].
    split; [lia|]. by replace (N.of_nat (1 + a)) with (N.of_nat a + 1) by lia.
  - exists 0%nat. rewrite Nat.sub_0_r. split; [done|]. split; [lia|done].
  - intros s' (a & E & Ha & HI'). apply Hr. destruct (N.to_nat n - a)%nat as [|d] eqn:Ed; [|done]. by replace n with (N.of_nat a) by lia.
Qed.
Lemma upto_const n (body : N -> prog O X -> prog O X) rest s :
  (forall i p, i < n -> good s p -> good s (body i p)) -> good s rest -> good s (each (upto n) body rest).
Proof.
  intros Hb Hr. apply good_each_const; [|done]. intros x p Hx. apply Hb. unfold upto in Hx. apply elem_of_list_fmap in Hx as (j & -> & Hj).
  apply elem_of_seq in Hj. lia.
Qed.
End good.

(** ** The map f a -> g a, ..., f (b - 1) -> g (b - 1) *)
Definition span (a b : N) : list N := map (fun i => a + N.of_nat i) (seq 0 (N.to_nat (b - a))).
Definition tab (f g : N -> N) (a b : N) : gmap N N := list_to_map (map (fun i => (f i, g i)) (span a b)).
Section tab.
Context (f g : N -> N) (n : N) (Hinj : forall i j, i < n -> j < n -> f i = f j -> i = j).
Lemma elem_of_span a b i : i ∈ span a b <-> a <= i < b.
Proof.
  unfold span. rewrite elem_of_list_fmap. split.
  - intros (j & -> & Hj). apply elem_of_seq in Hj. lia.
  - intros H. exists (N.to_nat (i - a)). split; [lia|]. apply elem_of_seq. lia.
Qed.
Lemma span_snoc a b : a <= b -> span a (b + 1) = span a b ++ [b].
Proof.
  intros H. unfold span. replace (N.to_nat (b + 1 - a)) with (N.to_nat (b - a) + 1)%nat by lia.
  rewrite seq_app, map_app. cbn [seq map]. f_equal. f_equal. lia.
Qed.
Lemma span_cons a b : a < b -> span a b = a :: span (a + 1) b.
Proof.
  intros H. unfold span. replace (N.to_nat (b - a)) with (S (N.to_nat (b - (a + 1)))) by lia. cbn [seq map]. f_equal; [lia|].
  rewrite <-seq_shift, map_map. apply map_ext. intros i. lia.
Qed.
Lemma tab_keys a b : b <= n -> NoDup (map (fun i => (f i, g i)) (span a b)).*1.
Proof.
  intros Hb. rewrite <-list_fmap_compose. change (NoDup (f <$> span a b)).
  assert (Hs : NoDup (span a b)).
  { unfold span. apply NoDup_fmap_2; [|apply NoDup_seq]. intros i j E. lia. }
  assert (Hin : forall i, i ∈ span a b -> i < n) by (intros i Hi%elem_of_span; lia). revert Hs Hin. generalize (span a b) as l.
  induction l as [|i l IH]; intros Hs Hin; cbn; [constructor|]. apply NoDup_cons in Hs as [Hi Hs]. apply NoDup_cons. split.
  - intros (j & E & Hj)%elem_of_list_fmap. apply Hi. replace i with j; [done|]. symmetry. apply Hinj; [| |done]; apply Hin; [by left|by right].
  - apply IH; [done|]. intros j Hj. apply Hin. by right.
Qed.
Lemma tab_lookup a b i : b <= n -> a <= i < b -> tab f g a b !! f i = Some (g i).
Proof.
  intros Hb Hi. apply elem_of_list_to_map; [by apply tab_keys|]. apply elem_of_list_fmap. exists i. split; [done|]. by apply elem_of_span.
Qed.
Lemma tab_Some a b k v : b <= n -> tab f g a b !! k = Some v -> exists i, a <= i < b /\ k = f i /\ v = g i.
Proof.
  intros Hb H. apply elem_of_list_to_map in H; [|by apply tab_keys]. apply elem_of_list_fmap in H as (i & E & Hi). injection E as -> ->.
  apply elem_of_span in Hi. by exists i.
Qed.
Lemma tab_None a b k : b <= n -> (forall i, a <= i < b -> f i <> k) -> tab f g a b !! k = None.
Proof.
  intros Hb H. destruct (tab f g a b !! k) eqn:E; [|done]. apply tab_Some in E as (i & Hi & -> & _); [|done]. by destruct (H i Hi).
Qed.
Lemma tab_empty a : tab f g a a = ∅.
Proof. unfold tab, span. by rewrite N.sub_diag. Qed.
Lemma tab_snoc a b : a <= b < n -> <[f b := g b]> (tab f g a b) = tab f g a (b + 1).
Proof.
  intros H. unfold tab. rewrite span_snoc by lia. rewrite map_app. cbn [map]. symmetry. apply list_to_map_snoc.
  pose proof (tab_keys a (b + 1) ltac:(lia)) as Hk. rewrite span_snoc, map_app, fmap_app in Hk by lia. apply NoDup_app in Hk as (_ & Hk & _).
  intros Hin. apply (Hk _ Hin). cbn. by left.
Qed.
Lemma tab_cons a b : a < b -> b <= n -> delete (f a) (tab f g a b) = tab f g (a + 1) b.
Proof.
  intros H Hb. unfold tab. rewrite span_cons by lia. cbn [map]. cbn [list_to_map foldr]. rewrite delete_insert; [done|].
  apply (tab_None (a + 1) b); [lia|]. intros i Hi E. apply Hinj in E; lia.
Qed.
Lemma tab_same a b i : b <= n -> a <= i < b -> <[f i := g i]> (tab f g a b) = tab f g a b.
Proof. intros Hb Hi. apply insert_id. by apply tab_lookup. Qed.
Lemma tab_size a b : b <= n -> size (tab f g a b) = N.to_nat (b - a).
Proof.
  intros Hb. unfold tab. 
  assert (H : forall l : list (N * N), NoDup l.*1 -> size (list_to_map l : gmap N N) = length l).
  { clear. induction l as [|[k v] l IH]; [done|]. cbn. rewrite NoDup_cons. intros [Hk Hn]. rewrite map_size_insert_None; [by rewrite IH|].
    by apply not_elem_of_list_to_map. }
  rewrite H by by apply tab_keys. rewrite map_length. unfold span. by rewrite map_length, seq_length.
Qed.
End tab.

(** ** The tests of maps *)
Lemma size_insert_le (m : gmap N N) k v : (size (<[k := v]> m) <= S (size m))%nat.
Proof. destruct (m !! k) eqn:E; [rewrite map_size_insert_Some by done|rewrite map_size_insert_None by done]; lia. Qed.
Lemma size_delete_le (m : gmap N N) k : (size (delete k m) <= size m)%nat.
Proof. destruct (m !! k) eqn:E; [rewrite map_size_delete_Some by done; lia|by rewrite delete_notin]. Qed.
(** The calls that the tests use besides clear(); all map types have them. *)
Definition test_op (o : op) : Prop := match o with OpInsert _ _ | OpReserve _ | OpEraseIt _ | OpEmpty | OpCount _ | OpClear => False | _ => True end.
Section tests.
Context (okop : gmap N N -> op -> Prop) (okiter : gmap N N -> Prop) (fits : nat -> Prop) (kw vw : N).
Context (Hok : forall m o, test_op o -> valid_op kw vw 0 0 o -> fits (size (fst (spec_step m o))) -> okop m o).
Context (Hfits : forall a b, (a <= b)%nat -> fits b -> fits a).
Notation holds := (fun (m : gmap N N) k v => m !! k = Some v).
Notation good := (good spec_step okop okiter holds).

Lemma good_act m o p : test_op o -> valid_op kw vw 0 0 o -> fits (size (fst (spec_step m o))) -> good (fst (spec_step m o)) p -> good m (act o p).
Proof. intros H1 H2 H3 H4. split; [by apply Hok|done]. Qed.
Lemma good_expect m o x p : test_op o -> valid_op kw vw 0 0 o -> fits (size (fst (spec_step m o))) -> snd (spec_step m o) = x ->
  good (fst (spec_step m o)) p -> good m (expect o x p).
Proof. intros H1 H2 H3 <- H4. split; [by apply Hok|]. split; [by apply bool_decide_eq_true|done]. Qed.
Lemma good_read m k v p : k < 2^kw -> fits (size m) -> m !! k = Some v -> good m p -> good m (expect (OpRead k) (OutNum v) p).
Proof. intros Hk Hf Hm Hp. apply good_expect; [done|done|..]; cbn [spec_step]; by rewrite Hm. Qed.
Lemma good_same m k v p : k < 2^kw -> fits (size m) -> m !! k = Some v -> good m p -> good m (expect_same k p).
Proof.
  intros Hk Hf Hm Hp. assert (Hs : spec_step m (OpRead k) = (m, OutNum v)) by (cbn [spec_step]; by rewrite Hm).
  unfold expect_same. cbn [ClientProofs.good]. rewrite Hs. cbn [fst snd]. rewrite Hs. cbn [fst snd].
  assert (okop m (OpRead k)) by (apply Hok; [done|done|by rewrite Hs]). repeat split; try done. by apply bool_decide_eq_true.
Qed.
Lemma good_size m n p : fits (size m) -> N.of_nat (size m) = n -> n < 2^64 -> good m p -> good m (expect OpSize (OutNum n) p).
Proof. intros Hf <- Hn Hp. apply good_expect; [done|done|done| |done]. cbn [spec_step snd]. by rewrite N.mod_small. Qed.
Lemma good_write m k v p : k < 2^kw -> v < 2^vw -> fits (size (<[k := v]> m)) -> good (<[k := v]> m) p -> good m (act (OpWrite k v) p).
Proof. intros Hk Hv Hf Hp. by apply good_act. Qed.
Lemma good_erase m k v p : k < 2^kw -> m !! k = Some v -> fits (size (delete k m)) -> good (delete k m) p -> good m (expect (OpErase k) (OutNum 1) p).
Proof. intros Hk Hm Hf Hp. apply good_expect; [done|done|..]; cbn [spec_step]; by rewrite Hm. Qed.

(** The loops of the tests over the map f 0 -> g 0, ..., f (n - 1) -> g (n - 1). *)
Section loops.
Context (f g : N -> N) (n : N) (Hinj : forall i j, i < n -> j < n -> f i = f j -> i = j).
Context (Hf : forall i, i < n -> f i < 2^kw) (Hg : forall i, i < n -> g i < 2^vw) (Hn : fits (N.to_nat n)).
Notation tab := (tab f g).
Lemma tab_fits a b : b <= n -> fits (size (tab a b)).
Proof. clear Hf Hg Hok. intros Hb. eapply Hfits; [|exact Hn]. rewrite (tab_size f g n Hinj) by done. lia. Qed.
Lemma fill_loop (body : N -> mprog -> mprog) rest :
  (forall i p, i < n -> good (tab 0 (i + 1)) p -> good (tab 0 i) (body i p)) ->
  good (tab 0 n) rest -> good ∅ (each (upto n) body rest).
Proof.
  intros Hb Hr. apply (upto_from _ _ _ _ n body rest (fun i s => s = tab 0 i)).
  - intros i s p Hi -> Hp. apply Hb; [done|]. by apply Hp.
  - by rewrite tab_empty.
  - intros s ->. done.
Qed.
Lemma fill_write i p : i < n -> good (tab 0 (i + 1)) p -> good (tab 0 i) (act (OpWrite (f i) (g i)) p).
Proof.
  intros Hi Hp. apply good_write; [by apply Hf|by apply Hg|..]; rewrite (tab_snoc f g n Hinj) by lia; [apply tab_fits; lia|done].
Qed.
Lemma again_write i p : i < n -> good (tab 0 n) p -> good (tab 0 n) (act (OpWrite (f i) (g i)) p).
Proof.
  intros Hi Hp. apply good_write; [by apply Hf|by apply Hg|..]; rewrite (tab_same f g n Hinj) by lia; [apply tab_fits; lia|done].
Qed.
Lemma drain_loop rest : good ∅ rest -> good (tab 0 n) (each (upto n) (fun i p => expect (OpErase (f i)) (OutNum 1) p) rest).
Proof. clear Hg.
  intros Hr. apply (upto_from _ _ _ _ n _ rest (fun i s => s = tab i n)).
  - intros i s p Hi -> Hp. apply (good_erase _ _ (g i)); [by apply Hf|apply (tab_lookup f g n Hinj); lia|..];
      rewrite (tab_cons f g n Hinj) by lia; [apply tab_fits; lia|by apply Hp].
  - done.
  - intros s ->. by rewrite tab_empty.
Qed.
Lemma tab_count a b p : n < 2^64 -> a <= b <= n -> good (tab a b) p -> good (tab a b) (expect OpSize (OutNum (b - a)) p).
Proof. clear Hf Hg. intros Hl Hb Hp. apply good_size; [apply tab_fits; lia| |lia|done]. rewrite (tab_size f g n Hinj) by lia. lia. Qed.
End loops.

Lemma zero_count p : fits 0 -> good ∅ p -> good ∅ (expect OpSize (OutNum 0) p).
Proof. intros H Hp. by apply good_size. Qed.

Lemma pow_lt_max i : i < kw -> 2^i < 2^kw.
Proof. intros H. by apply N.pow_lt_mono_r. Qed.
Lemma outlier_good : 2 <= kw <= 64 -> kw < 2^vw -> fits (S (N.to_nat kw)) -> good ∅ (test_map_outlier kw).
Proof.
  intros Hk Hv Hfit. set (f := N.pow 2). set (g := fun i : N => i).
  assert (Hinj : forall i j, i < kw -> j < kw -> f i = f j -> i = j) by (intros i j _ _; apply N.pow_inj_r; lia).
  assert (Hf : forall i, i < kw -> f i < 2^kw) by (intros i; apply pow_lt_max).
  assert (Hg : forall i, i < kw -> g i < 2^vw) by (unfold g; lia).
  assert (Hn : fits (N.to_nat kw)) by (eapply Hfits; [|exact Hfit]; lia).
  assert (H64 : kw < 2^64) by (assert (64 < 2^64) by done; lia).
  assert (Hmax : forall i, f i <> 2^kw - 1).
  { intros i. unfold f. destruct (N.eq_dec i 0) as [->|Hi].
    - assert (2^2 <= 2^kw) by (apply N.pow_le_mono_r; lia). change (2^0) with 1. change (2^2) with 4 in *. lia.
    - replace i with (N.succ (i - 1)) by lia. replace kw with (N.succ (kw - 1)) at 1 by lia. rewrite !N.pow_succ_r'. pose proof (N.pow_nonzero 2 (kw - 1)). lia. }
  assert (Hlast : 2^kw - 1 < 2^kw) by (pose proof (N.pow_nonzero 2 kw); lia).
  pose proof (tab_None f g kw Hinj 0 kw (2^kw - 1) ltac:(lia) (fun i _ => Hmax i)) as Hnone.
  assert (Hsz : size (<[2^kw - 1 := kw]> (tab f g 0 kw)) = S (N.to_nat kw)).
  { rewrite map_size_insert_None by done. rewrite (tab_size f g kw Hinj) by lia. lia. }
  unfold test_map_outlier.
  assert (Hfill : forall rest, good (tab f g 0 kw) rest ->
    good ∅ (each (upto kw) (fun i p => act (OpWrite (2^i) i) (expect OpSize (OutNum (i + 1)) p)) rest)).
  { intros rest Hrest. apply (fill_loop f g kw); [|done]. intros i p Hi Hp. apply (fill_write f g kw Hinj Hf Hg Hn); [done|].
    replace (i + 1) with (i + 1 - 0) at 2 by lia. apply (tab_count f g kw Hinj Hn); [done|lia|done]. }
  apply Hfill. apply upto_const.
  { intros i p Hi Hp. apply (again_write f g kw Hinj Hf Hg Hn); [done|].
    replace kw with (kw - 0) at 2 by lia. apply (tab_count f g kw Hinj Hn); [done|lia|done]. }
  apply good_write; [done|done|by rewrite Hsz|]. apply upto_const.
  { intros i p Hi Hp. apply good_read; [by apply Hf|by rewrite Hsz| |done]. rewrite lookup_insert_ne by (intros E; by apply (Hmax i)).
    by apply (tab_lookup f g kw Hinj); lia. }
  apply good_read; [done|by rewrite Hsz|by rewrite lookup_insert|].
  apply (good_erase _ _ kw); [done|by rewrite lookup_insert|..]; rewrite delete_insert by done; [by apply (tab_fits f g kw Hinj Hn)|].
  apply (drain_loop f g kw Hinj Hf Hn). apply zero_count; [eapply Hfits; [|exact Hn]; lia|]. apply Hfill. apply upto_const; [|done].
  intros i p Hi Hp. apply good_read; [by apply Hf|by apply (tab_fits f g kw Hinj Hn)| |done]. by apply (tab_lookup f g kw Hinj); lia.
Qed.

Lemma mod_value i : 1 <= vw -> i mod (2^vw - 1) < 2^vw.
Proof.
  intros Hv. assert (2^1 <= 2^vw) by (by apply N.pow_le_mono_r). change (2^1) with 2 in *. pose proof (N.mod_lt i (2^vw - 1) ltac:(lia)). lia.
Qed.
Lemma same_size m p : fits (size m) -> good m p -> good m (expect OpSize (snd (spec_step m OpSize)) p).
Proof. intros Hf Hp. by apply good_expect. Qed.

Lemma id_good : 1 <= vw -> fits (N.to_nat (N.min (2^16 - 1) (2^kw - 1))) -> good ∅ (test_map_id kw vw).
Proof.
  intros Hv. unfold test_map_id. set (n := N.min (2^16 - 1) (2^kw - 1)). intros Hn. set (f := fun i : N => i). set (g := fun i => i mod (2^vw - 1)).
  assert (Hinj : forall i j, i < n -> j < n -> f i = f j -> i = j) by (unfold f; auto).
  assert (Hnk : n <= 2^kw - 1) by (unfold n; lia). pose proof (N.pow_nonzero 2 kw ltac:(done)).
  assert (Hf : forall i, i < n -> f i < 2^kw) by (unfold f; lia).
  assert (Hg : forall i, i < n -> g i < 2^vw) by (intros i _; by apply mod_value).
  apply (fill_loop f g n); [intros i p; apply (fill_write f g n Hinj Hf Hg Hn)|].
  assert (Hfull : fits (size (tab f g 0 n))) by (by apply (tab_fits f g n Hinj Hn)).
  apply upto_const.
  { intros i p Hi Hp. assert (tab f g 0 n !! i = Some (g i)) by (apply (tab_lookup f g n Hinj 0 n i); lia).
    apply good_read; [by apply Hf|done|done|]. by apply (good_same _ _ (g i)); [apply Hf|..]. }
  apply good_act; [done|done|done|]. cbn [spec_step fst]. split; [by apply Hok|]. cbn [spec_step fst].
  apply upto_const; [intros i p; apply (again_write f g n Hinj Hf Hg Hn)|]. apply same_size; [done|].
  apply (drain_loop f g n Hinj Hf Hn). apply zero_count; [eapply Hfits; [|exact Hn]; lia|done].
Qed.
Lemma reverse_good : 1 <= vw -> fits (N.to_nat (N.min (2^16 - 1) (2^kw - 1))) -> good ∅ (test_map_reverse kw vw).
Proof.
  intros Hv. unfold test_map_reverse. set (n := N.min (2^16 - 1) (2^kw - 1)). intros Hn. set (f := fun i : N => n - i). set (g := fun i => i mod (2^vw - 1)).
  assert (Hinj : forall i j, i < n -> j < n -> f i = f j -> i = j) by (unfold f; lia).
  assert (Hnk : n <= 2^kw - 1) by (unfold n; lia). pose proof (N.pow_nonzero 2 kw ltac:(done)).
  assert (Hf : forall i, i < n -> f i < 2^kw) by (unfold f; lia).
  assert (Hg : forall i, i < n -> g i < 2^vw) by (intros i _; by apply mod_value).
  apply (fill_loop f g n); [intros i p; apply (fill_write f g n Hinj Hf Hg Hn)|].
  assert (Hfull : fits (size (tab f g 0 n))) by (by apply (tab_fits f g n Hinj Hn)).
  apply upto_const.
  { intros i p Hi Hp. apply good_read; [by apply Hf|done|by apply (tab_lookup f g n Hinj 0 n i); lia|done]. }
  split; [by apply Hok|]. cbn [spec_step fst].
  apply upto_const; [intros i p; apply (again_write f g n Hinj Hf Hg Hn)|]. apply same_size; [done|].
  apply (drain_loop f g n Hinj Hf Hn). apply zero_count; [eapply Hfits; [|exact Hn]; lia|done].
Qed.
Lemma iterator_good : (forall m, (size m <= 255)%nat -> m <> ∅ -> okiter m) -> 1 <= kw -> 1 <= vw -> fits (N.to_nat (N.min (2^8 - 1) (2^kw - 1))) -> good ∅ (test_map_iterator kw vw).
Proof.
  intros Hito Hk Hv. unfold test_map_iterator. set (n := N.min (2^8 - 1) (2^kw - 1)). intros Hn. set (f := fun i : N => i). set (g := fun i => (n - i) mod (2^vw - 1)).
  assert (Hinj : forall i j, i < n -> j < n -> f i = f j -> i = j) by (unfold f; auto).
  assert (Hnk : n <= 2^kw - 1) by (unfold n; lia). assert (2^1 <= 2^kw) by (by apply N.pow_le_mono_r). change (2^1) with 2 in *.
  assert (Hn8 : 1 <= n <= 255) by (unfold n; change (2^8 - 1) with 255; lia).
  assert (Hf : forall i, i < n -> f i < 2^kw) by (unfold f; lia).
  assert (Hg : forall i, i < n -> g i < 2^vw) by (intros i _; by apply mod_value).
  apply (fill_loop f g n); [intros i p; apply (fill_write f g n Hinj Hf Hg Hn)|].
  assert (Hfull : fits (size (tab f g 0 n))) by (by apply (tab_fits f g n Hinj Hn)).
  apply upto_const.
  { intros i p Hi Hp. assert (tab f g 0 n !! i = Some (g i)) by (apply (tab_lookup f g n Hinj 0 n i); lia).
    apply good_read; [by apply Hf|done|done|]. by apply (good_same _ _ (g i)); [apply Hf|..]. }
  apply good_act; [done|done|done|]. cbn [spec_step fst].
  pose proof (tab_size f g n Hinj 0 n ltac:(lia)) as Hs.
  assert (Hit : okiter (tab f g 0 n)).
  { apply Hito; [lia|]. intros E. rewrite E in Hs. rewrite map_size_empty in Hs. lia. }
  assert (Hloop : forall l rest, (forall e : N * N, e ∈ l -> tab f g 0 n !! fst e = Some (snd e)) -> good (tab f g 0 n) rest ->
    good (tab f g 0 n) (each l (fun e p => Assert (snd e =? sub64 n (fst e) mod (2^vw - 1)) p) rest)).
  { intros l rest Hl Hr. apply good_each_const; [|done]. intros e p He Hp. split; [|done]. apply Hl in He.
    apply (tab_Some f g n Hinj) in He as (i & Hi & -> & ->); [|lia]. apply N.eqb_eq. unfold g, f. rewrite sub64_small; [done|lia|].
    assert (255 < 2^64) by done. lia. }
  split; [done|]. intros l Hl. apply Hloop; [done|]. clear l Hl.
  split; [done|]. intros l Hl. apply Hloop; [done|]. clear l Hl.
  split; [done|]. intros l Hl. apply Hloop; [done|]. clear l Hl.
  split; [by apply Hok|]. cbn [spec_step fst]. apply same_size; [done|].
  apply (drain_loop f g n Hinj Hf Hn). apply zero_count; [eapply Hfits; [|exact Hn]; lia|done].
Qed.

(** The random tests: the map always equals rev. *)
Notation pair_ok := (pair_ok kw vw).
Lemma good_value m k v p : k < 2^kw -> fits (size m) -> m !! k = Some v -> good m p -> good m (expect_value k v p).
Proof.
  intros Hk Hf Hm Hp. unfold expect_value. cbn [ClientProofs.good spec_step fst snd]. split; [by apply Hok|]. rewrite Hm. cbn. split; [apply N.eqb_refl|done].
Qed.
Lemma good_all m p : (forall k, is_Some (m !! k) -> k < 2^kw) -> fits (size m) -> good m p -> good m (expect_all m p).
Proof.
  intros Hk Hf Hp. apply good_each_const; [|done]. intros [k v] q He Hq. apply elem_of_map_to_list in He. cbn [fst snd].
  apply good_value; [apply Hk; by eexists|done|done|done].
Qed.
Lemma good_look m l p : Forall (fun k => k < 2^kw) l -> fits (size m) -> good m p -> good m (random_look m l p).
Proof.
  intros Hl Hf Hp. rewrite Forall_forall in Hl. apply good_each_const; [|done]. intros k q Hk Hq. apply Hl in Hk.
  assert (Ho : okop m (OpFind k)) by (by apply Hok).
  destruct (m !! k) as [v|] eqn:Hm.
  - cbn [ClientProofs.good spec_step fst snd]. split; [done|]. rewrite Hm. cbn. split; [apply N.eqb_refl|]. split; [done|]. rewrite Hm. cbn. split; [apply N.eqb_refl|done].
  - apply good_expect; try done. cbn [spec_step snd]. by rewrite Hm.
Qed.
Lemma good_count m p : fits (size m) -> good m p -> good m (expect OpSize (OutNum (count64 m)) p).
Proof. intros Hf Hp. by apply good_expect. Qed.
Notation dom_ok m := (forall k, is_Some ((m : gmap N N) !! k) -> k < 2^kw).
Lemma dom_insert m k v : dom_ok m -> k < 2^kw -> dom_ok (<[k := v]> m).
Proof. intros Hm Hk j [x [[<- _]|[_ Hj]]%lookup_insert_Some]; [done|]. apply Hm. by eexists. Qed.
Lemma dom_delete m k : dom_ok m -> dom_ok (delete k m).
Proof. intros Hm j [x [_ Hj]%lookup_delete_Some]. apply Hm. by eexists. Qed.
Lemma good_insert (l : list (N * N)) k : forall i m, Forall pair_ok l -> dom_ok m -> fits (size m + length l) ->
  (forall m', dom_ok m' -> (size m' <= size m + length l)%nat -> good m' (k m')) -> good m (random_insert i l m k).
Proof.
  induction l as [|[key val] l IH]; intros i m Hl Hd Hf Hk; cbn [random_insert].
  - apply Hk; [done|cbn; lia].
  - apply Forall_cons in Hl as [[Hkey Hval] Hl]. cbn [fst snd length] in *. pose proof (size_insert_le m key val) as Hs.
    assert (Hf1 : fits (size (<[key := val]> m))) by (eapply Hfits; [|exact Hf]; lia).
    apply good_write; [done|done|done|]. apply good_count; [done|].
    assert (Hn : good (<[key := val]> m) (random_insert (S i) l (<[key := val]> m) k)).
    { apply IH; [done|by apply dom_insert|eapply Hfits; [|exact Hf]; lia|]. intros m' Hd' Hs'. apply Hk; [done|lia]. }
    destruct (i mod 13 =? 0)%nat; [|done]. by apply good_act.
Qed.
Lemma good_erases (l : list N) k : forall m, Forall (fun k => k < 2^kw) l -> dom_ok m -> fits (size m) ->
  (forall m', dom_ok m' -> (size m' <= size m)%nat -> good m' (k m')) -> good m (random_erase l m k).
Proof.
  induction l as [|key l IH]; intros m Hl Hd Hf Hk; cbn [random_erase]; [by apply Hk|].
  apply Forall_cons in Hl as [Hkey Hl]. pose proof (size_delete_le m key) as Hs.
  assert (Hf1 : fits (size (delete key m))) by (by eapply Hfits).
  assert (Hn : good (delete key m) (expect OpSize (OutNum (count64 (delete key m))) (random_erase l (delete key m) k))).
  { apply good_count; [done|]. apply IH; [done|by apply dom_delete|done|]. intros m' Hd' Hs'. apply Hk; [done|lia]. }
  assert (Hst : fst (spec_step m (OpErase key)) = delete key m /\ snd (spec_step m (OpErase key)) = OutNum (match m !! key with Some _ => 1 | None => 0 end)).
  { cbn [spec_step]. destruct (m !! key) eqn:E; cbn; [done|]. by rewrite delete_notin. }
  destruct Hst as [H1 H2]. apply good_expect; [done|done|by rewrite H1|done|by rewrite H1].
Qed.
Notation round_ok := (round_ok kw vw).
Lemma random_good rs : (forall m, okop m OpClear) -> Forall round_ok rs -> fits 0 -> Forall (fun r => fits (length (r_ins r))) rs -> forall m, good m (test_map_random rs).
Proof.
  intros Hcl Hr H0 Hf. unfold test_map_random, each. induction rs as [|r rs IH]; intros m; cbn [fold_right]; [done|].
  apply Forall_cons in Hr as [(H1 & H2 & H3) Hr]. apply Forall_cons in Hf as [Hf Hfs].
  split; [apply Hcl|]. cbn [spec_step fst]. apply good_insert; [done|by intros k [x Hx]|done|].
  intros m1 D1 S1. rewrite map_size_empty in S1. assert (Hf1 : fits (size m1)) by (by eapply Hfits).
  apply good_erases; [done|done|done|]. intros m2 D2 S2. assert (Hf2 : fits (size m2)) by (by eapply Hfits).
  apply good_all; [done|done|]. apply good_look; [done|done|]. by apply IH.
Qed.
Lemma group_out_good rs : (forall m, okop m OpClear) -> Forall (fun r => Forall pair_ok (fst r) /\ Forall (fun k => k < 2^kw) (snd r)) rs -> fits 0 ->
  Forall (fun r => fits (length (fst r))) rs -> forall m, good m (test_map_group_out rs).
Proof.
  intros Hcl Hr H0 Hf. unfold test_map_group_out, each. induction rs as [|r rs IH]; intros m; cbn [fold_right]; [done|].
  apply Forall_cons in Hr as [(H1 & H3) Hr]. apply Forall_cons in Hf as [Hf Hfs].
  split; [apply Hcl|]. cbn [spec_step fst]. apply good_insert; [done|by intros k [x Hx]|done|].
  intros m1 D1 S1. rewrite map_size_empty in S1. assert (Hf1 : fits (size m1)) by (by eapply Hfits).
  apply good_all; [done|done|]. apply good_look; [done|done|]. by apply IH.
Qed.
Lemma good_large (l : list (N * N)) k : forall m, Forall pair_ok l -> dom_ok m -> fits (size m + length l) ->
  (forall m', dom_ok m' -> (size m' <= size m + length l)%nat -> good m' (k m')) -> good m (large_insert l m k).
Proof.
  induction l as [|[key val] l IH]; intros m Hl Hd Hf Hk; cbn [large_insert].
  - apply Hk; [done|cbn; lia].
  - apply Forall_cons in Hl as [[Hkey Hval] Hl]. cbn [fst snd length] in *. pose proof (size_insert_le m key val) as Hs.
    assert (Hf1 : fits (size (<[key := val]> m))) by (eapply Hfits; [|exact Hf]; lia).
    apply good_write; [done|done|done|]. apply good_count; [done|].
    apply IH; [done|by apply dom_insert|eapply Hfits; [|exact Hf]; lia|]. intros m' Hd' Hs'. apply Hk; [done|lia].
Qed.
Lemma large_good l : Forall pair_ok l -> fits (length l) -> good ∅ (test_map_random_large l).
Proof.
  intros Hl Hf. apply good_large; [done|by intros k [x Hx]|done|]. intros m' D' S'. rewrite map_size_empty in S'.
  apply good_all; [done|by eapply Hfits|done].
Qed.
Lemma step_good keys : Forall (fun k => k < 2^kw) keys -> N.of_nat (length keys) <= 2^vw -> fits (length keys) -> good ∅ (test_map_step keys).
Proof.
  intros Hk Hv Hf. apply large_good.
  - rewrite Forall_forall in Hk. apply Forall_forall. intros [k v] He. split; [cbn; apply Hk; by apply elem_of_zip_l in He|]. apply elem_of_zip_r in He.
    apply elem_of_list_fmap in He as (j & -> & Hj). apply elem_of_seq in Hj. cbn. lia.
  - eapply Hfits; [|exact Hf]. rewrite zip_with_length. lia.
Qed.
End tests.

(** ** The test of sets *)
Section sets.
Context (okop : gset N -> sop -> Prop) (kw : N) (Hok : forall s o, valid_sop kw 1 1 o -> (match o with SReserve _ => False | _ => True end) -> okop s o).
Notation good := (good set_step okop (fun _ => False) (fun _ _ _ => False)).
Lemma good_set_insert l k : forall s, Forall (fun k => k < 2^kw) l -> (forall x, x ∈ s -> x < 2^kw) ->
  (forall s', (forall x, x ∈ s' -> x < 2^kw) -> good s' (k s')) -> good s (set_insert l s k).
Proof.
  induction l as [|key l IH]; intros s Hl Hs Hk; cbn [set_insert]; [by apply Hk|]. apply Forall_cons in Hl as [Hkey Hl].
  split; [by apply Hok|]. cbn [set_step fst]. split; [by apply Hok|]. split; [by apply bool_decide_eq_true|]. apply IH; [done| |done].
  intros x [->%elem_of_singleton|Hx]%elem_of_union; [done|by apply Hs].
Qed.
Lemma set_good rs : Forall (fun r => Forall (fun k => k < 2^kw) (fst r) /\ Forall (fun k => k < 2^kw) (snd r)) rs -> forall s, good s (test_set_random rs).
Proof.
  intros Hr. unfold test_set_random, each at 1. induction rs as [|r rs IH]; intros s; cbn [fold_right]; [done|].
  apply Forall_cons in Hr as [(H1 & H2) Hr]. split; [by apply Hok|]. cbn [set_step fst]. apply good_set_insert; [done|by intros x Hx%not_elem_of_empty|].
  intros s' Hs'. apply good_each_const.
  { intros x p Hx%elem_of_elements Hp. split; [apply Hok; [by apply Hs'|done]|]. cbn [set_step fst snd]. split; [|done].
    unfold is_end. rewrite decide_True by done. by rewrite bool_decide_eq_false_2. }
  apply good_each_const; [|by apply IH]. rewrite Forall_forall in H2. intros x p Hx Hp. split; [apply Hok; [by apply H2|done]|].
  cbn [set_step fst snd]. split; [|done]. unfold is_end. destruct (decide (x ∈ s')); [by rewrite bool_decide_eq_false_2|by apply bool_decide_eq_true].
Qed.
End sets.

(** ** From histories to programs *)
(** A container whose histories return what the specification returns plays programs. *)
Section hist.
Context {O X S T : Type} (sstep : S -> O -> S * X) (srun : S -> list O -> S * list X) (okop : S -> O -> Prop).
Context (step : T -> O -> res (T * X)) (run : T -> list O -> res (T * list X)) (t0 : T) (s0 : S).
Hypothesis srun_nil : forall s, srun s [] = (s, []).
Hypothesis srun_cons : forall s o l, srun s (o :: l) = let '(s1, r) := sstep s o in let '(s2, rs) := srun s1 l in (s2, r :: rs).
Hypothesis run_nil : forall t, run t [] = Ok (t, []).
Hypothesis run_cons : forall t o l, run t (o :: l) = r ← step t o; let '(t, x) := (r : T * X) in rs ← run t l; let '(t, xs) := (rs : T * list X) in Ok (t, x :: xs).
Fixpoint okrun (s : S) (l : list O) : Prop := match l with [] => True | o :: l => okop s o /\ okrun (fst (sstep s o)) l end.
Hypothesis Hist : forall l, okrun s0 l -> exists t, run t0 l = Ok (t, snd (srun s0 l)).
Definition after (t : T) (s : S) : Prop := exists l, okrun s0 l /\ run t0 l = Ok (t, snd (srun s0 l)) /\ s = fst (srun s0 l).
Lemma srun_snoc s l o : srun s (l ++ [o]) = (fst (sstep (fst (srun s l)) o), snd (srun s l) ++ [snd (sstep (fst (srun s l)) o)]).
Proof.
  revert s. induction l as [|x l IH]; intros s; cbn [app].
  - rewrite srun_cons, !srun_nil. cbn [fst snd]. by destruct (sstep s o); rewrite srun_nil.
  - rewrite !srun_cons. destruct (sstep s x) as [s1 r]. rewrite IH. by destruct (srun s1 l) as [s2 rs].
Qed.
Lemma okrun_snoc s l o : okrun s (l ++ [o]) <-> okrun s l /\ okop (fst (srun s l)) o.
Proof.
  revert s. induction l as [|x l IH]; intros s; cbn [app okrun].
  - rewrite srun_nil. cbn [fst]. tauto.
  - rewrite IH, srun_cons. destruct (sstep s x) as [s1 r]. cbn [fst]. destruct (srun s1 l). cbn [fst]. tauto.
Qed.
Lemma run_snoc t l o : run t (l ++ [o]) = r ← run t l; let '(t, xs) := (r : T * list X) in q ← step t o; let '(t, x) := (q : T * X) in Ok (t, xs ++ [x]).
Proof.
  revert t. induction l as [|x l IH]; intros t; cbn [app].
  - rewrite run_cons, run_nil. cbn [mbind res_bind]. destruct (step t o) as [[t1 r]| | |]; cbn [mbind res_bind]; [|done..]. by rewrite run_nil.
  - rewrite !run_cons. destruct (step t x) as [[t1 r]| | |]; cbn [mbind res_bind]; [|done..]. rewrite IH.
    destruct (run t1 l) as [[t2 rs]| | |]; cbn [mbind res_bind]; [|done..]. by destruct (step t2 o) as [[t3 q]| | |].
Qed.
Lemma after_new : after t0 s0.
Proof. exists []. rewrite run_nil, srun_nil. done. Qed.
Lemma after_step t s o : after t s -> okop s o -> exists t', step t o = Ok (t', snd (sstep s o)) /\ after t' (fst (sstep s o)).
Proof.
  intros (l & Hl & E & ->) Ho. assert (Hl' : okrun s0 (l ++ [o])) by (apply okrun_snoc; done).
  destruct (Hist _ Hl') as (t' & E'). assert (E0 := E'). rewrite run_snoc, E in E'. cbn [mbind res_bind] in E'. rewrite srun_snoc in E'. cbn [snd] in E'.
  destruct (step t o) as [[t1 x]| | |]; cbn [mbind res_bind] in E'; [|done..]. injection E' as -> Ex. apply app_inj_tail in Ex as [_ ->].
  exists t'. split; [done|]. exists (l ++ [o]). split; [done|]. split; [done|]. by rewrite srun_snoc.
Qed.
Lemma hist_play (okiter : S -> Prop) (holds : S -> N -> N -> Prop) (fwd bwd : T -> res (list (N * N))) (p : prog O X) :
  (forall t s, after t s -> okiter s -> exists l1 l2, fwd t = Ok l1 /\ bwd t = Ok l2 /\ forall e, e ∈ l1 \/ e ∈ l2 -> holds s (fst e) (snd e)) ->
  good sstep okop okiter holds s0 p -> exists t, play step fwd bwd t0 p = Ok (t, true).
Proof. intros Hi Hg. eapply good_play; [exact after_step|exact Hi|exact after_new|exact Hg]. Qed.
End hist.

Lemma okrun_all {O X S : Type} (sstep : S -> O -> S * X) (P : O -> Prop) l : forall s, okrun sstep (fun _ => P) s l <-> Forall P l.
Proof.
  induction l as [|o l IH]; intros s; cbn [okrun]; [split; [by constructor|done]|]. by rewrite IH, Forall_cons.
Qed.
Lemma okrun_valid kw vw bmin bmax (m : gmap N N) ops :
  okrun spec_step (fun _ o => valid_op kw vw bmin bmax o) m ops <-> valid_ops kw vw bmin bmax ops.
Proof. apply okrun_all. Qed.

(** ** The test of serialize and deserialize *)
Definition serial_op (kw vw : N) (o : op) : Prop :=
  match o with OpClear => True | OpWrite k v => k < 2^kw /\ v < 2^vw | OpErase k | OpFind k => k < 2^kw | _ => False end.
Section serial.
Context {T D : Type} (step : T -> op -> res (T * out)) (fwd : T -> res (list (N * N))).
Context (ser : T -> res D) (deser : T -> D -> res T) (fresh : T) (free : T -> res T) (kw vw : N) (cap : nat).
Context (R R2 : T -> gmap N N -> Prop).
Hypothesis Hstep : forall t m o, R t m -> serial_op kw vw o -> (size m <= cap)%nat -> (size (fst (spec_step m o)) <= cap)%nat ->
  exists t', step t o = Ok (t', snd (spec_step m o)) /\ R t' (fst (spec_step m o)).
Hypothesis Hfind2 : forall t m k, R2 t m -> k < 2^kw -> exists t', step t (OpFind k) = Ok (t', snd (spec_step m (OpFind k))) /\ R2 t' m.
Hypothesis Hcopy : forall t m, R t m -> (size m <= cap)%nat -> exists d t2 l, ser t = Ok d /\ deser fresh d = Ok t2 /\ R2 t2 m
  /\ fwd t2 = Ok l /\ forall e, e ∈ l -> m !! fst e = Some (snd e).
Hypothesis Hfwd : forall t m, R t m -> (size m <= cap)%nat -> exists l, fwd t = Ok l /\ forall e, e ∈ l -> m !! fst e = Some (snd e).
Hypothesis Hfree : forall t m, R2 t m -> exists t', free t = Ok t'.
Hypothesis Hdom : forall t m k, R t m -> is_Some (m !! k) -> k < 2^kw.

Lemma look_up_ok (Q : T -> gmap N N -> Prop) m : (forall t k, Q t m -> k < 2^kw -> exists t', step t (OpFind k) = Ok (t', snd (spec_step m (OpFind k))) /\ Q t' m) ->
  (forall k, is_Some (m !! k) -> k < 2^kw) ->
  forall l t, Q t m -> (forall e, e ∈ l -> m !! fst e = Some (snd e)) -> exists t', look_up step t l = Ok (t', true) /\ Q t' m.
Proof.
  intros HQ Hd. induction l as [|[k v] l IH]; intros t Ht Hl; cbn [look_up]; [by exists t|].
  pose proof (Hl (k, v) ltac:(left)) as Hk. cbn [fst snd] in Hk. destruct (HQ t k Ht) as (t' & E & Ht'); [apply Hd; by eexists|].
  rewrite E. cbn [mbind res_bind spec_step snd]. rewrite Hk. cbn [option_map fmap option_fmap]. rewrite N.eqb_refl.
  apply IH; [done|]. intros e He. apply Hl. by right.
Qed.
Lemma do_all_ok ops : forall t m n, R t m -> Forall (serial_op kw vw) ops -> (size m + n <= cap)%nat ->
  (length (List.filter (fun o => match o with OpWrite _ _ => true | _ => false end) ops) <= n)%nat ->
  exists t', do_all step t ops = Ok t' /\ R t' (fst (spec_run m ops)) /\ (size (fst (spec_run m ops)) <= cap)%nat.
Proof.
  unfold do_all. induction ops as [|o ops IH]; intros t m n Ht Ho Hs Hn; cbn [rfold spec_run]; [exists t; split; [done|]; split; [done|cbn [fst]; lia]|].
  apply Forall_cons in Ho as [H1 Ho].
  assert (H2 : (size (fst (spec_step m o)) + length (List.filter (fun o => match o with OpWrite _ _ => true | _ => false end) ops) <= cap)%nat).
  { destruct o as [k|k|k v|k|k v|k|k| | |q| |]; cbn [serial_op List.filter length] in H1, Hn; try done; cbn [spec_step fst]; try lia.
    - pose proof (size_insert_le m k v). lia.
    - destruct (m !! k); cbn [fst]; [|lia]. pose proof (size_delete_le m k). lia.
    - rewrite map_size_empty. lia. }
  destruct (Hstep t m o Ht H1) as (t1 & E & Ht1); [lia|lia|]. rewrite E. cbn [mbind res_bind fst].
  destruct (IH t1 _ _ Ht1 Ho H2 ltac:(lia)) as (t2 & E2 & Ht2 & Hs2). exists t2. split; [exact E2|].
  destruct (spec_step m o) as [m1 x]. cbn [fst] in *. by destruct (spec_run m1 ops).
Qed.
Lemma serial_ops_ok l : forall i, Forall (triple_ok kw vw) l -> Forall (serial_op kw vw) (serial_ops i l)
  /\ length (List.filter (fun o => match o with OpWrite _ _ => true | _ => false end) (serial_ops i l)) = length l.
Proof.
  induction l as [|[[k v] g] l IH]; intros i Hl; cbn [serial_ops]; [done|]. apply Forall_cons in Hl as [(H1 & H2 & H3) Hl].
  cbn [fst snd] in *. destruct (IH (S i) Hl) as [F E]. destruct (i mod 13 =? 0)%nat; cbn [app List.filter length].
  - split; [by constructor|by rewrite E].
  - split; [by repeat constructor|by rewrite E].
Qed.
Lemma serial_ok rounds : Forall (fun l => Forall (triple_ok kw vw) l /\ (length l <= cap)%nat) rounds ->
  forall t m, R t m -> (size m <= cap)%nat -> exists t', test_map_serialize step fwd ser deser fresh free t rounds = Ok (t', true).
Proof.
  induction 1 as [|l rounds [Hl Hn] _ IH]; intros t m Ht Hs; cbn [test_map_serialize]; [by exists t|].
  unfold serial_round. destruct (serial_ops_ok l 0 Hl) as [F E].
  assert (E1 : exists t1 m1, do_all step t (OpClear :: serial_ops 0 l) = Ok t1 /\ R t1 m1 /\ (size m1 <= cap)%nat).
  { destruct (Hstep t m OpClear Ht) as (ta & Ea & Hta); [done|done|cbn [spec_step fst]; rewrite map_size_empty; lia|].
    unfold do_all. cbn [rfold]. rewrite Ea. cbn [mbind res_bind fst]. cbn [spec_step fst] in Hta.
    destruct (do_all_ok (serial_ops 0 l) ta ∅ (length l) Hta F) as (t1 & E1 & Ht1 & Hs1); [rewrite map_size_empty; lia|lia|].
    by exists t1, (fst (spec_run ∅ (serial_ops 0 l))). }
  destruct E1 as (t1 & m1 & E1 & Ht1 & Hs1). rewrite E1. cbn [mbind res_bind].
  destruct (Hcopy t1 m1 Ht1 Hs1) as (d & t2 & l2 & Ed & E2 & Ht2 & El2 & Hl2). rewrite Ed. cbn [mbind res_bind]. rewrite E2. cbn [mbind res_bind].
  rewrite El2. cbn [mbind res_bind].
  assert (Hd : forall k, is_Some (m1 !! k) -> k < 2^kw) by (intros k; by apply (Hdom t1)).
  destruct (look_up_ok R m1) with (l := l2) (t := t1) as (t1' & Eu & Ht1'); [|done|done|done|].
  { intros t0 k H0 Hk. apply (Hstep t0 m1 (OpFind k) H0 Hk); done. }
  rewrite Eu. cbn [mbind res_bind]. destruct (Hfwd t1' m1 Ht1' Hs1) as (l1 & El1 & Hl1). rewrite El1. cbn [mbind res_bind].
  destruct (look_up_ok R2 m1) with (l := l1) (t := t2) as (t2' & Eu2 & Ht2'); [|done|done|done|].
  { intros t0 k H0 Hk. by apply Hfind2. }
  rewrite Eu2. cbn [mbind res_bind]. destruct (Hfree t2' m1 Ht2') as (tz & Ez). rewrite Ez. cbn [mbind res_bind]. by apply (IH t1' m1).
Qed.
End serial.
