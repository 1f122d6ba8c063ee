(** The programs of example_map.cpp: C109. *)
From Verif Require Import ExampleModel PropBucket PropGroup.

(** ** Programs over the array of lists *)
Section spec.
Context (kw vw : nat).
Fixpoint allowed (bss : list entries) (p : gprog) : Prop :=
  match p with
  | Pass => True
  | Call o k => gvalid kw vw bss o /\ allowed (fst (gspec_step bss o)) (k (snd (gspec_step bss o)))
  | Iter _ _ => False
  | Assert b p => b = true -> allowed bss p
  end.
Fixpoint outcome (bss : list entries) (p : gprog) : bool :=
  match p with
  | Pass => true
  | Call o k => outcome (fst (gspec_step bss o)) (k (snd (gspec_step bss o)))
  | Iter _ _ => false
  | Assert b p => b && outcome bss p
  end.
Lemma kv_play_spec pf (Hk : (1 <= kw <= 64)%nat) (Hv : (1 <= vw <= 64)%nat) p : forall g bss, kv_rep True pf kw vw g bss -> allowed bss p ->
  exists g', kv_play pf (length bss) kw vw g p = Ok (g', outcome bss p).
Proof.
  induction p as [|o k IH|back k IH|b p IH]; intros g bss HR Ha; unfold kv_play in *; cbn [play allowed outcome] in *; [by exists g| |done|].
  - destruct Ha as [Ho Ha]. destruct (kv_history pf kw vw Hk Hv [o] g bss HR) as (g' & E & HR'); [by split|].
    cbn [grun gspec_run] in E, HR'. destruct (grun_step pf (length bss) kw vw g o) as [[g1 x]| | |]; cbn [mbind res_bind] in E; [|done..].
    assert (Hl : length (fst (gspec_step bss o)) = length bss) by (destruct o; cbn [gspec_step fst]; by rewrite ?insert_length).
    destruct (gspec_step bss o) as [bss' r]. cbn [fst snd] in *. injection E as -> ->. cbn [mbind res_bind]. rewrite <-Hl. by apply IH.
  - destruct b; [|by exists g]. apply IH; [done|by apply Ha].
Qed.
Lemma allowed_each {A} (l : list A) (body : A -> gprog -> gprog) rest bss :
  (forall x p, x ∈ l -> allowed bss p -> allowed bss (body x p)) -> allowed bss rest -> allowed bss (each l body rest).
Proof.
  intros Hb Hr. unfold each. induction l as [|x l IH]; cbn [fold_right]; [done|]. apply Hb; [by left|]. apply IH. intros y p Hy. apply Hb. by right.
Qed.
Lemma outcome_each {A} (l : list A) (body : A -> gprog -> gprog) rest bss (c : A -> bool) :
  (forall x p, outcome bss (body x p) = c x && outcome bss p) -> outcome bss (each l body rest) = forallb c l && outcome bss rest.
Proof. intros Hb. unfold each. induction l as [|x l IH]; cbn [fold_right forallb]; [done|]. by rewrite Hb, IH, andb_assoc. Qed.
Lemma allowed_expect bss o x p : allowed bss (gexpect o x p) <->
  gvalid kw vw bss o /\ (bool_decide (snd (gspec_step bss o) = x) = true -> allowed (fst (gspec_step bss o)) p).
Proof. done. Qed.
Lemma outcome_expect bss o x p : outcome bss (gexpect o x p) = bool_decide (snd (gspec_step bss o) = x) && outcome (fst (gspec_step bss o)) p.
Proof. done. Qed.
End spec.

Lemma first_index_entry (es : entries) k p : first_index k (fst <$> es) = Some p -> exists v, es !! p = Some (k, v).
Proof.
  revert p. induction es as [|[x y] es IH]; intros p; cbn [fmap list_fmap first_index]; [done|]. cbn [fst].
  destruct (x =? k)%N eqn:E.
  - intros [= <-]. apply N.eqb_eq in E as ->. by exists y.
  - destruct (first_index k (fst <$> es)) as [q|]; [|done]. intros [= <-]. by apply IH.
Qed.
Lemma length_update (bss : list entries) i es es' : bss !! i = Some es ->
  (length (concat (<[i := es']> bss)) + length es = length (concat bss) + length es')%nat.
Proof.
  revert i. induction bss as [|x bss IH]; intros [|i] H; [done|done| |].
  - injection H as ->. cbn [list_insert insert concat]. rewrite !app_length. lia.
  - change (<[S i := es']> (x :: bss)) with (x :: <[i := es']> bss). cbn [concat]. rewrite !app_length. specialize (IH i H). lia.
Qed.

Local Open Scope nat_scope.
(** ** The first block: pushes to random buckets, then 0, 1, ... to the buckets in turn *)
Lemma example_pushes_allowed kw vw l : forall bss, Forall (fun d : nat * N * N => let '(i, k, v) := d in (i < length bss)%nat /\ (k < 2^N.of_nat kw)%N /\ (v < 2^N.of_nat vw)%N) l ->
  (N.of_nat (length (concat bss)) + N.of_nat (length l) + 513 <= 2^32)%N -> allowed kw vw bss (example_pushes l) /\ outcome bss (example_pushes l) = true.
Proof.
  induction l as [|[[i k] v] l IH]; intros bss Hl Hn; [done|]. unfold example_pushes, each in *. cbn [fold_right gact allowed outcome gspec_step fst snd] in *.
  apply Forall_cons in Hl as [(Hi & Hk & Hv) Hl]. cbn [length] in Hn. pose proof (length_update bss i _ (nth i bss [] ++ [(k, v)]) (nth_bucket bss i Hi)) as Hu.
  rewrite app_length in Hu. cbn [length] in Hu.
  destruct (IH (<[i := nth i bss [] ++ [(k, v)]]> bss)) as [I1 I2]; [by rewrite insert_length|lia|].
  split; [|done]. split; [|done]. cbn [gvalid]. repeat split; try done. lia.
Qed.
Definition turns (n m j : nat) : entries := (fun x => (N.of_nat x, N.of_nat x)) <$> filter (fun x => x mod n = j) (seq 0 m).
Lemma turns_snoc n m j : turns n (S m) j = turns n m j ++ (if decide (m mod n = j) then [(N.of_nat m, N.of_nat m)] else []).
Proof.
  unfold turns. rewrite seq_S, filter_app, fmap_app. f_equal. cbn [plus]. rewrite filter_cons. by case_decide.
Qed.
Lemma div_turn n a q r s t : r < n -> t < n -> a = n * q + r -> a + 1 = n * s + t -> (t = 0 /\ s = S q) \/ (t = S r /\ s = q).
Proof.
  intros Hr Ht H1 H2. destruct (decide (S r = n)) as [He|He].
  - left. assert (H3 : n * s + t = n * S q + 0) by lia. by apply (Nat.div_mod_unique n) in H3 as [-> ->]; [|lia..].
  - right. assert (H3 : n * s + t = n * q + S r) by lia. by apply (Nat.div_mod_unique n) in H3 as [-> ->]; [|lia..].
Qed.
Lemma turns_length n m j : j < n -> length (turns n m j) = (m + n - 1 - j) / n.
Proof.
  intros Hj. induction m as [|m IH].
  - cbn. symmetry. apply Nat.div_small. lia.
  - rewrite turns_snoc, app_length, IH. assert (Hn : n <> 0) by lia. clear IH.
    assert (Hm : m + n = (m + n - 1 - j) + 1 + j) by lia. replace (S m + n - 1 - j) with ((m + n - 1 - j) + 1) by lia.
    revert Hm. generalize (m + n - 1 - j). intros a Hm.
    pose proof (Nat.div_mod a n Hn) as Ha. pose proof (Nat.mod_upper_bound a n Hn) as Hb.
    pose proof (Nat.div_mod (a + 1) n Hn) as Hc. pose proof (Nat.mod_upper_bound (a + 1) n Hn) as Hd.
    pose proof (Nat.div_mod m n Hn) as He. pose proof (Nat.mod_upper_bound m n Hn) as Hg.
    revert Ha Hb Hc Hd He Hg. generalize (a / n) (a mod n) ((a + 1) / n) ((a + 1) mod n) (m / n) (m mod n). intros q r s t u w Ha Hb Hc Hd He Hg.
    pose proof (div_turn n a q r s t Hb Hd Ha Hc) as Hcase.
    destruct (decide (w = j)) as [->|Hw]; cbn [length].
    + assert (H1 : n * S u + 0 = n * s + t) by lia. apply (Nat.div_mod_unique n) in H1 as [_ H1]; [|lia..]. lia.
    + destruct Hcase as [[-> ->]|[_ ->]]; [|lia]. exfalso. assert (H1 : n * S u + w = n * S q + j) by lia.
      apply (Nat.div_mod_unique n) in H1 as [_ H1]; [|lia..]. done.
Qed.
Lemma turns_lookup n m i : 1 <= n -> i < m -> turns n m (i mod n) !! (i / n) = Some (N.of_nat i, N.of_nat i).
Proof.
  intros Hn. pose proof (Nat.mod_upper_bound i n ltac:(lia)) as Hb. induction m as [|m IH]; intros Hi; [lia|].
  rewrite turns_snoc. destruct (decide (i = m)) as [->|Hne].
  - rewrite decide_True by done. replace (m / n) with (length (turns n m (m mod n))); [by rewrite lookup_app_r, Nat.sub_diag by lia|].
    rewrite turns_length by done. symmetry. pose proof (Nat.div_mod m n ltac:(lia)). apply (Nat.div_unique _ _ _ (n - 1)); lia.
  - apply lookup_app_l_Some, IH. lia.
Qed.
Lemma turns_nodup n m j : NoDup (turns n m j).*1.
Proof.
  unfold turns. rewrite <-list_fmap_compose. apply NoDup_fmap_2_strong; [intros x y _ _; cbn; lia|].
  apply NoDup_filter, NoDup_seq.
Qed.
Definition all_turns (n m : nat) : list entries := turns n m <$> seq 0 n.
Lemma all_turns_nth n m j : j < n -> nth j (all_turns n m) [] = turns n m j.
Proof. intros Hj. apply nth_lookup_Some. unfold all_turns. rewrite list_lookup_fmap, lookup_seq_lt by done. done. Qed.
Lemma all_turns_S n m : 1 <= n -> <[m mod n := turns n m (m mod n) ++ [(N.of_nat m, N.of_nat m)]]> (all_turns n m) = all_turns n (S m).
Proof.
  intros Hn. pose proof (Nat.mod_upper_bound m n ltac:(lia)) as Hb. apply list_eq. intros j. unfold all_turns.
  destruct (decide (j < n)) as [Hj|Hj].
  - destruct (decide (m mod n = j)) as [<-|Hne].
    + rewrite list_lookup_insert by (by rewrite fmap_length, seq_length). rewrite list_lookup_fmap, lookup_seq_lt by done. cbn [fmap option_fmap option_map plus].
      by rewrite turns_snoc, decide_True.
    + rewrite list_lookup_insert_ne by done. rewrite !list_lookup_fmap, lookup_seq_lt by done. cbn [fmap option_fmap option_map plus].
      by rewrite turns_snoc, decide_False, app_nil_r.
  - rewrite !lookup_ge_None_2; [done|rewrite fmap_length, seq_length; lia|rewrite insert_length, fmap_length, seq_length; lia].
Qed.

Lemma example_reads_spec kw vw n m : 1 <= n -> (N.of_nat m <= 2^N.of_nat kw)%N -> (N.of_nat m <= 2^N.of_nat vw)%N -> (N.of_nat m + 513 <= 2^32)%N ->
  allowed kw vw (replicate n []) (example_reads n m) /\ outcome (replicate n []) (example_reads n m) = true.
Proof.
  intros Hn Hk Hv Hm. unfold example_reads.
  match goal with |- context [each (seq 0 m) _ (each (seq 0 m) ?b Pass)] => set (tail := each (seq 0 m) b Pass) end.
  assert (Hlen : forall a, length (concat (all_turns n a)) = a).
  { induction a as [|a IH].
    - unfold all_turns, turns. cbn [seq filter list_filter fmap list_fmap]. clear. induction (seq 0 n) as [|x l IH]; [done|]. exact IH.
    - rewrite <-all_turns_S by done. pose proof (Nat.mod_upper_bound a n ltac:(lia)) as Hb.
      assert (He : all_turns n a !! (a mod n) = Some (turns n a (a mod n))).
      { unfold all_turns. by rewrite list_lookup_fmap, lookup_seq_lt. }
      pose proof (length_update _ _ _ (turns n a (a mod n) ++ [(N.of_nat a, N.of_nat a)]) He) as Hu. rewrite app_length in Hu. cbn [length] in Hu. lia. }
  assert (Hl : forall a, length (all_turns n a) = n) by (intros a; unfold all_turns; by rewrite fmap_length, seq_length).
  assert (Htail : allowed kw vw (all_turns n m) tail /\ outcome (all_turns n m) tail = true).
  { assert (Hc : forall i, i < m -> nth (i / n) (turns n m (i mod n)) (0, 0)%N = (N.of_nat i, N.of_nat i) /\ i / n < length (turns n m (i mod n))
      /\ first_index (N.of_nat i) (fst <$> turns n m (i mod n)) = Some (i / n)).
    { intros i Hi. pose proof (turns_lookup n m i Hn Hi) as H1. split; [by apply nth_lookup_Some|]. split; [by eapply lookup_lt_Some|].
      apply first_index_nodup; [apply turns_nodup|]. by rewrite list_lookup_fmap, H1. }
    assert (Hi : forall i, i ∈ seq 0 m -> i < m) by (intros i Hi%elem_of_seq; lia). revert Hi. unfold tail. generalize (seq 0 m) as l.
    induction l as [|i l IH]; intros Hi; [done|]. destruct IH as [I1 I2]; [intros j Hj; apply Hi; by right|].
    unfold each in *. cbn [fold_right]. rewrite !allowed_expect, !outcome_expect. cbn [gspec_step fst snd gvalid].
    pose proof (Nat.mod_upper_bound i n ltac:(lia)) as Hb. rewrite !all_turns_nth by done. rewrite Hl.
    destruct (Hc i) as (-> & H2 & ->); [apply Hi; by left|]. rewrite !bool_decide_eq_true_2 by done.
    rewrite I2. split; [|done]. split; [done|]. intros _. by split. }
  assert (Hg : forall a, a <= m -> allowed kw vw (all_turns n (m - a)) (each (seq (m - a) a) (fun i p => gact (GPush (i mod n) (N.of_nat i) (N.of_nat i)) p) tail)
    /\ outcome (all_turns n (m - a)) (each (seq (m - a) a) (fun i p => gact (GPush (i mod n) (N.of_nat i) (N.of_nat i)) p) tail) = true).
  { induction a as [|a IH]; intros Ha; [by rewrite Nat.sub_0_r|]. cbn [seq each fold_right]. unfold gact at 1 3. cbn [allowed outcome gspec_step fst snd gvalid].
    pose proof (Nat.mod_upper_bound (m - S a) n ltac:(lia)) as Hb. rewrite all_turns_nth, all_turns_S by done.
    replace (S (m - S a)) with (m - a) by lia. destruct (IH ltac:(lia)) as [I1 I2]. split; [|done]. split; [|done].
    rewrite Hl, Hlen. repeat split; [done|lia..]. }
  specialize (Hg m (le_n m)). rewrite Nat.sub_diag in Hg.
  assert (E : all_turns n 0 = replicate n []).
  { symmetry. apply replicate_as_elem_of. split; [by apply Hl|]. intros x Hx. unfold all_turns in Hx. by apply elem_of_list_fmap in Hx as (j & -> & _). }
  by rewrite <-E.
Qed.

(** ** C109, first block: succeeds for all numbers drawn, any number of buckets from 1 to 255 and any widths the keys and values fit into *)
Theorem C109_first_block : forall pf n m kw vw kw2 vw2 l, 1 <= n <= 255 -> 1 <= kw <= 64 -> 1 <= vw <= 64 -> 1 <= kw2 <= 64 -> 1 <= vw2 <= 64 ->
  Forall (fun d : nat * N * N => let '(i, k, v) := d in i < n /\ (k < 2^N.of_nat kw)%N /\ (v < 2^N.of_nat vw)%N) l -> (N.of_nat (length l) + 513 <= 2^32)%N ->
  (N.of_nat m <= 2^N.of_nat kw2)%N -> (N.of_nat m <= 2^N.of_nat vw2)%N -> (N.of_nat m + 513 <= 2^32)%N ->
  example_block1 pf n m kw vw kw2 vw2 l = Ok (kv_new, true).
Proof.
  intros pf n m kw vw kw2 vw2 l Hn Hk Hv Hk2 Hv2 Hl Hlen Hmk Hmv Hm. unfold example_block1.
  assert (Hr : forall kw vw g, 1 <= kw <= 64 -> 1 <= vw <= 64 -> kv_rep True pf kw vw (kv_init g n kw vw) (replicate n [])) by (intros; apply kv_init_rep; lia).
  assert (Hc : length (concat (replicate n ([] : entries))) = 0) by (clear; induction n; done).
  destruct (example_pushes_allowed kw vw l (replicate n [])) as [A1 O1]; [by rewrite replicate_length|rewrite Hc; lia|].
  destruct (kv_play_spec kw vw pf Hk Hv _ _ _ (Hr kw vw kv_new Hk Hv) A1) as (g1 & E1). rewrite replicate_length in E1. rewrite E1. cbn [mbind res_bind fst].
  destruct (example_reads_spec kw2 vw2 n m ltac:(lia) Hmk Hmv Hm) as [A2 O2].
  destruct (kv_play_spec kw2 vw2 pf Hk2 Hv2 _ _ _ (Hr kw2 vw2 (kv_clear g1) Hk2 Hv2) A2) as (g2 & E2). rewrite replicate_length in E2. rewrite E2, O2. done.
Qed.
Print Assumptions C109_first_block.

(** ** The second block *)
Definition looks_up (bss : list entries) (i : nat) (e : N * N) : bool :=
  match first_index (fst e) (fst <$> nth i bss []) with Some p => bool_decide (nth p (nth i bss []) (0, 0)%N = e) | None => false end.
Lemma check_outcome bss maps p : outcome bss (example_check maps p) =
  forallb (fun im => forallb (looks_up bss (fst im)) (snd im)) (imap (fun i (m : gmap N N) => (i, map_to_list m)) maps) && outcome bss p.
Proof.
  unfold example_check. apply outcome_each. intros [i l] q. cbn [fst snd]. apply outcome_each. intros e r. cbn [outcome gspec_step fst snd]. unfold looks_up.
  destruct (first_index (fst e) (fst <$> nth i bss [])) as [pos|]; [|done]. rewrite outcome_expect. cbn [gspec_step fst snd]. f_equal.
  apply bool_decide_ext. split; congruence.
Qed.
Lemma check_allowed kw vw bss maps p : length maps <= length bss -> allowed kw vw bss p -> allowed kw vw bss (example_check maps p).
Proof.
  intros Hl Hp. unfold example_check. apply allowed_each; [|done]. intros [i l] q Hi Hq. cbn [fst snd]. apply allowed_each; [|done]. intros e r _ Hr'.
  apply elem_of_lookup_imap in Hi as (j & m & Ei & Hj%lookup_lt_Some). injection Ei as -> ->. cbn [allowed gspec_step fst snd gvalid]. split; [lia|].
  destruct (first_index (fst e) (fst <$> nth j bss [])) as [pos|] eqn:Ef; [|done]. rewrite allowed_expect. cbn [gspec_step fst snd gvalid].
  split; [|done]. split; [lia|]. apply first_index_entry in Ef as (v & Ef). by eapply lookup_lt_Some.
Qed.
(** No undefined behaviour, whatever the draws. *)
Definition draw_ok (n kw vw : nat) (d : draw) : Prop := d_i d < n /\ (d_key d < 2^N.of_nat kw)%N /\ (d_val d < 2^N.of_nat vw)%N.
Lemma first_index_snoc (es : entries) k v : exists p, first_index k (fst <$> (es ++ [(k, v)])) = Some p /\ p < length (es ++ [(k, v)]).
Proof.
  assert (H : is_Some (first_index k (fst <$> (es ++ [(k, v)])))).
  { rewrite fmap_app. cbn [fmap list_fmap fst]. induction (fst <$> es) as [|x l IH]; cbn [app first_index].
    - rewrite N.eqb_refl. by eexists.
    - destruct (x =? k)%N; [by eexists|]. destruct IH as [q ->]. by eexists. }
  destruct H as [p Hp]. exists p. split; [done|]. apply first_index_entry in Hp as (w & Hp). by eapply lookup_lt_Some.
Qed.
Lemma rounds_allowed kw vw n l : forall bss maps, length bss = n -> length maps = n -> Forall (draw_ok n kw vw) l ->
  (N.of_nat (length (concat bss)) + N.of_nat (length l) + 513 <= 2^32)%N -> allowed kw vw bss (example_rounds l maps).
Proof.
  induction l as [|d l IH]; intros bss maps Hb Hm Hl Hn; [done|]. apply Forall_cons in Hl as [(Hi & Hk & Hv) Hl]. cbn [length] in Hn.
  cbn [example_rounds gact allowed gspec_step fst snd gvalid]. split; [repeat split; [lia|done|done|lia]|].
  assert (Hi' : d_i d < length bss) by lia. pose proof (nth_bucket bss (d_i d) Hi') as Hes. set (es := nth (d_i d) bss []) in *.
  pose proof (length_update bss (d_i d) es (es ++ [(d_key d, d_val d)]) Hes) as Hu. rewrite app_length in Hu. cbn [length] in Hu.
  set (bss1 := <[d_i d := es ++ [(d_key d, d_val d)]]> bss) in *.
  assert (Hb1 : length bss1 = n) by (unfold bss1; by rewrite insert_length).
  destruct (d_erase d).
  - cbn [allowed gspec_step fst snd gvalid]. split; [lia|].
    assert (H1 : bss1 !! d_i d = Some (es ++ [(d_key d, d_val d)])) by (by apply list_lookup_insert).
    assert (E1 : nth (d_i d) bss1 [] = es ++ [(d_key d, d_val d)]) by (by apply nth_lookup_Some). rewrite E1.
    destruct (first_index_snoc es (d_key d) (d_val d)) as (p & -> & Hp). cbn [gact allowed gspec_step fst snd gvalid]. rewrite E1. split; [split; [lia|done]|].
    apply check_allowed; [rewrite !insert_length; lia|]. apply IH; [by rewrite insert_length|by rewrite insert_length|done|].
    pose proof (length_update bss1 (d_i d) _ (delete p (es ++ [(d_key d, d_val d)])) H1) as Hu1.
    rewrite length_delete in Hu1 by (by apply lookup_lt_is_Some). rewrite app_length in Hu1, Hp. cbn [length] in Hu1, Hp. lia.
  - apply check_allowed; [rewrite insert_length; lia|]. apply IH; [done|by rewrite insert_length|done|lia].
Qed.

(** What the std::maps of the program hold after a draw, and draws that never push a key already stored. *)
Definition after_draw (maps : list (gmap N N)) (d : draw) : list (gmap N N) :=
  let m := <[d_key d := d_val d]> (nth (d_i d) maps ∅) in <[d_i d := if d_erase d then delete (d_key d) m else m]> maps.
Fixpoint fresh (maps : list (gmap N N)) (l : list draw) : Prop :=
  match l with [] => True | d :: l => nth (d_i d) maps ∅ !! d_key d = None /\ fresh (after_draw maps d) l end.
Definition sync (maps : list (gmap N N)) (bss : list entries) : Prop :=
  Forall2 (fun (m : gmap N N) (es : entries) => NoDup es.*1 /\ list_to_map es = m) maps bss.
Lemma sync_looks_up maps bss : sync maps bss ->
  forallb (fun im => forallb (looks_up bss (fst im)) (snd im)) (imap (fun i (m : gmap N N) => (i, map_to_list m)) maps) = true.
Proof.
  intros HS. apply forallb_forall. intros [i l] Hi%elem_of_list_In. apply elem_of_lookup_imap in Hi as (j & m & Ei & Hj). injection Ei as -> ->. cbn [fst snd].
  apply forallb_forall. intros [k v] He%elem_of_list_In. apply elem_of_map_to_list in He.
  destruct (Forall2_lookup_l _ _ _ _ _ HS Hj) as (es & Hes & Hnd & Hm). unfold looks_up. cbn [fst].
  rewrite (nth_lookup_Some _ _ [] _ Hes). rewrite <-Hm in He. apply elem_of_list_to_map_2 in He. apply elem_of_list_lookup in He as (p & Hp).
  rewrite (first_index_nodup _ p); [|done|by rewrite list_lookup_fmap, Hp]. rewrite (nth_lookup_Some _ _ (0, 0)%N _ Hp). by apply bool_decide_eq_true_2.
Qed.
Lemma sync_nth maps bss i : sync maps bss -> i < length bss -> NoDup (nth i bss []).*1 /\ list_to_map (nth i bss []) = nth i maps (∅ : gmap N N).
Proof.
  intros HS Hi. pose proof (nth_bucket bss i Hi) as He. destruct (Forall2_lookup_r _ _ _ _ _ HS He) as (m & Hm & H1 & H2).
  rewrite (nth_lookup_Some _ _ ∅ _ Hm). done.
Qed.
Definition after_bss (bss : list entries) (d : draw) : list entries :=
  if d_erase d then bss else <[d_i d := nth (d_i d) bss [] ++ [(d_key d, d_val d)]]> bss.
Lemma fresh_step maps bss d l : sync maps bss -> d_i d < length bss -> nth (d_i d) maps ∅ !! d_key d = None ->
  outcome bss (example_rounds (d :: l) maps) = outcome (after_bss bss d) (example_rounds l (after_draw maps d)) /\ sync (after_draw maps d) (after_bss bss d).
Proof.
  intros HS Hi Hf. pose proof (nth_bucket bss (d_i d) Hi) as Hes. destruct (sync_nth maps bss (d_i d) HS Hi) as [Hnd Hm]. rewrite <-Hm in Hf.
  assert (Hlm : d_i d < length maps) by (by rewrite (Forall2_length _ _ _ HS)).
  assert (Hk : d_key d ∉ (nth (d_i d) bss []).*1) by (by apply not_elem_of_list_to_map).
  assert (Hsync : sync (after_draw maps d) (after_bss bss d)).
  { unfold after_draw, after_bss. destruct (d_erase d).
    - rewrite delete_insert by (by rewrite <-Hm). assert (E : <[d_i d := nth (d_i d) maps ∅]> maps = maps); [|by rewrite E].
      apply list_insert_id. by apply nth_lookup_or_length_lt || (destruct (lookup_lt_is_Some_2 maps (d_i d) Hlm) as [x Hx]; by rewrite (nth_lookup_Some _ _ ∅ _ Hx)).
    - apply Forall2_insert; [done|]. split.
      + rewrite fmap_app. apply NoDup_app. split; [done|]. split; [|apply NoDup_singleton]. intros x Hx Hx2%elem_of_list_singleton. by subst x.
      + rewrite <-Hm. rewrite list_to_map_snoc by done. done. }
  split; [|done]. cbn [example_rounds gact outcome gspec_step fst snd]. unfold after_draw, after_bss in *. destruct (d_erase d).
  - cbn [outcome gspec_step fst snd].
    assert (E1 : nth (d_i d) (<[d_i d := nth (d_i d) bss [] ++ [(d_key d, d_val d)]]> bss) [] = nth (d_i d) bss [] ++ [(d_key d, d_val d)])
      by (by apply nth_lookup_Some, list_lookup_insert).
    rewrite E1. assert (Ef : first_index (d_key d) (fst <$> (nth (d_i d) bss [] ++ [(d_key d, d_val d)])) = Some (length (nth (d_i d) bss []))).
    { apply first_index_nodup.
      - rewrite fmap_app. apply NoDup_app. split; [done|]. split; [|apply NoDup_singleton]. intros x Hx Hx2%elem_of_list_singleton. by subst x.
      - by rewrite list_lookup_fmap, list_lookup_middle. }
    rewrite Ef. cbn [gact outcome gspec_step fst snd]. rewrite E1, list_insert_insert.
    assert (Ed : delete (length (nth (d_i d) bss [])) (nth (d_i d) bss [] ++ [(d_key d, d_val d)]) = nth (d_i d) bss []).
    { rewrite delete_middle. apply app_nil_r. }
    rewrite Ed, (list_insert_id bss) by done. by rewrite check_outcome, sync_looks_up.
  - by rewrite check_outcome, sync_looks_up.
Qed.
Lemma after_lengths bss d : length (after_bss bss d) = length bss.
Proof. unfold after_bss. destruct (d_erase d); [done|apply insert_length]. Qed.
Lemma fresh_rounds n l post : forall maps bss, sync maps bss -> length bss = n -> Forall (fun d => d_i d < n) l -> fresh maps l ->
  exists bss', outcome bss (example_rounds (l ++ post) maps) = outcome bss' (example_rounds post (foldl after_draw maps l))
    /\ sync (foldl after_draw maps l) bss' /\ length bss' = n.
Proof.
  induction l as [|d l IH]; intros maps bss HS Hb Hl Hf; [by exists bss|]. apply Forall_cons in Hl as [Hi Hl]. destruct Hf as [Hf1 Hf].
  destruct (fresh_step maps bss d (l ++ post) HS ltac:(lia) Hf1) as [E HS']. cbn [app foldl]. rewrite E. apply IH; [done|by rewrite after_lengths|done|done].
Qed.

(** ** C109, second block: it never misuses the group, whatever is drawn; all checks succeed if no key is drawn while it is stored in the same
    bucket. *)
Lemma block2_run pf n kw vw l : 1 <= n <= 255 -> 1 <= kw <= 64 -> 1 <= vw <= 64 -> Forall (draw_ok n kw vw) l -> (N.of_nat (length l) + 513 <= 2^32)%N ->
  exists g, example_block2 pf n kw vw l = Ok (g, outcome (replicate n []) (example_rounds l (replicate n ∅))).
Proof.
  intros Hn Hk Hv Hl Hlen. unfold example_block2.
  assert (Hr : kv_rep True pf kw vw (kv_init kv_new n kw vw) (replicate n [])) by (apply kv_init_rep; lia).
  assert (Hc : length (concat (replicate n ([] : entries))) = 0) by (clear; induction n; done).
  destruct (kv_play_spec kw vw pf Hk Hv (example_rounds l (replicate n ∅)) _ _ Hr) as (g & E).
  { apply (rounds_allowed kw vw n); [apply replicate_length|apply replicate_length|done|rewrite Hc; lia]. }
  rewrite replicate_length in E. by exists g.
Qed.
Lemma sync_new n : sync (replicate n ∅) (replicate n []).
Proof. induction n as [|n IH]; [constructor|]. constructor; [|exact IH]. split; [constructor|done]. Qed.
Theorem C109_second_block_partial : forall pf n kw vw l, 1 <= n <= 255 -> 1 <= kw <= 64 -> 1 <= vw <= 64 -> Forall (draw_ok n kw vw) l ->
  (N.of_nat (length l) + 513 <= 2^32)%N ->
  exists g b, example_block2 pf n kw vw l = Ok (g, b) /\ (fresh (replicate n ∅) l -> b = true).
Proof.
  intros pf n kw vw l Hn Hk Hv Hl Hlen. destruct (block2_run pf n kw vw l Hn Hk Hv Hl Hlen) as (g & E). eexists _, _. split; [exact E|]. intros Hf.
  destruct (fresh_rounds n l [] (replicate n ∅) (replicate n [])) as (bss' & Eo & _); [apply sync_new|apply replicate_length| |done|].
  { eapply Forall_impl; [exact Hl|]. by intros d [? _]. }
  rewrite app_nil_r in Eo. by rewrite Eo.
Qed.
Print Assumptions C109_second_block_partial.
(** A key drawn again while it is stored in its bucket with another value, and not erased: the checks fail.  push_back stores both pairs
    and find returns the older one. *)
Theorem C109_repeated_key_refuted : forall pf n kw vw l d post v, 1 <= n <= 255 -> 1 <= kw <= 64 -> 1 <= vw <= 64 ->
  Forall (draw_ok n kw vw) (l ++ d :: post) -> (N.of_nat (length (l ++ d :: post)) + 513 <= 2^32)%N ->
  fresh (replicate n ∅) l -> nth (d_i d) (foldl after_draw (replicate n ∅) l) ∅ !! d_key d = Some v -> v <> d_val d -> d_erase d = false ->
  exists g, example_block2 pf n kw vw (l ++ d :: post) = Ok (g, false).
Proof.
  intros pf n kw vw l d post v Hn Hk Hv Hl Hlen Hf Hd Hne He. destruct (block2_run pf n kw vw _ Hn Hk Hv Hl Hlen) as (g & E). exists g. rewrite E.
  do 2 f_equal. apply Forall_app in Hl as [Hl Hl2]. apply Forall_cons in Hl2 as [(Hi & _) _].
  destruct (fresh_rounds n l (d :: post) (replicate n ∅) (replicate n [])) as (bss' & Eo & HS & Hb); [apply sync_new|apply replicate_length| |done|].
  { eapply Forall_impl; [exact Hl|]. by intros x [? _]. }
  rewrite Eo. set (maps := foldl after_draw (replicate n ∅) l) in *. cbn [example_rounds gact outcome gspec_step fst snd]. rewrite He.
  rewrite check_outcome. apply andb_false_intro1. apply not_true_is_false. rewrite forallb_forall. intros Hall.
  assert (Hi' : d_i d < length bss') by lia. assert (Him : d_i d < length maps) by (by rewrite (Forall2_length _ _ _ HS)).
  destruct (sync_nth maps bss' (d_i d) HS Hi') as [Hnd Hm].
  specialize (Hall (d_i d, map_to_list (<[d_key d := d_val d]> (nth (d_i d) maps ∅)))). cbn [fst snd] in Hall.
  assert (Hin : In (d_i d, map_to_list (<[d_key d := d_val d]> (nth (d_i d) maps ∅)))
    (imap (fun i (m : gmap N N) => (i, map_to_list m)) (<[d_i d := <[d_key d := d_val d]> (nth (d_i d) maps ∅)]> maps))).
  { apply elem_of_list_In, elem_of_lookup_imap. eexists _, _. split; [done|]. by apply list_lookup_insert. }
  specialize (Hall Hin). rewrite forallb_forall in Hall. specialize (Hall (d_key d, d_val d)).
  assert (Hin2 : In (d_key d, d_val d) (map_to_list (<[d_key d := d_val d]> (nth (d_i d) maps ∅)))) by (apply elem_of_list_In, elem_of_map_to_list, lookup_insert).
  specialize (Hall Hin2). unfold looks_up in Hall. cbn [fst] in Hall.
  rewrite (nth_lookup_Some _ _ [] _ (list_lookup_insert bss' (d_i d) _ Hi')) in Hall.
  rewrite <-Hm in Hd. apply elem_of_list_to_map_2, elem_of_list_lookup in Hd as (p & Hp).
  assert (Ef : first_index (d_key d) (fst <$> (nth (d_i d) bss' [] ++ [(d_key d, d_val d)])) = Some p).
  { rewrite fmap_app. assert (H1 : (fst <$> nth (d_i d) bss' []) !! p = Some (d_key d)) by (by rewrite list_lookup_fmap, Hp).
    revert Hnd H1. generalize (nth (d_i d) bss' []).*1 as ks. intros ks. revert p Hp. clear. intros p _. revert p. induction ks as [|x ks IH]; intros p Hnd H1; [done|].
    apply NoDup_cons in Hnd as [Hx Hnd]. destruct p as [|p]; cbn [lookup list_lookup] in H1; cbn [app first_index].
    - injection H1 as ->. by rewrite N.eqb_refl.
    - rewrite (proj2 (N.eqb_neq _ _)); [by rewrite (IH p)|]. intros ->. apply Hx. by eapply elem_of_list_lookup_2. }
  rewrite Ef in Hall. apply bool_decide_eq_true_1 in Hall. rewrite (nth_lookup_Some _ p (0, 0)%N (d_key d, v)) in Hall by (by apply lookup_app_l_Some).
  by injection Hall as ->.
Qed.
Print Assumptions C109_repeated_key_refuted.

(** Runs of both blocks; the draws of the second pass, and fail after one more draw. *)
Definition ex_fresh : list draw := [Draw 1 5 7 false; Draw 1 6 8 true; Draw 3 5 9 false; Draw 1 6 1 false; Draw 0 4294967295 4294967295 false].
Example C109_case : Forall (draw_ok 4 32 32) ex_fresh /\ fresh (replicate 4 ∅) ex_fresh
  /\ (snd <$> example_block2 strict_pf 4 32 32 ex_fresh) = Ok true
  /\ (snd <$> example_block2 strict_pf 4 32 32 (ex_fresh ++ [Draw 3 5 8 false])) = Ok false
  /\ example_block1 strict_pf 7 20 64 64 32 32 [(6, 5%N, 6%N); (0, 18446744073709551615%N, 1%N); (6, 5%N, 6%N)] = Ok (kv_new, true).
Proof.
  split; [repeat (apply List.Forall_cons; [split; [cbn; lia|split; reflexivity]|]); apply List.Forall_nil|].
  split; [vm_compute; repeat split|]. split; [vm_compute; reflexivity|]. split; vm_compute; reflexivity.
Qed.
