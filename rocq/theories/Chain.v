(** Facts about chained entries: a list of buckets, each a list of (key, value) pairs, and the finite map
    it denotes.  Shared by all table proofs. *)
From stdpp Require Export gmap.
From Verif Require Export BucketProofs.
#[local] Open Scope nat_scope.

Notation entries := (list (N * N)).
(** The finite map denoted by a list of entries. *)
Definition emap (E : entries) : gmap N N := list_to_map E.
Notation keys_of E := ((E : entries).*1).

(** ** Concatenation of buckets *)
Section concat.
Context {A : Type}.
Implicit Types (ess : list (list A)).

Lemma concat_split ess i es : ess !! i = Some es ->
  concat ess = concat (take i ess) ++ es ++ concat (drop (S i) ess).
Proof.
  intros H. rewrite <-(take_drop_middle _ _ _ H) at 1. by rewrite concat_app.
Qed.

Lemma concat_upd ess i es es' : ess !! i = Some es ->
  concat (<[i := es']> ess) = concat (take i ess) ++ es' ++ concat (drop (S i) ess).
Proof.
  intros H. rewrite (concat_split _ i es').
  - rewrite take_insert by lia. rewrite drop_insert_gt by lia. done.
  - apply list_lookup_insert. by apply lookup_lt_Some in H.
Qed.

Lemma elem_of_concat ess x : x ∈ concat ess <-> exists i es, ess !! i = Some es /\ x ∈ es.
Proof.
  split.
  - induction ess as [|es ess IH]; cbn; [by rewrite elem_of_nil|].
    rewrite elem_of_app. intros [H|H].
    + by exists 0, es.
    + destruct (IH H) as (i & es' & ? & ?). by exists (S i), es'.
  - intros (i & es & H & Hx). rewrite (concat_split _ _ _ H). rewrite !elem_of_app. tauto.
Qed.

Lemma concat_upd_push ess i es x : ess !! i = Some es ->
  concat (<[i := es ++ [x]]> ess) ≡ₚ x :: concat ess.
Proof.
  intros H. rewrite (concat_upd _ _ _ _ H), (concat_split _ _ _ H). solve_Permutation.
Qed.

Lemma delete_Permutation' (es : list A) p x : es !! p = Some x -> es ≡ₚ x :: delete p es.
Proof. apply delete_Permutation. Qed.

Lemma concat_upd_delete ess i es p x : ess !! i = Some es -> es !! p = Some x ->
  concat ess ≡ₚ x :: concat (<[i := delete p es]> ess).
Proof.
  intros H Hx. rewrite (concat_upd _ _ _ _ H), (concat_split _ _ _ H).
  rewrite (delete_Permutation' _ _ _ Hx) at 1. solve_Permutation.
Qed.

Lemma concat_replicate_nil n : concat (replicate n (@nil A)) = [].
Proof. induction n; done. Qed.

Lemma concat_length_pos ess i es : ess !! i = Some es -> length es <= length (concat ess).
Proof. intros H. rewrite (concat_split _ _ _ H), !app_length. lia. Qed.
End concat.

(** ** Maps of entries *)
Lemma emap_perm E E' : NoDup (keys_of E) -> E ≡ₚ E' -> emap E = emap E'.
Proof. apply list_to_map_proper. Qed.

Lemma emap_Some E k v : NoDup (keys_of E) -> emap E !! k = Some v <-> (k, v) ∈ E.
Proof. intros. unfold emap. by rewrite <-elem_of_list_to_map. Qed.

Lemma emap_None E k : emap E !! k = None <-> k ∉ keys_of E.
Proof. unfold emap. by rewrite not_elem_of_list_to_map. Qed.

Lemma emap_cons k v E : emap ((k, v) :: E) = <[k := v]> (emap E).
Proof. done. Qed.

Lemma emap_size E : NoDup (keys_of E) -> size (emap E) = length E.
Proof.
  induction E as [|[k v] E IH]; [done|]. cbn. rewrite NoDup_cons. intros [Hk Hn].
  fold (emap E). unfold emap. cbn. fold (emap E). rewrite map_size_insert_None; [by rewrite IH|]. by apply emap_None.
Qed.

Lemma keys_perm E E' : E ≡ₚ E' -> keys_of E ≡ₚ keys_of E'.
Proof. intros H. by rewrite H. Qed.

Lemma keys_elem E k : k ∈ keys_of E <-> exists v, (k, v) ∈ E.
Proof.
  rewrite elem_of_list_fmap. split.
  - intros ([k' v] & -> & H). by exists v.
  - intros (v & H). by exists (k, v).
Qed.

Lemma nodup_keys_eq E k v v' : NoDup (keys_of E) -> (k, v) ∈ E -> (k, v') ∈ E -> v = v'.
Proof.
  intros Hn H1 H2. apply (emap_Some _ _ _ Hn) in H1, H2. congruence.
Qed.

Lemma emap_delete k v E E' : NoDup (keys_of E) -> E ≡ₚ (k, v) :: E' -> emap E' = delete k (emap E).
Proof.
  intros Hn HE. rewrite (emap_perm _ _ Hn HE), emap_cons, delete_insert; [done|].
  apply emap_None. rewrite HE in Hn. cbn in Hn. by apply NoDup_cons in Hn as [? _].
Qed.

(** Changing the value of one entry. *)
Lemma concat_upd_set (ess : list entries) i es p k v v' : ess !! i = Some es -> es !! p = Some (k, v) ->
  exists R, concat ess ≡ₚ (k, v) :: R /\ concat (<[i := <[p := (k, v')]> es]> ess) ≡ₚ (k, v') :: R.
Proof.
  intros H Hp. exists (concat (<[i := delete p es]> ess)). split; [by apply concat_upd_delete|].
  rewrite !(concat_upd _ _ _ _ H).
  assert (Hp' : <[p := (k, v')]> es !! p = Some (k, v')) by (apply list_lookup_insert; by apply lookup_lt_Some in Hp).
  rewrite (delete_Permutation' _ _ _ Hp') at 1.
  replace (delete p (<[p := (k, v')]> es)) with (delete p es); [solve_Permutation|].
  apply list_eq. intros j. rewrite !delete_lookup. case_decide; rewrite list_lookup_insert_ne by lia; done.
Qed.

(** ** Entries placed by a bucket function *)
Definition placed (bo : N -> N) (ess : list entries) : Prop :=
  forall i es k v, ess !! i = Some es -> (k, v) ∈ es -> bo k = N.of_nat i.

Section placed.
Context (bo : N -> N) (ess : list entries) (ovl : entries).
Hypothesis Hpl : placed bo ess.

Lemma own_bucket_elem k v es : ess !! N.to_nat (bo k) = Some es ->
  (k, v) ∈ concat ess <-> (k, v) ∈ es.
Proof.
  intros Hes. rewrite elem_of_concat. split.
  - intros (i & es' & Hi & Hin). pose proof (Hpl _ _ _ _ Hi Hin) as E.
    rewrite E, Nat2N.id in Hes. congruence.
  - intros Hin. eauto.
Qed.
Lemma own_bucket_key k es : ess !! N.to_nat (bo k) = Some es ->
  k ∈ keys_of (concat ess) <-> k ∈ keys_of es.
Proof.
  intros Hes. rewrite !keys_elem. split; intros (v & H); exists v; by apply (own_bucket_elem k v es).
Qed.
End placed.

Lemma placed_push bo ess i es k v : placed bo ess -> ess !! i = Some es -> bo k = N.of_nat i ->
  placed bo (<[i := es ++ [(k, v)]]> ess).
Proof.
  intros Hpl Hi Hk j es' k' v' Hj Hin. apply list_lookup_insert_Some in Hj as [(-> & <- & _)|[_ Hj]].
  - apply elem_of_app in Hin as [Hin|Hin]; [by eapply Hpl|].
    apply elem_of_list_singleton in Hin. by injection Hin as -> ->.
  - by eapply Hpl.
Qed.
Lemma elem_of_delete {A} (l : list A) p x : x ∈ delete p l -> x ∈ l.
Proof.
  rewrite !elem_of_list_lookup. intros (j & Hj). rewrite delete_lookup in Hj. case_decide; eauto.
Qed.
Lemma placed_delete bo ess i es p : placed bo ess -> ess !! i = Some es ->
  placed bo (<[i := delete p es]> ess).
Proof.
  intros Hpl Hi j es' k' v' Hj Hin. apply list_lookup_insert_Some in Hj as [(-> & <- & _)|[_ Hj]].
  - apply elem_of_delete in Hin. by eapply Hpl.
  - by eapply Hpl.
Qed.
Lemma placed_set bo ess i es p k v v' : placed bo ess -> ess !! i = Some es -> es !! p = Some (k, v) ->
  placed bo (<[i := <[p := (k, v')]> es]> ess).
Proof.
  intros Hpl Hi Hp j es' k' v2 Hj Hin. apply list_lookup_insert_Some in Hj as [(-> & <- & _)|[_ Hj]].
  - apply elem_of_list_lookup in Hin as (q & Hq).
    apply list_lookup_insert_Some in Hq as [(-> & E & _)|[_ Hq]].
    + injection E as -> ->. eapply Hpl; [done|]. by eapply elem_of_list_lookup_2.
    + eapply Hpl; [done|]. by eapply elem_of_list_lookup_2.
  - by eapply Hpl.
Qed.
Lemma placed_nil bo n : placed bo (replicate n []).
Proof.
  intros i es k v H Hin. apply lookup_replicate in H as [-> _]. by apply elem_of_nil in Hin.
Qed.

(** ** first_index *)
Lemma fi_Some k xs p : first_index k xs = Some p -> xs !! p = Some k.
Proof.
  revert p. induction xs as [|x xs IH]; cbn; [done|]. intros p. destruct (N.eqb_spec x k) as [->|Hne].
  - by intros [= <-].
  - destruct (first_index k xs) as [q|]; [|done]. cbn. intros [= <-]. cbn. by apply IH.
Qed.
Lemma fi_None k xs : first_index k xs = None <-> k ∉ xs.
Proof.
  induction xs as [|x xs IH]; cbn; [split; [intros _; apply not_elem_of_nil|done]|].
  rewrite not_elem_of_cons, <-IH. destruct (N.eqb_spec x k) as [->|Hne].
  - split; [done|]. by intros [? _].
  - destruct (first_index k xs); cbn.
    + split; [done|]. by intros [_ ?].
    + split; [|done]. intros _. split; [congruence|done].
Qed.
Lemma fi_nodup k xs p : NoDup xs -> xs !! p = Some k -> first_index k xs = Some p.
Proof.
  intros Hn Hp. destruct (first_index k xs) as [q|] eqn:Eq.
  - apply fi_Some in Eq. f_equal. eapply NoDup_lookup; eauto.
  - apply fi_None in Eq. exfalso. apply Eq. by eapply elem_of_list_lookup_2.
Qed.
(** Searching for images under a function injective on the relevant keys. *)
Lemma fi_map (f : N -> N) k xs : (forall x, x ∈ xs -> f x = f k -> x = k) ->
  first_index (f k) (map f xs) = first_index k xs.
Proof.
  induction xs as [|x xs IH]; intros Hf; cbn; [done|].
  rewrite IH by (intros y Hy; apply Hf; by constructor).
  destruct (N.eqb_spec x k) as [->|Hne].
  - by rewrite N.eqb_refl.
  - destruct (N.eqb_spec (f x) (f k)) as [E|_]; [|done]. exfalso. apply Hne. apply Hf; [by constructor|done].
Qed.

(** ** rfold / rmap with invariants *)
Lemma rfold_app {A B} (f : A -> B -> res A) l1 l2 a :
  rfold f (l1 ++ l2) a = (a' ← rfold f l1 a; rfold f l2 a').
Proof.
  revert a. induction l1 as [|x l1 IH]; intros a; cbn; [done|].
  destruct (f a x); cbn; [apply IH|done..].
Qed.

Lemma rmap_Forall2 {A B} (f : A -> res B) l (P : A -> B -> Prop) :
  (forall x, x ∈ l -> exists y, f x = Ok y /\ P x y) -> exists ys, rmap f l = Ok ys /\ Forall2 P l ys.
Proof.
  induction l as [|x l IH]; intros H; cbn.
  - exists []. split; [done|constructor].
  - destruct (H x ltac:(by constructor)) as (y & -> & Hy). cbn.
    destruct IH as (ys & -> & Hys); [intros z Hz; apply H; by constructor|]. cbn.
    exists (y :: ys). split; [done|by constructor].
Qed.
