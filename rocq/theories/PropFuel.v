(** C07, C21, C22: the bound on the recursion depth in the model is not observable. *)
From Verif Require Import FuelProofs PropTable.

Lemma apx_use {A} (r r' x : res A) : apx r r' -> r = x -> x <> Timeout -> r' = x.
Proof. intros [-> | ->] <- H; [by destruct H|done]. Qed.

(** Any state, any call, any program: two bounds that both suffice give the same result, and larger bounds suffice as well.
    Without this the theorems for "every fuel >= 64" would not say what the unbounded recursion of the code computes. *)
Theorem C07_depth_irrelevant : forall pf c fuel fuel', (fuel <= fuel')%nat ->
  (forall t k v r, find_or_insert pf c fuel t k v = r -> r <> Timeout -> find_or_insert pf c fuel' t k v = r)
  /\ (forall t n r, reserve pf c fuel t n = r -> r <> Timeout -> reserve pf c fuel' t n = r)
  /\ (forall t ops r, run_ops pf c fuel t ops = r -> r <> Timeout -> run_ops pf c fuel' t ops = r)
  /\ (forall t ops r, run_sops pf c fuel t ops = r -> r <> Timeout -> run_sops pf c fuel' t ops = r).
Proof.
  intros pf c f f' Hle. split; [|split; [|split]].
  - intros t k v r. apply apx_use. by apply foi_apx.
  - intros t n r. apply apx_use. unfold reserve. apply reserve_apx. intros. by apply foi_apx.
  - intros t ops r. apply apx_use. by apply run_ops_apx.
  - intros t ops r. apply apx_use. by apply run_sops_apx.
Qed.
Print Assumptions C07_depth_irrelevant.
Example C07_depth_case : (* a call that needs a nested call: a bound of 2 suffices, 1 does not *)
  let t := ex_hist ex_var 20 9 [OpInsert 0 1; OpInsert 11 1] in
  find_or_insert lax_pf ex_var 1 t 27 2 = Timeout /\ is_ok (find_or_insert lax_pf ex_var 2 t 27 2) = true
  /\ find_or_insert lax_pf ex_var 7 t 27 2 = find_or_insert lax_pf ex_var 2 t 27 2.
Proof. vm_compute. auto. Qed.

Theorem C22_depth_irrelevant : forall pf c fuel fuel', (fuel <= fuel')%nat ->
  (forall t k v r, c_find_or_insert pf c fuel t k v = r -> r <> Timeout -> c_find_or_insert pf c fuel' t k v = r)
  /\ (forall t ops r, m_run_ops (c_impl pf c fuel) t ops = r -> r <> Timeout -> m_run_ops (c_impl pf c fuel') t ops = r).
Proof.
  intros pf c f f' Hle. split.
  - intros t k v r. apply apx_use. by apply c_foi_apx.
  - intros t ops r. apply apx_use. by apply c_run_apx.
Qed.
Print Assumptions C22_depth_irrelevant.
Theorem C21_depth_irrelevant : forall pf c kind fuel fuel', (fuel <= fuel')%nat ->
  (forall t k v r, g_find_or_insert pf c fuel t k v = r -> r <> Timeout -> g_find_or_insert pf c fuel' t k v = r)
  /\ (forall t ops r, m_run_ops (g_impl pf c fuel) t ops = r -> r <> Timeout -> m_run_ops (g_impl pf c fuel') t ops = r)
  /\ (forall t k v r, go_find_or_insert pf c kind fuel t k v = r -> r <> Timeout -> go_find_or_insert pf c kind fuel' t k v = r)
  /\ (forall t ops r, go_run_ops pf c kind fuel t ops = r -> r <> Timeout -> go_run_ops pf c kind fuel' t ops = r).
Proof.
  intros pf c kind f f' Hle. split; [|split; [|split]].
  - intros t k v r. apply apx_use. by apply g_foi_apx.
  - intros t ops r. apply apx_use. by apply g_run_apx.
  - intros t k v r. apply apx_use. by apply go_foi_apx.
  - intros t ops r. apply apx_use. by apply go_run_apx.
Qed.
Print Assumptions C21_depth_irrelevant.
