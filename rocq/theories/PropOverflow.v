(** Property theorems about array_overflow: what holds of C37 and C38, and C66. *)
From Verif Require Export ArrayTable PropSerial.

(** ** C38: after any sequence of insertions of distinct keys, the stored keys are found where they were inserted, with their
    values, and their buckets are marked.  A key that is not stored is reported as missing if all slots are taken; otherwise the
    answer depends on the unused slots: if they are zero only the key 0 is reported wrongly, if they are indeterminate every such
    lookup is undefined. *)
Theorem C38_array_inserts_partial : forall pf kb vb nb (l : list (N * N * N)),
  (length l <= 256)%nat -> NoDup (map (fun e => snd (fst e)) l) ->
  Forall (fun e => fst (fst e) < nb /\ snd (fst e) < 2^N.of_nat kb /\ snd e < 2^N.of_nat vb) l ->
  exists o, arr_inserts pf kb vb l (ov_resize_buckets pf (ov_new pf kb vb OvArray) nb) = Ok o
    /\ ov_size o = N.of_nat (length l)
    /\ (forall i bk k v, l !! i = Some (bk, k, v) -> ov_find pf kb o k = Ok (Some (N.of_nat i)) /\ ov_need_consult o bk = Ok true
          /\ ov_valid pf o (N.of_nat i) = true /\ ov_key pf kb o (N.of_nat i) = Ok k /\ ov_get pf vb o (N.of_nat i) = Ok v)
    /\ (forall k, k < 2^N.of_nat kb -> k ∉ map (fun e => snd (fst e)) l ->
          ov_find pf kb o k = if (length l =? 256)%nat then Ok None
                              else if zero_fresh pf then if 0 =? k then Ok (Some (N.of_nat (length l))) else Ok None
                              else Ub Indeterminate).
Proof.
  intros pf kb vb nb l Hl Hnd HF. rewrite arr_new.
  destruct (arr_inserts_spec pf kb vb l [] (replicate (N.to_nat nb) false)) as (full & E & Hlen & _ & HT); [done| |].
  { rewrite replicate_length, N2Nat.id. exact HF. }
  rewrite replicate_length in Hlen. cbn [app] in E. eexists. split; [exact E|].
  set (es := map (fun e : N * N * N => (snd (fst e), snd e)) l) in *.
  assert (Hes : length es = length l) by apply map_length.
  assert (Hks : map fst es = map (fun e : N * N * N => snd (fst e)) l) by (unfold es; by rewrite map_map).
  split; [cbn [arr_state ov_size]; by rewrite Hes|]. split.
  - intros i bk k v Hi.
    assert (Hi' : es !! i = Some (k, v)). { pose proof (list_lookup_fmap (fun e : N * N * N => (snd (fst e), snd e)) l i) as Ei. rewrite Hi in Ei. exact Ei. }
    assert (Hik : map fst es !! i = Some k). { pose proof (list_lookup_fmap fst es i) as Ei. rewrite Hi' in Ei. exact Ei. }
    pose proof (proj1 (Forall_lookup _ _) HF i _ Hi) as (Hb & Hk & _). cbn [fst snd] in Hb, Hk.
    rewrite arr_find by (done || lia). rewrite (first_index_nodup (map fst es) i k) by (done || by rewrite Hks). split; [done|].
    pose proof (proj1 (Forall_lookup _ _) HT i _ Hi) as Hfb. cbn [fst] in Hfb. split.
    + cbn [arr_state ov_need_consult]. unfold bv_get. rewrite (proj2 (N.ltb_lt bk _)) by lia. by rewrite Hfb.
    + destruct (arr_at pf kb vb es full i k v Hi') as (H1 & H2 & H3). done.
  - intros k Hk Hnk. rewrite arr_find by (done || lia). rewrite first_index_none by (by rewrite Hks). by rewrite Hes.
Qed.
Print Assumptions C38_array_inserts_partial.
Definition ex_arr_l : list (N * N * N) := [(3, 100, 1); (3, 7, 2); (5, 65535, 3); (0, 0, 9)].
Example C38_case : NoDup (map (fun e : N * N * N => snd (fst e)) ex_arr_l)
  /\ Forall (fun e : N * N * N => fst (fst e) < 16 /\ snd (fst e) < 2^16 /\ snd e < 2^16) ex_arr_l
  /\ match arr_inserts zero_pf 16 16 ex_arr_l (ov_resize_buckets zero_pf (ov_new zero_pf 16 16 OvArray) 16) with
     | Ok o => ov_find zero_pf 16 o 65535 = Ok (Some 2) /\ ov_find zero_pf 16 o 8 = Ok None /\ ov_get zero_pf 16 o 3 = Ok 9
     | _ => False
     end.
Proof.
  split; [unfold ex_arr_l; cbn [map fst snd]; repeat (constructor; [set_solver|]); constructor|]. split.
  - unfold ex_arr_l. repeat (apply List.Forall_cons; [cbn [fst snd]; change (2^16) with 65536; lia|]). apply List.Forall_nil.
  - vm_compute. repeat split; reflexivity.
Qed.

(** ** C37: after such a sequence, erase() of any stored position removes the element inserted last and leaves all others in
    place; so it erases the requested element exactly if it was inserted last. *)
Theorem C37_array_erase_partial : forall pf kb vb nb (l : list (N * N * N)) bk0 k0 v0 o p,
  (length l < 256)%nat -> NoDup (map (fun e => snd (fst e)) (l ++ [(bk0, k0, v0)])) ->
  Forall (fun e => fst (fst e) < nb /\ snd (fst e) < 2^N.of_nat kb /\ snd e < 2^N.of_nat vb) (l ++ [(bk0, k0, v0)]) ->
  arr_inserts pf kb vb (l ++ [(bk0, k0, v0)]) (ov_resize_buckets pf (ov_new pf kb vb OvArray) nb) = Ok o ->
  p <= N.of_nat (length l) ->
  exists o', ov_erase pf o p = Ok o' /\ ov_size o' = N.of_nat (length l)
    /\ (forall i bk k v, l !! i = Some (bk, k, v) -> ov_find pf kb o' k = Ok (Some (N.of_nat i))
          /\ ov_valid pf o' (N.of_nat i) = true /\ ov_key pf kb o' (N.of_nat i) = Ok k /\ ov_get pf vb o' (N.of_nat i) = Ok v)
    /\ ov_valid pf o' (N.of_nat (length l)) = false.
Proof.
  intros pf kb vb nb l bk0 k0 v0 o p Hl Hnd HF E Hp.
  destruct (C38_array_inserts_partial pf kb vb nb (l ++ [(bk0, k0, v0)])) as (o2 & E2 & Hs & HA & _); [rewrite app_length; cbn [length]; lia|done|done|].
  rewrite E in E2. injection E2 as <-. rewrite app_length in Hs. cbn [length] in Hs.
  rewrite arr_new in E.
  destruct (arr_inserts_spec pf kb vb (l ++ [(bk0, k0, v0)]) [] (replicate (N.to_nat nb) false)) as (full & E3 & _); [rewrite app_length; cbn [length]; lia| |].
  { rewrite replicate_length, N2Nat.id. exact HF. }
  rewrite E in E3. injection E3 as ->. unfold arr_state in *. cbn [ov_size] in Hs. cbn [ov_erase]. rewrite Hs.
  rewrite (proj2 (N.ltb_ge _ p)) by lia. eexists. split; [done|]. cbn [ov_size ov_valid].
  assert (Hsub : sub64 (N.of_nat (length l + 1)) 1 = N.of_nat (length l)).
  { rewrite sub64_small by (change (2^64) with 18446744073709551616; lia). lia. }
  rewrite Hsub. split; [done|]. split; [|apply N.ltb_irrefl].
  intros i bk k v Hi. pose proof (lookup_lt_Some _ _ _ Hi). destruct (HA i bk k v) as (H1 & _ & _ & H2 & H3); [by rewrite lookup_app_l|].
  split; [exact H1|]. split; [apply N.ltb_lt; lia|]. split; [exact H2|exact H3].
Qed.
Print Assumptions C37_array_erase_partial.
Example C37_case : match arr_inserts strict_pf 16 16 ex_arr_l (ov_resize_buckets strict_pf (ov_new strict_pf 16 16 OvArray) 16) with
  | Ok o => (o' ← ov_erase strict_pf o 0; k ← ov_key strict_pf 16 o' 0; Ok (ov_size o', k)) = Ok (3, 100)
  | _ => False
  end.
Proof. vm_compute. reflexivity. Qed.

(** ** C66: a table with array_overflow behaves like a finite map as long as fresh memory is zero, key 0 is not used and nothing
    is removed from the array: every further call answers as the finite map does, keys stored in buckets can be erased, and
    forward iteration shows every pair once.  Reverse iteration shows nothing once the array has elements. *)
Theorem C66_array_table : forall pf c kw vw t m, arr_params pf c kw vw -> arr_reach pf c kw vw t m ->
  (forall fuel ops, (64 <= fuel)%nat -> valid_ops kw vw 1 (bits_max c kw) ops -> Forall grow_op ops ->
     exists t', run_ops pf c fuel t ops = Ok (t', snd (spec_run m ops)))
  /\ (forall k x, k < 2^kw -> k <> 0 -> TableModel.find pf c t k = Ok x -> fst x <> bucket_count t ->
     exists t', erase pf c t k = Ok (t', match m !! k with Some _ => 1 | None => 0 end))
  /\ (forall k, k < 2^kw -> k <> 0 -> lookup_of pf c t k = Ok (m !! k))
  /\ TableModel.size t = N.of_nat (size m) mod 2^64
  /\ (forall k v, m !! k = Some v -> k <> 0 /\ k < 2^kw)
  /\ (exists l, NoDup (map fst l) /\ list_to_map l = m /\ forall f, (length l <= f)%nat -> forward pf c f t = Ok l)
  /\ (0 < ov_size (t_ov t) -> forall f, backward pf c f t = Ok []).
Proof.
  intros pf c kw vw t m P Hr. apply (arr_reach_rep pf c kw vw P) in Hr.
  destruct (trep_shows0 _ _ _ _ _ _ _ (arr_ok pf c kw vw P) t m Hr) as [Hl Hs]. split; [|split; [|split; [|split; [done|split; [|split]]]]].
  - intros fuel ops Hf Hv Hg. destruct (arr_step pf c kw vw P fuel ops t m Hr Hf Hv Hg) as (t' & E & _). by exists t'.
  - intros k x Hk H0 Hx Hb. destruct (arr_erase pf c kw vw P t m k x Hr Hk H0 Hx Hb) as (t' & E & _). by exists t'.
  - intros k Hk H0. by apply Hl.
  - intros k v. by apply (arr_keys pf c kw vw P t).
  - exact (arr_forward pf c kw vw P t m Hr).
  - intros Ho f. by apply (arr_backward pf c kw vw P t m).
Qed.
Print Assumptions C66_array_table.
(** Keys 16, 34 and 35 share a bucket for two elements, so that 35 goes to the array. *)
Definition ex_arr2 : cfg := Cfg (KPlain 32) (KPlain 16) (HBij Xorshift) 32 false 2 OvArray.
Lemma ex_arr2_ok : arr_params zero_pf ex_arr2 16 16.
Proof. split; [split; [core_solve|repeat split; done]|]. split; [split; [cbn; lia|done]|lia]. Qed.
Definition ex_arr2_t (ops : list op) : table :=
  match run_ops zero_pf ex_arr2 64 (new_table zero_pf ex_arr2 16 16) ops with Ok (t, _) => t | _ => new_table zero_pf ex_arr2 16 16 end.
Lemma ex_arr2_reach ops : valid_ops 16 16 1 (bits_max ex_arr2 16) ops -> Forall grow_op ops ->
  arr_reach zero_pf ex_arr2 16 16 (ex_arr2_t ops) (fst (spec_run ∅ ops)).
Proof.
  intros Hv Hg. destruct (C66_array_table _ _ _ _ _ _ ex_arr2_ok (ar_new _ _ _ _)) as (H & _).
  destruct (H 64%nat ops ltac:(lia) Hv Hg) as (t' & E). unfold ex_arr2_t. rewrite E.
  by eapply (ar_run _ _ _ _ _ _ 64); [apply ar_new|lia|..|exact E].
Qed.
Definition ex_arr2_ops : list op := ex_inserts [16; 34; 35; 50; 51; 1; 2; 3; 52; 17].
Definition ex_arr2_more : list op := [OpWrite 35 7; OpFind 35; OpCount 18; OpReserve 64; OpFind 17; OpSize].
Example C66_case : let t := ex_arr2_t ex_arr2_ops in
  arr_reach zero_pf ex_arr2 16 16 t (fst (spec_run ∅ ex_arr2_ops))
  /\ valid_ops 16 16 1 (bits_max ex_arr2 16) ex_arr2_more /\ Forall grow_op ex_arr2_more
  /\ bucket_count t = 16 /\ ov_size (t_ov t) = 2 /\ lookup_of zero_pf ex_arr2 t 35 = Ok (Some 35)
  /\ TableModel.find zero_pf ex_arr2 t 35 = Ok (16, 0) /\ TableModel.find zero_pf ex_arr2 t 34 = Ok (0, 1)
  /\ forward zero_pf ex_arr2 10 t = Ok [(16, 16); (34, 34); (1, 1); (3, 3); (51, 51); (2, 2); (52, 52); (50, 50); (35, 35); (17, 17)].
Proof.
  assert (H16 : 2^16 = 65536) by done. assert (H15 : 2^bits_max ex_arr2 16 = 32768) by done. assert (H1 : 2^1/2 = 1) by done.
  cbv zeta. split; [|split; [|split; [|vm_compute; repeat split; reflexivity]]].
  - apply ex_arr2_reach; unfold ex_arr2_ops, ex_inserts, valid_ops; cbn [map];
      (repeat (apply List.Forall_cons; [cbn [valid_op grow_op]; rewrite ?H16; lia|]); apply List.Forall_nil).
  - unfold ex_arr2_more, valid_ops. repeat (apply List.Forall_cons; [cbn [valid_op]; rewrite ?H16, ?H15, ?H1; lia|]). apply List.Forall_nil.
  - unfold ex_arr2_more. repeat (apply List.Forall_cons; [cbn [grow_op]; done|]). apply List.Forall_nil.
Qed.
