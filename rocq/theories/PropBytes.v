(** Property theorems about size_in_bytes. *)
From Verif Require Export BytesProofs PropTable.

(** Bits of the quotient and of the value of one element (0 value bits in sets). *)
Definition element_bits (c : cfg) (kw buckets : N) : N :=
  match c_hash c with HBij _ => kw - N.log2 buckets | HAdapter _ => kw end
  + match c_val c with KNull => 0 | k => N.of_nat (kind_bits k) end.

Lemma value_bits_eq pf c kw vw : cfg_core pf c kw vw 1 ->
  8 * value_bytes c = match c_val c with KNull => 0 | k => N.of_nat (kind_bits k) end.
Proof.
  intros CC. pose proof (co_val _ _ _ _ _ CC) as Hv. unfold value_bytes. destruct (c_val c) as [es|es|es|iw|]; cbn [kind_bits].
  1-3: destruct Hv as [[-> |[-> |[-> | ->]]] _]; vm_compute; reflexivity.
  all: reflexivity.
Qed.

(** ** C64: size_in_bytes() counts the bits of the elements, rounded up to words of key_type in each bucket, the overflow, and
    the fixed part.  The e elements outside of the overflow are counted with [element_bits] each. *)
Theorem C64_size_in_bytes : forall pf c kw vw sz t m, params pf c kw vw -> width_ok (N.to_nat (c_keybits c)) ->
  reachable pf c kw vw t m ->
  let B := bucket_count t in
  let e := N.of_nat (size m) - ov_size (t_ov t) in
  let fixed := sz_strategy sz * B + sz_members sz in
  fixed + ov_size_in_bytes c sz (t_ov t) + 4096 * B < 2^64 -> B + sz_pair sz * ov_capacity (t_ov t) < 2^64 ->
  exists n, size_in_bytes c sz t = Ok n
    /\ 8 * fixed + element_bits c kw B * e + 8 * sz_pair sz * ov_size (t_ov t) <= 8 * n
    /\ 8 * n <= 8 * fixed + element_bits c kw B * e + 8 * ov_size_in_bytes c sz (t_ov t) + (c_keybits c - 1) * B.
Proof.
  intros pf c kw vw sz t m P W Hr B e fixed Hlt Hov.
  pose proof (value_bits_eq _ _ _ _ (co_base _ _ _ _ _ (proj1 P))) as Hvb.
  pose proof (ov_bytes_lower pf c kw vw sz t m P Hr Hov) as Ho.
  destruct (size_in_bytes_fact pf c kw vw sz (reach_ok0 _ _ _ _ P) (co_base _ _ _ _ _ (proj1 P)) W t m (reachable_rep _ _ _ _ P _ _ Hr)) as (n & En & H1 & H2).
  { unfold fixed, B in Hlt. lia. }
  exists n. split; [exact En|]. rewrite (reach_width_eq pf c kw vw t m (reach_ok0 _ _ _ _ P) (co_kw _ _ _ _ _ (co_base _ _ _ _ _ (proj1 P))) (reachable_rep _ _ _ _ P _ _ Hr)), Hvb in H1, H2. fold B e in H1, H2. fold fixed in H1, H2.
  unfold element_bits. lia.
Qed.
Print Assumptions C64_size_in_bytes.
Definition ex_sz : sizes := Sizes 8 64 16.
Definition ex_bytes_t : table := ex_hist ex_var 20 9 (ex_fill 70).
Example C64_case : params lax_pf ex_var 20 9 /\ reachable lax_pf ex_var 20 9 ex_bytes_t (fst (spec_run ∅ (ex_fill 70))).
Proof.
  split; [exact ex_var_ok|]. apply ex_hist_reach; [exact ex_var_ok|done|]. apply Forall_forall. intros o Ho.
  apply elem_of_list_fmap in Ho as (i & -> & Hi). apply elem_of_seq in Hi. cbn [valid_op]. assert (2^20 = 1048576) by reflexivity. assert (2^9 = 512) by reflexivity. lia.
Qed.
(** 70 elements of 14 + 64 bits in 64 buckets; 200 elements of 25 + 16 bits in 128 buckets with an overflow of 2048 bytes *)
Example C64_case_numbers : let t := ex_hist ex_ov 32 16 (ex_fill 200) in
  (bucket_count ex_bytes_t, element_bits ex_var 20 64, size_in_bytes ex_var ex_sz ex_bytes_t) = (64, 78, Ok 1648)
  /\ (bucket_count t, element_bits ex_ov 32 128, ov_size_in_bytes ex_ov ex_sz (t_ov t), size_in_bytes ex_ov ex_sz t) = (128, 41, 2064, Ok 4352).
Proof. vm_compute. split; reflexivity. Qed.

(** ** C65: size_in_bytes() is at least the number of bytes of heap memory the table owns.  The heap memory: for each bucket the key
    bucket object and the value bucket object (one pointer each), the size (one byte), the capacity (one byte, with
    arbitrary_resize), and the blocks of keys and values. *)
Definition block_bits (k : bkind) (b : bucket) : N :=
  match b with None => 0 | Some (_, Cells cs) => N.of_nat (kind_bits k * length cs) | Some (_, Bits bs) => N.of_nat (length bs) end.
Definition heap_bytes (c : cfg) (t : table) : N :=
  foldr (fun s a => 8 + (match c_val c with KNull => 0 | _ => 8 end) + 1 + (if c_arb c then 1 else 0)
                    + (block_bits (c_key c) (s_keys s) + block_bits (c_val c) (s_vals s)) / 8 + a) 0 (default [] (t_slots t)).
Theorem C65_heap_refuted : exists c t m n, params lax_pf c 20 9 /\ reachable lax_pf c 20 9 t m
  /\ size_in_bytes c (Sizes 1 100 16) t = Ok n /\ n + 2000 < heap_bytes c t.
Proof.
  exists (Cfg (KPlain 64) (KPlain 64) (HBij Xorshift) 64 false 255 OvDummy).
  exists (ex_hist (Cfg (KPlain 64) (KPlain 64) (HBij Xorshift) 64 false 255 OvDummy) 20 9 ([OpReserve 128] ++ ex_fill 200)).
  eexists. eexists.
  assert (P : params lax_pf (Cfg (KPlain 64) (KPlain 64) (HBij Xorshift) 64 false 255 OvDummy) 20 9) by params_solve.
  split; [exact P|]. split; [|split; [vm_compute; reflexivity|vm_compute; reflexivity]].
  apply ex_hist_reach; [exact P|done|]. apply Forall_app. split.
  - apply List.Forall_cons; [|apply List.Forall_nil]. cbn [valid_op]. assert (E1 : 2^1 / 2 < 128) by reflexivity. assert (E2 : 128 <= 2^bits_max (Cfg (KPlain 64) (KPlain 64) (HBij Xorshift) 64 false 255 OvDummy) 20) by (vm_compute; discriminate). lia.
  - apply Forall_forall. intros o Ho. apply elem_of_list_fmap in Ho as (i & -> & Hi). apply elem_of_seq in Hi. cbn [valid_op].
    assert (2^20 = 1048576) by reflexivity. assert (2^9 = 512) by reflexivity. lia.
Qed.
Print Assumptions C65_heap_refuted.
