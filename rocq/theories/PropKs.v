(** Property theorems about keysplit_adapter. *)
From Verif Require Export KsProofs PropSerial.

(** C24, routing: every key of at most max_bits bits belongs to exactly one of the m_length sub-maps, the narrowest one whose
    key width can hold it. *)
Theorem C24_routing : forall max_bits m_length interval k,
  1 <= max_bits <= 64 -> 1 <= m_length < 2^63 -> ks_interval max_bits m_length = Ok interval -> k < 2^max_bits ->
  exists i, ks_slot max_bits m_length k = Ok i /\ i < m_length /\ k < 2^(ks_width max_bits interval i)
    /\ forall j, j < i -> 2^(ks_width max_bits interval j) <= k.
Proof.
  intros mb ml I k Hb Hl HI Hk. destruct (slot_spec mb ml I Hb Hl HI k Hk) as (E & H1 & H2 & H3).
  exists (N.of_nat (slotn I k)). split; [done|]. split; [lia|]. split; [done|]. intros j Hj.
  specialize (H3 (N.to_nat j) ltac:(lia)). rewrite N2Nat.id in H3. lia.
Qed.
Print Assumptions C24_routing.
(** The interval exists for all template arguments, and its rounding matters: 20 bits on 6 maps. *)
Example C24_routing_case : ks_interval 20 6 = Ok 4 /\ ks_slot 20 6 65535 = Ok 3 /\ ks_slot 20 6 65536 = Ok 4 /\ ks_width 20 4 4 = 20
  /\ ks_slot 20 6 0 = Ok 0 /\ ks_interval 64 8 = Ok 8 /\ ks_slot 64 8 (2^64 - 1) = Ok 7.
Proof. vm_compute. repeat split. Qed.

(** C24, histories: with at least three bit lengths per sub-map every history behaves like a finite map. *)
Theorem C24_history_partial : forall pf c vw fuel max_bits m_length interval ops,
  params pf c max_bits vw -> c_val c <> KNull -> (64 <= fuel)%nat ->
  1 <= m_length < 2^63 -> ks_interval max_bits m_length = Ok interval -> 3 <= interval ->
  Forall ks_has_op ops -> valid_ops max_bits vw 0 0 ops ->
  exists s0 s, ks_new pf c vw max_bits m_length = Ok s0 /\ ks_run pf c fuel max_bits m_length s0 ops = Ok (s, snd (spec_run ∅ ops)).
Proof.
  intros pf c vw fuel mb ml I ops P Hval Hf Hl HI H3 Hh Hv.
  assert (Hb : 1 <= mb <= 64) by apply P.
  assert (Hp : forall i, (i < N.to_nat ml)%nat -> params pf c (ks_width mb I (N.of_nat i)) vw).
  { intros i Hi. apply (params_narrow pf c mb); [done|]. unfold ks_width. pose proof (proj2 P). nia. }
  destruct (krep_new pf c vw mb ml I HI Hp) as (s0 & E0 & R0). exists s0.
  destruct (ks_run_spec pf c vw fuel mb ml I Hb Hl HI Hp Hval Hf ops s0 ∅ R0 Hh Hv) as (s & E & _). by exists s.
Qed.
Print Assumptions C24_history_partial.
Definition ex_ks_ops : list op :=
  [OpWrite 0 1; OpWrite 1048575 511; OpRead 300; OpWrite 7 2; OpWrite 8 3; OpFind 8; OpFind 9; OpFind 0; OpErase 300; OpErase 300;
   OpCount 7; OpCount 6; OpSize; OpShrink; OpFind 1048575; OpClear; OpSize; OpFind 0].
Example C24_case : params lax_pf ex_var 20 9 /\ ks_interval 20 6 = Ok 4 /\ Forall ks_has_op ex_ks_ops /\ valid_ops 20 9 0 0 ex_ks_ops
  /\ match ks_new lax_pf ex_var 9 20 6 with
     | Ok s => (snd <$> ks_run lax_pf ex_var 64 20 6 s ex_ks_ops) = Ok (snd (spec_run ∅ ex_ks_ops))
     | _ => False
     end.
Proof.
  split; [exact ex_var_ok|]. split; [vm_compute; reflexivity|].
  split; [repeat (apply List.Forall_cons; [exact Logic.I|]); apply List.Forall_nil|].
  split; [repeat (apply List.Forall_cons; [cbn [valid_op]; vm_compute; auto|]); apply List.Forall_nil|]. vm_compute. reflexivity.
Qed.

(** C24 fails with fewer bit lengths per sub-map: the first map then has keys of one or two bits (see C34).  With one bit
    length per map, storing key 0 or 1 is undefined behaviour for every map type. *)
Theorem C24_one_bit_refuted : forall pf c vw fuel max_bits m_length k s,
  1 <= max_bits <= 64 -> max_bits <= m_length < 2^63 -> k < 2 -> ks_new pf c vw max_bits m_length = Ok s ->
  is_ub (ks_index pf c (S fuel) max_bits m_length s k) = true.
Proof.
  intros pf c vw fuel mb ml k s Hb Hl Hk Hs.
  assert (HI : ks_interval mb ml = Ok 1).
  { destruct (ceil_div_spec mb ml) as (q & E & H1 & H2); [lia|lia|]. unfold ks_interval. rewrite E. f_equal. specialize (H2 1). nia. }
  unfold ks_new in Hs. rewrite HI in Hs. cbn [mbind res_bind] in Hs. injection Hs as <-.
  assert (Hbw : bit_width k = 1) by (assert (k = 0 \/ k = 1) as [-> | ->] by lia; done).
  unfold ks_index, ks_slot. rewrite HI. cbn [mbind res_bind]. rewrite Hbw. cbn [N.eqb]. change (u8 ((1 - 1) / 1)) with 0.
  cbn [mbind res_bind]. unfold ks_map. change (N.to_nat 0) with 0%nat. destruct (N.to_nat ml) as [|n] eqn:En; [lia|].
  cbn [seq map lookup list_lookup of_option mbind res_bind]. change (N.of_nat 0) with 0.
  unfold ks_width. change ((0 + 1) * 1) with 1. rewrite N.min_l by lia. unfold index.
  destruct (proj1 C34_small_widths_refuted pf c fuel vw k 0) as [u ->]. done.
Qed.
Print Assumptions C24_one_bit_refuted.
(** With two bit lengths per map, key 1 is lost right after storing it. *)
Theorem C24_two_bits_refuted : exists c s s', params strict_pf c 64 16 /\ ks_interval 64 32 = Ok 2 /\ ks_new strict_pf c 16 64 32 = Ok s
  /\ (fst <$> ks_index strict_pf c 64 64 32 s 1) = Ok s' /\ ks_size s' = 1 /\ ks_count strict_pf c 64 32 s' 1 = Ok 0.
Proof.
  exists (Cfg (KPlain 64) (KPlain 16) (HBij Xorshift) 64 true 255 OvDummy). eexists _, _.
  split; [params_solve|]. split; [vm_compute; reflexivity|]. split; [vm_compute; reflexivity|]. split; [vm_compute; reflexivity|].
  split; vm_compute; reflexivity.
Qed.
Print Assumptions C24_two_bits_refuted.
