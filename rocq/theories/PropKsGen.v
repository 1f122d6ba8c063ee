(** Property theorems about keysplit_adapter over group_chaining_table and about its debug build. *)
From Verif Require Export KsGenInst PropKs PropGroup PropDebug PropDebugGroup.

(** ** C92: keysplit_adapter over group_chaining_table is a finite map. *)
Theorem C92_group_history : forall pf c vw fuel max_bits m_length interval ops, (64 <= fuel)%nat -> 3 <= max_bits <= 64 ->
  (forall w, 3 <= w <= max_bits -> exists bmin, group_ok c w vw bmin) -> 1 <= m_length < 2^63 -> ks_interval max_bits m_length = Ok interval -> 3 <= interval ->
  Forall gk_has_op ops -> valid_ops max_bits vw 0 0 ops ->
  exists s0 s, gks_new (sub_group pf vw fuel c) max_bits m_length = Ok s0
    /\ gks_run (sub_group pf vw fuel c) false max_bits m_length s0 ops = Ok (s, snd (spec_run ∅ ops)).
Proof.
  intros pf c vw fuel mb ml I ops Hf Hb OK Hl HI H3 Hh Hv.
  destruct (group_ks_history pf vw fuel mb ml I Hf Hb Hl HI H3 c false OK) as (s0 & E0 & H). destruct (H ops Hh Hv) as (s & E & _). by exists s0, s.
Qed.
Print Assumptions C92_group_history.
Definition ex_kg_ops : list op := [OpWrite 0 1; OpWrite 1048575 511; OpRead 300; OpWrite 8 3; OpFind 8; OpFind 9; OpErase 300; OpErase 300; OpSize; OpShrink; OpFind 1048575; OpClear; OpSize].
Example C92_case : (forall w, 3 <= w <= 20 -> exists bmin, group_ok ex_gx w 9 bmin) /\ ks_interval 20 3 = Ok 7 /\ Forall gk_has_op ex_kg_ops /\ valid_ops 20 9 0 0 ex_kg_ops
  /\ match gks_new (sub_group strict_pf 9 64 ex_gx) 20 3 with
     | Ok s => (snd <$> gks_run (sub_group strict_pf 9 64 ex_gx) false 20 3 s ex_kg_ops) = Ok (snd (spec_run ∅ ex_kg_ops))
     | _ => False
     end.
Proof.
  split; [intros w Hw; exists 1; apply (gx_ok Xorshift); lia|]. split; [vm_compute; reflexivity|].
  split; [repeat (apply List.Forall_cons; [exact Logic.I|]); apply List.Forall_nil|].
  split; [repeat (apply List.Forall_cons; [cbn [valid_op]; vm_compute; auto|]); apply List.Forall_nil|]. vm_compute. reflexivity.
Qed.

(** ** C93: the checks of the debug build of keysplit_adapter and of its maps only observe. *)
Theorem C93_debug_is_release : forall pf vw fuel max_bits m_length,
  (forall c junk s ops s' outs, gks_run (sub_dtable pf vw fuel c junk) true max_bits m_length s ops = Ok (s', outs) ->
     ks_run pf c fuel max_bits m_length (strip <$> s) ops = Ok (strip <$> s', outs))
  /\ (forall c s ops s' outs, gks_run (sub_dgroup pf vw fuel c) true max_bits m_length s ops = Ok (s', outs) ->
     gks_run (sub_group pf vw fuel c) false max_bits m_length (gstrip <$> s) ops = Ok (gstrip <$> s', outs)).
Proof.
  intros pf vw fuel mb ml. split.
  - intros c junk s ops s' outs E. rewrite <-(gks_run_plain pf c vw). exact (run_le _ _ _ _ _ (dtable_le pf vw fuel c junk) ops s (s', outs) E).
  - intros c s ops s' outs E. exact (run_le _ _ _ _ _ (dgroup_le pf vw fuel c) ops s (s', outs) E).
Qed.
Print Assumptions C93_debug_is_release.

Definition ex_dks (ops : list op) := match gks_new (sub_dtable lax_pf 9 64 ex_var (Some 0)) 20 6 with
  | Ok s => gks_run (sub_dtable lax_pf 9 64 ex_var (Some 0)) true 20 6 s ops | _ => Throw end.
Definition ex_dkg (ops : list op) := match gks_new (sub_dgroup strict_pf 9 64 ex_gx) 20 3 with
  | Ok s => gks_run (sub_dgroup strict_pf 9 64 ex_gx) true 20 3 s ops | _ => Throw end.
Example C93_case : (snd <$> ex_dks ex_ks_ops) = Ok (snd (spec_run ∅ ex_ks_ops)) /\ (snd <$> ex_dkg ex_kg_ops) = Ok (snd (spec_run ∅ ex_kg_ops)).
Proof. split; vm_compute; reflexivity. Qed.

(** ** C94: no check fails in a valid history. *)
Theorem C94_table : forall pf c junk vw fuel max_bits m_length interval, params pf c max_bits vw -> debug_ok c junk max_bits vw -> c_val c <> KNull -> (64 <= fuel)%nat ->
  1 <= m_length < 2^63 -> ks_interval max_bits m_length = Ok interval -> 3 <= interval ->
  exists s0, gks_new (sub_dtable pf vw fuel c junk) max_bits m_length = Ok s0
  /\ forall ops, Forall ks_has_op ops -> valid_ops max_bits vw 0 0 ops ->
     exists s, gks_run (sub_dtable pf vw fuel c junk) true max_bits m_length s0 ops = Ok (s, snd (spec_run ∅ ops)).
Proof.
  intros pf c junk vw fuel mb ml I P D Hval Hf Hl HI H3.
  assert (Hb : 3 <= mb <= 64) by (split; [apply P|apply P]).
  destruct (dks_history pf vw fuel mb ml I Hf Hb Hl HI H3 c junk true P D Hval) as (s0 & E0 & H). exists s0. split; [done|].
  intros ops Hh Hv. destruct (H ops Hh Hv) as (s & E & _). by exists s.
Qed.
Print Assumptions C94_table.
Theorem C94_group : forall pf c vw fuel max_bits m_length interval, (64 <= fuel)%nat -> 3 <= max_bits <= 64 ->
  (forall w, 3 <= w <= max_bits -> exists bmin, group_ok c w vw bmin) -> 1 <= m_length < 2^63 -> ks_interval max_bits m_length = Ok interval -> 3 <= interval ->
  exists s0, gks_new (sub_dgroup pf vw fuel c) max_bits m_length = Ok s0
  /\ forall ops, Forall gk_has_op ops -> valid_ops max_bits vw 0 0 ops ->
     exists s, gks_run (sub_dgroup pf vw fuel c) true max_bits m_length s0 ops = Ok (s, snd (spec_run ∅ ops)).
Proof.
  intros pf c vw fuel mb ml I Hf Hb OK Hl HI H3.
  destruct (dgroup_ks_history pf vw fuel mb ml I Hf Hb Hl HI H3 c true OK) as (s0 & E0 & H). exists s0. split; [done|].
  intros ops Hh Hv. destruct (H ops Hh Hv) as (s & E & _). by exists s.
Qed.
Print Assumptions C94_group.
Example C94_case : params lax_pf ex_var 20 9 /\ (forall j, debug_ok ex_var (Some j) 20 9) /\ ks_interval 20 6 = Ok 4
  /\ (forall w, 3 <= w <= 20 -> exists bmin, group_ok ex_gx w 9 bmin) /\ ks_interval 20 3 = Ok 7
  /\ Forall ks_has_op ex_ks_ops /\ valid_ops 20 9 0 0 ex_ks_ops /\ Forall gk_has_op ex_kg_ops /\ valid_ops 20 9 0 0 ex_kg_ops.
Proof.
  split; [exact ex_var_ok|]. split; [exact ex_var_debug|]. split; [vm_compute; reflexivity|].
  split; [apply C92_case|]. split; [apply C92_case|]. split; [apply C24_case|]. split; [apply C24_case|]. split; apply C92_case.
Qed.

(** ** C95: what the debug build refuses and the release build does not. *)
(** The check on the slot fails exactly if the slot is not below m_length; the release build then reads behind the array of maps. *)
Theorem C95_slot_check : forall {T} (S : submap T) max_bits m_length s k slot, ks_slot max_bits m_length k = Ok slot -> length s = N.to_nat m_length ->
  (m_length <= slot -> gks_find S true max_bits m_length s k = Throw /\ gks_index S true max_bits m_length s k = Throw
     /\ gks_erase S true max_bits m_length s k = Throw /\ gks_count S true max_bits m_length s k = Throw
     /\ gks_find S false max_bits m_length s k = Ub OobRead /\ gks_index S false max_bits m_length s k = Ub OobRead
     /\ gks_erase S false max_bits m_length s k = Ub OobRead /\ gks_count S false max_bits m_length s k = Ub OobRead)
  /\ (slot < m_length -> gks_find S true max_bits m_length s k = gks_find S false max_bits m_length s k
     /\ gks_index S true max_bits m_length s k = gks_index S false max_bits m_length s k
     /\ gks_erase S true max_bits m_length s k = gks_erase S false max_bits m_length s k
     /\ gks_count S true max_bits m_length s k = gks_count S false max_bits m_length s k).
Proof.
  intros T S mb ml s k slot E Hl. unfold gks_find, gks_index, gks_erase, gks_count, gks_slot. rewrite E. cbn [mbind res_bind]. split; intros Hs.
  - rewrite (proj2 (N.ltb_ge _ _)) by done. cbn [chk mbind res_bind].
    assert (Em : gks_map s slot = Ub OobRead) by (unfold gks_map; rewrite lookup_ge_None_2 by lia; done). rewrite Em. cbn [mbind res_bind]. done.
  - rewrite (proj2 (N.ltb_lt _ _)) by done. done.
Qed.
Print Assumptions C95_slot_check.
(** operator[] with a key of more than max_bits bits fails a check after every valid history, if the maps use a bijective hash function. *)
Theorem C95_wide_key : forall pf vw fuel max_bits m_length interval k, (64 <= fuel)%nat -> 3 <= max_bits ->
  1 <= m_length < 2^63 -> ks_interval max_bits m_length = Ok interval -> 3 <= interval -> 2^max_bits <= k < 2^64 ->
  (forall c junk f s0 ops s outs, params pf c max_bits vw -> debug_ok c junk max_bits vw -> c_val c <> KNull -> c_hash c = HBij f ->
     Forall ks_has_op ops -> valid_ops max_bits vw 0 0 ops -> gks_new (sub_dtable pf vw fuel c junk) max_bits m_length = Ok s0 ->
     gks_run (sub_dtable pf vw fuel c junk) true max_bits m_length s0 ops = Ok (s, outs) ->
     gks_index (sub_dtable pf vw fuel c junk) true max_bits m_length s k = Throw)
  /\ (forall c f s0 ops s outs, (forall w, 3 <= w <= max_bits -> exists bmin, group_ok c w vw bmin) -> gc_hash c = HBij f ->
     Forall gk_has_op ops -> valid_ops max_bits vw 0 0 ops -> gks_new (sub_dgroup pf vw fuel c) max_bits m_length = Ok s0 ->
     gks_run (sub_dgroup pf vw fuel c) true max_bits m_length s0 ops = Ok (s, outs) ->
     gks_index (sub_dgroup pf vw fuel c) true max_bits m_length s k = Throw).
Proof.
  intros pf vw fuel mb ml I k Hf Hb Hl HI H3 Hk.
  assert (Hb64 : mb < 64) by (assert (2^mb < 2^64) as Hp by lia; by apply N.pow_lt_mono_r_iff in Hp; [|lia]). split.
  - intros c junk f s0 ops s outs P D Hval Hh Hops Hv E0 E.
    destruct (dks_history pf vw fuel mb ml I Hf ltac:(lia) Hl HI H3 c junk true P D Hval) as (s1 & E1 & H). rewrite E1 in E0. injection E0 as ->.
    destruct (H ops Hops Hv) as (s2 & E2 & HR). rewrite E2 in E. injection E as -> _.
    eapply (wide_caught fuel mb ml I Hf ltac:(lia) Hl HI H3); [exact HR|done|]. intros i t m Hi Hr.
    pose proof (width_range mb I (N.of_nat i) Hb H3) as Hw.
    eapply (dtrep_wide pf c junk _ vw fuel (params_narrow _ _ _ _ _ P Hw) (debug_narrow _ _ _ _ _ D Hw) Hf); [exact Hr|exact Hh|]. apply (wide_width fuel mb ml I Hf ltac:(lia) Hl H3), Hk.
  - intros c f s0 ops s outs OK Hh Hops Hv E0 E.
    destruct (dgroup_ks_history pf vw fuel mb ml I Hf ltac:(lia) Hl HI H3 c true OK) as (s1 & E1 & H). rewrite E1 in E0. injection E0 as ->.
    destruct (H ops Hops Hv) as (s2 & E2 & HR). rewrite E2 in E. injection E as -> _.
    eapply (wide_caught fuel mb ml I Hf ltac:(lia) Hl HI H3); [exact HR|done|]. intros i t m Hi (bmin & OKi & Hr).
    eapply (insert_wide_key pf c _ vw bmin OKi fuel); [done|exact Hr|exact Hh|]. apply (wide_width fuel mb ml I Hf ltac:(lia) Hl H3), Hk.
Qed.
Print Assumptions C95_wide_key.
(** 20 bits on 6 maps of 4 bit lengths each, the last map idle: key 2^20 falls into the last map, which refuses it; key 2^24 fails the check on the slot. *)
Example C95_case : ks_slot 20 6 (2^20) = Ok 5 /\ ks_slot 20 6 (2^24) = Ok 6
  /\ ex_dks [OpWrite 5 7; OpWrite (2^20) 1] = Throw /\ ex_dks [OpWrite 5 7; OpWrite (2^24) 1] = Throw /\ ex_dkg [OpWrite 5 7; OpWrite (2^20) 1] = Throw
  /\ ex_dkg [OpWrite 5 7; OpWrite (2^21) 1] = Throw /\ c_hash ex_var = HBij Xorshift /\ gc_hash ex_gx = HBij Xorshift.
Proof. repeat split; vm_compute; reflexivity. Qed.
