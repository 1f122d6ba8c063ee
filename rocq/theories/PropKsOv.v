(** C92: keysplit_adapter over group_chaining_table with map_overflow (or dummy_overflow). *)
From Verif Require Import KsOvModel KsGenInst GroupOvTable PropTable PropGroup PropGroupOv.

Lemma run_sub_ov pf vw fuel c kind t o : gk_has_op o -> sm_run_op (sub_group_ov pf vw fuel c kind) t o = go_run_op pf c kind fuel t o.
Proof. by destruct o. Qed.

Theorem C92_group_overflow_history : forall pf c kind vw fuel dbg max_bits m_length interval ops, (64 <= fuel)%nat -> 3 <= max_bits <= 64 -> ov_ok pf kind ->
  (forall w, 3 <= w <= max_bits -> exists bmin, group_ok c w vw bmin) -> 1 <= m_length < 2^63 -> ks_interval max_bits m_length = Ok interval -> 3 <= interval ->
  Forall gk_has_op ops -> valid_ops max_bits vw 0 0 ops ->
  exists s0 s, gks_new (sub_group_ov pf vw fuel c kind) max_bits m_length = Ok s0
    /\ gks_run (sub_group_ov pf vw fuel c kind) dbg max_bits m_length s0 ops = Ok (s, snd (spec_run ∅ ops)).
Proof.
  intros pf c kind vw fuel dbg mb ml I ops Hf Hb [Hk Hfair] OK Hl HI H3 Hh Hv.
  set (rep (i : nat) t m := exists bmin, group_ok c (ks_width mb I (N.of_nat i)) vw bmin /\ gomap True pf c kind (ks_width mb I (N.of_nat i)) vw bmin t m).
  destruct (gks_history (sub_group_ov pf vw fuel c kind) dbg vw mb ml I ltac:(lia) Hl HI gk_has_op rep) as (s0 & E0 & H); try done.
  - by intros [].
  - intros i Hi. destruct (OK (ks_width mb I (N.of_nat i))) as (bmin & OKi); [apply width_range; lia|]. eexists. split; [done|]. exists bmin. split; [done|].
    left. split; [|done]. by apply gozero_new.
  - intros i t m _ (bmin & OKi & HR). by eapply omap_end.
  - intros t x. cbn [sub_group_ov sm_pair sm_invalid]. unfold on_iter_at. destruct (on_invalid pf (go_view pf c t) x) as [[]| | |]; done.
  - intros i t m o _ (bmin & OKi & HR) Ho Hvo. rewrite run_sub_ov by done.
    destruct (go_run True pf c kind _ vw bmin OKi Hk Hfair fuel Hf [o] t m) as (t' & E & HR'); [by left|done| |].
    { apply Forall_singleton. eapply valid_any; [|exact Hvo]. by destruct o. }
    destruct (spec1 m o) as [E1 E2]. rewrite E1 in E. rewrite E2 in HR'. cbn [go_run_ops] in E.
    destruct (go_run_op pf c kind fuel t o) as [[u x]| | |]; cbn [mbind res_bind] in E; try done. injection E as <- <-.
    exists u. split; [done|]. by exists bmin.
  - destruct (H ops Hh Hv) as (s & E & _). by exists s0, s.
Qed.
Print Assumptions C92_group_overflow_history.
Definition ex_ko_ops : list op := [OpWrite 0 1; OpWrite 1048575 511; OpRead 300; OpWrite 8 3; OpFind 8; OpFind 9; OpErase 300; OpErase 300; OpSize; OpShrink; OpFind 1048575; OpClear; OpSize].
Example C92_overflow_case : (forall w, 3 <= w <= 20 -> exists bmin, group_ok ex_gx w 9 bmin) /\ ov_ok lax_pf OvMap /\ ks_interval 20 3 = Ok 7
  /\ Forall gk_has_op ex_ko_ops /\ valid_ops 20 9 0 0 ex_ko_ops
  /\ match gks_new (sub_group_ov lax_pf 9 64 ex_gx OvMap) 20 3 with
     | Ok s => (snd <$> gks_run (sub_group_ov lax_pf 9 64 ex_gx OvMap) true 20 3 s ex_ko_ops) = Ok (snd (spec_run ∅ ex_ko_ops))
     | _ => False
     end.
Proof.
  split; [intros w Hw; exists 1; apply (gx_ok Xorshift); lia|]. split; [exact ex_ov_map_ok|]. split; [vm_compute; reflexivity|].
  split; [repeat (apply List.Forall_cons; [exact Logic.I|]); apply List.Forall_nil|].
  split; [repeat (apply List.Forall_cons; [cbn [valid_op]; vm_compute; auto|]); apply List.Forall_nil|]. vm_compute. reflexivity.
Qed.
