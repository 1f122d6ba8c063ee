(** C126 in a debug build. *)
From Verif Require Import DebugModel DebugGroup DebugCompactConf PropBucket PropSerial PropCompact PropGroup PropDebugGroup PropDebugCompact.

(** The checks of separate_chaining_table and group_chaining_table stop every call of erase with a navigator past the last bucket,
    whatever the state of the table. *)
Theorem C126_debug_caught :
  (forall pf c d bk p, dbucket_count d <= bk -> p <> ones64 -> ov_size (d_ov d) = 0 \/ bk <> dbucket_count d -> derase_at pf c d (bk, p) = Throw)
  /\ (forall pf c t bk p, g_bucket_count (gstrip t) <= bk -> p <> ones64 -> dg_erase_at pf c t (bk, p) = Throw).
Proof.
  split.
  - intros pf c d bk p Hbk Hp Hov. unfold derase_at. rewrite (proj2 (N.eqb_neq _ _) Hp).
    assert ((0 <? ov_size (d_ov d)) && (bk =? dbucket_count d) = false) as ->.
    { destruct Hov as [->|Hne]; [done|]. rewrite (proj2 (N.eqb_neq _ _) Hne). by rewrite andb_false_r. }
    by rewrite (proj2 (N.ltb_ge _ _) Hbk).
  - intros pf c t bk p Hbk Hp. unfold dg_erase_at. by rewrite (proj2 (N.eqb_neq _ _) Hp), (proj2 (N.ltb_ge _ _) Hbk).
Qed.
Print Assumptions C126_debug_caught.
(** compact_chaining_map has no such check: the call is undefined in a debug build as well. *)
Theorem C126_compact_debug_refuted : forall pf c kw vw bmin fuel ops t t' outs bk p, compact_ok pf c kw vw bmin -> kw <= cc_keybits c -> (64 <= fuel)%nat ->
  valid_ops kw vw bmin (zbmax (cc_hash c) kw) ops -> x_new c kw vw = Ok t -> m_run_ops (x_impl pf c fuel) t ops = Ok (t', outs) ->
  c_bucket_count (xstrip t') <= bk -> p <> ones64 -> exists u, x_erase_at pf c t' (bk, p) = Ub u.
Proof.
  intros pf c kw vw bmin fuel ops t t' outs bk p OK Hkb Hf Hv En Er Hbk Hp. destruct (x_new_ok pf c kw vw bmin OK Hkb) as (t0 & E0 & Hz & _). rewrite En in E0. injection E0 as <-.
  destruct (debug_compact_run pf c kw vw bmin OK Hkb fuel ops t ∅ Hf) as (t1 & rs & E1 & _ & HR); [by left|done|]. rewrite E1 in Er. injection Er as <- _.
  destruct (ch_b _ _ _ _ _ _ _ _ _ _ _ _ _ _ (compact_chain pf c kw vw bmin OK fuel Hf)) as (Hb1 & _ & Hb63).
  unfold x_erase_at. rewrite (proj2 (N.eqb_neq _ _) Hp). unfold x_slot.
  destruct HR as [[[_ ->] _]|(ess & [H _] & _)]; [by exists NullDeref|].
  destruct (wr_slots _ _ _ _ _ _ H) as (sl & -> & H2). apply Forall2_length in H2. pose proof (wr_len _ _ _ _ _ _ H) as Hl.
  unfold c_bucket_count in Hbk. pose proof (wr_b _ _ _ _ _ _ H). cbn [xstrip cm_b] in Hbk.
  rewrite (proj2 (N.eqb_neq (xm_b t1) 0)) in Hbk by lia. rewrite (proj2 (N.ltb_ge _ _)) by lia. by exists OobRead.
Qed.
Print Assumptions C126_compact_debug_refuted.
(** A map with an element, and a group table for which the release build removes its only element *)
Example C126_debug_case : compact_ok loose_pf ex_c64 20 9 1 /\ valid_ops 20 9 1 (zbmax (cc_hash ex_c64) 20) [OpInsert 5 7]
  /\ match x_new ex_c64 20 9 with
     | Ok t => match m_run_ops (x_impl loose_pf ex_c64 64) t [OpInsert 5 7] with Ok (t', _) => c_bucket_count (xstrip t') = 16 | _ => False end
     | _ => False
     end
  /\ match m_run_ops (dg_impl strict_pf ex_gx 64) (ex_dgnew ex_gx 20 9) [OpInsert 5 1] with
     | Ok (t, _) => g_bucket_count (gstrip t) = 8 /\ is_ok (g_erase_at strict_pf ex_gx (gstrip t) (8, 0)) = true /\ dg_erase_at strict_pf ex_gx t (8, 0) = Throw
     | _ => False
     end.
Proof.
  split; [exact ex_c64_ok|]. split; [apply List.Forall_cons; [by split|apply List.Forall_nil]|]. split; vm_compute; repeat split.
Qed.
