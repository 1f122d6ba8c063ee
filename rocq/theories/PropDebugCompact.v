(** Property theorems about the debug build of compact_chaining_map (NDEBUG not defined, HEAVY_DEBUG not defined): C86, C87, C88. *)
From Verif Require Import DebugCompactConf PropBucket PropSerial PropCompact.

(** ** C86: the checks of the debug build observe only.  Whenever no check fails, a map goes through the same states and returns the same
    results as in a release build, whatever the state it starts from; m_large_storage, m_plainkeys, m_plainvalues and m_bucketbitsizes
    have no influence. *)
Theorem C86_debug_compact_is_release : forall pf c,
  (forall kw vw t, x_new c kw vw = Ok t -> xstrip t = c_new (u8 kw) (u8 vw))
  /\ (forall fuel t ops t' outs, m_run_ops (x_impl pf c fuel) t ops = Ok (t', outs) -> m_run_ops (c_impl pf c fuel) (xstrip t) ops = Ok (xstrip t', outs))
  /\ (forall fuel t l, x_forward pf c fuel t = Ok l -> c_forward pf c fuel (xstrip t) = Ok l)
  /\ (forall fuel t l, x_backward pf c fuel t = Ok l -> c_backward pf c fuel (xstrip t) = Ok l)
  /\ (forall a o a' o', x_move_assign pf a o = Ok (a', o') -> c_move_assign pf (xstrip a) (xstrip o) = Ok (xstrip a', xstrip o')).
Proof.
  intros pf c. split; [|split; [|split; [|split]]].
  - intros kw vw t. exact (x_new_eq c kw vw t).
  - intros fuel t ops t' outs E. exact (x_runs pf c fuel ops t _ E).
  - intros fuel t l. exact (x_forward_eq pf c fuel t l).
  - intros fuel t l. exact (x_backward_eq pf c fuel t l).
  - intros a o a' o' E. exact (x_move_assign_eq pf a o _ E).
Qed.
Print Assumptions C86_debug_compact_is_release.
Definition ex_xnew (c : ccfg) (kw vw : N) : xmap := match x_new c kw vw with Ok t => t | _ => XMap None 0 0 0 0 end.
Definition ex_x_ops : list op :=
  [OpInsert 5 7; OpWrite 1048575 511; OpInsert 77 0; OpInsert 5 9; OpWrite 77 8; OpReserve 3; OpErase 77; OpErase 2; OpInsert 9 300; OpFind 77; OpRead 1048575; OpEraseIt 9; OpSize].
Example C86_case :
  (snd <$> m_run_ops (x_impl loose_pf ex_c64 64) (ex_xnew ex_c64 20 9) ex_x_ops) = Ok (snd (spec_run ∅ ex_x_ops))
  /\ (r ← m_run_ops (x_impl loose_pf ex_c64 64) (ex_xnew ex_c64 20 9) ex_x_ops; x_forward loose_pf ex_c64 3 (fst (r : xmap * list out))) = Ok [(1048575, 511); (5, 7)]
  /\ (r ← m_run_ops (x_impl loose_pf ex_c64 64) (ex_xnew ex_c64 20 9) ex_x_ops; x_backward loose_pf ex_c64 3 (fst (r : xmap * list out))) = Ok [(5, 7); (1048575, 511)]
  /\ (is_ok (r ← m_run_ops (x_impl loose_pf ex_c64 64) (ex_xnew ex_c64 20 9) ex_x_ops; x_move_assign loose_pf (fst (r : xmap * list out)) (fst r)) = true).
Proof. split; [vm_compute; reflexivity|]. split; [vm_compute; reflexivity|]. split; vm_compute; reflexivity. Qed.

(** ** C87: no check fails in a valid history of a new map whose key_width fits into key_type, nor in iterations over the map it leaves, forwards
    and (if there are elements, see C60) backwards, nor when it is assigned to; all results are those of a finite map (keys reported by
    iterators as in C22). *)
Theorem C87_no_check_fails : forall pf c kw vw bmin fuel, compact_ok pf c kw vw bmin -> kw <= cc_keybits c -> (64 <= fuel)%nat ->
  exists t, x_new c kw vw = Ok t
  /\ forall ops, valid_ops kw vw bmin (zbmax (cc_hash c) kw) ops -> let m := fst (spec_run ∅ ops) in
     exists t' rs, m_run_ops (x_impl pf c fuel) t ops = Ok (t', rs)
     /\ Forall2 same_but_keys rs (snd (spec_run ∅ ops)) /\ (quotients_fit c kw bmin -> rs = snd (spec_run ∅ ops))
     /\ (forall f, (size m <= f)%nat -> exists l E, x_forward pf c f t' = Ok l /\ E ≡ₚ map_to_list m /\ Forall2 same_value l E /\ (quotients_fit c kw bmin -> l = E)
         /\ (m <> ∅ -> exists l', x_backward pf c f t' = Ok l' /\ Forall2 same_value l' (rev E) /\ (quotients_fit c kw bmin -> l' = rev E)))
     /\ (forall o, x_move_assign pf t' o = Ok (o, XMap None (xm_b o) (xm_n o) (xm_kw o) (xm_vw o))).
Proof.
  intros pf c kw vw bmin fuel OK Hkb Hf. destruct (x_new_ok pf c kw vw bmin OK Hkb) as (t & E & Hz & _). exists t. split; [done|]. intros ops Hv m.
  destruct (debug_compact_run pf c kw vw bmin OK Hkb fuel ops t ∅ Hf) as (t' & rs & Er & Hr & HR); [by left|done|]. exists t', rs. split; [done|]. split; [|split; [|split]].
  - eapply Forall2_impl; [exact Hr|]. intros a e. apply oout_weak.
  - intros Hfit. rewrite cokey_fit in Hr by done. by apply oout_eq.
  - intros f Hs. fold m in HR. destruct HR as [[Hz' Em]|(ess & H & Hm)].
    + exists [], []. rewrite Em, map_to_list_empty. split; [by eapply xforward0|]. split; [done|]. split; [constructor|]. split; [done|]. done.
    + pose proof (cr_nodup _ _ _ _ _ _ (proj2 H)) as Hnd. rewrite <-Hm in *. rewrite emap_size in Hs by done.
      destruct (xforward pf c kw vw bmin OK Hkb t' ess f H Hs) as (l & El & HF). exists l, (concat ess). split; [done|]. split; [symmetry; by apply map_to_list_to_map|].
      split; [eapply Forall2_impl; [exact HF|]; by intros a e [_ ?]|]. split; [intros Hfit; rewrite cokey_fit in HF by done; by apply oent_eq|].
      intros Hne. destruct (xbackward pf c kw vw bmin OK Hkb t' ess f H) as (l' & El' & HF'); [intros Ec; by rewrite Ec in Hne|done|].
      exists l'. split; [done|]. split; [eapply Forall2_impl; [exact HF'|]; by intros a e [_ ?]|]. intros Hfit. rewrite cokey_fit in HF' by done. by apply oent_eq.
  - intros o. assert (Hc : exists t0, x_clear pf t' = Ok t0).
    { destruct HR as [[[_ Hz'] _]|(ess & [H _] & _)]; [exists t'; unfold x_clear; by rewrite Hz'|]. destruct (xclear pf c kw vw bmin OK t' ess H) as (t0 & E0 & _). by exists t0. }
    destruct Hc as (t0 & Hc). unfold x_move_assign. by rewrite Hc.
Qed.
Print Assumptions C87_no_check_fails.
(** A key_width above the width of key_type fails the check of the constructor. *)
Theorem C87_constructor : forall c kw vw, 1 <= kw <= 64 -> cc_keybits c < kw -> x_new c kw vw = Throw.
Proof.
  intros c kw vw Hkw Hk. unfold x_new. rewrite (u8_small kw) by lia.
  assert (E : dhash_new (cc_hash c) kw = Ok tt \/ dhash_new (cc_hash c) kw = Throw).
  { unfold dhash_new. destruct (cc_hash c); [|by left]. repeat match goal with |- context [chk ?b] => destruct b; cbn [chk mbind res_bind] end; by auto. }
  destruct E as [-> | ->]; cbn [mbind res_bind]; [|done]. assert (Hb : (kw <=? cc_keybits c) = false) by (apply N.leb_gt; lia).
  destruct (1 <=? u8 vw); cbn [chk mbind res_bind]; [|done]. destruct (u8 vw <=? 64); cbn [chk mbind res_bind]; [|done].
  destruct (1 <=? kw); cbn [chk mbind res_bind]; [|done]. by rewrite Hb.
Qed.
Print Assumptions C87_constructor.
Example C87_case : compact_ok loose_pf ex_c64 20 9 1 /\ 20 <= cc_keybits ex_c64 /\ quotients_fit ex_c64 20 1 /\ valid_ops 20 9 1 (zbmax (cc_hash ex_c64) 20) ex_x_ops
  /\ compact_ok loose_pf ex_c8 32 64 1 /\ 32 <= cc_keybits ex_c8
  /\ (r ← m_run_ops (x_impl loose_pf ex_c8 64) (ex_xnew ex_c8 32 64) [OpInsert 5 7; OpInsert 6 18446744073709551615; OpErase 5; OpRead 6]; Ok (snd (r : xmap * list out)))
     = Ok [OutEntry (Some (5, 7)); OutEntry (Some (6, 18446744073709551615)); OutNum 1; OutNum 18446744073709551615]
  /\ x_new ex_c8 33 64 = Throw.
Proof.
  split; [exact ex_c64_ok|]. split; [vm_compute; congruence|]. split; [vm_compute; congruence|]. split; [valid_solve|].
  split; [exact ex_c8_ok|]. split; [vm_compute; congruence|]. split; vm_compute; reflexivity.
Qed.

(** ** C88: what the debug build refuses.  After any valid history, find_or_insert of a key of key_width bits fails a check exactly if the key
    is new and the value has more than value_width bits; otherwise it succeeds, and the map continues as the finite map with the new pair, or as it was. *)
Theorem C88_wide_value : forall pf c kw vw bmin fuel ops t t' outs k v, compact_ok pf c kw vw bmin -> kw <= cc_keybits c -> (64 <= fuel)%nat ->
  valid_ops kw vw bmin (zbmax (cc_hash c) kw) ops -> x_new c kw vw = Ok t -> m_run_ops (x_impl pf c fuel) t ops = Ok (t', outs) -> k < 2^kw ->
  let m := fst (spec_run ∅ ops) in
  (x_find_or_insert pf c fuel t' k v = Throw <-> m !! k = None /\ 2^vw <= v)
  /\ (~ (m !! k = None /\ 2^vw <= v) -> exists t2 x, x_find_or_insert pf c fuel t' k v = Ok (t2, x)
      /\ forall ops2, let m2 := match m !! k with None => <[k := v]> m | Some _ => m end in valid_ops kw vw bmin (zbmax (cc_hash c) kw) ops2 ->
         exists t3 rs, m_run_ops (x_impl pf c fuel) t2 ops2 = Ok (t3, rs) /\ Forall2 same_but_keys rs (snd (spec_run m2 ops2))).
Proof.
  intros pf c kw vw bmin fuel ops t t' outs k v OK Hkb Hf Hv En Er Hk m. destruct (x_new_ok pf c kw vw bmin OK Hkb) as (t0 & E0 & Hz & _). rewrite En in E0. injection E0 as <-.
  destruct (debug_compact_run pf c kw vw bmin OK Hkb fuel ops t ∅ Hf) as (t1 & rs & E1 & _ & HR); [by left|done|]. rewrite E1 in Er. injection Er as <- _. fold m in HR.
  destruct (xinsert_throws_iff pf c kw vw bmin OK Hkb fuel t1 m k v Hf HR Hk) as [H1 H2]. split; [exact H1|]. intros Hn.
  destruct (H2 Hn) as (t2 & x & E2 & HR2). exists t2, x. split; [done|]. intros ops2 m2 Hv2.
  destruct (debug_compact_run pf c kw vw bmin OK Hkb fuel ops2 t2 m2 Hf HR2 Hv2) as (t3 & rs3 & E3 & Hr3 & _). exists t3, rs3. split; [done|].
  eapply Forall2_impl; [exact Hr3|]. intros a e. apply oout_weak.
Qed.
Print Assumptions C88_wide_value.
(** Keys of more than key_width bits are refused with an invertible hash function. *)
Theorem C88_wide_key : forall pf c kw vw bmin fuel ops t t' outs k v x, compact_ok pf c kw vw bmin -> kw <= cc_keybits c -> cc_hash c = HBij x -> (64 <= fuel)%nat ->
  valid_ops kw vw bmin (zbmax (cc_hash c) kw) ops -> x_new c kw vw = Ok t -> m_run_ops (x_impl pf c fuel) t ops = Ok (t', outs) -> 2^kw <= k ->
  x_find_or_insert pf c fuel t' k v = Throw /\ (xm_b t' <> 0 -> x_find pf c t' k = Throw /\ x_erase pf c t' k = Throw).
Proof.
  intros pf c kw vw bmin fuel ops t t' outs k v x OK Hkb Hh Hf Hv En Er Hk. destruct (x_new_ok pf c kw vw bmin OK Hkb) as (t0 & E0 & Hz & _). rewrite En in E0. injection E0 as <-.
  destruct (debug_compact_run pf c kw vw bmin OK Hkb fuel ops t ∅ Hf) as (t1 & rs & E1 & _ & HR); [by left|done|]. rewrite E1 in Er. injection Er as <- _.
  split; [by eapply (xinsert_wide_key pf c kw vw bmin OK Hkb)|]. intros Hb. by eapply (xfind_wide_key pf c kw vw bmin OK Hkb).
Qed.
Print Assumptions C88_wide_key.
(** write_value takes a value that does not fit.  Searches for keys go on as before; reading this value, erasing its key or anything at a
    position of its bucket, and every reserve fail a check. *)
Theorem C88_wide_write : forall pf c kw vw bmin fuel ops t t' outs k v y, compact_ok pf c kw vw bmin -> kw <= cc_keybits c -> (64 <= fuel)%nat ->
  valid_ops kw vw bmin (zbmax (cc_hash c) kw) ops -> x_new c kw vw = Ok t -> m_run_ops (x_impl pf c fuel) t ops = Ok (t', outs) ->
  k < 2^kw -> fst (spec_run ∅ ops) !! k = Some v -> 2^vw <= y ->
  exists x t2, x_find pf c t' k = Ok x /\ x_write_value pf c t' x y = Ok t2
    /\ (forall k', k' < 2^kw -> x_find pf c t2 k' = x_find pf c t' k')
    /\ vn_value (x_view pf c t2) x = Throw /\ x_erase pf c t2 k = Throw
    /\ (forall p, p <> ones64 -> x_erase_at pf c t2 (fst x, p) = Throw)
    /\ (forall n, 1 <= n <= 2^63 -> bmin <= N.log2_up n <= zbmax (cc_hash c) kw -> x_reserve pf c fuel t2 n = Throw).
Proof.
  intros pf c kw vw bmin fuel ops t t' outs k v y OK Hkb Hf Hv En Er Hk Hm Hy. destruct (x_new_ok pf c kw vw bmin OK Hkb) as (t0 & E0 & Hz & _). rewrite En in E0. injection E0 as <-.
  destruct (debug_compact_run pf c kw vw bmin OK Hkb fuel ops t ∅ Hf) as (t1 & rs & E1 & _ & HR); [by left|done|]. rewrite E1 in Er. injection Er as <- _.
  exact (xwrite_wide pf c kw vw bmin OK Hkb fuel t1 _ k v y Hf HR Hk Hm Hy).
Qed.
Print Assumptions C88_wide_write.
(** The release build stores the low bits without notice. *)
Example C88_case : compact_ok loose_pf ex_c64 20 9 1 /\ valid_ops 20 9 1 (zbmax (cc_hash ex_c64) 20) [OpInsert 5 7; OpInsert 6 8]
  /\ fst (spec_run ∅ [OpInsert 5 7; OpInsert 6 8]) !! 5 = Some 7 /\ x_new ex_c64 20 9 = Ok (ex_xnew ex_c64 20 9)
  /\ match m_run_ops (x_impl loose_pf ex_c64 64) (ex_xnew ex_c64 20 9) [OpInsert 5 7; OpInsert 6 8] with
     | Ok (t, _) => x_find_or_insert loose_pf ex_c64 64 t 77 519 = Throw /\ (is_ok (x_find_or_insert loose_pf ex_c64 64 t 77 511) = true)
         /\ (is_ok (x_find_or_insert loose_pf ex_c64 64 t 5 519) = true) /\ x_find_or_insert loose_pf ex_c64 64 t 1048576 1 = Throw
         /\ x_find loose_pf ex_c64 t 1048577 = Throw
         /\ (x ← x_find loose_pf ex_c64 t 5; t2 ← x_write_value loose_pf ex_c64 t x 519; vn_value (x_view loose_pf ex_c64 t2) x) = Throw
         /\ (x ← x_find loose_pf ex_c64 t 5; t2 ← x_write_value loose_pf ex_c64 t x 519; y ← x_find loose_pf ex_c64 t2 5; Ok (x, y, c_value_at loose_pf ex_c64 (xstrip t2) (fst x) (snd x)))
            = Ok ((6, 0), (6, 0), Ok 7)
         /\ (x ← x_find loose_pf ex_c64 t 5; t2 ← x_write_value loose_pf ex_c64 t x 519; x_reserve loose_pf ex_c64 64 t2 4) = Throw
     | _ => False
     end.
Proof.
  split; [exact ex_c64_ok|]. split; [valid_solve|]. split; [vm_compute; reflexivity|]. split; [vm_compute; reflexivity|]. vm_compute. repeat split.
Qed.
(** Not caught: erase at the position behind the last element of a bucket (which no element has) erases the last element, in the debug build
    as in the release build. *)
Theorem C88_stale_position_refuted : exists pf c kw vw ops t t' bk k, compact_ok pf c kw vw 1 /\ valid_ops kw vw 1 (zbmax (cc_hash c) kw) ops
  /\ (r ← m_run_ops (x_impl pf c 64) (ex_xnew c kw vw) ops; Ok (fst (r : xmap * list out))) = Ok t
  /\ x_bucket_size t bk = Ok 1 /\ x_find pf c t k = Ok (bk, 0)
  /\ x_erase_at pf c t (bk, 1) = Ok (t', 1) /\ x_find pf c t' k = Ok end_nav /\ c_erase_at pf c (xstrip t) (bk, 1) = Ok (xstrip t', 1).
Proof.
  exists loose_pf, ex_c64, 20, 9, [OpInsert 5 7].
  exists (match m_run_ops (x_impl loose_pf ex_c64 64) (ex_xnew ex_c64 20 9) [OpInsert 5 7] with Ok (t, _) => t | _ => XMap None 0 0 0 0 end).
  exists (match m_run_ops (x_impl loose_pf ex_c64 64) (ex_xnew ex_c64 20 9) [OpInsert 5 7] with
          | Ok (t, _) => match x_erase_at loose_pf ex_c64 t (6, 1) with Ok (t', _) => t' | _ => t end | _ => XMap None 0 0 0 0 end).
  exists 6, 5. split; [exact ex_c64_ok|]. split; [valid_solve|].
  split; [vm_compute; reflexivity|]. split; [vm_compute; reflexivity|]. split; [vm_compute; reflexivity|]. split; [vm_compute; reflexivity|]. split; vm_compute; reflexivity.
Qed.
Print Assumptions C88_stale_position_refuted.
