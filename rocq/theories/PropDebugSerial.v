(** Property theorems about serialize and deserialize in the debug build of separate_chaining_table. *)
From Verif Require Export DebugSerialFacts PropDebug PropSerial.

Definition ex_dhist (pf : platform) (c : cfg) (j : option N) (kw vw : N) (ops : list op) : dtable :=
  match drun_ops pf c j 64 (ex_dnew pf c kw vw) ops with Ok (d, _) => d | _ => ex_dnew pf c kw vw end.
Definition ex_two : list op := [OpInsert 5 7; OpInsert 9 1].
Lemma ex_two_valid kw vw bmin b : 4 <= kw -> 3 <= vw -> valid_ops kw vw bmin b ex_two.
Proof.
  intros Hk Hv. assert (2^4 <= 2^kw) by (by apply N.pow_le_mono_r). assert (2^3 <= 2^vw) by (by apply N.pow_le_mono_r).
  change (2^4) with 16 in *. change (2^3) with 8 in *. unfold ex_two, valid_ops. repeat (apply List.Forall_cons; [cbn [valid_op]; lia|]). apply List.Forall_nil.
Qed.
Lemma ex_dhist_alive pf c j kw vw ops : params pf c kw vw -> debug_ok c j kw vw -> c_val c <> KNull -> valid_ops kw vw 1 (bits_max c kw) ops ->
  dalive pf c j kw vw (ex_dhist pf c j kw vw ops) (fst (spec_run ∅ ops)).
Proof.
  intros P D Hv Ho. destruct (no_false_alarm pf c j kw vw 64 (or_introl P) D ltac:(lia)) as (d & En & Hrun & _).
  destruct (Hrun Hv ops Ho) as (d' & Er); [by intros A; destruct (noarr _ _ _ _ P)|].
  assert (Ed : ex_dnew pf c kw vw = d) by (unfold ex_dnew; by rewrite En).
  unfold ex_dhist. rewrite Ed, Er. eapply dl_map; [by eapply dl_new|reflexivity|done|done|exact Er].
Qed.
Lemma ex_plain_debug : debug_ok ex_plain None 64 16.
Proof. split; cbn; [lia|lia|done]. Qed.
Lemma ex_plain_lax : params lax_pf ex_plain 64 16.
Proof. params_solve. apply splitmix_spreading; cbn; lia. Qed.
Lemma ex_dvar j : dalive lax_pf ex_var (Some j) 20 9 (ex_dhist lax_pf ex_var (Some j) 20 9 ex_two) (fst (spec_run ∅ ex_two)).
Proof. apply ex_dhist_alive; [exact ex_var_ok|exact (ex_var_debug j)|done|apply ex_two_valid; lia]. Qed.
Lemma ex_var12 : params lax_pf ex_var 12 3.
Proof. params_solve. Qed.
Lemma ex_dnew12 j : dalive lax_pf ex_var (Some j) 12 3 (ex_dnew lax_pf ex_var 12 3) ∅.
Proof. apply dl_new; [exact ex_var12|split; cbn; [lia|lia|done]|vm_compute; reflexivity]. Qed.

(** ** C80: the round trip of a debug build.  A table without overflow elements, whatever histories and copies it went through, is written; reading it back into any such table,
    whatever follows in the stream, fails no check, consumes exactly what was written, and restores widths, bucket count and content; the copy then runs every valid history
    without a failing check and with the results of the finite map or set. *)
Theorem C80_debug_round_trip_partial : forall pf c junk kw vw d m kw0 vw0 d0 m0, class_ok pf c ->
  dalive pf c junk kw vw d m -> ov_size (d_ov d) = 0 -> dalive pf c junk kw0 vw0 d0 m0 ->
  exists x, dserialize pf c d = Ok x /\ forall fuel rest, exists d', ddeserialize pf c junk fuel d0 (x ++ rest) = Ok (d', rest)
    /\ d_kw d' = kw /\ d_vw d' = vw /\ dbucket_count d' = dbucket_count d /\ shows pf c kw (strip d') m
    /\ ((c_arb c = true -> dbucket_count d <> 0) ->
        (forall fuel ops, (64 <= fuel)%nat -> c_val c <> KNull -> valid_ops kw vw 1 (bits_max c kw) ops ->
           exists d2, drun_ops pf c junk fuel d' ops = Ok (d2, snd (spec_run m ops)))
        /\ (forall fuel ops, (64 <= fuel)%nat -> c_val c = KNull -> Forall (valid_sop kw 1 (bits_max c kw)) ops ->
           exists d2, drun_sops pf c junk fuel d' ops = Ok (d2, snd (set_run (dom m) ops)))).
Proof. intros pf c junk kw vw d m kw0 vw0 d0 m0 CL. exact (debug_round_trip pf c junk CL kw vw d m kw0 vw0 d0 m0). Qed.
Print Assumptions C80_debug_round_trip_partial.
Example C80_case : let d := ex_dhist lax_pf ex_var (Some 0) 20 9 ex_two in
  class_ok lax_pf ex_var /\ dalive lax_pf ex_var (Some 0) 20 9 d (fst (spec_run ∅ ex_two)) /\ ov_size (d_ov d) = 0 /\ dbucket_count d = 16
  /\ dalive lax_pf ex_var (Some 0) 12 3 (ex_dnew lax_pf ex_var 12 3) ∅
  /\ match dserialize lax_pf ex_var d with
     | Ok x => match ddeserialize lax_pf ex_var (Some 0) 0 (ex_dnew lax_pf ex_var 12 3) (x ++ [Some true]) with
               | Ok (d', rest) => rest = [Some true] /\ d_kw d' = 20 /\ dforward lax_pf ex_var 10 d' = Ok [(9, 1); (5, 7)] | _ => False end
     | _ => False
     end.
Proof.
  intros d. split; [by split|]. split; [exact (ex_dvar 0)|]. split; [vm_compute; reflexivity|]. split; [vm_compute; reflexivity|]. split; [exact (ex_dnew12 0)|]. vm_compute. auto.
Qed.

(** With arbitrary_resize the copy of a table without buckets has no element and refuses every insertion: deserialize allocated the capacities for one bucket. *)
Theorem C80_empty_copy_refuted : forall pf c junk kw vw d m kw0 vw0 d0 m0, class_ok pf c -> dalive pf c junk kw vw d m -> dbucket_count d = 0 -> c_arb c = true ->
  dalive pf c junk kw0 vw0 d0 m0 ->
  exists x, dserialize pf c d = Ok x /\ forall fuel rest, exists d', ddeserialize pf c junk fuel d0 (x ++ rest) = Ok (d', rest) /\ TableModel.size (strip d') = 0
    /\ forall f k v, dfind_or_insert pf c junk (S f) d' k v = Throw.
Proof. intros pf c junk kw vw d m kw0 vw0 d0 m0 CL. exact (empty_copy pf c junk CL kw vw d m kw0 vw0 d0 m0). Qed.
Print Assumptions C80_empty_copy_refuted.
(** The release build inserts into such a copy. *)
Example C80_empty_copy_case : class_ok lax_pf ex_var /\ dalive lax_pf ex_var (Some 0) 12 3 (ex_dnew lax_pf ex_var 12 3) ∅ /\ dbucket_count (ex_dnew lax_pf ex_var 12 3) = 0 /\ c_arb ex_var = true
  /\ (x ← dserialize lax_pf ex_var (ex_dnew lax_pf ex_var 12 3); y ← ddeserialize lax_pf ex_var (Some 0) 64 (ex_dnew lax_pf ex_var 12 3) x;
      z ← dfind_or_insert lax_pf ex_var (Some 0) 64 (fst y) 5 7; Ok (d_n (fst z))) = Throw
  /\ (x ← serialize lax_pf ex_var (new_table lax_pf ex_var 12 3); y ← deserialize lax_pf ex_var 64 (new_table lax_pf ex_var 12 3) x;
      z ← find_or_insert lax_pf ex_var 64 (fst y) 5 7; Ok (t_n (fst z))) = Ok 1.
Proof. split; [by split|]. split; [exact (ex_dnew12 0)|]. split; [done|]. split; [done|]. split; vm_compute; reflexivity. Qed.
(** A table with elements in an array_overflow is written without a failing check, and reading it back fails line 849, which compares m_elements with the elements of the buckets
    only; the release build reads the same table back. *)
Theorem C80_overflow_refuted : exists c kw vw ops, arr_params zero_pf c kw vw /\ debug_ok c None kw vw /\ valid_ops kw vw 1 (bits_max c kw) ops /\ Forall grow_op ops
  /\ match drun_ops zero_pf c None 64 (ex_dnew zero_pf c kw vw) ops with
     | Ok (d, _) => 0 < ov_size (d_ov d)
         /\ match dserialize zero_pf c d with Ok x => ddeserialize zero_pf c None 64 (ex_dnew zero_pf c kw vw) x = Throw | _ => False end
         /\ match serialize zero_pf c (strip d) with
            | Ok x => match deserialize zero_pf c 64 (new_table zero_pf c kw vw) x with
                      | Ok (t, _) => forward zero_pf c 10 t = forward zero_pf c 10 (strip d) /\ t_n t = d_n d | _ => False end
            | _ => False end
     | _ => False end.
Proof.
  exists ex_arr2, 16, 16, ex_arr2_ops. split; [exact ex_arr2_ok|]. split; [exact ex_arr2_debug|].
  assert (H16 : 2^16 = 65536) by done.
  split; [unfold ex_arr2_ops, ex_inserts, valid_ops; cbn [map]; repeat (apply List.Forall_cons; [cbn [valid_op]; rewrite ?H16; lia|]); apply List.Forall_nil|].
  split; [unfold ex_arr2_ops, ex_inserts; cbn [map]; repeat (apply List.Forall_cons; [done|]); apply List.Forall_nil|].
  vm_compute. auto.
Qed.
Print Assumptions C80_overflow_refuted.

(** ** C81: the stream of a debug build is the stream of a release build with more bits in between, and exactly so many: m_length (and m_size) of each bucket and the plain keys. *)
Theorem C81_debug_stream : forall pf c d x, dserialize pf c d = Ok x ->
  exists y, serialize pf c (strip d) = Ok y /\ y `sublist_of` x /\ length x = (length y + stream_extra c d)%nat.
Proof. exact dserialize_sub. Qed.
Print Assumptions C81_debug_stream.
Example C81_case : let d := ex_dhist lax_pf ex_var (Some 0) 20 9 ex_two in
  (x ← dserialize lax_pf ex_var d; Ok (length x)) = Ok 920%nat /\ (y ← serialize lax_pf ex_var (strip d); Ok (length y)) = Ok 280%nat /\ stream_extra ex_var d = 640%nat.
Proof. split; [vm_compute; reflexivity|]. split; vm_compute; reflexivity. Qed.
(** So neither build reads what the other has written: here the debug build fails a check and the release build restores other keys and values. *)
Theorem C81_interchange_refuted : exists d m, dalive lax_pf ex_var (Some 0) 20 9 d m
  /\ (x ← serialize lax_pf ex_var (strip d); y ← ddeserialize lax_pf ex_var (Some 0) 64 (ex_dnew lax_pf ex_var 12 3) x; Ok (d_n (fst y))) = Throw
  /\ (x ← dserialize lax_pf ex_var d; y ← deserialize lax_pf ex_var 64 (new_table lax_pf ex_var 12 3) x; forward lax_pf ex_var 10 (fst y)) = Ok [(143943, 0); (883919, 0)]
  /\ forward lax_pf ex_var 10 (strip d) = Ok [(9, 1); (5, 7)].
Proof.
  exists (ex_dhist lax_pf ex_var (Some 0) 20 9 ex_two), (fst (spec_run ∅ ex_two)). split; [exact (ex_dvar 0)|]. split; [vm_compute; reflexivity|]. split; vm_compute; reflexivity.
Qed.
Print Assumptions C81_interchange_refuted.

(** ** C82: what a debug build accepts from an arbitrary stream.  Whenever no check fails, the element count is the sum of the bucket sizes, and every position of every bucket
    holds a key that can be read and that equals the plain key beside it. *)
Theorem C82_debug_accepts : forall pf c junk fuel d0 s d rest, (d_slots d0 = None -> d_b d0 = 0) -> ddeserialize pf c junk fuel d0 s = Ok (d, rest) ->
  exists sl, d_slots d = Some sl /\ length sl = N.to_nat (2^(d_b d))
    /\ (dbucket_count d = 0 -> d_n d = 0)
    /\ (dbucket_count d <> 0 -> d_n d = u64 (fold_right N.add 0 (map ds_size sl)) /\ forall i x, sl !! i = Some x -> ds_size x <> 0 ->
          exists cs, ds_plain x = Some cs /\ forall j, (j < N.to_nat (ds_size x))%nat ->
            exists r k, b_read pf (c_key c) (k_b (ds_keys x)) j (qwidth c (strip d)) = Ok r
              /\ hash_inv_map (hm c (strip d)) (r mod 2^(c_keybits c)) (N.of_nat i) (d_b d) = Ok k /\ cs !! j = Some (Some k)).
Proof. exact deserialize_accepts. Qed.
Print Assumptions C82_debug_accepts.
(** A stream whose element count or whose keys were changed is refused; the release build takes it. *)
Definition ex_flip (n : nat) (s : stream) : stream := alter (fun b => match b with Some x => Some (negb x) | None => None end) n s.
Example C82_case : let d := ex_dhist lax_pf ex_plain None 64 16 ex_two in
  match dserialize lax_pf ex_plain d with
  | Ok x => (y ← ddeserialize lax_pf ex_plain None 64 (ex_dnew lax_pf ex_plain 64 16) x; Ok (d_n (fst y))) = Ok 2
      /\ (y ← ddeserialize lax_pf ex_plain None 64 (ex_dnew lax_pf ex_plain 64 16) (ex_flip 24 x); Ok (d_n (fst y))) = Throw
      /\ (y ← ddeserialize lax_pf ex_plain None 64 (ex_dnew lax_pf ex_plain 64 16) (ex_flip 280 x); Ok (d_n (fst y))) = Throw
  | _ => False
  end
  /\ match serialize lax_pf ex_plain (strip d) with
     | Ok x => (y ← deserialize lax_pf ex_plain 64 (new_table lax_pf ex_plain 64 16) (ex_flip 24 x); Ok (t_n (fst y))) = Ok 3 | _ => False end.
Proof. split; vm_compute; auto. Qed.
(** A stream that holds a key twice is accepted: the element is counted twice, and a successful erase leaves the key in the table. *)
Definition ex_twice : dtable :=
  let d := ex_dhist lax_pf ex_plain None 64 16 ex_two in
  let two (a b : N) := Dbk (Some (TMalloc, Cells [Some a; Some b])) (Some 2) None in
  DTable ((fun sl => <[12%nat := DSlot (two 5 5) (two 7 8) 2 0 (Some [Some 5; Some 5])]> sl) <$> d_slots d) (d_b d) 3 (d_kw d) (d_vw d) (d_ov d) (d_rs d).
Theorem C82_duplicates_refuted : exists s, match ddeserialize lax_pf ex_plain None 64 (ex_dnew lax_pf ex_plain 64 16) s with
  | Ok (d, rest) => rest = [] /\ d_n d = 3 /\ dforward lax_pf ex_plain 10 d = Ok [(9, 1); (5, 7); (5, 8)]
      /\ match drun_ops lax_pf ex_plain None 64 d [OpErase 5; OpCount 5] with Ok (_, outs) => outs = [OutNum 1; OutNum 1] | _ => False end
  | _ => False end.
Proof. exists (match dserialize lax_pf ex_plain ex_twice with Ok s => s | _ => [] end). vm_compute. auto. Qed.
Print Assumptions C82_duplicates_refuted.
