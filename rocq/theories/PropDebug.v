(** Property theorems about the debug build of separate_chaining_table (NDEBUG not defined, DDCHECK on). *)
From Verif Require Export DebugConf PropTable PropOverflow.

(** ** C77: the checks of the debug build observe only.  Whenever no check fails, a debug build goes through the same states and
    returns the same results as a release build, whatever the table it starts from. *)
Theorem C77_debug_is_release : forall pf c junk,
  (forall kw vw d, dnew_table pf c kw vw = Ok d -> strip d = new_table pf c kw vw)
  /\ (forall fuel d ops d' outs, drun_ops pf c junk fuel d ops = Ok (d', outs) -> run_ops pf c fuel (strip d) ops = Ok (strip d', outs))
  /\ (forall fuel d ops d' outs, drun_sops pf c junk fuel d ops = Ok (d', outs) -> run_sops pf c fuel (strip d) ops = Ok (strip d', outs))
  /\ (forall fuel d l, dforward pf c fuel d = Ok l -> forward pf c fuel (strip d) = Ok l)
  /\ (forall fuel d l, dbackward pf c fuel d = Ok l -> backward pf c fuel (strip d) = Ok l).
Proof.
  intros pf c junk. split; [|split; [|split; [|split]]].
  - intros kw vw d. exact (dnew_table_eq pf c kw vw d).
  - intros fuel d ops d' outs E. exact (drun_ops_eq pf c junk fuel ops d _ E).
  - intros fuel d ops d' outs E. exact (drun_sops_eq pf c junk fuel ops d _ E).
  - intros fuel d l. exact (dforward_eq pf c fuel d l).
  - intros fuel d l. exact (dbackward_eq pf c fuel d l).
Qed.
Print Assumptions C77_debug_is_release.
Definition ex_dnew (pf : platform) (c : cfg) (kw vw : N) : dtable :=
  match dnew_table pf c kw vw with Ok d => d | _ => DTable None 0 0 0 0 ODummy None end.
Example C77_case :
  dnew_table lax_pf ex_var 20 9 = Ok (ex_dnew lax_pf ex_var 20 9)
  /\ match drun_ops lax_pf ex_var (Some 0) 64 (ex_dnew lax_pf ex_var 20 9) ex_ops with
     | Ok (d, outs) => bucket_count (strip d) = 64 /\ nth 3 outs OutUnit = OutEntry (Some (5, 7)) /\ nth 13 outs OutUnit = OutNum 6
         /\ (l ← dforward lax_pf ex_var 10 d; Ok (length l)) = Ok 6%nat /\ (l ← dbackward lax_pf ex_var 10 d; Ok (length l)) = Ok 6%nat
     | _ => False
     end.
Proof. split; [vm_compute; reflexivity|]. vm_compute. auto. Qed.

(** ** C78: no check fails in a valid history of a new table: for maps and sets without array_overflow, and with array_overflow as long
    as nothing is removed from the array. *)
Theorem C78_no_false_alarm_partial : forall pf c junk kw vw fuel, params pf c kw vw \/ arr_params pf c kw vw -> debug_ok c junk kw vw -> (64 <= fuel)%nat ->
  exists d, dnew_table pf c kw vw = Ok d
  /\ (c_val c <> KNull -> forall ops, valid_ops kw vw 1 (bits_max c kw) ops -> (c_ov c = OvArray -> Forall grow_op ops) ->
      exists d', drun_ops pf c junk fuel d ops = Ok (d', snd (spec_run ∅ ops)))
  /\ (c_val c = KNull -> forall ops, Forall (valid_sop kw 1 (bits_max c kw)) ops ->
      exists d', drun_sops pf c junk fuel d ops = Ok (d', snd (set_run ∅ ops))).
Proof. exact no_false_alarm. Qed.
Print Assumptions C78_no_false_alarm_partial.
Lemma ex_var_debug j : debug_ok ex_var (Some j) 20 9.
Proof. split; cbn; [lia|lia|done]. Qed.
Lemma ex_arr2_debug : debug_ok ex_arr2 None 16 16.
Proof. split; cbn; [lia|lia|done]. Qed.
Lemma ex_ov_debug : debug_ok ex_ov None 32 16.
Proof. split; cbn; [lia|lia|done]. Qed.
Example C78_case : debug_ok ex_ov None 32 16 /\ params lax_pf ex_ov 32 16 /\ valid_ops 32 16 1 (bits_max ex_ov 32) ex_ops
  /\ debug_ok ex_arr2 None 16 16 /\ arr_params zero_pf ex_arr2 16 16
  /\ match drun_ops lax_pf ex_ov None 64 (ex_dnew lax_pf ex_ov 32 16) (ex_fill 40) with
     | Ok (d, _) => ov_size (d_ov d) = 8 /\ d_n d = 40 | _ => False end
  /\ match drun_ops zero_pf ex_arr2 None 64 (ex_dnew zero_pf ex_arr2 16 16) ex_arr2_ops with
     | Ok (d, _) => ov_size (d_ov d) = 2 /\ d_n d = 10 | _ => False end.
Proof.
  split; [exact ex_ov_debug|]. split; [exact ex_ov_ok|]. split; [apply ex_ops_valid; cbn; lia|]. split; [exact ex_arr2_debug|]. split; [exact ex_arr2_ok|].
  split; vm_compute; auto.
Qed.

(** Iteration over the table that such a history leaves fails no check either. *)
Theorem C78_iteration_partial : forall pf c junk kw vw fuel ops d d' outs, params pf c kw vw \/ arr_params pf c kw vw -> debug_ok c junk kw vw -> (64 <= fuel)%nat -> c_val c <> KNull ->
  valid_ops kw vw 1 (bits_max c kw) ops -> (c_ov c = OvArray -> Forall grow_op ops) -> dnew_table pf c kw vw = Ok d -> drun_ops pf c junk fuel d ops = Ok (d', outs) ->
  forall f l, (dforward pf c f d' = Ok l <-> forward pf c f (strip d') = Ok l) /\ (dbackward pf c f d' = Ok l <-> backward pf c f (strip d') = Ok l).
Proof. exact debug_iteration. Qed.
Print Assumptions C78_iteration_partial.
Example C78_iteration_case :
  match drun_ops zero_pf ex_arr2 None 64 (ex_dnew zero_pf ex_arr2 16 16) ex_arr2_ops with
  | Ok (d, _) => dforward zero_pf ex_arr2 10 d = Ok [(16, 16); (34, 34); (1, 1); (3, 3); (51, 51); (2, 2); (52, 52); (50, 50); (35, 35); (17, 17)]
                 /\ dbackward zero_pf ex_arr2 10 d = Ok []
  | _ => False
  end.
Proof. vm_compute. auto. Qed.

(** reserve(1) on a new table with arbitrary_resize is answered by the release build like any other call, yet the next insertion in the debug
    build fails the check of size.hpp:68 that the capacities are not allocated. *)
Theorem C78_reserve_one_refuted : exists c kw vw k v t e, params lax_pf c kw vw /\ (forall j, debug_ok c (Some j) kw vw) /\ k < 2^kw /\ v < 2^vw
  /\ run_ops lax_pf c 64 (new_table lax_pf c kw vw) [OpReserve 1; OpInsert k v] = Ok (t, [OutUnit; OutEntry (Some e)])
  /\ forall j d, dnew_table lax_pf c kw vw = Ok d -> drun_ops lax_pf c (Some j) 64 d [OpReserve 1; OpInsert k v] = Throw.
Proof.
  exists ex_var, 20, 9, 5, 7, (ex_hist ex_var 20 9 [OpReserve 1; OpInsert 5 7]), (5, 7).
  split; [exact ex_var_ok|]. split; [exact ex_var_debug|]. split; [by vm_compute|]. split; [by vm_compute|]. split; [vm_compute; reflexivity|].
  intros j d E. vm_compute in E. injection E as <-. vm_compute. reflexivity.
Qed.
Print Assumptions C78_reserve_one_refuted.
(** The first search in a varwidth_bucket compares with members no constructor sets (bucket.hpp:412, 470-471): if reading them is not tolerated, the first
    insertion of the debug build is undefined, although the release build is well-defined. *)
Theorem C78_uninitialised_refuted : forall pf c kw vw fuel k v iw, params pf c kw vw -> 3 <= kw <= c_keybits c -> 1 <= vw <= value_bits c -> c_key c = KVar iw -> (64 <= fuel)%nat -> k < 2^kw ->
  exists d, dnew_table pf c kw vw = Ok d /\ dfind_or_insert pf c None fuel d k v = Ub Indeterminate.
Proof. exact uninitialised_find. Qed.
Print Assumptions C78_uninitialised_refuted.
Example C78_uninitialised_case : params lax_pf ex_var 20 9 /\ c_key ex_var = KVar 8 /\ 5 < 2^20
  /\ dfind_or_insert lax_pf ex_var None 64 (ex_dnew lax_pf ex_var 20 9) 5 7 = Ub Indeterminate.
Proof. split; [exact ex_var_ok|]. split; [done|]. split; [by vm_compute|]. vm_compute. reflexivity. Qed.

(** ** C79: what the checks catch.  With a bijective hash function a debug build refuses to insert a key that does not fit into key_width bits, after every valid
    history; and a write to a varwidth_bucket that would lose bits is refused in every state. *)
Theorem C79_wide_key_caught : forall pf c junk kw vw fuel ops k v f d, params pf c kw vw -> debug_ok c junk kw vw -> c_hash c = HBij f -> c_val c <> KNull -> (64 <= fuel)%nat ->
  valid_ops kw vw 1 (bits_max c kw) ops -> 2^kw <= k < 2^64 -> dnew_table pf c kw vw = Ok d ->
  drun_ops pf c junk fuel d (ops ++ [OpInsert k v]) = Throw.
Proof. exact wide_key_caught. Qed.
Print Assumptions C79_wide_key_caught.
(** The release build stores another key instead. *)
Example C79_wide_key_case : params lax_pf ex_var 20 9 /\ debug_ok ex_var (Some 0) 20 9 /\ c_hash ex_var = HBij Xorshift /\ 2^20 <= 1048581 < 2^64
  /\ drun_ops lax_pf ex_var (Some 0) 64 (ex_dnew lax_pf ex_var 20 9) [OpInsert 5 7; OpInsert 1048581 9] = Throw
  /\ match run_ops lax_pf ex_var 64 (new_table lax_pf ex_var 20 9) [OpInsert 5 7; OpInsert 1048581 9] with
     | Ok (t, outs) => outs = [OutEntry (Some (5, 7)); OutEntry (Some (517, 9))] /\ TableModel.size t = 2 | _ => False end.
Proof. split; [exact ex_var_ok|]. split; [apply ex_var_debug|]. split; [done|]. split; [by vm_compute|]. split; [vm_compute; reflexivity|]. vm_compute. auto. Qed.
Theorem C79_lossy_write_caught : forall pf iw b i v w b', db_write pf (KVar iw) b i v w = Ok b' ->
  v < 2^N.of_nat w /\ db_read pf (KVar iw) b' i w = Ok v.
Proof. exact lossy_write. Qed.
Print Assumptions C79_lossy_write_caught.
Example C79_lossy_write_case : let b := Dbk (b_initialize lax_pf (KVar 8) 3 5) (Some 3) (Some 2) in
  (b' ← db_write lax_pf (KVar 8) b 1 31 5; db_read lax_pf (KVar 8) b' 1 5) = Ok 31
  /\ db_write lax_pf (KVar 8) b 1 32 5 = Throw /\ (b' ← b_write lax_pf (KVar 8) (k_b b) 1 32 5; b_read lax_pf (KVar 8) b' 1 5) = Ok 0.
Proof. cbv zeta. split; [|split]; vm_compute; reflexivity. Qed.
