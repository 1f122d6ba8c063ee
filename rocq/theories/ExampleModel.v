(** The programs of example_map.cpp, clients of keyvalue_group.  This file contains no proofs. *)
From Verif Require Export GroupHist ClientModel.

Notation gprog := (prog gop gout).
#[global] Instance gout_eq_dec : EqDecision gout.
Proof. solve_decision. Defined.
Definition gact (o : gop) (p : gprog) : gprog := Call o (fun _ => p).
(** DCHECK_EQ (debug builds; here it ends the program if it fails) *)
Definition gexpect (o : gop) (x : gout) (p : gprog) : gprog := Call o (fun r => Assert (bool_decide (r = x)) p).
Definition kv_play (pf : platform) (n kw vw : nat) (g : kvgroup) (p : gprog) : res (kvgroup * bool) :=
  play (grun_step pf n kw vw) (fun _ => Throw) (fun _ => Throw) g p.

(** 29-31, with the numbers drawn: bucket, key and value *)
Definition example_pushes (l : list (nat * N * N)) : gprog := each l (fun d p => let '(i, k, v) := d in gact (GPush i k v) p) Pass.
(** 34-41; [n] is groups, [m] is 1000.  The two calls of read (38-39) are one call here. *)
Definition example_reads (n m : nat) : gprog :=
  each (seq 0 m) (fun i p => gact (GPush (i mod n) (N.of_nat i) (N.of_nat i)) p) (
  each (seq 0 m) (fun i p =>
    gexpect (GRead (i mod n) (i / n)) (GPair (N.of_nat i, N.of_nat i)) (
    gexpect (GFind (i mod n) (N.of_nat i)) (GPos (Some (i / n)%nat)) p)) Pass).
(** 24-43: initialize with the widths (64, 64), push, clear, initialize with (32, 32), push and read, clear *)
Definition example_block1 (pf : platform) (n m kw vw kw2 vw2 : nat) (l : list (nat * N * N)) : res (kvgroup * bool) :=
  r ← kv_play pf n kw vw (kv_init kv_new n kw vw) (example_pushes l);
  r ← kv_play pf n kw2 vw2 (kv_init (kv_clear (fst r)) n kw2 vw2) (example_reads n m);
  Ok (kv_clear (fst r), snd r).

(** One round of the loop 58-80: group_index, key, value, and whether rand() % 2 is 1. *)
Record draw := Draw { d_i : nat; d_key : N; d_val : N; d_erase : bool }.
(** 71-79: each pair of each std::map is looked up.  read_key and read_value (75-76) are one call here; DCHECK(initialized()) (63) is left out. *)
Definition example_check (maps : list (gmap N N)) (p : gprog) : gprog :=
  each (imap (fun i (m : gmap N N) => (i, map_to_list m)) maps) (fun im p =>
    each (snd im) (fun e p =>
      Call (GFind (fst im) (fst e)) (fun r => match r with
        | GPos (Some pos) => gexpect (GRead (fst im) pos) (GPair e) p
        | _ => Assert false p
        end)) p) p.
(** 62-69; the key pushed last is in its bucket, so find cannot return -1 at 67 *)
Fixpoint example_rounds (l : list draw) (maps : list (gmap N N)) : gprog :=
  match l with
  | [] => Pass
  | d :: l =>
      let m := <[d_key d := d_val d]> (nth (d_i d) maps ∅) in
      let next maps := example_check maps (example_rounds l maps) in
      gact (GPush (d_i d) (d_key d) (d_val d)) (
        if d_erase d then
          Call (GFind (d_i d) (d_key d)) (fun r => match r with
            | GPos (Some pos) => gact (GErase (d_i d) pos) (next (<[d_i d := delete (d_key d) m]> maps))
            | _ => Assert false Pass
            end)
        else next (<[d_i d := m]> maps))
  end.
(** 53-81, one repetition, from initialize to the destructor *)
Definition example_block2 (pf : platform) (n kw vw : nat) (l : list draw) : res (kvgroup * bool) :=
  kv_play pf n kw vw (kv_init kv_new n kw vw) (example_rounds l (replicate n ∅)).
