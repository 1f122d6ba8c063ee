(** Programs over several separate_chaining_table variables of one type that share one stream.  This file contains no proofs. *)
From Verif Require Export SerialModel TableRun.

(** The statements.  Variables are numbered. *)
Inductive stmt :=
| SOp (i : nat) (o : op)     (* a call of variable i *)
| SSwap (i j : nat)          (* i.swap(j) *)
| SSave (i : nat)            (* i.serialize(stream), the stream is written at its end *)
| SLoad (i : nat).           (* i.deserialize(stream), the stream is read where the last deserialize stopped *)

Section many.
Context (pf : platform) (c : cfg) (fuel : nat).
(** One statement on the tables and the part of the stream not read yet.  separate_chaining_table.hpp:363-377 swap exchanges the
    members, i.e. the tables (C32_swap shows this for the objects on the heap); 790-808 serialize; 809-850 deserialize. *)
Definition stmt_step (ts : list table) (s : stream) (p : stmt) : res (list table * stream * out) :=
  match p with
  | SOp i o =>
      t ← of_option OobRead (ts !! i);
      r ← run_op pf c fuel t o;
      let '(t, x) := (r : table * out) in
      Ok (<[i := t]> ts, s, x)
  | SSwap i j =>
      x ← of_option OobRead (ts !! i);
      y ← of_option OobRead (ts !! j);
      Ok (<[j := x]> (<[i := y]> ts), s, OutUnit)
  | SSave i =>
      t ← of_option OobRead (ts !! i);
      d ← serialize pf c t;
      Ok (ts, s ++ d, OutUnit)
  | SLoad i =>
      t ← of_option OobRead (ts !! i);
      r ← deserialize pf c fuel t s;
      let '(t, s) := (r : table * stream) in
      Ok (<[i := t]> ts, s, OutUnit)
  end.
Fixpoint stmts_run (ts : list table) (s : stream) (l : list stmt) : res (list table * stream * list out) :=
  match l with
  | [] => Ok (ts, s, [])
  | p :: l =>
      r ← stmt_step ts s p;
      let '(ts, s, x) := (r : list table * stream * out) in
      r ← stmts_run ts s l;
      let '(ts, s, xs) := (r : list table * stream * list out) in
      Ok (ts, s, x :: xs)
  end.
End many.
