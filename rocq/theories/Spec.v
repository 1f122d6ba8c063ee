(** Abstract specification of the map and set containers: operations on a finite map / finite set.
    Independent of the models. *)
From stdpp Require Export gmap.
From Coq Require Export NArith.
#[global] Open Scope N_scope.

(** Calls of a history. *)
Inductive op :=
| OpFind (k : N)             (* find(k) and reading the iterator *)
| OpCount (k : N)
| OpInsert (k v : N)         (* find_or_insert(k, v) and reading the handle *)
| OpRead (k : N)             (* m[k] as a value *)
| OpWrite (k v : N)          (* m[k] = v *)
| OpErase (k : N)
| OpEraseIt (k : N)          (* erase(find(k)) *)
| OpSize
| OpEmpty
| OpReserve (n : N)
| OpShrink
| OpClear.

(** What a call returns. *)
Inductive out :=
| OutUnit
| OutEntry (e : option (N * N))   (* None is end() *)
| OutNum (n : N)
| OutBool (b : bool).

(** Finite map semantics. *)
Definition spec_step (m : gmap N N) (o : op) : gmap N N * out :=
  match o with
  | OpFind k => (m, OutEntry (pair k <$> m !! k))
  | OpCount k => (m, OutNum (match m !! k with Some _ => 1 | None => 0 end))
  | OpInsert k v =>
      match m !! k with
      | Some v0 => (m, OutEntry (Some (k, v0)))
      | None => (<[k := v]> m, OutEntry (Some (k, v)))
      end
  | OpRead k =>
      match m !! k with
      | Some v0 => (m, OutNum v0)
      | None => (<[k := 0]> m, OutNum 0)
      end
  | OpWrite k v => (<[k := v]> m, OutUnit)
  | OpErase k | OpEraseIt k =>
      match m !! k with
      | Some _ => (delete k m, OutNum 1)
      | None => (m, OutNum 0)
      end
  | OpSize => (m, OutNum (N.of_nat (size m) mod 2^64))
  | OpEmpty => (m, OutBool (N.of_nat (size m) mod 2^64 =? 0))
  | OpReserve _ | OpShrink => (m, OutUnit)
  | OpClear => (∅, OutUnit)
  end.

Fixpoint spec_run (m : gmap N N) (ops : list op) : gmap N N * list out :=
  match ops with
  | [] => (m, [])
  | o :: ops' =>
      let '(m1, r) := spec_step m o in
      let '(m2, rs) := spec_run m1 ops' in
      (m2, r :: rs)
  end.

(** Preconditions of a call: keys of at most kw bits, values of at most vw bits, and
    reservations of 2^bmin up to 2^bmax buckets. *)
Definition valid_op (kw vw bmin bmax : N) (o : op) : Prop :=
  match o with
  | OpFind k | OpCount k | OpRead k | OpErase k | OpEraseIt k => k < 2^kw
  | OpInsert k v | OpWrite k v => k < 2^kw /\ v < 2^vw
  | OpReserve n => 2^bmin / 2 < n /\ n <= 2^bmax
  | OpSize | OpEmpty | OpShrink | OpClear => True
  end.
(** Calls that neither remove anything nor use key 0. *)
Definition grow_op (o : op) : Prop :=
  match o with
  | OpFind k | OpCount k | OpRead k | OpInsert k _ | OpWrite k _ => k <> 0
  | OpErase _ | OpEraseIt _ | OpClear => False
  | OpSize | OpEmpty | OpReserve _ | OpShrink => True
  end.
Definition valid_ops (kw vw bmin bmax : N) : list op -> Prop := Forall (valid_op kw vw bmin bmax).

(** Finite set semantics.  Only the operations that make sense for a set. *)
Inductive sop :=
| SFind (k : N)       (* is find(k) different from end(), and if so its key *)
| SCount (k : N)
| SInsert (k : N)     (* find_or_insert, reading the key of the handle *)
| SErase (k : N)
| SSize
| SEmpty
| SReserve (n : N)
| SShrink
| SClear.
Inductive sout := SoUnit | SoKey (k : option N) | SoNum (n : N) | SoBool (b : bool).

Definition set_step (s : gset N) (o : sop) : gset N * sout :=
  match o with
  | SFind k => (s, SoKey (if decide (k ∈ s) then Some k else None))
  | SCount k => (s, SoNum (if decide (k ∈ s) then 1 else 0))
  | SInsert k => ({[k]} ∪ s, SoKey (Some k))
  | SErase k => (s ∖ {[k]}, SoNum (if decide (k ∈ s) then 1 else 0))
  | SSize => (s, SoNum (N.of_nat (size s) mod 2^64))
  | SEmpty => (s, SoBool (N.of_nat (size s) mod 2^64 =? 0))
  | SReserve _ | SShrink => (s, SoUnit)
  | SClear => (∅, SoUnit)
  end.
Fixpoint set_run (s : gset N) (ops : list sop) : gset N * list sout :=
  match ops with
  | [] => (s, [])
  | o :: ops' =>
      let '(s1, r) := set_step s o in
      let '(s2, rs) := set_run s1 ops' in
      (s2, r :: rs)
  end.
Definition valid_sop (kw bmin bmax : N) (o : sop) : Prop :=
  match o with
  | SFind k | SCount k | SInsert k | SErase k => k < 2^kw
  | SReserve n => 2^bmin / 2 < n /\ n <= 2^bmax
  | _ => True
  end.
