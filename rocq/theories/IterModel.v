(** Loops over a table as written by the user: test/base.hpp:65-73 and the stack-like use of README.md:98. *)
From Verif Require Export TableModel.

Section iter.
Context (pf : platform) (c : cfg).

(** Reading key() and value() at a navigator. *)
Definition nav_read (t : table) (x : nav) : res (N * N) :=
  k ← nav_key pf c t x; v ← nav_value pf c t x; Ok (k, v).

(** for(x; x != end_nav(); ++x): the pairs seen (test/base.hpp:68-70) *)
Fixpoint iterate (fuel : nat) (t : table) (x : nav) : res (list (N * N)) :=
  e ← nav_eq pf t x end_nav;
  if (e : bool) then Ok []
  else match fuel with
       | O => Timeout
       | S f => kv ← nav_read t x; x' ← nav_next pf t x; l ← iterate f t x'; Ok (kv :: l)
       end.
Definition forward (fuel : nat) (t : table) : res (list (N * N)) := x ← begin_nav t; iterate fuel t x.

(** for(x; x != rend_nav(); --x) (test/base.hpp:71-73); rend_nav() = end_nav() (480) *)
Fixpoint iterate_rev (fuel : nat) (t : table) (x : nav) : res (list (N * N)) :=
  e ← nav_eq pf t x end_nav;
  if (e : bool) then Ok []
  else match fuel with
       | O => Timeout
       | S f => kv ← nav_read t x; x' ← nav_prev pf t x; l ← iterate_rev f t x'; Ok (kv :: l)
       end.
Definition backward (fuel : nat) (t : table) : res (list (N * N)) := x ← rbegin_nav t; iterate_rev fuel t x.

(** for(x; x != rend_nav(); --x) erase(x) (README.md:98) *)
Fixpoint drain_from (fuel : nat) (t : table) (x : nav) : res (table * list (N * N)) :=
  e ← nav_eq pf t x end_nav;
  if (e : bool) then Ok (t, [])
  else match fuel with
       | O => Timeout
       | S f =>
           kv ← nav_read t x;
           r ← erase_at pf c t x;
           let '(t', _) := (r : table * N) in
           x' ← nav_prev pf t' x;
           rl ← drain_from f t' x';
           let '(t'', l) := (rl : table * list (N * N)) in
           Ok (t'', kv :: l)
       end.
Definition drain (fuel : nat) (t : table) : res (table * list (N * N)) := x ← rbegin_nav t; drain_from fuel t x.
End iter.
