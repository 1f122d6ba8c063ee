(** Deleting while iterating forwards over a separate_chaining_table. *)
From Verif Require Import IterModel.

Section iter.
Context (pf : platform) (c : cfg).
(** for(x; x != end_nav(); ++x) erase(x), with the pair at x read before it is erased: the loop against which README.md:98 recommends the reverse
    order (IterModel.drain).  iterator.hpp:84-100 operator++, 130-137 operator!=; separate_chaining_table.hpp:708-751 erase. *)
Fixpoint erase_forward_from (fuel : nat) (t : table) (x : nav) : res (table * list (N * N)) :=
  e ← nav_eq pf t x end_nav;
  if (e : bool) then Ok (t, [])
  else match fuel with
       | O => Timeout
       | S f =>
           kv ← nav_read pf c t x;
           r ← erase_at pf c t x;
           let '(t', _) := (r : table * N) in
           x' ← nav_next pf t' x;
           rl ← erase_forward_from f t' x';
           let '(t'', l) := (rl : table * list (N * N)) in
           Ok (t'', kv :: l)
       end.
Definition erase_forward (fuel : nat) (t : table) : res (table * list (N * N)) := x ← begin_nav t; erase_forward_from fuel t x.
End iter.
