(** Deleting while iterating forwards over compact_chaining_map and group_chaining_table. *)
From Verif Require Import NavModel CompactModel GroupModel.

Section drain.
Context {T : Type} (I : mapimpl T).
(** for(x; x != end_nav(); ++x) erase(x), with the pair at x read before it is erased: the loop against which README.md:98 recommends the reverse
    order.  operator++ and operator!= are those of include/separate/iterator.hpp (84-100, 130-137; NavModel.vn_next, NavModel.vn_eq). *)
Fixpoint m_erase_from (fuel : nat) (t : T) (x : nav) : res (T * list (N * N)) :=
  e ← vn_eq (i_view I t) x end_nav;
  if (e : bool) then Ok (t, [])
  else match fuel with
       | O => Timeout
       | S f =>
           kv ← vn_read (i_view I t) x;
           r ← i_erase_at I t x;
           let '(t', _) := (r : T * N) in
           x' ← vn_next (i_view I t') x;
           rl ← m_erase_from f t' x';
           let '(t'', l) := (rl : T * list (N * N)) in
           Ok (t'', kv :: l)
       end.
End drain.
(** From begin_nav() on (compact_chaining_map.hpp:365-406; group_chaining.hpp, see GroupModel.g_begin); the fuel 64 is that of insertions, which do
    not occur. *)
Definition c_erase_forward (pf : platform) (c : ccfg) (fuel : nat) (t : cmap) : res (cmap * list (N * N)) :=
  x ← v_begin (c_view pf c t); m_erase_from (c_impl pf c 64) fuel t x.
Definition g_erase_forward (pf : platform) (c : gcfg) (fuel : nat) (t : gtable) : res (gtable * list (N * N)) :=
  x ← g_begin t; m_erase_from (g_impl pf c 64) fuel t x.
