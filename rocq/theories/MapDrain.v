(** Processing and deleting the elements of compact_chaining_map and group_chaining_table from the back. *)
From Verif Require Import NavModel CompactModel GroupModel.

Section drain.
Context {T : Type} (I : mapimpl T).
(** for(x; x != rend_nav(); --x) erase(x) (README.md:98), with the pair at x read before it is erased.  operator-- and operator!= are those of
    include/separate/iterator.hpp (operator-- 101-124; NavModel.vn_prev, NavModel.vn_eq); rend_nav() is end_nav() (compact_chaining_map.hpp:357,
    group_chaining.hpp:1062). *)
Fixpoint m_drain_from (fuel : nat) (t : T) (x : nav) : res (T * list (N * N)) :=
  e ← vn_eq (i_view I t) x end_nav;
  if (e : bool) then Ok (t, [])
  else match fuel with
       | O => Timeout
       | S f =>
           kv ← vn_read (i_view I t) x;
           r ← i_erase_at I t x;
           let '(t', _) := (r : T * N) in
           x' ← vn_prev (i_view I t') x;
           rl ← m_drain_from f t' x';
           let '(t'', l) := (rl : T * list (N * N)) in
           Ok (t'', kv :: l)
       end.
End drain.
(** From rbegin_nav() on (compact_chaining_map.hpp:347-356, group_chaining.hpp:1036-1061); the fuel 64 is that of insertions, which do not occur. *)
Definition c_drain (pf : platform) (c : ccfg) (fuel : nat) (t : cmap) : res (cmap * list (N * N)) :=
  x ← v_rbegin (c_view pf c t); m_drain_from (c_impl pf c 64) fuel t x.
Definition g_drain (pf : platform) (c : gcfg) (fuel : nat) (t : gtable) : res (gtable * list (N * N)) :=
  x ← g_rbegin t; m_drain_from (g_impl pf c 64) fuel t x.
(** The same loop of group_chaining_table after one --rbegin_nav(). *)
Definition g_drain_prev (pf : platform) (c : gcfg) (fuel : nat) (t : gtable) : res (gtable * list (N * N)) :=
  x ← g_rbegin t; x ← vn_prev (g_view pf c t) x; m_drain_from (g_impl pf c 64) fuel t x.
