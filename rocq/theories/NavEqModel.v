(** iterator.hpp:130-134, 183-186 operator== for two iterators that may belong to different tables: m_map is not compared.
    For iterators of one table this is TableModel.nav_eq. *)
From Verif Require Export TableModel.

Section eq2.
Context (pf : platform).
Definition nav_eq2 (t t' : table) (x y : nav) : res bool :=
  iy ← nav_invalid pf t' y; ix ← nav_invalid pf t x;
  if negb iy && negb ix then Ok ((fst x =? fst y) && (snd x =? snd y)) else Ok (eqb iy ix).
End eq2.
