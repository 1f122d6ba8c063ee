(** Model of bucket_table on a heap where malloc, realloc and _mm_malloc can fail (see MallocModel.v): the operations that ask for memory.
    The others (find, erase, clear, move, swap) are those of BtModel.v.  Simplified as there: the new[] of class_bucket never fails. *)
From Verif Require Export BtModel MallocModel.

Section bt.
Context (pf : platform) (c : bcfg).
Let kd := bc_key c.
Let vd := bc_val c.
Let w := bc_width c.

(** bucket_table.hpp:342-378 find_or_insert *)
Definition mb_insert (t : btable) (key value : N) (h : answers) : res (btable * N * answers) :=
  if bt_init t then
    p ← bt_locate pf c t key;
    if p =? ones64 then
      let n := u32 (bt_n t + 1) in
      if st_needs_resize c (bt_len t) n then
        let '(newsize, len) := st_after_increment c (bt_len t) n in
        let old := N.to_nat (u32 (n + 2^32 - 1)) in
        r ← m_resize pf kd (bt_keys t) old (N.to_nat newsize) w h;
        let '(ks, h) := (r : bucket * answers) in
        r ← m_resize pf vd (bt_vals t) old (N.to_nat newsize) 0 h;
        let '(vs, h) := (r : bucket * answers) in
        x ← bt_last pf c (BT ks vs n len) key value; Ok (x, h)
      else x ← bt_last pf c (BT (bt_keys t) (bt_vals t) n (bt_len t)) key value; Ok (x, h)
    else Ok (t, p, h)
  else
    let '(ks, h) := m_initialize pf kd 1 w h in
    let '(vs, h) := m_initialize pf vd 1 (val_bits vd) h in
    x ← bt_last pf c (BT ks vs 1 (st_assign c (bt_len t) 1)) key value; Ok (x, h).

(** 183-190 shrink_to_fit: the pointers are stored whatever they are *)
Definition mb_shrink (t : btable) (h : answers) : res (btable * answers) :=
  if bt_init t then
    if bt_n t <? st_size c (bt_len t) (bt_n t) then
      r ← m_resize pf kd (bt_keys t) (N.to_nat (bt_n t)) (N.to_nat (bt_n t)) w h;
      let '(ks, h) := (r : bucket * answers) in
      r ← m_resize pf vd (bt_vals t) (N.to_nat (bt_n t)) (N.to_nat (bt_n t)) w h;
      let '(vs, h) := (r : bucket * answers) in
      Ok (BT ks vs (bt_n t) (st_assign c (bt_len t) (bt_n t)), h)
    else Ok (t, h)
  else Ok (t, h).
End bt.
