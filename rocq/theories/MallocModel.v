(** Model of separate_chaining_table on a heap where malloc, realloc and _mm_malloc can fail.

    These functions report a failure by a null pointer, which the code stores without looking at it: bucket.hpp:18 (aligned_realloc),
    91 (_mm_malloc), 242, 254, 416, 423 (malloc, realloc), size.hpp:69 and separate_chaining_table.hpp:428 (malloc).
    A call is given the answers to its requests in their order (true: memory, false: null pointer; all requests after the last answer succeed)
    and returns the answers it did not use.
    Simplified: operator new (class_bucket, the arrays of buckets, the overflow tables) never fails here, see AllocModel.v; a block that a failed realloc keeps
    is not represented, it is lost with the pointer to it. *)
From Verif Require Export TableModel.

Notation answers := (list bool).
(** A request; [b]: is it made at all. *)
Definition ask (b : bool) (h : answers) : bool * answers :=
  if b then match h with [] => (true, []) | a :: h' => (a, h') end else (true, h).

(** Which buckets ask for memory with malloc, realloc or _mm_malloc (class_bucket: new[]; null_bucket: not at all). *)
Definition kind_asks (kd : bkind) : bool := match kd with KPlain _ | KAvx _ | KVar _ => true | KClass _ | KNull => false end.

Section malloc.
Context (pf : platform) (c : cfg).

(** initialize: bucket.hpp:89-92, 240-244, 414-419 *)
Definition m_initialize (kd : bkind) (len w : nat) (h : answers) : bucket * answers :=
  let '(ok, h) := ask (kind_asks kd) h in (if ok then b_initialize pf kd len w else None, h).

(** resize: bucket.hpp:253-256 and 421-427 store the null pointer (varwidth only asks if the block grows);
    aligned_realloc 16-29 copies the first old element through the null pointer, if there is one *)
Definition resize_asks (kd : bkind) (old new w : nat) : bool :=
  match kd with KVar iw => (cdiv (old * w) iw <? cdiv (new * w) iw)%nat | _ => kind_asks kd end.
Definition m_resize (kd : bkind) (b : bucket) (old new w : nat) (h : answers) : res (bucket * answers) :=
  b' ← b_resize pf kd b old new w;
  let '(ok, h) := ask (resize_asks kd old new w) h in
  if ok then Ok (b', h)
  else match kd with
       | KAvx _ => if (old =? 0)%nat then Ok (None, h) else Ub NullDeref
       | _ => Ok (None, h)
       end.

(** separate_chaining_table.hpp:421-431 reserve, first branch: std::fill writes to the arrays at once (size.hpp:70, 429) *)
Definition m_alloc_table (t : table) (n : N) (h : answers) : res (table * answers) :=
  t' ← alloc_table pf t n;
  let '(ok, h) := ask (c_arb c) h in
  if ok then let '(ok, h) := ask true h in if ok then Ok (t', h) else Ub NullDeref
  else Ub NullDeref.

(** 648-683: append (q, v) to bucket s *)
Definition m_push_slot (t : table) (s : slot) (q v : N) (h : answers) : res (slot * answers) :=
  let kw := N.to_nat (t_kw t) in
  r ← (if s_size s =? 0 then
         let '(k, h) := m_initialize (c_key c) 1 kw h in
         let '(w, h) := m_initialize (c_val c) 1 (vwidth t) h in
         Ok (Slot k w 1 (rs_store c 1), h)
       else
         let size := u8 (s_size s + 1) in
         if rs_needs_resize c (s_cap s) size then
           let newsize := rs_size_after c size in
           let old := N.to_nat (sub64 size 1) in
           r ← m_resize (c_key c) (s_keys s) old (N.to_nat newsize) (qwidth c t) h;
           let '(k, h) := (r : bucket * answers) in
           r ← m_resize (c_val c) (s_vals s) old (N.to_nat newsize) (vwidth t) h;
           let '(w, h) := (r : bucket * answers) in
           Ok (Slot k w size (rs_store c newsize), h)
         else Ok (Slot (s_keys s) (s_vals s) size (s_cap s), h));
  let '(s, h) := (r : slot * answers) in
  k ← b_write pf (c_key c) (s_keys s) (N.to_nat (sub64 (s_size s) 1)) q (qwidth c t);
  w ← b_write pf (c_val c) (s_vals s) (N.to_nat (sub64 (s_size s) 1)) v (vwidth t);
  Ok (Slot k w (s_size s) (s_cap s), h).

(** 442-455: one bucket of the rehash *)
Definition m_rehash_slot (ins : table -> N -> N -> answers -> res (table * nav * answers)) (t : table) (th : table * answers) (ib : nat * slot) : res (table * answers) :=
  let '(i, s) := ib in
  if s_size s =? 0 then
    _ ← b_free pf (c_key c) (s_keys s); _ ← b_free pf (c_val c) (s_vals s); Ok th
  else
    th ← rfold (fun '(tmp, h) j =>
        q ← b_read pf (c_key c) (s_keys s) j (qwidth c t);
        k ← hash_inv_map (hm c t) q (N.of_nat i) (t_b t);
        v ← b_read pf (c_val c) (s_vals s) j (vwidth t);
        r ← ins tmp k v h;
        Ok (fst (fst r), snd r)) (seq 0 (N.to_nat (s_size s))) th;
    _ ← clear_slot pf c s;
    Ok th.
(** 456-462: the elements of the overflow table *)
Fixpoint m_rehash_overflow (fuel : nat) (ins : table -> N -> N -> answers -> res (table * nav * answers)) (o : overflow) (i : N) (tmp : table) (h : answers) :
  res (table * answers) :=
  if ov_valid pf o i then
    match fuel with
    | O => Timeout
    | S f =>
        k ← ov_key pf (kbn c) o i;
        v ← ov_get pf (vbn c) o i;
        r ← ins tmp k v h;
        m_rehash_overflow f ins o (ov_next pf o i) (fst (fst r)) (snd r)
    end
  else Ok (tmp, h).

(** 416-468 reserve *)
Definition m_reserve_with (ins : table -> N -> N -> answers -> res (table * nav * answers)) (t : table) (n : N) (h : answers) : res (table * answers) :=
  if t_b t =? 0 then m_alloc_table t n h
  else
    bits ← reserve_bits n;
    th ← m_alloc_table (new_table pf c (t_kw t) (t_vw t)) (2^bits) h;
    match t_slots t with
    | None => Ub NullDeref
    | Some sl =>
        th ← rfold (m_rehash_slot ins t) (imap pair (take (N.to_nat (bucket_count t)) sl)) th;
        let '(tmp, h) := (th : table * answers) in
        th ← m_rehash_overflow (S (N.to_nat (ov_capacity (t_ov t)))) ins (t_ov t) (ov_first pf (t_ov t)) tmp h;
        _ ← ov_clear pf (kbn c) (vbn c) (t_ov t);
        Ok th
    end.

(** 610-684 find_or_insert *)
Fixpoint m_find_or_insert (fuel : nat) (t : table) (k v : N) (h : answers) : res (table * nav * answers) :=
  match fuel with
  | O => Timeout
  | S f =>
      th ← (if t_b t =? 0 then m_alloc_table t (N.min (sub64 (t_kw t) 1) 16) h else Ok (t, h));
      let '(t, h) := (th : table * answers) in
      qb ← hash_map (hm c t) k (t_b t);
      let '(q, bk) := (qb : N * N) in
      s ← get_slot t bk;
      pos ← locate_q pf c t bk q;
      match (pos : option N) with
      | Some p => Ok (t, (bk, p), h)
      | None =>
          consult ← ov_need_consult (t_ov t) bk;
          opos ← (if (consult : bool) then ov_find pf (kbn c) (t_ov t) k else Ok None);
          match (opos : option N) with
          | Some p => Ok (t, (bucket_count t, p), h)
          | None =>
              if s_size s =? c_maxb c then
                ov ← (if ov_size (t_ov t) <? ov_capacity (t_ov t)
                      then ov_insert pf (kbn c) (vbn c) (t_ov t) bk k (v mod 2^N.of_nat (vbn c)) else Ok (t_ov t, None));
                let '(o, opos) := (ov : overflow * option N) in
                let t := set_ov t o in
                match (opos : option N) with
                | Some p => Ok (set_n t (u64 (t_n t + 1)), (bucket_count t, p), h)
                | None =>
                    n ← shl64 1 (t_b t + 1);
                    th ← m_reserve_with (m_find_or_insert f) t n h;
                    let '(t, h) := (th : table * answers) in
                    m_find_or_insert f t k v h
                end
              else
                r ← m_push_slot t s q v h;
                let '(s, h) := (r : slot * answers) in
                Ok (set_slot (set_n t (u64 (t_n t + 1))) bk s, (bk, sub64 (s_size s) 1), h)
          end
      end
  end.

(** 416-468 reserve as called by the user *)
Definition m_reserve (fuel : nat) (t : table) (n : N) (h : answers) : res (table * answers) := m_reserve_with (m_find_or_insert fuel) t n h.

(** 181-193 shrink_to_fit(bucket) *)
Definition m_shrink_slot (t : table) (s : slot) (h : answers) : res (slot * answers) :=
  if s_size s =? 0 then Ok (s, h)
  else if rs_can_shrink c (s_cap s) (s_size s) then
    let n := N.to_nat (s_size s) in
    r ← m_resize (c_key c) (s_keys s) n n (qwidth c t) h;
    let '(k, h) := (r : bucket * answers) in
    r ← m_resize (c_val c) (s_vals s) n n (vwidth t) h;
    let '(v, h) := (r : bucket * answers) in
    Ok (Slot k v (s_size s) (rs_store c (s_size s)), h)
  else Ok (s, h).
(** 196-202 shrink_to_fit *)
Fixpoint m_shrink_slots (t : table) (sl : list slot) (h : answers) : res (list slot * answers) :=
  match sl with
  | [] => Ok ([], h)
  | s :: sl' =>
      r ← m_shrink_slot t s h;
      let '(s, h) := (r : slot * answers) in
      r ← m_shrink_slots t sl' h;
      let '(sl', h) := (r : list slot * answers) in
      Ok (s :: sl', h)
  end.
Definition m_shrink_to_fit (t : table) (h : answers) : res (table * answers) :=
  if t_b t =? 0 then Ok (t, h)
  else match t_slots t with
       | None => Ub NullDeref
       | Some sl =>
           let nb := N.to_nat (bucket_count t) in
           r ← m_shrink_slots t (take nb sl) h;
           let '(sl', h) := (r : list slot * answers) in
           Ok (Table (Some (sl' ++ drop nb sl)) (t_b t) (t_n t) (t_kw t) (t_vw t) (t_ov t), h)
       end.
End malloc.
