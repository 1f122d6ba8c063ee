(** Model of include/separate/compact_chaining_map.hpp (NDEBUG: the members and statements under ON_DEBUG are absent). *)
From Verif Require Export NavModel.

(** Template arguments: the hash mapping, bits of its key_type and of its storage_type, bits of storage_t
    (storage_bitwidth, 75). *)
Record ccfg := CCfg { cc_hash : hkind; cc_keybits : N; cc_hbits : N; cc_sb : nat }.

(** m_storage[i] and m_bucketsizes[i].  A block holds the quotients followed by the values. *)
Record cslot := CSlot { cs_data : option bits; cs_size : N }.
(** The members (100-110).  cm_slots = None means m_bucketsizes == nullptr; m_storage is only used together with
    m_bucketsizes.  m_hash is always the mapping constructed for m_key_width. *)
Record cmap := CMap { cm_slots : option (list cslot); cm_b : N; cm_n : N; cm_kw : N; cm_vw : N }.

(** 9-24 write_compact_int, read_compact_int on a block of elements of [sb] bits *)
Definition c_write (pf : platform) (sb : nat) (d : option bits) (pos w : nat) (x : N) : res (option bits) :=
  match d with
  | None => Ub NullDeref
  | Some l => l ← write_int pf l (pos / sb * sb)%nat (pos mod sb)%nat w x; Ok (Some l)
  end.
Definition c_read (pf : platform) (sb : nat) (d : option bits) (pos w : nat) : res N :=
  match d with
  | None => Ub NullDeref
  | Some l => read_int pf l (pos / sb * sb)%nat (pos mod sb)%nat w
  end.
(** Reading a field and writing it to another place (508-514, 676, 690-704) *)
Definition c_move (pf : platform) (sb w : nat) (d : option bits) (ft : nat * nat) : res (option bits) :=
  x ← c_read pf sb d (fst ft) w; c_write pf sb d (snd ft) w x.

Section compact.
Context (pf : platform) (c : ccfg).
Notation sb := (cc_sb c).

Definition chm (kw : N) : hmap := HMap (cc_hash c) kw (cc_keybits c) (cc_hbits c).
(** m_hash.remainder_width(m_buckets), value_width() *)
Definition cqw (t : cmap) : nat := N.to_nat (remainder_width (chm (cm_kw t)) (cm_b t)).
Definition cvw (t : cmap) : nat := N.to_nat (cm_vw t).

(** 212-222 constructor *)
Definition c_new (kw vw : N) : cmap := CMap None 0 0 kw vw.
(** 198-201 bucket_count, 193-195 max_bucket_size *)
Definition c_bucket_count (t : cmap) : N := if cm_b t =? 0 then 0 else 2^(cm_b t).
Definition c_max_bucket : N := 255.
(** 170-191 max_key, max_value (for widths 1..64), size, max_size; 119 capacity *)
Definition c_max_key (t : cmap) : N := N.shiftr ones64 (64 - cm_kw t).
Definition c_max_value (t : cmap) : N := N.shiftr ones64 (64 - cm_vw t).
Definition c_size (t : cmap) : N := cm_n t.
Definition c_capacity (t : cmap) : N := cm_n t.
Definition c_max_size (t : cmap) : N := u64 (c_max_bucket * c_bucket_count t).

Definition c_slot (t : cmap) (bk : N) : res cslot :=
  match cm_slots t with
  | None => Ub NullDeref
  | Some sl => if bk <? N.of_nat (length sl) then of_option OobRead (sl !! N.to_nat bk) else Ub OobRead
  end.
Definition c_set (t : cmap) (bk : N) (s : cslot) : cmap :=
  CMap ((fun sl => <[N.to_nat bk := s]> sl) <$> cm_slots t) (cm_b t) (cm_n t) (cm_kw t) (cm_vw t).
Definition c_set_n (t : cmap) (n : N) : cmap := CMap (cm_slots t) (cm_b t) n (cm_kw t) (cm_vw t).

(** 208-210 bucket_size *)
Definition c_bucket_size (t : cmap) (bk : N) : res N := s ← c_slot t bk; Ok (cs_size s).

(** delete[] of a block obtained from malloc or realloc: a mismatch unless the allocator tolerates it *)
Definition c_delete (d : option bits) : res unit :=
  match d with None => Ok tt | Some _ => if loose_free pf then Ok tt else Ub BadFree end.
(** 122-133 clear(bucket) *)
Definition c_clear_slot (s : cslot) : res cslot := _ ← c_delete (cs_data s); Ok (CSlot None 0).
(** 140-150 clear_structure: delete[] m_storage on the malloc'd array, free(m_bucketsizes) *)
Definition c_clear_structure (t : cmap) : res cmap :=
  _ ← (match cm_slots t with None => Ok tt | Some _ => if loose_free pf then Ok tt else Ub BadFree end);
  Ok (CMap None 0 0 (cm_kw t) (cm_vw t)).
(** 155-164 clear *)
Definition c_clear (t : cmap) : res cmap :=
  match cm_slots t with
  | None => Ok t
  | Some sl =>
      let nb := N.to_nat (c_bucket_count t) in
      sl' ← rmap (fun s => if cs_size s =? 0 then Ok s else c_clear_slot s) (take nb sl);
      c_clear_structure (CMap (Some (sl' ++ drop nb sl)) (cm_b t) (cm_n t) (cm_kw t) (cm_vw t))
  end.

(** 419-432 quotient_at, 438-449 value_at, 451-463 write_quotient, 465-476 write_value, on one bucket *)
Definition cs_quot (s : cslot) (pos qw : nat) : res N := c_read pf sb (cs_data s) (pos * qw) qw.
Definition cs_value (s : cslot) (pos qw vw : nat) : res N :=
  c_read pf sb (cs_data s) (N.to_nat (cs_size s) * qw + pos * vw) vw.
Definition cs_set_quot (s : cslot) (pos qw : nat) (q : N) : res cslot :=
  d ← c_write pf sb (cs_data s) (pos * qw) qw q; Ok (CSlot d (cs_size s)).
Definition cs_set_value (s : cslot) (pos qw vw : nat) (v : N) : res cslot :=
  d ← c_write pf sb (cs_data s) (N.to_nat (cs_size s) * qw + pos * vw) vw v; Ok (CSlot d (cs_size s)).

Definition c_quotient_at (t : cmap) (bk pos qw : N) : res N :=
  s ← c_slot t bk; cs_quot s (N.to_nat pos) (N.to_nat qw).
Definition c_value_at (t : cmap) (bk pos : N) : res N :=
  s ← c_slot t bk; cs_value s (N.to_nat pos) (cqw t) (cvw t).
Definition c_write_value (t : cmap) (x : nav) (v : N) : res cmap :=
  let '(bk, pos) := x in
  s ← c_slot t bk; s ← cs_set_value s (N.to_nat pos) (cqw t) (cvw t) v; Ok (c_set t bk s).

(** 479-488 realloc_bucket: the block of s, which holds s_size elements from now on and [old] before.
    realloc(p, 0) releases the block and returns a null pointer (glibc). *)
Definition cs_realloc (s : cslot) (old w : nat) : cslot :=
  let new := N.to_nat (cs_size s) in
  if (cdiv (old * w) sb =? cdiv (new * w) sb)%nat then s
  else CSlot (if (cdiv (new * w) sb =? 0)%nat then None
              else Some (realloc_bits pf (default [] (cs_data s)) (sb * cdiv (new * w) sb))) (cs_size s).

(** 490-522 enlarge_storage: one more element; the values move to their new places, the last one first *)
Definition cs_enlarge (s : cslot) (qw vw : nat) : res cslot :=
  let old := N.to_nat (cs_size s) in
  let s := CSlot (cs_data s) (u8 (cs_size s + 1)) in
  let s := cs_realloc s (N.to_nat (sub64 (cs_size s) 1)) (qw + vw) in
  d ← rfold (c_move pf sb vw)
        (map (fun i => (old * qw + (old - i) * vw, N.to_nat (cs_size s) * qw + (old - i) * vw)%nat) (seq 1 old))
        (cs_data s);
  Ok (CSlot d (cs_size s)).

(** 525-554 locate(bucket, quotient); None is -1ULL *)
Fixpoint c_find_from (s : cslot) (i n qw : nat) (q : N) : res (option N) :=
  match n with
  | O => Ok None
  | S n' =>
      r ← cs_quot s i qw;
      if r =? q then Ok (Some (N.of_nat i)) else c_find_from s (S i) n' qw q
  end.
Definition c_locate_q (t : cmap) (bk q : N) : res (option N) :=
  s ← c_slot t bk; c_find_from s 0 (N.to_nat (cs_size s)) (cqw t) q.

(** 297-316 reserve, first branch (m_buckets == 0) *)
Definition c_alloc (t : cmap) (n : N) : res cmap :=
  bits ← reserve_bits n;
  Ok (CMap (Some (replicate (N.to_nat (2^bits)) (CSlot None 0))) bits (cm_n t) (cm_kw t) (cm_vw t)).
(** 328-342: one bucket of the rehashing loop; [ins] stands for tmp_map.find_or_insert *)
Definition c_rehash_slot (ins : cmap -> N -> N -> res (cmap * nav)) (t tmp : cmap) (ib : nat * cslot) : res cmap :=
  let '(i, s) := ib in
  if cs_size s =? 0 then Ok tmp
  else
    tmp ← rfold (fun tmp j =>
        q ← cs_quot s j (cqw t);
        k ← hash_inv_map (chm (cm_kw t)) q (N.of_nat i) (cm_b t);
        v ← cs_value s j (cqw t) (cvw t);
        r ← ins tmp k v;
        Ok (fst r)) (seq 0 (N.to_nat (cs_size s))) tmp;
    _ ← c_clear_slot s;
    Ok tmp.
(** 297-346 reserve *)
Definition c_reserve_with (ins : cmap -> N -> N -> res (cmap * nav)) (t : cmap) (n : N) : res cmap :=
  if cm_b t =? 0 then c_alloc t n
  else
    bits ← reserve_bits n;
    tmp ← c_alloc (c_new (cm_kw t) (cm_vw t)) (2^bits);
    match cm_slots t with
    | None => Ub NullDeref
    | Some sl =>
        tmp ← rfold (c_rehash_slot ins t) (imap pair (take (N.to_nat (c_bucket_count t)) sl)) tmp;
        _ ← c_clear_structure t;
        Ok tmp
    end.

(** 568-615 find_or_insert.  [fuel] bounds the depth of the recursion through reserve. *)
Fixpoint c_find_or_insert (fuel : nat) (t : cmap) (k v : N) : res (cmap * nav) :=
  match fuel with
  | O => Timeout
  | S f =>
      t ← (if cm_b t =? 0 then c_alloc t (N.min (sub64 (cm_kw t) 1) 16) else Ok t);
      qb ← hash_map (chm (cm_kw t)) k (cm_b t);
      let '(q, bk) := (qb : N * N) in
      s ← c_slot t bk;
      pos ← c_locate_q t bk q;
      match (pos : option N) with
      | Some p => Ok (t, (bk, p))
      | None =>
          if cs_size s =? c_max_bucket then
            n ← shl64 1 (cm_b t + 1);
            t ← c_reserve_with (c_find_or_insert f) t n;
            c_find_or_insert f t k v
          else
            let former := N.to_nat (cs_size s) in
            s ← cs_enlarge s (cqw t) (cvw t);
            s ← cs_set_quot s former (cqw t) q;
            s ← cs_set_value s former (cqw t) (cvw t) v;
            Ok (c_set (c_set_n t (u64 (cm_n t + 1))) bk s, (bk, sub64 (cs_size s) 1))
      end
  end.
Definition c_reserve (fuel : nat) (t : cmap) (n : N) : res cmap := c_reserve_with (c_find_or_insert fuel) t n.

(** 408-418 find *)
Definition c_find (t : cmap) (k : N) : res nav :=
  if cm_b t =? 0 then Ok end_nav
  else
    qb ← hash_map (chm (cm_kw t)) k (cm_b t);
    let '(q, bk) := (qb : N * N) in
    pos ← c_locate_q t bk q;
    match (pos : option N) with Some p => Ok (bk, p) | None => Ok end_nav end.
(** 560-566 locate(key) *)
Definition c_locate (t : cmap) (k : N) : res (N * option N) :=
  if cm_b t =? 0 then Throw
  else
    qb ← hash_map (chm (cm_kw t)) k (cm_b t);
    let '(q, bk) := (qb : N * N) in
    pos ← c_locate_q t bk q; Ok (bk, pos).

(** 629-712 erase(bucket, position), on one bucket: quotients after the position move down (674-677), then the
    values before (690-696) and after (697-704) the position *)
Definition cs_erase (s : cslot) (pos qw vw : nat) : res cslot :=
  let n := N.to_nat (cs_size s) in
  d ← rfold (c_move pf sb qw) (map (fun i => (i * qw, (i - 1) * qw)%nat) (seq (pos + 1) (n - (pos + 1)))) (cs_data s);
  d ← rfold (c_move pf sb vw) (map (fun i => (n * qw + i * vw, (n - 1) * qw + i * vw)%nat) (seq 0 pos)) d;
  d ← rfold (c_move pf sb vw) (map (fun i => (n * qw + i * vw, (n - 1) * qw + (i - 1) * vw)%nat) (seq (pos + 1) (n - (pos + 1)))) d;
  let s := cs_realloc (CSlot d (sub8 (cs_size s) 1)) (N.to_nat (sub8 (cs_size s) 1) + 1) (qw + vw) in
  if cs_size s =? 0 then c_clear_slot s else Ok s.
Definition c_erase_at (t : cmap) (x : nav) : res (cmap * N) :=
  let '(bk, pos) := x in
  if pos =? ones64 then Ok (t, 0)
  else
    s ← c_slot t bk;
    s ← cs_erase s (N.to_nat pos) (cqw t) (cvw t);
    Ok (c_set (c_set_n t (sub64 (cm_n t) 1)) bk s, 1).
(** 716-721 erase(key) *)
Definition c_erase (t : cmap) (k : N) : res (cmap * N) :=
  if cm_b t =? 0 then Ok (t, 0)
  else
    l ← c_locate t k;
    let '(bk, pos) := (l : N * option N) in
    c_erase_at t (bk, match pos with Some p => p | None => ones64 end).

(** What iterator.hpp sees of the map; storage_type is storage_t (74) *)
Definition c_view (t : cmap) : view :=
  View (c_bucket_count t) (c_bucket_size t) (c_quotient_at t) (c_value_at t) (chm (cm_kw t)) (cm_b t) (N.of_nat sb).
Definition c_impl (fuel : nat) : mapimpl cmap :=
  Impl c_view c_find (c_find_or_insert fuel) c_write_value c_erase c_erase_at c_size (c_reserve fuel) c_clear.

(** 365-406 begin, cbegin, begin_nav, cbegin_nav; 347-356 rbegin_nav; loops over the map *)
Definition c_forward (fuel : nat) (t : cmap) : res (list (N * N)) :=
  x ← v_begin (c_view t); v_iterate (c_view t) fuel x.
Definition c_backward (fuel : nat) (t : cmap) : res (list (N * N)) :=
  x ← v_rbegin (c_view t); v_iterate_rev (c_view t) fuel x.

(** 624 destructor *)
Definition c_destroy (t : cmap) : res unit := _ ← c_clear t; Ok tt.
(** 241-259 a = std::move(other): the new a and what is left of other (m_buckets and m_elements are not reset) *)
Definition c_move_assign (a other : cmap) : res (cmap * cmap) :=
  _ ← c_clear a;
  Ok (other, CMap None (cm_b other) (cm_n other) (cm_kw other) (cm_vw other)).
(** 260-274 a.swap(other) *)
Definition c_swap (a other : cmap) : cmap * cmap := (other, a).
End compact.
