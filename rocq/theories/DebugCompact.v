(** Model of the debug build (NDEBUG not defined) of include/separate/compact_chaining_map.hpp: the release functions of
    CompactModel with the DDCHECK checks and the ON_DEBUG members.  A failing check is [Throw], as in DebugModel. *)
From Verif Require Export CompactModel DebugModel.
#[local] Open Scope nat_scope.

(** ** One bucket *)
(** A bucket with m_large_storage[i], m_plainkeys[i], m_plainvalues[i] (95-98; None is a null pointer, a cell that has
    not been written is None) and m_storagesizes[i] (101). *)
Record xslot := XSlot { x_s : cslot; x_large : option (list (option N)); x_keys : option (list (option N));
  x_vals : option (list (option N)); x_bits : nat }.
Definition x_none : xslot := XSlot (CSlot None 0) None None None 0.
(** Reading and writing a cell of one of the arrays *)
Definition xcell (l : option (list (option N))) (i : nat) : res N :=
  match l with None => Ub NullDeref | Some l => x ← of_option OobRead (l !! i); of_option Indeterminate x end.
Definition xput (l : option (list (option N))) (i : nat) (v : N) : res (option (list (option N))) :=
  match l with None => Ub NullDeref | Some l => if i <? length l then Ok (Some (<[i := Some v]> l)) else Ub OobWrite end.
(** realloc of such an array to n cells; realloc(p, 0) releases it *)
Definition xrealloc (l : option (list (option N))) (n : nat) : option (list (option N)) :=
  if n =? 0 then None else Some (take n (default [] l) ++ replicate (n - length (default [] l)) None).

Section slot.
Context (pf : platform) (c : ccfg).
Notation sb := (cc_sb c).
Notation size s := (N.to_nat (cs_size (x_s s))).

(** 420, 454 *)
Definition xq_place (s : xslot) (pos qw : nat) : bool :=
  pos * qw / sb + pos * qw mod sb <? sb * cdiv (size s * qw) sb.
(** 419-432 quotient_at *)
Definition xs_quot (s : xslot) (pos qw : nat) : res N :=
  _ ← chk (xq_place s pos qw);
  _ ← chk (pos * qw + qw <=? x_bits s);
  r ← cs_quot pf c (x_s s) pos qw;
  l ← xcell (x_large s) pos;
  _ ← chk (r =? l)%N;
  Ok r.
(** 438-449 value_at *)
Definition xs_value (s : xslot) (pos qw vw : nat) : res N :=
  _ ← chk (size s * qw + pos * vw + vw <=? x_bits s);
  r ← cs_value pf c (x_s s) pos qw vw;
  l ← xcell (x_large s) (size s + pos);
  _ ← chk (r =? l)%N;
  p ← xcell (x_vals s) pos;
  _ ← chk (r =? p)%N;
  Ok r.
(** 451-463 write_quotient *)
Definition xs_set_quot (s : xslot) (pos qw : nat) (q : N) : res xslot :=
  large ← xput (x_large s) pos q;
  _ ← chk (xq_place s pos qw);
  _ ← chk (most_significant_bit q <=? Z.of_nat qw)%Z;
  _ ← chk (pos * qw + qw <=? x_bits s);
  s' ← cs_set_quot pf c (x_s s) pos qw q;
  r ← cs_quot pf c s' pos qw;
  _ ← chk (r =? q)%N;
  Ok (XSlot s' large (x_keys s) (x_vals s) (x_bits s)).
(** 465-476 write_value: the value itself is not checked *)
Definition xs_set_value (s : xslot) (pos qw vw : nat) (v : N) : res xslot :=
  large ← xput (x_large s) (size s + pos) v;
  _ ← chk (size s * qw + pos * vw + vw <=? x_bits s);
  s' ← cs_set_value pf c (x_s s) pos qw vw v;
  vals ← xput (x_vals s) pos v;
  Ok (XSlot s' large (x_keys s) vals (x_bits s)).
(** 479-488 realloc_bucket *)
Definition xs_realloc (s : xslot) (old w : nat) : xslot :=
  XSlot (cs_realloc pf c (x_s s) old w) (xrealloc (x_large s) (2 * size s)) (x_keys s) (x_vals s) (sb * cdiv (size s * w) sb).
(** 508-514, 690-704: moving a value, with the check of the place it goes to *)
Definition x_move (lim vw : nat) (d : option bits) (ft : nat * nat) : res (option bits) :=
  x ← c_read pf sb d (fst ft) vw;
  _ ← chk (snd ft + vw <=? lim);
  c_write pf sb d (snd ft) vw x.

(** 499-502: the cells old, ..., 2*old-1 of m_large_storage[i] move up by one *)
Definition large_up (old : nat) (l : list (option N)) : list (option N) :=
  take (old + 1) l ++ take old (drop old l) ++ drop (2 * old + 1) l.
(** 490-522 enlarge_storage *)
Definition xs_enlarge (s : xslot) (qw vw : nat) : res xslot :=
  let old := size s in
  _ ← chk (old <? 255);
  let s := XSlot (CSlot (cs_data (x_s s)) (u8 (cs_size (x_s s) + 1))) (x_large s) (x_keys s) (x_vals s) (x_bits s) in
  let s := xs_realloc s (N.to_nat (sub64 (cs_size (x_s s)) 1)) (qw + vw) in
  let large := large_up old <$> x_large s in
  d ← rfold (x_move (x_bits s) vw)
        (map (fun i => (old * qw + (old - i) * vw, size s * qw + (old - i) * vw)) (seq 1 old))
        (cs_data (x_s s));
  let s := XSlot (CSlot d (cs_size (x_s s))) large (x_keys s) (x_vals s) (x_bits s) in
  _ ← rfold (fun _ i => _ ← xs_quot s i qw; _ ← xs_value s i qw vw; Ok tt) (seq 0 old) tt;
  Ok (XSlot (x_s s) (x_large s) (xrealloc (x_keys s) (size s)) (xrealloc (x_vals s) (size s)) (x_bits s)).

(** 597-602, 644-649, 671-676: the bucket agrees with the plain copies; h, bk, b are the mapping, the bucket and
    m_buckets *)
Definition xs_agree (h : hmap) (bk b : N) (s : xslot) (qw vw : nat) : res unit :=
  rfold (fun _ i =>
      q ← xs_quot s i qw;
      k ← dhash_inv_map h q bk b;
      pk ← xcell (x_keys s) i;
      _ ← chk (k =? pk)%N;
      v ← xs_value s i qw vw;
      pv ← xcell (x_vals s) i;
      chk (v =? pv)%N) (seq 0 (size s)) tt.

(** 653-657: the cells behind pos of a plain copy move down *)
Definition plain_down (pos n : nat) (l : list (option N)) : list (option N) :=
  if pos <? n then take pos l ++ take (n - 1 - pos) (drop (S pos) l) ++ drop (n - 1) l else l.
(** 678-686: the values in m_large_storage[i] before pos move down by one, the ones behind by two *)
Definition large_down (pos n : nat) (l : option (list (option N))) : res (option (list (option N))) :=
  if n <? pos then Ub OobRead
  else Ok ((fun l => take (n - 1) l ++ take pos (drop n l) ++ take (n - 1 - pos) (drop (n + pos + 1) l)
                     ++ drop (n - 1 + pos + (n - 1 - pos)) l) <$> l).
(** 122-133 clear(bucket): delete[] on blocks of realloc *)
Definition xs_clear (s : xslot) : res xslot :=
  _ ← (match x_large s with None => Ok tt | Some _ => if loose_free pf then Ok tt else Ub BadFree end);
  d ← c_clear_slot pf (x_s s);
  Ok (XSlot d None None None 0).
(** 640-712 erase(bucket, position) *)
Definition xs_erase (h : hmap) (bk b : N) (s : xslot) (pos qw vw : nat) : res xslot :=
  let n := size s in
  _ ← xs_agree h bk b s qw vw;
  let s := XSlot (x_s s) (x_large s) (plain_down pos n <$> x_keys s) (plain_down pos n <$> x_vals s) (x_bits s) in
  s ← rfold (fun s i => q ← xs_quot s i qw; xs_set_quot s (i - 1) qw q) (seq (pos + 1) (n - (pos + 1))) s;
  large ← large_down pos n (x_large s);
  d ← rfold (x_move (x_bits s) vw) (map (fun i => (n * qw + i * vw, (n - 1) * qw + i * vw)) (seq 0 pos)) (cs_data (x_s s));
  d ← rfold (x_move (x_bits s) vw) (map (fun i => (n * qw + i * vw, (n - 1) * qw + (i - 1) * vw)) (seq (pos + 1) (n - (pos + 1)))) d;
  _ ← chk (0 <? n);
  let s := xs_realloc (XSlot (CSlot d (sub8 (cs_size (x_s s)) 1)) large (x_keys s) (x_vals s) (x_bits s)) (N.to_nat (sub8 (cs_size (x_s s)) 1) + 1) (qw + vw) in
  _ ← xs_agree h bk b s qw vw;
  if (cs_size (x_s s) =? 0)%N then xs_clear s else Ok s.
End slot.
#[local] Close Scope nat_scope.

(** ** The map *)
Record xmap := XMap { xm_slots : option (list xslot); xm_b : N; xm_n : N; xm_kw : N; xm_vw : N }.
Definition xstrip (t : xmap) : cmap := CMap ((fun sl => map x_s sl) <$> xm_slots t) (xm_b t) (xm_n t) (xm_kw t) (xm_vw t).

Section map.
Context (pf : platform) (c : ccfg).
Notation hm t := (chm c (xm_kw t)).
Notation qw t := (cqw c (xstrip t)).
Notation vw t := (cvw (xstrip t)).
Notation count t := (c_bucket_count (xstrip t)).

(** 212-222 constructor (value_type is uint64_t); the hash function checks its width *)
Definition x_new (kw vw : N) : res xmap :=
  _ ← dhash_new (cc_hash c) (u8 kw);
  _ ← chk (1 <=? u8 vw); _ ← chk (u8 vw <=? 64); _ ← chk (1 <=? u8 kw); _ ← chk (u8 kw <=? cc_keybits c);
  Ok (XMap None 0 0 (u8 kw) (u8 vw)).

Definition x_slot (t : xmap) (bk : N) : res xslot :=
  match xm_slots t with
  | None => Ub NullDeref
  | Some sl => if bk <? N.of_nat (length sl) then of_option OobRead (sl !! N.to_nat bk) else Ub OobRead
  end.
Definition x_set (t : xmap) (bk : N) (s : xslot) : xmap :=
  XMap ((fun sl => <[N.to_nat bk := s]> sl) <$> xm_slots t) (xm_b t) (xm_n t) (xm_kw t) (xm_vw t).
Definition x_set_n (t : xmap) (n : N) : xmap := XMap (xm_slots t) (xm_b t) n (xm_kw t) (xm_vw t).
(** remainder_width(m_buckets), whose check value_at and write_value make *)
Definition x_rw (t : xmap) : res unit := _ ← dremainder_width (hm t) (xm_b t); Ok tt.
(** ... with DDCHECK_GT(key_bitwidth, 0) and DDCHECK_LE(key_bitwidth, key_width()) *)
Definition x_width (t : xmap) : res unit :=
  w ← dremainder_width (hm t) (xm_b t); _ ← chk (0 <? w); chk (w <=? xm_kw t).

(** 208-210 bucket_size, 419-449 quotient_at, value_at, for the iterators: with the checks of iterator.hpp that guard
    their use, 46-49 and the ones of inv_map for quotient_at, 60 for value_at, 90 and 111 for bucket_size. *)
Definition x_bucket_size (t : xmap) (bk : N) : res N :=
  _ ← chk (bk <? count t); s ← x_slot t bk; Ok (cs_size (x_s s)).
Definition x_valid (t : xmap) (bk pos : N) : res unit := n ← x_bucket_size t bk; chk (pos <? n).
Definition x_quotient_at (t : xmap) (bk pos qw : N) : res N :=
  _ ← x_valid t bk pos;
  _ ← x_width t;
  s ← x_slot t bk;
  q ← xs_quot pf c s (N.to_nat pos) (N.to_nat qw);
  _ ← dhash_inv_map (hm t) (q mod 2^N.of_nat (cc_sb c)) bk (xm_b t);
  Ok q.
Definition x_value_at (t : xmap) (bk pos : N) : res N :=
  _ ← x_valid t bk pos;
  _ ← x_rw t;
  s ← x_slot t bk; xs_value pf c s (N.to_nat pos) (qw t) (vw t).
Definition x_view (t : xmap) : view :=
  View (count t) (x_bucket_size t) (x_quotient_at t) (x_value_at t) (hm t) (xm_b t) (N.of_nat (cc_sb c)).
(** 465-476 write_value *)
Definition x_write_value (t : xmap) (x : nav) (v : N) : res xmap :=
  let '(bk, pos) := x in
  _ ← x_rw t;
  s ← x_slot t bk; s ← xs_set_value pf c s (N.to_nat pos) (qw t) (vw t) v; Ok (x_set t bk s).

(** 140-150 clear_structure (m_large_storage is released like m_storage), 155-164 clear *)
Definition x_clear_structure (t : xmap) : res xmap :=
  _ ← (match xm_slots t with None => Ok tt | Some _ => if loose_free pf then Ok tt else Ub BadFree end);
  Ok (XMap None 0 0 (xm_kw t) (xm_vw t)).
Definition x_clear (t : xmap) : res xmap :=
  match xm_slots t with
  | None => Ok t
  | Some sl =>
      let nb := N.to_nat (count t) in
      sl' ← rmap (fun s => if cs_size (x_s s) =? 0 then Ok s else xs_clear pf s) (take nb sl);
      x_clear_structure (XMap (Some (sl' ++ drop nb sl)) (xm_b t) (xm_n t) (xm_kw t) (xm_vw t))
  end.

(** 533-542: the loop of locate *)
Fixpoint x_find_from (t : xmap) (bk : N) (s : xslot) (i n : nat) (q : N) : res (option N) :=
  match n with
  | O => Ok None
  | S n' =>
      r ← xs_quot pf c s i (qw t);
      k ← dhash_inv_map (hm t) r bk (xm_b t);
      pk ← xcell (x_keys s) i;
      _ ← chk (k =? pk);
      if r =? q then Ok (Some (N.of_nat i)) else x_find_from t bk s (S i) n' q
  end.
(** 525-554 locate(bucket, quotient) *)
Definition x_locate_q (t : xmap) (bk q : N) : res (option N) :=
  _ ← x_width t;
  _ ← chk (most_significant_bit q <=? Z.of_nat (qw t))%Z;
  s ← x_slot t bk;
  pos ← x_find_from t bk s 0 (N.to_nat (cs_size (x_s s))) q;
  _ ← chk (match (pos : option N) with Some p => p <? cs_size (x_s s) | None => true end);
  Ok pos.
(** map(key) with DDCHECK_EQ(m_hash.inv_map(quotient, bucket, m_buckets), key) (411, 563, 572) *)
Definition x_map (t : xmap) (k : N) : res (N * N) :=
  qb ← dhash_map (hm t) k (xm_b t);
  x ← dhash_inv_map (hm t) (fst qb) (snd qb) (xm_b t);
  _ ← chk (x =? k);
  Ok qb.

(** 297-316 reserve, first branch (m_buckets == 0) *)
Definition x_alloc (t : xmap) (n : N) : res xmap :=
  bits ← reserve_bits n;
  Ok (XMap (Some (replicate (N.to_nat (2^bits)) x_none)) bits (xm_n t) (xm_kw t) (xm_vw t)).
(** 328-342: one bucket of the rehashing loop *)
Definition x_rehash_slot (ins : xmap -> N -> N -> res (xmap * nav)) (t tmp : xmap) (ib : nat * xslot) : res xmap :=
  let '(i, s) := ib in
  if cs_size (x_s s) =? 0 then Ok tmp
  else
    tmp ← rfold (fun tmp j =>
        q ← xs_quot pf c s j (qw t);
        k ← dhash_inv_map (hm t) q (N.of_nat i) (xm_b t);
        pk ← xcell (x_keys s) j;
        _ ← chk (k =? pk);
        v ← xs_value pf c s j (qw t) (vw t);
        pv ← xcell (x_vals s) j;
        _ ← chk (v =? pv);
        r ← ins tmp k v;
        Ok (fst r)) (seq 0 (N.to_nat (cs_size (x_s s)))) tmp;
    _ ← xs_clear pf s;
    Ok tmp.
(** 297-346 reserve *)
Definition x_reserve_with (ins : xmap -> N -> N -> res (xmap * nav)) (t : xmap) (n : N) : res xmap :=
  if xm_b t =? 0 then x_alloc t n
  else
    bits ← reserve_bits n;
    _ ← x_new (xm_kw t) (xm_vw t);
    tmp ← x_alloc (XMap None 0 0 (xm_kw t) (xm_vw t)) (2^bits);
    _ ← x_width t;
    match xm_slots t with
    | None => Ub NullDeref
    | Some sl =>
        tmp ← rfold (x_rehash_slot ins t) (imap pair (take (N.to_nat (count t)) sl)) tmp;
        _ ← x_clear_structure t;
        Ok tmp
    end.

(** 588-603: a new element at the end of a bucket *)
Definition x_push (t : xmap) (bk q k v : N) (s : xslot) : res xslot :=
  let former := N.to_nat (cs_size (x_s s)) in
  _ ← x_width t;
  s ← xs_enlarge pf c s (qw t) (vw t);
  s ← xs_set_quot pf c s former (qw t) q;
  s ← xs_set_value pf c s former (qw t) (vw t) v;
  keys ← xput (x_keys s) former k;
  vals ← xput (x_vals s) former v;
  let s := XSlot (x_s s) (x_large s) keys vals (x_bits s) in
  _ ← xs_agree pf c (hm t) bk (xm_b t) s (qw t) (vw t);
  Ok s.
(** 568-615 find_or_insert *)
Fixpoint x_find_or_insert (fuel : nat) (t : xmap) (k v : N) : res (xmap * nav) :=
  match fuel with
  | O => Timeout
  | S f =>
      _ ← chk (1 <? xm_kw t);
      t ← (if xm_b t =? 0 then x_alloc t (N.min (sub64 (xm_kw t) 1) 16) else Ok t);
      qb ← x_map t k;
      let '(q, bk) := (qb : N * N) in
      s ← x_slot t bk;
      pos ← x_locate_q t bk q;
      match (pos : option N) with
      | Some p => _ ← chk (p <? cs_size (x_s s)); Ok (t, (bk, p))
      | None =>
          if cs_size (x_s s) =? c_max_bucket then
            n ← shl64 1 (xm_b t + 1);
            t ← x_reserve_with (x_find_or_insert f) t n;
            x_find_or_insert f t k v
          else
            s ← x_push t bk q k v s;
            Ok (x_set (x_set_n t (u64 (xm_n t + 1))) bk s, (bk, sub64 (cs_size (x_s s)) 1))
      end
  end.
Definition x_reserve (fuel : nat) (t : xmap) (n : N) : res xmap := x_reserve_with (x_find_or_insert fuel) t n.

(** 408-418 find *)
Definition x_find (t : xmap) (k : N) : res nav :=
  if xm_b t =? 0 then Ok end_nav
  else
    qb ← x_map t k;
    let '(q, bk) := (qb : N * N) in
    pos ← x_locate_q t bk q;
    match (pos : option N) with Some p => Ok (bk, p) | None => Ok end_nav end.
(** 560-566 locate(key) *)
Definition x_locate (t : xmap) (k : N) : res (N * option N) :=
  if xm_b t =? 0 then Throw
  else
    qb ← x_map t k;
    let '(q, bk) := (qb : N * N) in
    pos ← x_locate_q t bk q; Ok (bk, pos).
(** 629-712 erase(bucket, position) *)
Definition x_erase_at (t : xmap) (x : nav) : res (xmap * N) :=
  let '(bk, pos) := x in
  if pos =? ones64 then Ok (t, 0)
  else
    s ← x_slot t bk;
    _ ← x_width t;
    s ← xs_erase pf c (hm t) bk (xm_b t) s (N.to_nat pos) (qw t) (vw t);
    Ok (x_set (x_set_n t (sub64 (xm_n t) 1)) bk s, 1).
(** 716-721 erase(key) *)
Definition x_erase (t : xmap) (k : N) : res (xmap * N) :=
  if xm_b t =? 0 then Ok (t, 0)
  else
    l ← x_locate t k;
    let '(bk, pos) := (l : N * option N) in
    x_erase_at t (bk, match pos with Some p => p | None => ones64 end).

Definition x_impl (fuel : nat) : mapimpl xmap :=
  Impl x_view x_find (x_find_or_insert fuel) x_write_value x_erase x_erase_at xm_n (x_reserve fuel) x_clear.
(** 365-406 begin; 347-356 rbegin_nav; loops over the map.  The loops of begin and rbegin_nav read m_bucketsizes
    without a check. *)
Definition x_forward (fuel : nat) (t : xmap) : res (list (N * N)) :=
  x ← v_begin (c_view pf c (xstrip t)); v_iterate (x_view t) fuel x.
Definition x_backward (fuel : nat) (t : xmap) : res (list (N * N)) :=
  x ← v_rbegin (c_view pf c (xstrip t)); v_iterate_rev (x_view t) fuel x.
(** 241-259 a = std::move(other) *)
Definition x_move_assign (a other : xmap) : res (xmap * xmap) :=
  _ ← x_clear a;
  Ok (other, XMap None (xm_b other) (xm_n other) (xm_kw other) (xm_vw other)).
End map.
