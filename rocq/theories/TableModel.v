(** Model of include/separate/separate_chaining_table.hpp and include/separate/iterator.hpp. *)
From Verif Require Export MathModel SizeModel HashModel OverflowModel.

(** Template arguments of separate_chaining_table (122-130), bits of key_type, resize strategy
    (true = arbitrary_resize), and max_bucket_size() (294-300: 255 or SEPARATE_MAX_BUCKET_SIZE). *)
Record cfg := Cfg {
  c_key : bkind; c_val : bkind; c_hash : hkind; c_keybits : N;
  c_arb : bool; c_maxb : N; c_ov : ovkind
}.

(** Bits of storage_type of a bucket. *)
Definition kind_bits (k : bkind) : nat :=
  match k with KPlain es | KClass es | KAvx es => es | KVar _ => 64 | KNull => 1 end%nat.

(** One bucket: m_keys[i], m_value_manager[i], m_bucketsizes[i], m_resize_strategy.m_maxbucketsizes[i]. *)
Record slot := Slot { s_keys : bucket; s_vals : bucket; s_size : N; s_cap : N }.
Definition empty_slot : slot := Slot None None 0 0.

(** The members of the table (162-178).  t_slots = None means m_bucketsizes == nullptr.
    m_hash is always the mapping constructed for m_key_width. *)
Record table := Table {
  t_slots : option (list slot); t_b : N; t_n : N; t_kw : N; t_vw : N; t_ov : overflow
}.

(** Navigator (bucket, position), iterator.hpp:17-18; end_nav() = (-1ULL, -1ULL), 518-520. *)
Definition nav : Type := N * N.
Definition end_nav : nav := (ones64, ones64).

Section table.
Context (pf : platform) (c : cfg).

Definition kbn : nat := N.to_nat (c_keybits c).
Definition vbn : nat := kind_bits (c_val c).
Definition hm (t : table) : hmap := HMap (c_hash c) (t_kw t) (c_keybits c) (N.of_nat (kind_bits (c_key c))).
(** m_hash.remainder_width(m_buckets) *)
Definition qwidth (t : table) : nat := N.to_nat (remainder_width (hm t) (t_b t)).
Definition vwidth (t : table) : nat := N.to_nat (t_vw t).

(** 273, 278 max_key, max_value (for widths 1..64) *)
Definition max_key (t : table) : N := N.shiftr ones64 (64 - t_kw t).
Definition max_value (t : table) : N := N.shiftr ones64 (64 - t_vw t).

(** 317-327 constructor *)
Definition new_table (kw vw : N) : table := Table None 0 0 kw vw (ov_new pf kbn vbn (c_ov c)).

(** 303-306 bucket_count *)
Definition bucket_count (t : table) : N := if t_b t =? 0 then 0 else 2^(t_b t).

Definition get_slot (t : table) (bk : N) : res slot :=
  match t_slots t with
  | None => Ub NullDeref
  | Some sl => if bk <? N.of_nat (length sl) then of_option OobRead (sl !! N.to_nat bk) else Ub OobRead
  end.
Definition set_slot (t : table) (bk : N) (s : slot) : table :=
  Table ((fun sl => <[N.to_nat bk := s]> sl) <$> t_slots t) (t_b t) (t_n t) (t_kw t) (t_vw t) (t_ov t).
Definition set_n (t : table) (n : N) : table := Table (t_slots t) (t_b t) n (t_kw t) (t_vw t) (t_ov t).
Definition set_ov (t : table) (o : overflow) : table := Table (t_slots t) (t_b t) (t_n t) (t_kw t) (t_vw t) o.

(** 215-222 clear(bucket) *)
Definition clear_slot (s : slot) : res slot :=
  v ← b_clear pf (c_val c) (s_vals s);
  k ← b_clear pf (c_key c) (s_keys s);
  Ok (Slot k v 0 0).

(** 229-238 clear_structure: delete[] m_keys runs the key bucket destructors.  The value bucket array stays
    allocated (it is leaked or released later); its buckets are released here. *)
Definition clear_structure (t : table) : res table :=
  _ ← (match t_slots t with
       | None => Ok ()
       | Some sl => rfold (fun _ s => _ ← b_free pf (c_key c) (s_keys s); b_free pf (c_val c) (s_vals s)) sl ()
       end);
  o ← ov_clear pf kbn vbn (t_ov t);
  Ok (Table None 0 0 (t_kw t) (t_vw t) o).

(** 243-255 clear *)
Definition clear (t : table) : res table :=
  match t_slots t with
  | None => o ← ov_clear pf kbn vbn (t_ov t); Ok (set_ov t o)
  | Some sl =>
      let nb := N.to_nat (bucket_count t) in
      sl' ← rmap (fun s => if s_size s =? 0 then Ok s else clear_slot s) (take nb sl);
      clear_structure (Table (Some (sl' ++ drop nb sl)) (t_b t) (t_n t) (t_kw t) (t_vw t) (t_ov t))
  end.

(** 416-419: number of bits for a reservation of n buckets *)
Definition reserve_bits (n : N) : res N :=
  let bits := Z.to_N (most_significant_bit n mod 2^8) in
  one ← shl64 1 bits;
  let bits := if one =? n then bits else u8 (bits + 1) in
  _ ← shl64 1 bits;
  Ok bits.

(** 421-431 reserve, first branch (m_buckets == 0) *)
Definition alloc_table (t : table) (n : N) : res table :=
  bits ← reserve_bits n;
  Ok (Table (Some (replicate (N.to_nat (2^bits)) empty_slot)) bits (t_n t) (t_kw t) (t_vw t)
       (ov_resize_buckets pf (t_ov t) (2^bits))).

(** 432-467 reserve, second branch: insert everything into tmp_map with [ins], which stands for
    tmp_map.find_or_insert.  One bucket: 445-454.  Buckets without elements are released by delete[] m_keys. *)
Definition rehash_slot (ins : table -> N -> N -> res (table * nav)) (t : table) (tmp : table) (ib : nat * slot) : res table :=
  let '(i, s) := ib in
  if s_size s =? 0 then
    _ ← b_free pf (c_key c) (s_keys s); _ ← b_free pf (c_val c) (s_vals s); Ok tmp
  else
    tmp ← rfold (fun tmp j =>
        q ← b_read pf (c_key c) (s_keys s) j (qwidth t);
        k ← hash_inv_map (hm t) q (N.of_nat i) (t_b t);
        v ← b_read pf (c_val c) (s_vals s) j (vwidth t);
        r ← ins tmp k v;
        Ok (fst r)) (seq 0 (N.to_nat (s_size s))) tmp;
    _ ← clear_slot s;
    Ok tmp.

(** 456-462: the overflow elements *)
Fixpoint rehash_overflow (fuel : nat) (ins : table -> N -> N -> res (table * nav)) (o : overflow) (i : N) (tmp : table) : res table :=
  if ov_valid pf o i then
    match fuel with
    | O => Timeout
    | S f =>
        k ← ov_key pf kbn o i;
        v ← ov_get pf vbn o i;
        r ← ins tmp k v;
        rehash_overflow f ins o (ov_next pf o i) (fst r)
    end
  else Ok tmp.

(** 416-468 reserve *)
Definition reserve_with (ins : table -> N -> N -> res (table * nav)) (t : table) (n : N) : res table :=
  if t_b t =? 0 then alloc_table t n
  else
    bits ← reserve_bits n;
    tmp ← alloc_table (new_table (t_kw t) (t_vw t)) (2^bits);
    match t_slots t with
    | None => Ub NullDeref
    | Some sl =>
        tmp ← rfold (rehash_slot ins t) (imap pair (take (N.to_nat (bucket_count t)) sl)) tmp;
        tmp ← rehash_overflow (S (N.to_nat (ov_capacity (t_ov t)))) ins (t_ov t) (ov_first pf (t_ov t)) tmp;
        _ ← ov_clear pf kbn vbn (t_ov t);
        Ok tmp
    end.

(** 553-586 locate(bucket, quotient); None is -1ULL *)
Definition locate_q (t : table) (bk q : N) : res (option N) :=
  s ← get_slot t bk;
  r ← b_find pf (c_key c) (s_keys s) q (N.to_nat (s_size s)) (qwidth t);
  Ok (option_map N.of_nat r).

(** size.hpp: the two resize strategies on the capacity entry of one bucket *)
Definition rs_needs_resize (cap newsize : N) : bool := if c_arb c then arb_needs_resize cap newsize else inc_needs_resize.
Definition rs_size_after (newsize : N) : N := if c_arb c then arb_size_after_increment newsize else inc_size_after_increment newsize.
Definition rs_store (v : N) : N := if c_arb c then u8 v else 0.   (* m_maxbucketsizes[bucket] = v *)
Definition rs_can_shrink (cap size : N) : bool := if c_arb c then arb_can_shrink cap size else true.
Definition rs_capacity (cap size : N) : N := if c_arb c then cap else size.

(** 644-683 find_or_insert: append (q, v) to bucket s *)
Definition push_slot (t : table) (s : slot) (q v : N) : res slot :=
  let kw := N.to_nat (t_kw t) in
  s ← (if s_size s =? 0 then
         Ok (Slot (b_initialize pf (c_key c) 1 kw) (b_initialize pf (c_val c) 1 (vwidth t)) 1 (rs_store 1))
       else
         let size := u8 (s_size s + 1) in
         if rs_needs_resize (s_cap s) size then
           let newsize := rs_size_after size in
           let old := N.to_nat (sub64 size 1) in
           k ← b_resize pf (c_key c) (s_keys s) old (N.to_nat newsize) (qwidth t);
           v ← b_resize pf (c_val c) (s_vals s) old (N.to_nat newsize) (vwidth t);
           Ok (Slot k v size (rs_store newsize))
         else Ok (Slot (s_keys s) (s_vals s) size (s_cap s)));
  k ← b_write pf (c_key c) (s_keys s) (N.to_nat (sub64 (s_size s) 1)) q (qwidth t);
  v ← b_write pf (c_val c) (s_vals s) (N.to_nat (sub64 (s_size s) 1)) v (vwidth t);
  Ok (Slot k v (s_size s) (s_cap s)).

(** 610-684 find_or_insert.  [fuel] bounds the depth of the recursion through reserve. *)
Fixpoint find_or_insert (fuel : nat) (t : table) (k v : N) : res (table * nav) :=
  match fuel with
  | O => Timeout
  | S f =>
      t ← (if t_b t =? 0 then alloc_table t (N.min (sub64 (t_kw t) 1) 16) else Ok t);
      qb ← hash_map (hm t) k (t_b t);
      let '(q, bk) := (qb : N * N) in
      s ← get_slot t bk;
      pos ← locate_q t bk q;
      match (pos : option N) with
      | Some p => Ok (t, (bk, p))
      | None =>
          consult ← ov_need_consult (t_ov t) bk;
          opos ← (if (consult : bool) then ov_find pf kbn (t_ov t) k else Ok None);
          match (opos : option N) with
          | Some p => Ok (t, (bucket_count t, p))
          | None =>
              if s_size s =? c_maxb c then
                ov ← (if ov_size (t_ov t) <? ov_capacity (t_ov t)
                      then ov_insert pf kbn vbn (t_ov t) bk k (v mod 2^N.of_nat vbn) else Ok (t_ov t, None));
                let '(o, opos) := (ov : overflow * option N) in
                let t := set_ov t o in
                match (opos : option N) with
                | Some p => Ok (set_n t (u64 (t_n t + 1)), (bucket_count t, p))
                | None =>
                    n ← shl64 1 (t_b t + 1);
                    t ← reserve_with (find_or_insert f) t n;
                    find_or_insert f t k v
                end
              else
                s ← push_slot t s q v;
                Ok (set_slot (set_n t (u64 (t_n t + 1))) bk s, (bk, sub64 (s_size s) 1))
          end
      end
  end.

(** 416-468 reserve as called by the user *)
Definition reserve (fuel : nat) (t : table) (n : N) : res table := reserve_with (find_or_insert fuel) t n.

(** 260-263 quotient_at, 264-270 value_at *)
Definition quotient_at (t : table) (bk pos : N) : res N :=
  s ← get_slot t bk; b_read pf (c_key c) (s_keys s) (N.to_nat pos) (qwidth t).
Definition value_at (t : table) (bk pos : N) : res N :=
  if bk =? bucket_count t then ov_get pf vbn (t_ov t) pos
  else s ← get_slot t bk; b_read pf (c_val c) (s_vals s) (N.to_nat pos) (vwidth t).

(** iterator.hpp:21-26 invalid *)
Definition nav_invalid (t : table) (x : nav) : res bool :=
  let '(bk, pos) := x in
  if (0 <? ov_size (t_ov t)) && (bk =? bucket_count t) && ov_valid pf (t_ov t) pos then Ok false
  else if bucket_count t <=? bk then Ok true
  else s ← get_slot t bk; Ok (s_size s <=? pos).

(** iterator.hpp:45-57 key, 59-65 value *)
Definition nav_key (t : table) (x : nav) : res N :=
  let '(bk, pos) := x in
  if (0 <? ov_size (t_ov t)) && (bk =? bucket_count t) then ov_key pf kbn (t_ov t) pos
  else q ← quotient_at t bk pos; hash_inv_map (hm t) q bk (t_b t).
Definition nav_value (t : table) (x : nav) : res N :=
  let '(bk, pos) := x in
  if (0 <? ov_size (t_ov t)) && (bk =? bucket_count t) then ov_get pf vbn (t_ov t) pos
  else value_at t bk pos.

(** iterator.hpp:130-134 operator== *)
Definition nav_eq (t : table) (x y : nav) : res bool :=
  ix ← nav_invalid t x; iy ← nav_invalid t y;
  if negb iy && negb ix then Ok ((fst x =? fst y) && (snd x =? snd y)) else Ok (eqb iy ix).

(** 535-550 find *)
Definition find (t : table) (k : N) : res nav :=
  if t_b t =? 0 then Ok end_nav
  else
    opos ← (if 0 <? ov_size (t_ov t) then ov_find pf kbn (t_ov t) k else Ok None);
    match (opos : option N) with
    | Some p => Ok (bucket_count t, p)
    | None =>
        qb ← hash_map (hm t) k (t_b t);
        let '(q, bk) := (qb : N * N) in
        pos ← locate_q t bk q;
        match (pos : option N) with Some p => Ok (bk, p) | None => Ok end_nav end
    end.

(** iterator.hpp:140-160: an iterator is a navigator with the pair it caches if it is valid. *)
Definition iter_at (t : table) (x : nav) : res (option (N * N)) :=
  i ← nav_invalid t x;
  if (i : bool) then Ok None else k ← nav_key t x; v ← nav_value t x; Ok (Some (k, v)).

(** 703-706 count *)
Definition count (t : table) (k : N) : res N :=
  x ← find t k; e ← nav_eq t x end_nav; Ok (if (e : bool) then 0 else 1).

(** 594-608 locate(key) *)
Definition locate (t : table) (k : N) : res (N * option N) :=
  if t_b t =? 0 then Throw
  else
    qb ← hash_map (hm t) k (t_b t);
    let '(q, bk) := (qb : N * N) in
    consult ← ov_need_consult (t_ov t) bk;
    opos ← (if consult && (0 <? ov_size (t_ov t)) then ov_find pf kbn (t_ov t) k else Ok None);
    match (opos : option N) with
    | Some p => Ok (bucket_count t, Some p)
    | None => pos ← locate_q t bk q; Ok (bk, pos)
    end.

(** 686-695 write_value *)
Definition write_value (t : table) (x : nav) (v : N) : res table :=
  let '(bk, pos) := x in
  if bk =? bucket_count t then o ← ov_set pf vbn (t_ov t) pos v; Ok (set_ov t o)
  else
    s ← get_slot t bk;
    vs ← b_write pf (c_val c) (s_vals s) (N.to_nat pos) v (vwidth t);
    Ok (set_slot t bk (Slot (s_keys s) vs (s_size s) (s_cap s))).

(** 697-699 operator[]: value_type() is 0 *)
Definition index (fuel : nat) (t : table) (k : N) : res (table * nav) := find_or_insert fuel t k 0.

(** 708-751 erase(bucket, position) *)
Definition erase_at (t : table) (x : nav) : res (table * N) :=
  let '(bk, pos) := x in
  if pos =? ones64 then Ok (t, 0)
  else if (0 <? ov_size (t_ov t)) && (bk =? bucket_count t) then
    o ← ov_erase pf (t_ov t) pos; Ok (set_n (set_ov t o) (sub64 (t_n t) 1), 1)
  else
    s ← get_slot t bk;
    ks ← b_erase pf (c_key c) (s_keys s) (N.to_nat pos) (N.to_nat (s_size s)) (qwidth t);
    vs ← b_erase pf (c_val c) (s_vals s) (N.to_nat pos) (N.to_nat (s_size s)) (vwidth t);
    let s := Slot ks vs (sub8 (s_size s) 1) (s_cap s) in
    let t := set_n t (sub64 (t_n t) 1) in
    if s_size s =? 0 then s ← clear_slot s; Ok (set_slot t bk s, 1)
    else Ok (set_slot t bk s, 1).

(** 755-760 erase(key) *)
Definition erase (t : table) (k : N) : res (table * N) :=
  if t_b t =? 0 then Ok (t, 0)
  else
    l ← locate t k;
    let '(bk, pos) := (l : N * option N) in
    erase_at t (bk, match pos with Some p => p | None => ones64 end).

(** 181-193 shrink_to_fit(bucket) *)
Definition shrink_slot (t : table) (s : slot) : res slot :=
  if s_size s =? 0 then Ok s
  else if rs_can_shrink (s_cap s) (s_size s) then
    let n := N.to_nat (s_size s) in
    k ← b_resize pf (c_key c) (s_keys s) n n (qwidth t);
    v ← b_resize pf (c_val c) (s_vals s) n n (vwidth t);
    Ok (Slot k v (s_size s) (rs_store (s_size s)))
  else Ok s.

(** 196-202 shrink_to_fit *)
Definition shrink_to_fit (t : table) : res table :=
  if t_b t =? 0 then Ok t
  else match t_slots t with
       | None => Ub NullDeref
       | Some sl =>
           let nb := N.to_nat (bucket_count t) in
           sl' ← rmap (shrink_slot t) (take nb sl);
           Ok (Table (Some (sl' ++ drop nb sl)) (t_b t) (t_n t) (t_kw t) (t_vw t) (t_ov t))
       end.

(** 205-212 capacity *)
Definition capacity (t : table) : res N :=
  if t_b t =? 0 then Ok 0
  else match t_slots t with
       | None => Ub NullDeref
       | Some sl =>
           Ok (foldl (fun a s => u64 (a + rs_capacity (s_cap s) (s_size s))) 0 (take (N.to_nat (bucket_count t)) sl))
       end.

(** 281-287 size, empty; 290-292 max_size *)
Definition size (t : table) : N := t_n t.
Definition empty (t : table) : bool := t_n t =? 0.
Definition max_size (t : table) : N := u64 (c_maxb c * bucket_count t).

(** 313-315 bucket_size *)
Definition bucket_size (t : table) (bk : N) : res N := s ← get_slot t bk; Ok (s_size s).

(** 482-533 begin/cbegin/begin_nav/cbegin_nav: scan of [n] buckets starting at [bk] *)
Fixpoint begin_scan (t : table) (n : nat) (bk : N) : res nav :=
  match n with
  | O => if 0 <? ov_size (t_ov t) then Ok (bucket_count t, 0) else Ok end_nav
  | S n' => sz ← bucket_size t bk; if 0 <? sz then Ok (bk, 0) else begin_scan t n' (bk + 1)
  end.
Definition begin_nav (t : table) : res nav := begin_scan t (N.to_nat (bucket_count t)) 0.

(** 469-479 rbegin_nav: the loop condition bucket >= 0 is always true for size_t *)
Fixpoint rbegin_scan (fuel : nat) (t : table) (bk : N) : res nav :=
  match fuel with
  | O => Timeout
  | S f => sz ← bucket_size t bk; if 0 <? sz then Ok (bk, sub64 sz 1) else rbegin_scan f t (sub64 bk 1)
  end.
Definition rbegin_nav (t : table) : res nav :=
  let n := bucket_count t in
  if 0 <? ov_size (t_ov t) then Ok (n, ov_size (t_ov t))
  else if n =? 0 then Ok end_nav
  else rbegin_scan (S (N.to_nat n)) t (sub64 n 1).

(** iterator.hpp:93-95: do ++bucket while(bucket < bucket_count && bucket_size == 0) *)
Fixpoint next_scan (fuel : nat) (t : table) (bk : N) : res N :=
  let bk := u64 (bk + 1) in
  if bk <? bucket_count t then
    sz ← bucket_size t bk;
    if sz =? 0 then match fuel with O => Timeout | S f => next_scan f t bk end else Ok bk
  else Ok bk.
(** iterator.hpp:84-100 operator++ *)
Definition nav_next (t : table) (x : nav) : res nav :=
  let '(bk, pos) := x in
  if (0 <? ov_size (t_ov t)) && (bk =? bucket_count t) then Ok (bk, ov_next pf (t_ov t) pos)
  else
    sz ← bucket_size t bk;
    if sz <=? u64 (pos + 1) then
      bk ← next_scan (N.to_nat (bucket_count t)) t bk; Ok (bk, 0)
    else Ok (bk, u64 (pos + 1)).

(** iterator.hpp:116-118: do --bucket while(bucket < bucket_count && bucket_size == 0) *)
Fixpoint prev_scan (fuel : nat) (t : table) (bk : N) : res N :=
  let bk := sub64 bk 1 in
  if bk <? bucket_count t then
    sz ← bucket_size t bk;
    if sz =? 0 then match fuel with O => Timeout | S f => prev_scan f t bk end else Ok bk
  else Ok bk.
(** iterator.hpp:101-124 operator-- *)
Definition nav_prev (t : table) (x : nav) : res nav :=
  let '(bk, pos) := x in
  if (0 <? ov_size (t_ov t)) && (bk =? bucket_count t) then
    if 0 <? pos then Ok (bk, ov_prev pf (t_ov t) pos)
    else
      let bk := sub64 bk 1 in
      sz ← bucket_size t bk; Ok (bk, sub64 (N.min pos sz) 1)
  else
    sz ← (if 0 <? pos then bucket_size t bk else Ok 0);
    if (0 <? pos) && (0 <? sz) then Ok (bk, sub64 (N.min pos sz) 1)
    else
      bk ← prev_scan (N.to_nat (bucket_count t)) t bk;
      if bk <? bucket_count t then sz ← bucket_size t bk; Ok (bk, sub64 sz 1)
      else Ok (bk, pos).
End table.
