(** Model of the debug build (NDEBUG not defined): the DCHECK/DDCHECK checks and the ON_DEBUG members of
    separate_chaining_table.hpp, bucket.hpp, size.hpp, overflow.hpp, hash.hpp, bijective_hash.hpp and iterator.hpp.
    A failing check ends the call with [Throw] (dcheck.hpp:47-56; DCHECK is treated alike).  The release functions
    of the other model files are reused where a function contains neither. *)
From Verif Require Export TableRun IterModel.

Definition chk (b : bool) : res unit := if b then Ok () else Throw.
(** Reading a member that may never have been initialised. *)
Definition known (x : option N) : res N := of_option Indeterminate x.

(** A bucket with m_length (bucket.hpp:71, 195, 372) and, for varwidth_bucket, m_size (371). *)
Record dbk := Dbk { k_b : bucket; k_len : option N; k_sz : option N }.
(** One bucket of the table with m_plainkeys[i] (separate_chaining_table.hpp:166). *)
Record dslot := DSlot { ds_keys : dbk; ds_vals : dbk; ds_size : N; ds_cap : N; ds_plain : option (list (option N)) }.
(** The table with arbitrary_resize::m_buckets (size.hpp:41); d_rs = None means m_maxbucketsizes == nullptr. *)
Record dtable := DTable {
  d_slots : option (list dslot); d_b : N; d_n : N; d_kw : N; d_vw : N; d_ov : overflow; d_rs : option N
}.

(** Forgetting the debug members. *)
Definition sstrip (s : dslot) : slot := Slot (k_b (ds_keys s)) (k_b (ds_vals s)) (ds_size s) (ds_cap s).
Definition strip (d : dtable) : table :=
  Table ((fun sl => map sstrip sl) <$> d_slots d) (d_b d) (d_n d) (d_kw d) (d_vw d) (d_ov d).

(** ** bijective_hash.hpp, hash.hpp *)
(** bijective_hash.hpp:121-126 *)
Definition dxs_hash1 (w i x : N) : res N := _ ← chk (x <=? bmask w); Ok (xs_hash1 w i x).
(** bijective_hash.hpp:92-98, 148-151 *)
Definition dbij_hash (f : bijfun) (w x : N) : res N :=
  _ ← chk (x <=? bmask w);
  match f with
  | Xorshift => x ← dxs_hash1 w 0 x; x ← dxs_hash1 w 1 x; dxs_hash1 w 2 x
  | Multiplicative => Ok (mul_hash w x)
  end.
(** bijective_hash.hpp:100-106, 153-156 *)
Definition dbij_hash_inv (f : bijfun) (w x : N) : res N := _ ← chk (x <=? bmask w); Ok (bij_hash_inv f w x).
(** constructors, bijective_hash.hpp:82-89, 139-145 *)
Definition dhash_new (h : hkind) (w : N) : res unit :=
  match h with
  | HBij _ => _ ← chk (0 <? w); _ ← chk (w <=? 64); chk (0 <? bmask w)
  | HAdapter _ => Ok ()
  end.
(** hash.hpp:30-33, 56-59 *)
Definition dremainder_width (h : hmap) (b : N) : res N :=
  match h_kind h with
  | HBij _ => _ ← chk (b <? h_width h); Ok (remainder_width h b)
  | HAdapter _ => Ok (remainder_width h b)
  end.
(** hash.hpp:39-41, 70-72 *)
Definition dhash_inv_map (h : hmap) (remainder bucket b : N) : res N :=
  match h_kind h with
  | HBij f =>
      if (1 <=? h_width h) && (h_width h <=? 64) then
        r ← shl64 remainder b;
        x ← dbij_hash_inv f (h_width h) (u64 (r + bucket));
        Ok (x mod 2^(h_keybits h))
      else Ub ShiftTooLarge
  | HAdapter _ => hash_inv_map h remainder bucket b
  end.
(** hash.hpp:35-38, 61-69 *)
Definition dhash_map (h : hmap) (key b : N) : res (N * N) :=
  match h_kind h with
  | HBij f =>
      if (1 <=? h_width h) && (h_width h <=? 64) then
        hash_value ← dbij_hash f (h_width h) key;
        x ← dbij_hash_inv f (h_width h) hash_value;
        _ ← chk (x =? key);
        q ← shr64 hash_value b;
        _ ← chk (q <=? 2^(h_storebits h) - 1);
        m ← shl64 1 b;
        let ret := (q mod 2^(h_storebits h), N.land hash_value (sub64 m 1)) in
        x ← dhash_inv_map h (fst ret) (snd ret) b;
        _ ← chk (x =? key);
        Ok ret
      else Ub ShiftTooLarge
  | HAdapter _ => hash_map h key b
  end.

(** ** bucket.hpp *)
Section bucket.
Context (pf : platform).

(** initialize, bucket.hpp:89-96, 240-244, 325-329, 414-419 *)
Definition db_initialize (kd : bkind) (b : dbk) (len w : nat) : res dbk :=
  match kd with
  | KNull => Ok (Dbk (b_initialize pf kd len w) (k_len b) (k_sz b))
  | _ =>
      _ ← chk (match k_b b with None => true | Some _ => false end);
      Ok (Dbk (b_initialize pf kd len w) (Some (N.of_nat len))
            (match kd with KVar iw => Some (N.of_nat (cdiv (len * w) iw)) | _ => k_sz b end))
  end.
(** clear, bucket.hpp:79-85, 221-227, 403-410; class_bucket::clear (316-321) keeps m_length *)
Definition db_clear (kd : bkind) (b : dbk) : res dbk :=
  b' ← b_clear pf kd (k_b b);
  Ok (Dbk b' (match kd with KClass _ | KNull => k_len b | _ => Some 0 end)
        (match kd with KVar _ => Some 0 | _ => k_sz b end)).
(** resize, bucket.hpp:16-29 with 116-120, 253-256, 331-340, 421-427 *)
Definition db_resize (kd : bkind) (b : dbk) (old new w : nat) : res dbk :=
  match kd with
  | KNull => b' ← b_resize pf kd (k_b b) old new w; Ok (Dbk b' (k_len b) (k_sz b))
  | _ =>
      _ ← (match kd with KAvx _ => chk (old <=? new)%nat | _ => Ok () end);
      b' ← b_resize pf kd (k_b b) old new w;
      _ ← (match kd with
           | KAvx _ | KClass _ => chk (match k_b b with None => false | Some _ => true end)
           | _ => Ok ()
           end);
      Ok (Dbk b' (Some (N.of_nat new))
            (match kd with KVar iw => Some (N.of_nat (cdiv (new * w) iw)) | _ => k_sz b end))
  end.
(** write, bucket.hpp:122-125, 263-266, 453-460 *)
Definition db_write (kd : bkind) (b : dbk) (i : nat) (v : N) (w : nat) : res dbk :=
  match kd with
  | KNull => b' ← b_write pf kd (k_b b) i v w; Ok (Dbk b' (k_len b) (k_sz b))
  | _ =>
      l ← known (k_len b);
      _ ← chk (N.of_nat i <? l);
      _ ← (match kd with KVar _ => chk (most_significant_bit v <=? Z.of_nat w)%Z | _ => Ok () end);
      b' ← b_write pf kd (k_b b) i v w;
      _ ← (match kd with KVar _ => r ← b_read pf kd b' i w; chk (r =? v) | _ => Ok () end);
      Ok (Dbk b' (k_len b) (k_sz b))
  end.
(** read, bucket.hpp:126-129, 274-277, 462-466 *)
Definition db_read (kd : bkind) (b : dbk) (i w : nat) : res N :=
  match kd with
  | KNull => b_read pf kd (k_b b) i w
  | _ => l ← known (k_len b); _ ← chk (N.of_nat i <? l); b_read pf kd (k_b b) i w
  end.
(** erase, bucket.hpp:131-137, 267-273, 430-451 *)
Definition db_erase (kd : bkind) (b : dbk) (position length w : nat) : res dbk :=
  match kd with
  | KNull => b' ← b_erase pf kd (k_b b) position length w; Ok (Dbk b' (k_len b) (k_sz b))
  | _ =>
      l ← known (k_len b);
      _ ← chk (N.of_nat length <=? l); _ ← chk (N.of_nat position <? l);
      b' ← b_erase pf kd (k_b b) position length w;
      Ok (Dbk b' (k_len b) (k_sz b))
  end.
(** find, bucket.hpp:139-160, 278-283, 468-487.  The check of line 151 compares positions that [avx_mask] makes
    equal (whole lanes are set); it is left out. *)
Definition db_find (kd : bkind) (b : dbk) (key : N) (length w : nat) : res (option nat) :=
  _ ← (match kd with
       | KVar iw =>
           l ← known (k_len b); _ ← chk (N.of_nat length <=? l);
           n ← known (k_sz b); chk (u64 (N.of_nat (length * w)) <=? u64 (n * N.of_nat iw))
       | _ => Ok ()
       end);
  b_find pf kd (k_b b) key length w.
End bucket.

(** ** overflow.hpp *)
Section overflow.
Context (pf : platform) (kb vb : nat).

(** std::distance(m_map.begin(p), m_map.end(p)) *)
Definition um_len (nb : N) (els : list (N * N)) (p : N) : nat := length (um_chain pf nb els p).
(** m_length of the plain buckets of array_overflow: they are only initialised, deserialised and cleared. *)
Definition arr_len (b : bucket) : N :=
  match b with Some (_, Cells cs) => N.of_nat (length cs) | _ => 0 end.

(** 88-91, 196-202 *)
Definition dov_next (o : overflow) (p : N) : res N :=
  _ ← (match o with ODummy => Ok () | OArray _ _ _ _ => chk (p <? ARRAY_OVERFLOW_LENGTH) | OUmap nb _ _ => chk (p <? nb) end);
  Ok (ov_next pf o p).
(** 92-95, 203-209 *)
Definition dov_prev (o : overflow) (p : N) : res N :=
  _ ← (match o with ODummy => Ok () | _ => chk (0 <? p) end);
  Ok (ov_prev pf o p).
(** 115-122, 236-239 *)
Definition dov_erase (o : overflow) (p : N) : res overflow :=
  _ ← (match o with ODummy => Ok () | OArray _ _ e _ => chk (p <? e) | OUmap nb _ _ => chk (p <? nb) end);
  ov_erase pf o p.
(** 142-145, 258-261 *)
Definition dov_need_consult (o : overflow) (bk : N) : res bool :=
  _ ← (match o with ODummy => Ok () | OArray _ _ _ full | OUmap _ _ full => chk (bk <? N.of_nat (length full)) end);
  ov_need_consult o bk.
(** 146-148, 262-268 *)
Definition dov_find (o : overflow) (k : N) : res (option N) :=
  _ ← (match o with OUmap nb els _ => chk (um_len nb els (um_bucket pf nb k) <=? 1)%nat | _ => Ok () end);
  ov_find pf kb o k.
(** 153-156 with bucket.hpp:235-238, 274-278 *)
Definition dov_get (o : overflow) (p : N) : res N :=
  _ ← (match o with
       | ODummy => Ok ()
       | OArray _ vs _ _ => _ ← chk (p <? ARRAY_OVERFLOW_LENGTH); chk (p <? arr_len vs)
       | OUmap nb els _ => _ ← chk (p <? nb); chk (um_len nb els p =? 1)%nat
       end);
  ov_get pf vb o p.
(** 157-160, 279-283 *)
Definition dov_key (o : overflow) (p : N) : res N :=
  _ ← (match o with
       | ODummy => Ok ()
       | OArray ks _ _ _ => _ ← chk (p <? ARRAY_OVERFLOW_LENGTH); chk (p <? arr_len ks)
       | OUmap nb els _ => _ ← chk (p <? nb); chk (um_len nb els p =? 1)%nat
       end);
  ov_key pf kb o p.
(** 149-152, 269-273 *)
Definition dov_set (o : overflow) (p v : N) : res overflow :=
  _ ← (match o with
       | ODummy => Ok ()
       | OArray _ vs _ _ => _ ← chk (p <? ARRAY_OVERFLOW_LENGTH); chk (p <? arr_len vs)
       | OUmap nb els _ => _ ← chk (p <? nb); chk (um_len nb els p =? 1)%nat
       end);
  ov_set pf vb o p v.
(** 130-136, 241-251 *)
Definition dov_insert (o : overflow) (bk k v : N) : res (overflow * option N) :=
  _ ← (match o with
       | OArray ks vs e _ => _ ← chk (e <? ARRAY_OVERFLOW_LENGTH); _ ← chk (e <? arr_len ks); chk (e <? arr_len vs)
       | _ => Ok ()
       end);
  r ← ov_insert pf kb vb o bk k v;
  _ ← (match r with
       | (OUmap nb els full, Some p) =>
           _ ← chk (negb (um_len nb els p =? 0)%nat);
           k' ← dov_key (OUmap nb els full) p; _ ← chk (k' =? k);
           v' ← dov_get (OUmap nb els full) p; chk (v' =? v)
       | _ => Ok ()
       end);
  Ok r.
(** 137-139, 252-256 *)
Definition dov_resize_buckets (o : overflow) (n : N) : res overflow :=
  let o' := ov_resize_buckets pf o n in
  _ ← (match o' with OUmap nb _ _ => chk (n <=? nb) | _ => Ok () end);
  Ok o'.
End overflow.

(** ** separate_chaining_table.hpp *)
Section table.
Context (pf : platform) (c : cfg).
(** Value of the members m_length and m_size of a default-constructed bucket, which no constructor sets
    (bucket.hpp:87, 229, 323, 412); None if reading them is not tolerated. *)
Context (junk : option N).

Definition fresh_dbk : dbk := Dbk None junk junk.
Definition fresh_dslot : dslot := DSlot fresh_dbk fresh_dbk 0 0 None.

Definition dbucket_count (d : dtable) : N := bucket_count (strip d).
Definition dhm (d : dtable) : hmap := hm c (strip d).
Definition dvwidth (d : dtable) : nat := N.to_nat (d_vw d).
Definition dget_slot (d : dtable) (bk : N) : res dslot :=
  match d_slots d with
  | None => Ub NullDeref
  | Some sl => if bk <? N.of_nat (length sl) then of_option OobRead (sl !! N.to_nat bk) else Ub OobRead
  end.
Definition dset_slot (d : dtable) (bk : N) (s : dslot) : dtable :=
  DTable ((fun sl => <[N.to_nat bk := s]> sl) <$> d_slots d) (d_b d) (d_n d) (d_kw d) (d_vw d) (d_ov d) (d_rs d).
Definition dset_n (d : dtable) (n : N) : dtable := DTable (d_slots d) (d_b d) n (d_kw d) (d_vw d) (d_ov d) (d_rs d).
Definition dset_ov (d : dtable) (o : overflow) : dtable := DTable (d_slots d) (d_b d) (d_n d) (d_kw d) (d_vw d) o (d_rs d).

(** sizeof(value_type)*8 (324); bool has 8 bits *)
Definition value_bits : N := match c_val c with KNull => 8 | kd => N.of_nat (kind_bits kd) end.

(** 317-327 constructor *)
Definition dnew_table (kw vw : N) : res dtable :=
  _ ← dhash_new (c_hash c) kw;
  _ ← chk (1 <=? vw); _ ← chk (vw <=? value_bits); _ ← chk (1 <=? kw); _ ← chk (kw <=? c_keybits c);
  Ok (DTable None 0 0 kw vw (ov_new pf (kbn c) (vbn c) (c_ov c)) None).

(** The width of the quotients with its checks, as in 182-184, 440-442, 554-556, 652-654, 726-728, iterator.hpp:47-49 *)
Definition dwidth (d : dtable) : res nat :=
  w ← dremainder_width (dhm d) (d_b d);
  _ ← chk (0 <? w); _ ← chk (w <=? d_kw d);
  Ok (N.to_nat w).

(** size.hpp:58-62 assign *)
Definition rs_assign_chk (d : dtable) (bk : N) : res unit :=
  if c_arb c then match d_rs d with None => Throw | Some n => chk (bk <? n) end else Ok ().
(** size.hpp:77-82 size_after_increment; m_buckets is 0 without an array *)
Definition rs_after_chk (d : dtable) (bk newsize : N) : res unit :=
  if c_arb c then
    _ ← chk (bk <? match d_rs d with None => 0 | Some n => n end);
    _ ← chk (u8 newsize <=? 255); chk (arb_resize (u8 newsize) <=? 255)
  else Ok ().

(** 215-222 clear(bucket) *)
Definition dclear_slot (d : dtable) (bk : N) (s : dslot) : res dslot :=
  v ← db_clear pf (c_val c) (ds_vals s);
  k ← db_clear pf (c_key c) (ds_keys s);
  _ ← rs_assign_chk d bk;
  Ok (DSlot k v 0 0 None).

(** 229-238 clear_structure *)
Definition dclear_structure (d : dtable) : res dtable :=
  t ← clear_structure pf c (strip d);
  Ok (DTable None (t_b t) (t_n t) (t_kw t) (t_vw t) (t_ov t) None).

(** 243-255 clear *)
Definition dclear (d : dtable) : res dtable :=
  match d_slots d with
  | None => o ← ov_clear pf (kbn c) (vbn c) (d_ov d); Ok (dset_ov d o)
  | Some sl =>
      let nb := N.to_nat (dbucket_count d) in
      sl' ← rmap (fun ib => let '(i, s) := (ib : nat * dslot) in
                   if ds_size s =? 0 then Ok s else dclear_slot d (N.of_nat i) s) (imap pair (take nb sl));
      dclear_structure (DTable (Some (sl' ++ drop nb sl)) (d_b d) (d_n d) (d_kw d) (d_vw d) (d_ov d) (d_rs d))
  end.

(** 421-431 reserve, first branch, with size.hpp:67-72 allocate *)
Definition dalloc_table (d : dtable) (n : N) : res dtable :=
  bits ← reserve_bits n;
  _ ← (if c_arb c then chk (match d_rs d with None => true | Some _ => false end) else Ok ());
  o ← dov_resize_buckets pf (d_ov d) (2^bits);
  Ok (DTable (Some (replicate (N.to_nat (2^bits)) fresh_dslot)) bits (d_n d) (d_kw d) (d_vw d) o
        (if c_arb c then Some (2^bits) else d_rs d)).

(** m_plainkeys[bucket][i] *)
Definition plain_at (s : dslot) (i : nat) : res N :=
  match ds_plain s with
  | None => Ub NullDeref
  | Some cs => cell_read cs i
  end.

(** 444-455 *)
Definition drehash_slot (ins : dtable -> N -> N -> res (dtable * nav)) (d : dtable) (w : nat) (tmp : dtable) (ib : nat * dslot) : res dtable :=
  let '(i, s) := ib in
  if ds_size s =? 0 then
    _ ← b_free pf (c_key c) (k_b (ds_keys s)); _ ← b_free pf (c_val c) (k_b (ds_vals s)); Ok tmp
  else
    tmp ← rfold (fun tmp j =>
        q ← db_read pf (c_key c) (ds_keys s) j w;
        k ← dhash_inv_map (dhm d) q (N.of_nat i) (d_b d);
        p ← plain_at s j; _ ← chk (k =? p);
        v ← db_read pf (c_val c) (ds_vals s) j (dvwidth d);
        r ← ins tmp k v;
        Ok (fst r)) (seq 0 (N.to_nat (ds_size s))) tmp;
    _ ← dclear_slot d (N.of_nat i) s;
    Ok tmp.
(** 456-462 *)
Fixpoint drehash_overflow (fuel : nat) (ins : dtable -> N -> N -> res (dtable * nav)) (o : overflow) (i : N) (tmp : dtable) : res dtable :=
  if ov_valid pf o i then
    match fuel with
    | O => Timeout
    | S f =>
        k ← dov_key pf (kbn c) o i;
        v ← dov_get pf (vbn c) o i;
        r ← ins tmp k v;
        i ← dov_next pf o i;
        drehash_overflow f ins o i (fst r)
    end
  else Ok tmp.
(** 416-468 reserve *)
Definition dreserve_with (ins : dtable -> N -> N -> res (dtable * nav)) (d : dtable) (n : N) : res dtable :=
  if d_b d =? 0 then dalloc_table d n
  else
    bits ← reserve_bits n;
    tmp ← dnew_table (d_kw d) (d_vw d);
    tmp ← dalloc_table tmp (2^bits);
    w ← dwidth d;
    match d_slots d with
    | None => Ub NullDeref
    | Some sl =>
        tmp ← rfold (drehash_slot ins d w) (imap pair (take (N.to_nat (dbucket_count d)) sl)) tmp;
        tmp ← drehash_overflow (S (N.to_nat (ov_capacity (d_ov d)))) ins (d_ov d) (ov_first pf (d_ov d)) tmp;
        _ ← chk (d_n d =? d_n tmp);
        _ ← ov_clear pf (kbn c) (vbn c) (d_ov d);
        Ok tmp
    end.

(** 565-573: [n] iterations starting at [i] *)
Fixpoint plain_loop (d : dtable) (s : dslot) (bk q : N) (w i n : nat) : res (option N) :=
  match n with
  | O => Ok None
  | S n' =>
      r ← db_read pf (c_key c) (ds_keys s) i w;
      let r := r mod 2^(c_keybits c) in
      k ← dhash_inv_map (dhm d) r bk (d_b d);
      p ← plain_at s i; _ ← chk (k =? p);
      if r =? q then Ok (Some (N.of_nat i)) else plain_loop d s bk q w (S i) n'
  end.
(** 553-586 locate(bucket, quotient) *)
Definition dlocate_q (d : dtable) (bk q : N) : res (option N) :=
  w ← dwidth d;
  _ ← chk (most_significant_bit q <=? Z.of_nat w)%Z;
  s ← dget_slot d bk;
  pp ← plain_loop d s bk q w 0 (N.to_nat (ds_size s));
  r ← db_find pf (c_key c) (ds_keys s) q (N.to_nat (ds_size s)) w;
  let pos := option_map N.of_nat r in
  _ ← chk (bool_decide (pos = pp));
  _ ← (match pos with Some p => chk (p <? ds_size s) | None => Ok () end);
  Ok pos.

(** 648-683 find_or_insert: append *)
Definition dpush_slot (d : dtable) (bk : N) (s : dslot) (key q v : N) : res dslot :=
  w ← dwidth d;
  s ← (if ds_size s =? 0 then
         k ← db_initialize pf (c_key c) (ds_keys s) 1 (N.to_nat (d_kw d));
         v ← db_initialize pf (c_val c) (ds_vals s) 1 (dvwidth d);
         _ ← rs_assign_chk d bk;
         Ok (DSlot k v 1 (rs_store c 1) (Some [None]))
       else
         let size := u8 (ds_size s + 1) in
         let plain := Some (let l := match ds_plain s with None => [] | Some l => l end in
                            take (N.to_nat size) l ++ replicate (N.to_nat size - length l) None) in
         if rs_needs_resize c (ds_cap s) size then
           _ ← rs_after_chk d bk size;
           let newsize := rs_size_after c size in
           let old := N.to_nat (sub64 size 1) in
           k ← db_resize pf (c_key c) (ds_keys s) old (N.to_nat newsize) w;
           v ← db_resize pf (c_val c) (ds_vals s) old (N.to_nat newsize) (dvwidth d);
           Ok (DSlot k v size (rs_store c newsize) plain)
         else Ok (DSlot (ds_keys s) (ds_vals s) size (ds_cap s) plain));
  _ ← chk (key <=? max_key (strip d));
  let i := N.to_nat (sub64 (ds_size s) 1) in
  plain ← (match ds_plain s with
           | None => Ub NullDeref
           | Some l => if (i <? length l)%nat then Ok (<[i := Some key]> l) else Ub OobWrite
           end);
  _ ← chk (i * w / 64 + i * w mod 64 <? 64 * cdiv (N.to_nat (ds_size s) * w) 64)%nat;
  _ ← chk (N.of_nat w <=? c_keybits c);
  k ← db_write pf (c_key c) (ds_keys s) i q w;
  r ← db_read pf (c_key c) k i w;
  x ← dhash_inv_map (dhm d) r bk (d_b d); _ ← chk (x =? key);
  v ← db_write pf (c_val c) (ds_vals s) i v (dvwidth d);
  Ok (DSlot k v (ds_size s) (ds_cap s) (Some plain)).

(** DDCHECK_EQ(m_hash.inv_map(quotient, bucket, m_buckets), key) after map: 543-544, 597-598, 613-614 *)
Definition dmap (d : dtable) (k : N) : res (N * N) :=
  qb ← dhash_map (dhm d) k (d_b d);
  x ← dhash_inv_map (dhm d) (fst qb) (snd qb) (d_b d); _ ← chk (x =? k);
  Ok qb.

(** 610-684 find_or_insert *)
Fixpoint dfind_or_insert (fuel : nat) (d : dtable) (k v : N) : res (dtable * nav) :=
  match fuel with
  | O => Timeout
  | S f =>
      _ ← chk (1 <? d_kw d);
      d ← (if d_b d =? 0 then dalloc_table d (N.min (sub64 (d_kw d) 1) 16) else Ok d);
      qb ← dmap d k;
      let '(q, bk) := (qb : N * N) in
      s ← dget_slot d bk;
      pos ← dlocate_q d bk q;
      match (pos : option N) with
      | Some p => _ ← chk (p <? ds_size s); Ok (d, (bk, p))
      | None =>
          consult ← dov_need_consult (d_ov d) bk;
          opos ← (if (consult : bool) then dov_find pf (kbn c) (d_ov d) k else Ok None);
          match (opos : option N) with
          | Some p => Ok (d, (dbucket_count d, p))
          | None =>
              if ds_size s =? c_maxb c then
                let v' := v mod 2^N.of_nat (vbn c) in
                ov ← (if ov_size (d_ov d) <? ov_capacity (d_ov d)
                      then dov_insert pf (kbn c) (vbn c) (d_ov d) bk k v' else Ok (d_ov d, None));
                let '(o, opos) := (ov : overflow * option N) in
                let d := dset_ov d o in
                match (opos : option N) with
                | Some p =>
                    fp ← dov_find pf (kbn c) o k; _ ← chk (bool_decide (fp = Some p));
                    fp ← dov_find pf (kbn c) o k;
                    x ← dov_get pf (vbn c) o (match (fp : option N) with Some p => p | None => ones64 end); _ ← chk (x =? v');
                    Ok (dset_n d (u64 (d_n d + 1)), (dbucket_count d, p))
                | None =>
                    n ← shl64 1 (d_b d + 1);
                    d ← dreserve_with (dfind_or_insert f) d n;
                    dfind_or_insert f d k v
                end
              else
                s ← dpush_slot d bk s k q v;
                Ok (dset_slot (dset_n d (u64 (d_n d + 1))) bk s, (bk, sub64 (ds_size s) 1))
          end
      end
  end.
Definition dreserve (fuel : nat) (d : dtable) (n : N) : res dtable := dreserve_with (dfind_or_insert fuel) d n.
Definition dindex (fuel : nat) (d : dtable) (k : N) : res (dtable * nav) := dfind_or_insert fuel d k 0.

(** iterator.hpp:45-57 key, with quotient_at (260-263) *)
Definition dnav_key (d : dtable) (x : nav) : res N :=
  i ← nav_invalid pf (strip d) x; _ ← chk (negb i);
  w ← dwidth d;
  let '(bk, pos) := x in
  if (0 <? ov_size (d_ov d)) && (bk =? dbucket_count d) then dov_key pf (kbn c) (d_ov d) pos
  else
    _ ← chk (bk <? dbucket_count d);
    s ← dget_slot d bk;
    q ← db_read pf (c_key c) (ds_keys s) (N.to_nat pos) w;
    dhash_inv_map (dhm d) q bk (d_b d).
(** iterator.hpp:59-65 value, with value_at (264-270) *)
Definition dnav_value (d : dtable) (x : nav) : res N :=
  i ← nav_invalid pf (strip d) x; _ ← chk (negb i);
  let '(bk, pos) := x in
  if (0 <? ov_size (d_ov d)) && (bk =? dbucket_count d) then dov_get pf (vbn c) (d_ov d) pos
  else if bk =? dbucket_count d then dov_get pf (vbn c) (d_ov d) pos
  else
    _ ← chk (bk <? dbucket_count d);
    s ← dget_slot d bk;
    db_read pf (c_val c) (ds_vals s) (N.to_nat pos) (dvwidth d).
(** iterator.hpp:152-160 *)
Definition diter_at (d : dtable) (x : nav) : res (option (N * N)) :=
  i ← nav_invalid pf (strip d) x;
  if (i : bool) then Ok None else k ← dnav_key d x; v ← dnav_value d x; Ok (Some (k, v)).

(** 535-550 find; the result is an iterator, whose constructor reads the pair *)
Definition dfind (d : dtable) (k : N) : res nav :=
  if d_b d =? 0 then Ok end_nav
  else
    opos ← (if 0 <? ov_size (d_ov d) then dov_find pf (kbn c) (d_ov d) k else Ok None);
    x ← (match (opos : option N) with
         | Some p => Ok (dbucket_count d, p)
         | None =>
             qb ← dmap d k;
             let '(q, bk) := (qb : N * N) in
             pos ← dlocate_q d bk q;
             match (pos : option N) with Some p => Ok (bk, p) | None => Ok end_nav end
         end);
    _ ← diter_at d x;
    Ok x.
(** 703-706 count *)
Definition dcount (d : dtable) (k : N) : res N :=
  x ← dfind d k; e ← nav_eq pf (strip d) x end_nav; Ok (if (e : bool) then 0 else 1).

(** 594-608 locate(key) *)
Definition dlocate (d : dtable) (k : N) : res (N * option N) :=
  if d_b d =? 0 then Throw
  else
    qb ← dmap d k;
    let '(q, bk) := (qb : N * N) in
    consult ← dov_need_consult (d_ov d) bk;
    opos ← (if consult && (0 <? ov_size (d_ov d)) then dov_find pf (kbn c) (d_ov d) k else Ok None);
    match (opos : option N) with
    | Some p => Ok (dbucket_count d, Some p)
    | None => pos ← dlocate_q d bk q; Ok (bk, pos)
    end.

(** 686-695 write_value *)
Definition dwrite_value (d : dtable) (x : nav) (v : N) : res dtable :=
  let '(bk, pos) := x in
  if bk =? dbucket_count d then o ← dov_set pf (vbn c) (d_ov d) pos v; Ok (dset_ov d o)
  else
    _ ← chk (bk <? dbucket_count d);
    _ ← chk (v <=? max_value (strip d));
    s ← dget_slot d bk;
    vs ← db_write pf (c_val c) (ds_vals s) (N.to_nat pos) v (dvwidth d);
    Ok (dset_slot d bk (DSlot (ds_keys s) vs (ds_size s) (ds_cap s) (ds_plain s))).

(** 732-736: for(i = position+1; i < bucket_size; ++i) plainkeys[i-1] = plainkeys[i] *)
Definition dplain_erase (s : dslot) (pos : nat) : res (option (list (option N))) :=
  match ds_plain s with
  | None => if (pos + 1 <? N.to_nat (ds_size s))%nat then Ub NullDeref else Ok None
  | Some l => l ← cells_erase_loop l (pos + 1) (N.to_nat (ds_size s) - (pos + 1)); Ok (Some l)
  end.
(** 708-751 erase(bucket, position) *)
Definition derase_at (d : dtable) (x : nav) : res (dtable * N) :=
  let '(bk, pos) := x in
  if pos =? ones64 then Ok (d, 0)
  else if (0 <? ov_size (d_ov d)) && (bk =? dbucket_count d) then
    _ ← chk (pos <? ov_capacity (d_ov d));
    o ← dov_erase pf (d_ov d) pos; Ok (dset_n (dset_ov d o) (sub64 (d_n d) 1), 1)
  else
    _ ← chk (bk <? dbucket_count d);
    s ← dget_slot d bk;
    _ ← chk (pos <? ds_size s);
    l ← known (k_len (ds_keys s)); _ ← chk (ds_size s <=? l);
    w ← dwidth d;
    ks ← db_erase pf (c_key c) (ds_keys s) (N.to_nat pos) (N.to_nat (ds_size s)) w;
    vs ← db_erase pf (c_val c) (ds_vals s) (N.to_nat pos) (N.to_nat (ds_size s)) (dvwidth d);
    plain ← dplain_erase s (N.to_nat pos);
    _ ← chk (0 <? ds_size s);
    let s := DSlot ks vs (sub8 (ds_size s) 1) (ds_cap s) plain in
    let d := dset_n d (sub64 (d_n d) 1) in
    if ds_size s =? 0 then s ← dclear_slot d bk s; Ok (dset_slot d bk s, 1)
    else Ok (dset_slot d bk s, 1).
(** 755-760 erase(key) *)
Definition derase (d : dtable) (k : N) : res (dtable * N) :=
  if d_b d =? 0 then Ok (d, 0)
  else
    l ← dlocate d k;
    let '(bk, pos) := (l : N * option N) in
    derase_at d (bk, match pos with Some p => p | None => ones64 end).

(** 181-193 shrink_to_fit(bucket) *)
Definition dshrink_slot (d : dtable) (bk : N) (s : dslot) : res dslot :=
  w ← dwidth d;
  if ds_size s =? 0 then Ok s
  else if rs_can_shrink c (ds_cap s) (ds_size s) then
    let n := N.to_nat (ds_size s) in
    k ← db_resize pf (c_key c) (ds_keys s) n n w;
    v ← db_resize pf (c_val c) (ds_vals s) n n (dvwidth d);
    _ ← rs_assign_chk d bk;
    Ok (DSlot k v (ds_size s) (rs_store c (ds_size s)) (ds_plain s))
  else Ok s.
(** 196-202 shrink_to_fit *)
Definition dshrink_to_fit (d : dtable) : res dtable :=
  if d_b d =? 0 then Ok d
  else match d_slots d with
       | None => Ub NullDeref
       | Some sl =>
           let nb := N.to_nat (dbucket_count d) in
           sl' ← rmap (fun ib => let '(i, s) := (ib : nat * dslot) in dshrink_slot d (N.of_nat i) s) (imap pair (take nb sl));
           Ok (DTable (Some (sl' ++ drop nb sl)) (d_b d) (d_n d) (d_kw d) (d_vw d) (d_ov d) (d_rs d))
       end.

(** iterator.hpp:84-100 operator++ *)
Definition dnav_next (d : dtable) (x : nav) : res nav :=
  let '(bk, pos) := x in
  if (0 <? ov_size (d_ov d)) && (bk =? dbucket_count d) then p ← dov_next pf (d_ov d) pos; Ok (bk, p)
  else _ ← chk (bk <? dbucket_count d); nav_next pf (strip d) x.
(** iterator.hpp:101-124 operator--; the check of line 120 follows from the loop condition *)
Definition dnav_prev (d : dtable) (x : nav) : res nav :=
  let '(bk, pos) := x in
  if (0 <? ov_size (d_ov d)) && (bk =? dbucket_count d) then
    if 0 <? pos then p ← dov_prev pf (d_ov d) pos; Ok (bk, p) else nav_prev pf (strip d) x
  else _ ← chk (bk <? dbucket_count d); nav_prev pf (strip d) x.

(** The loops of test/base.hpp:65-73 *)
Fixpoint diterate (fuel : nat) (d : dtable) (x : nav) : res (list (N * N)) :=
  e ← nav_eq pf (strip d) x end_nav;
  if (e : bool) then Ok []
  else match fuel with
       | O => Timeout
       | S f => k ← dnav_key d x; v ← dnav_value d x; x' ← dnav_next d x; l ← diterate f d x'; Ok ((k, v) :: l)
       end.
Definition dforward (fuel : nat) (d : dtable) : res (list (N * N)) := x ← begin_nav (strip d); diterate fuel d x.
Fixpoint diterate_rev (fuel : nat) (d : dtable) (x : nav) : res (list (N * N)) :=
  e ← nav_eq pf (strip d) x end_nav;
  if (e : bool) then Ok []
  else match fuel with
       | O => Timeout
       | S f => k ← dnav_key d x; v ← dnav_value d x; x' ← dnav_prev d x; l ← diterate_rev f d x'; Ok ((k, v) :: l)
       end.
Definition dbackward (fuel : nat) (d : dtable) : res (list (N * N)) := x ← rbegin_nav (strip d); diterate_rev fuel d x.

(** Histories, as TableRun.run_op and run_sop. *)
Context (fuel : nat).
Definition drun_op (d : dtable) (o : op) : res (dtable * out) :=
  match o with
  | OpFind k => x ← dfind d k; e ← diter_at d x; Ok (d, OutEntry e)
  | OpCount k => n ← dcount d k; Ok (d, OutNum n)
  | OpInsert k v =>
      r ← dfind_or_insert fuel d k v;
      let '(d, x) := (r : dtable * nav) in
      e ← diter_at d x; Ok (d, OutEntry e)
  | OpRead k =>
      r ← dindex fuel d k;
      let '(d, x) := (r : dtable * nav) in
      v ← dnav_value d x; Ok (d, OutNum v)
  | OpWrite k v =>
      r ← dindex fuel d k;
      let '(d, x) := (r : dtable * nav) in
      d ← dwrite_value d x v; Ok (d, OutUnit)
  | OpErase k =>
      r ← derase d k;
      let '(d, n) := (r : dtable * N) in Ok (d, OutNum n)
  | OpEraseIt k =>
      x ← dfind d k;
      r ← derase_at d x;
      let '(d, n) := (r : dtable * N) in Ok (d, OutNum n)
  | OpSize => Ok (d, OutNum (d_n d))
  | OpEmpty => Ok (d, OutBool (d_n d =? 0))
  | OpReserve n => d ← dreserve fuel d n; Ok (d, OutUnit)
  | OpShrink => d ← dshrink_to_fit d; Ok (d, OutUnit)
  | OpClear => d ← dclear d; Ok (d, OutUnit)
  end.
Fixpoint drun_ops (d : dtable) (ops : list op) : res (dtable * list out) :=
  match ops with
  | [] => Ok (d, [])
  | o :: ops' =>
      r ← drun_op d o;
      let '(d, x) := (r : dtable * out) in
      rs ← drun_ops d ops';
      let '(d, xs) := (rs : dtable * list out) in
      Ok (d, x :: xs)
  end.
Definition dkey_at (d : dtable) (x : nav) : res (option N) :=
  i ← nav_invalid pf (strip d) x;
  if (i : bool) then Ok None else k ← dnav_key d x; Ok (Some k).
Definition drun_sop (d : dtable) (o : sop) : res (dtable * sout) :=
  match o with
  | SFind k => x ← dfind d k; e ← dkey_at d x; Ok (d, SoKey e)
  | SCount k => n ← dcount d k; Ok (d, SoNum n)
  | SInsert k =>
      r ← dfind_or_insert fuel d k 0;
      let '(d, x) := (r : dtable * nav) in
      e ← dkey_at d x; Ok (d, SoKey e)
  | SErase k =>
      r ← derase d k;
      let '(d, n) := (r : dtable * N) in Ok (d, SoNum n)
  | SSize => Ok (d, SoNum (d_n d))
  | SEmpty => Ok (d, SoBool (d_n d =? 0))
  | SReserve n => d ← dreserve fuel d n; Ok (d, SoUnit)
  | SShrink => d ← dshrink_to_fit d; Ok (d, SoUnit)
  | SClear => d ← dclear d; Ok (d, SoUnit)
  end.
Fixpoint drun_sops (d : dtable) (ops : list sop) : res (dtable * list sout) :=
  match ops with
  | [] => Ok (d, [])
  | o :: ops' =>
      r ← drun_sop d o;
      let '(d, x) := (r : dtable * sout) in
      rs ← drun_sops d ops';
      let '(d, xs) := (rs : dtable * list sout) in
      Ok (d, x :: xs)
  end.
End table.
