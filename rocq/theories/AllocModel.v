(** Model of separate_chaining_table on a heap where operator new can fail.

    The statements of TableModel.v that call operator new are repeated here with the exception std::bad_alloc:
    new key_bucket_type[] (separate_chaining_table.hpp:426), new value_bucket_type[] (105, called by 427; the manager of sets has none),
    and class_bucket::initialize and class_bucket::resize (bucket.hpp:327, 332), which allocate with new[].
    A call is given the number of requests that succeed before the first one fails, None if none fails.
    It either completes, with what is left of that number, or is left by the exception; then the table the exception leaves behind is returned.

    Simplified: malloc, realloc and _mm_malloc, which report a failure by a null pointer that the code does not check, never fail;
    the array of a failed reserve that stays allocated (m_keys at 426 if 427 fails) is not represented; the overflow tables never fail. *)
From Verif Require Export TableModel.

Definition heap : Type := option nat.
(** A request; [b]: is it made at all. *)
Definition request (b : bool) (h : heap) : option heap :=
  if b then match h with None => Some None | Some O => None | Some (S n) => Some (Some n) end else Some h.

(** Does initialize/resize call operator new (bucket.hpp:89-92, 118 _mm_malloc; 242, 254 malloc/realloc; 327, 332 new[]; 416, 423 malloc/realloc; null_bucket nothing). *)
Definition kind_new (kd : bkind) : bool := match kd with KClass _ => true | _ => false end.
(** Is there an array of value buckets (77-118 value_array_manager; the manager of sets before it has none). *)
Definition has_values (kd : bkind) : bool := match kd with KNull => false | _ => true end.

(** Completed, or left by std::bad_alloc with what it leaves behind. *)
Inductive tried (A B : Type) := Done (a : A) (h : heap) | Bad (b : B).
Arguments Done {A B}. Arguments Bad {A B}.

Section alloc.
Context (pf : platform) (c : cfg).

(** 421-431 reserve, first branch.  m_buckets is set at 430, after the requests. *)
Definition a_alloc_table (t : table) (n : N) (h : heap) : res (tried table table) :=
  t' ← alloc_table pf t n;
  match request true h with
  | None => Ok (Bad t)
  | Some h =>
      match request (has_values (c_val c)) h with
      | None => Ok (Bad t)
      | Some h => Ok (Done t' h)
      end
  end.

(** 648-683: append (q, v) to bucket s.  The counter of the bucket is incremented (657, 663), and the new capacity stored by
    size_after_increment (667, size.hpp:77-82), before initialize (658-659) or resize (668-669) are called. *)
Definition a_push_slot (t : table) (s : slot) (q v : N) (h : heap) : res (tried slot slot) :=
  let kw := N.to_nat (t_kw t) in
  r ← (if s_size s =? 0 then
         match request (kind_new (c_key c)) h with
         | None => Ok (Bad (Slot (s_keys s) (s_vals s) 1 (s_cap s)))
         | Some h =>
             let k := b_initialize pf (c_key c) 1 kw in
             match request (kind_new (c_val c)) h with
             | None => Ok (Bad (Slot k (s_vals s) 1 (s_cap s)))
             | Some h => Ok (Done (Slot k (b_initialize pf (c_val c) 1 (vwidth t)) 1 (rs_store c 1)) h)
             end
         end
       else
         let size := u8 (s_size s + 1) in
         if rs_needs_resize c (s_cap s) size then
           let newsize := rs_size_after c size in
           let old := N.to_nat (sub64 size 1) in
           match request (kind_new (c_key c)) h with
           | None => Ok (Bad (Slot (s_keys s) (s_vals s) size (rs_store c newsize)))
           | Some h =>
               k ← b_resize pf (c_key c) (s_keys s) old (N.to_nat newsize) (qwidth c t);
               match request (kind_new (c_val c)) h with
               | None => Ok (Bad (Slot k (s_vals s) size (rs_store c newsize)))
               | Some h =>
                   v ← b_resize pf (c_val c) (s_vals s) old (N.to_nat newsize) (vwidth t);
                   Ok (Done (Slot k v size (rs_store c newsize)) h)
               end
           end
         else Ok (Done (Slot (s_keys s) (s_vals s) size (s_cap s)) h));
  match (r : tried slot slot) with
  | Bad s => Ok (Bad s)
  | Done s h =>
      k ← b_write pf (c_key c) (s_keys s) (N.to_nat (sub64 (s_size s) 1)) q (qwidth c t);
      v ← b_write pf (c_val c) (s_vals s) (N.to_nat (sub64 (s_size s) 1)) v (vwidth t);
      Ok (Done (Slot k v (s_size s) (s_cap s)) h)
  end.

(** What find_or_insert returns. *)
Definition inserted : Type := tried (table * nav) table.

(** 445-453: the elements j, j+1, ... ([n] of them) of bucket i go to tmp_map; Bad is the table tmp_map is left as. *)
Fixpoint a_rehash_bucket (ains : table -> N -> N -> heap -> res inserted) (t : table) (i : nat) (s : slot) (n j : nat) (tmp : table) (h : heap) :
  res (tried table table) :=
  match n with
  | O => Ok (Done tmp h)
  | S n' =>
      q ← b_read pf (c_key c) (s_keys s) j (qwidth c t);
      k ← hash_inv_map (hm c t) q (N.of_nat i) (t_b t);
      v ← b_read pf (c_val c) (s_vals s) j (vwidth t);
      r ← ains tmp k v h;
      match (r : inserted) with
      | Done (tmp, _) h => a_rehash_bucket ains t i s n' (S j) tmp h
      | Bad tmp => Ok (Bad tmp)
      end
  end.

(** 442-455: bucket after bucket.  A bucket whose elements were all inserted is cleared (454).  Result: tmp_map, or,
    if an insertion fails, tmp_map with the buckets of this table as they are then. *)
Fixpoint a_rehash (ains : table -> N -> N -> heap -> res inserted) (t : table) (i : nat) (sl : list slot) (tmp : table) (h : heap) :
  res (tried table (table * list slot)) :=
  match sl with
  | [] => Ok (Done tmp h)
  | s :: sl' =>
      r ← (if s_size s =? 0 then
             _ ← b_free pf (c_key c) (s_keys s); _ ← b_free pf (c_val c) (s_vals s); Ok (Done tmp h)
           else a_rehash_bucket ains t i s (N.to_nat (s_size s)) 0 tmp h);
      match (r : tried table table) with
      | Bad tmp => Ok (Bad (tmp, s :: sl'))
      | Done tmp h =>
          s' ← (if s_size s =? 0 then Ok s else clear_slot pf c s);
          r ← a_rehash ains t (S i) sl' tmp h;
          match (r : tried table (table * list slot)) with
          | Done tmp h => Ok (Done tmp h)
          | Bad (tmp, sl') => Ok (Bad (tmp, s' :: sl'))
          end
      end
  end.
(** 456-462: the elements of the overflow table *)
Fixpoint a_rehash_overflow (fuel : nat) (ains : table -> N -> N -> heap -> res inserted) (o : overflow) (i : N) (tmp : table) (h : heap) :
  res (tried table table) :=
  if ov_valid pf o i then
    match fuel with
    | O => Timeout
    | S f =>
        k ← ov_key pf (kbn c) o i;
        v ← ov_get pf (vbn c) o i;
        r ← ains tmp k v h;
        match (r : inserted) with
        | Done (tmp, _) h => a_rehash_overflow f ains o (ov_next pf o i) tmp h
        | Bad tmp => Ok (Bad tmp)
        end
    end
  else Ok (Done tmp h).

Definition with_slots (t : table) (sl : list slot) : table := Table (Some sl) (t_b t) (t_n t) (t_kw t) (t_vw t) (t_ov t).

(** 416-468 reserve.  If an insertion into tmp_map fails, the stack is unwound: the destructor (701) of tmp_map clears it. *)
Definition a_reserve_with (ains : table -> N -> N -> heap -> res inserted) (t : table) (n : N) (h : heap) : res (tried table table) :=
  if t_b t =? 0 then a_alloc_table t n h
  else
    bits ← reserve_bits n;
    r ← a_alloc_table (new_table pf c (t_kw t) (t_vw t)) (2^bits) h;
    match (r : tried table table) with
    | Bad tmp => _ ← clear pf c tmp; Ok (Bad t)
    | Done tmp h =>
        match t_slots t with
        | None => Ub NullDeref
        | Some sl =>
            let nb := N.to_nat (bucket_count t) in
            r ← a_rehash ains t 0 (take nb sl) tmp h;
            match (r : tried table (table * list slot)) with
            | Bad (tmp, sl') => _ ← clear pf c tmp; Ok (Bad (with_slots t (sl' ++ drop nb sl)))
            | Done tmp h =>
                r ← a_rehash_overflow (S (N.to_nat (ov_capacity (t_ov t)))) ains (t_ov t) (ov_first pf (t_ov t)) tmp h;
                match (r : tried table table) with
                | Bad tmp =>
                    _ ← clear pf c tmp;
                    sl' ← rmap (fun s => if s_size s =? 0 then Ok s else clear_slot pf c s) (take nb sl);
                    Ok (Bad (with_slots t (sl' ++ drop nb sl)))
                | Done tmp h => _ ← ov_clear pf (kbn c) (vbn c) (t_ov t); Ok (Done tmp h)
                end
            end
        end
    end.

(** 610-684 find_or_insert.  ++m_elements (648) comes before the requests for the bucket. *)
Fixpoint a_find_or_insert (fuel : nat) (t : table) (k v : N) (h : heap) : res inserted :=
  match fuel with
  | O => Timeout
  | S f =>
      r ← (if t_b t =? 0 then a_alloc_table t (N.min (sub64 (t_kw t) 1) 16) h else Ok (Done t h));
      match (r : tried table table) with
      | Bad t => Ok (Bad t)
      | Done t h =>
      qb ← hash_map (hm c t) k (t_b t);
      let '(q, bk) := (qb : N * N) in
      s ← get_slot t bk;
      pos ← locate_q pf c t bk q;
      match (pos : option N) with
      | Some p => Ok (Done (t, (bk, p)) h)
      | None =>
          consult ← ov_need_consult (t_ov t) bk;
          opos ← (if (consult : bool) then ov_find pf (kbn c) (t_ov t) k else Ok None);
          match (opos : option N) with
          | Some p => Ok (Done (t, (bucket_count t, p)) h)
          | None =>
              if s_size s =? c_maxb c then
                ov ← (if ov_size (t_ov t) <? ov_capacity (t_ov t)
                      then ov_insert pf (kbn c) (vbn c) (t_ov t) bk k (v mod 2^N.of_nat (vbn c)) else Ok (t_ov t, None));
                let '(o, opos) := (ov : overflow * option N) in
                let t := set_ov t o in
                match (opos : option N) with
                | Some p => Ok (Done (set_n t (u64 (t_n t + 1)), (bucket_count t, p)) h)
                | None =>
                    n ← shl64 1 (t_b t + 1);
                    r ← a_reserve_with (a_find_or_insert f) t n h;
                    match (r : tried table table) with
                    | Bad t => Ok (Bad t)
                    | Done t h => a_find_or_insert f t k v h
                    end
                end
              else
                r ← a_push_slot t s q v h;
                let t := set_n t (u64 (t_n t + 1)) in
                match (r : tried slot slot) with
                | Bad s => Ok (Bad (set_slot t bk s))
                | Done s h => Ok (Done (set_slot t bk s, (bk, sub64 (s_size s) 1)) h)
                end
          end
      end
      end
  end.

Definition a_reserve (fuel : nat) (t : table) (n : N) (h : heap) : res (tried table table) := a_reserve_with (a_find_or_insert fuel) t n h.

(** 181-193 shrink_to_fit(bucket): the counters are not touched before the requests *)
Definition a_shrink_slot (t : table) (s : slot) (h : heap) : res (tried slot slot) :=
  if s_size s =? 0 then Ok (Done s h)
  else if rs_can_shrink c (s_cap s) (s_size s) then
    let n := N.to_nat (s_size s) in
    match request (kind_new (c_key c)) h with
    | None => Ok (Bad s)
    | Some h =>
        k ← b_resize pf (c_key c) (s_keys s) n n (qwidth c t);
        match request (kind_new (c_val c)) h with
        | None => Ok (Bad (Slot k (s_vals s) (s_size s) (s_cap s)))
        | Some h =>
            v ← b_resize pf (c_val c) (s_vals s) n n (vwidth t);
            Ok (Done (Slot k v (s_size s) (rs_store c (s_size s))) h)
        end
    end
  else Ok (Done s h).
(** 196-202 shrink_to_fit *)
Fixpoint a_shrink_slots (t : table) (sl : list slot) (h : heap) : res (tried (list slot) (list slot)) :=
  match sl with
  | [] => Ok (Done [] h)
  | s :: sl' =>
      r ← a_shrink_slot t s h;
      match (r : tried slot slot) with
      | Bad s => Ok (Bad (s :: sl'))
      | Done s h =>
          r ← a_shrink_slots t sl' h;
          match (r : tried (list slot) (list slot)) with
          | Bad sl' => Ok (Bad (s :: sl'))
          | Done sl' h => Ok (Done (s :: sl') h)
          end
      end
  end.
Definition a_shrink_to_fit (t : table) (h : heap) : res (tried table table) :=
  if t_b t =? 0 then Ok (Done t h)
  else match t_slots t with
       | None => Ub NullDeref
       | Some sl =>
           let nb := N.to_nat (bucket_count t) in
           r ← a_shrink_slots t (take nb sl) h;
           match (r : tried (list slot) (list slot)) with
           | Bad sl' => Ok (Bad (with_slots t (sl' ++ drop nb sl)))
           | Done sl' h => Ok (Done (with_slots t (sl' ++ drop nb sl)) h)
           end
       end.
End alloc.
