(** Model of group_chaining_table (dummy overflow, release build) on a heap where operator new can fail.

    The table calls operator new once, for the array of groups (group_chaining.hpp:974).  heap, request and tried are those of AllocModel.v: a call
    is given the number of requests that succeed before the first one fails, and either completes or is left by std::bad_alloc together with the
    table that it leaves behind.

    Simplified: malloc and realloc never fail (see MallocGroup.v). *)
From Verif Require Export AllocModel GroupModel.

Section table.
Context (pf : platform) (c : gcfg).

(** 958-976 reserve, first branch: m_groups (974) and m_buckets (975) are set after the request *)
Definition ag_alloc (t : gtable) (n : N) (h : heap) : res (tried gtable gtable) :=
  t' ← g_alloc t n;
  match request true h with
  | None => Ok (Bad t)
  | Some h => Ok (Done t' h)
  end.

(** 1008-1015: the elements [js] of bucket [r] of group [gi]; Bad is the table tmp_map is left as *)
Fixpoint ag_rehash_entries (ains : gtable -> N -> N -> heap -> res (tried (gtable * nav) gtable)) (t : gtable) (gi : nat) (g : kvgroup) (r : nat)
    (js : list nat) (tmp : gtable) (h : heap) : res (tried gtable gtable) :=
  match js with
  | [] => Ok (Done tmp h)
  | j :: js =>
      kv ← kv_read pf g r j (gqw c t) (gvw t);
      k ← hash_inv_map (ghm c (gt_kw t)) (fst kv) (N.of_nat (r + gi * gbpg t)) (gt_b t);
      x ← ains tmp k (snd kv) h;
      match (x : tried (gtable * nav) gtable) with
      | Done (tmp, _) h => ag_rehash_entries ains t gi g r js tmp h
      | Bad tmp => Ok (Bad tmp)
      end
  end.
(** 1000-1016: the buckets [rs] of group [gi] *)
Fixpoint ag_rehash_buckets (ains : gtable -> N -> N -> heap -> res (tried (gtable * nav) gtable)) (t : gtable) (gi : nat) (g : kvgroup)
    (rs : list nat) (tmp : gtable) (h : heap) : res (tried gtable gtable) :=
  match rs with
  | [] => Ok (Done tmp h)
  | r :: rs =>
      n ← kv_bucketsize g r;
      x ← ag_rehash_entries ains t gi g r (seq 0 n) tmp h;
      match (x : tried gtable gtable) with
      | Done tmp h => ag_rehash_buckets ains t gi g rs tmp h
      | Bad tmp => Ok (Bad tmp)
      end
  end.
(** 995-1018: group after group.  A group whose elements were all inserted is cleared (1017), an empty one is skipped (997).  Result: tmp_map or,
    if an insertion fails, tmp_map with the groups of this table as they are then *)
Fixpoint ag_rehash (ains : gtable -> N -> N -> heap -> res (tried (gtable * nav) gtable)) (t : gtable) (gi : nat) (gs : list kvgroup)
    (tmp : gtable) (h : heap) : res (tried gtable (gtable * list kvgroup)) :=
  match gs with
  | [] => Ok (Done tmp h)
  | g :: gs =>
      x ← (if kv_empty g then Ok (Done tmp h) else ag_rehash_buckets ains t gi g (seq 0 (gbpg t)) tmp h);
      match (x : tried gtable gtable) with
      | Bad tmp => Ok (Bad (tmp, g :: gs))
      | Done tmp h =>
          y ← ag_rehash ains t (S gi) gs tmp h;
          match (y : tried gtable (gtable * list kvgroup)) with
          | Done tmp h => Ok (Done tmp h)
          | Bad (tmp, gs) => Ok (Bad (tmp, (if kv_empty g then g else kv_clear g) :: gs))
          end
      end
  end.
(** 958-1035 reserve(n, new_key_width).  When an exception leaves the call the destructor (1286) of tmp_map clears it. *)
Definition ag_reserve_with (ains : gtable -> N -> N -> heap -> res (tried (gtable * nav) gtable)) (t : gtable) (n nkw : N) (h : heap) : res (tried gtable gtable) :=
  let nkw := if nkw =? 0 then gt_kw t else nkw in
  if gt_b t =? 0 then ag_alloc t n h
  else
    bits ← reserve_bits n;
    x ← ag_alloc (GTable None 0 0 (u8 nkw) (gt_vw t) 64) (2^bits) h;
    match (x : tried gtable gtable) with
    | Bad tmp => _ ← g_clear tmp; Ok (Bad t)
    | Done tmp h =>
        gc ← g_group_count t;
        match gt_groups t with
        | None => Ub NullDeref
        | Some gs =>
            if N.of_nat (length gs) <? gc then Ub OobRead
            else
              x ← ag_rehash ains t 0 (take (N.to_nat gc) gs) tmp h;
              match (x : tried gtable (gtable * list kvgroup)) with
              | Done tmp h => Ok (Done tmp h)
              | Bad (tmp, gs') =>
                  _ ← g_clear tmp;
                  Ok (Bad (GTable (Some (gs' ++ drop (N.to_nat gc) gs)) (gt_b t) (gt_n t) (gt_kw t) (gt_vw t) (gt_bpg t)))
              end
        end
    end.
(** 1185-1277 find_or_insert *)
Fixpoint ag_find_or_insert (fuel : nat) (t : gtable) (k v : N) (h : heap) : res (tried (gtable * nav) gtable) :=
  match fuel with
  | O => Timeout
  | S f =>
      x ← (if gt_b t =? 0 then ag_alloc t (N.min (sub64 (gt_kw t) 1) 8) h else Ok (Done t h));
      match (x : tried gtable gtable) with
      | Bad t => Ok (Bad t)
      | Done t h =>
          qb ← hash_map (ghm c (gt_kw t)) k (gt_b t);
          let '(q, bk) := (qb : N * N) in
          g ← g_group t bk;
          n ← kv_bucketsize g (g_rank t bk);
          pos ← g_locate_q pf c t bk q;
          match (pos : option N) with
          | Some p => Ok (Done (t, (bk, p)) h)
          | None =>
              if g_size g =? g_max_group then
                m ← shl64 1 (gt_b t + 1);
                x ← ag_reserve_with (ag_find_or_insert f) t m 0 h;
                match (x : tried gtable gtable) with
                | Bad t => Ok (Bad t)
                | Done t h => ag_find_or_insert f t k v h
                end
              else
                let g := if kv_initialized g then g else kv_init g (gbpg t) (gqw c t) (gvw t) in
                g ← kv_push pf g (gbpg t) (g_rank t bk) q (gqw c t) v (gvw t);
                Ok (Done (g_set (g_set_n t (u64 (gt_n t + 1))) bk g, (bk, N.of_nat n)) h)
          end
      end
  end.
Definition ag_reserve (fuel : nat) (t : gtable) (n nkw : N) (h : heap) : res (tried gtable gtable) := ag_reserve_with (ag_find_or_insert fuel) t n nkw h.
End table.
