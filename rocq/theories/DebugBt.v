(** Model of the debug build (NDEBUG not defined) of include/separate/bucket_table.hpp: the release functions of BtModel with the
    DCHECK checks and the ON_DEBUG member m_plainkeys, over the buckets of DebugModel.  A failing check is [Throw]. *)
From Verif Require Export BtModel DebugModel.

(** The members 171-180; h_plain is m_plainkeys (a cell that has not been written is None). *)
Record dbt := DBt { h_keys : dbk; h_vals : dbk; h_n : N; h_len : N; h_plain : option (list (option N)) }.
(** Forgetting the debug members. *)
Definition bstrip (t : dbt) : btable := BT (k_b (h_keys t)) (k_b (h_vals t)) (h_n t) (h_len t).

Section bt.
Context (pf : platform) (c : bcfg).
(** The members of a default-constructed bucket that no constructor sets, as in DebugModel *)
Context (junk : option N).
Let kd := bc_key c.
Let vd := bc_val c.
Let w := bc_width c.

(** 231-235 the constructor *)
Definition dbt_new : res dbt :=
  _ ← chk (w <=? val_bits kd)%nat;
  Ok (DBt (fresh_dbk junk) (fresh_dbk junk) 0 0 None).
Definition dbt_init (t : dbt) : bool := bt_init (bstrip t).
(** 211 max_key *)
Definition bt_max_key : res N := x ← shr64 ones64 (64 - N.of_nat w); Ok (x mod 2^N.of_nat (val_bits kd)).
(** m_plainkeys[i] *)
Definition bplain (t : dbt) (i : nat) : res N := match h_plain t with None => Ub NullDeref | Some l => cell_read l i end.
Definition bplain_put (l : option (list (option N))) (i : nat) (k : option N) : res (option (list (option N))) :=
  match l with None => Ub NullDeref | Some l => if (i <? length l)%nat then Ok (Some (<[i := k]> l)) else Ub OobWrite end.
(** realloc(m_plainkeys, sizeof(key_type)*n); realloc(p, 0) releases the block *)
Definition bplain_realloc (l : option (list (option N))) (n : nat) : option (list (option N)) :=
  if (n =? 0)%nat then None else Some (take n (default [] l) ++ replicate (n - length (default [] l)) None).

(** 183-190 shrink_to_fit *)
Definition dbt_shrink (t : dbt) : res dbt :=
  if dbt_init t then
    if h_n t <? st_size c (h_len t) (h_n t) then
      ks ← db_resize pf kd (h_keys t) (N.to_nat (h_n t)) (N.to_nat (h_n t)) w;
      vs ← db_resize pf vd (h_vals t) (N.to_nat (h_n t)) (N.to_nat (h_n t)) w;
      Ok (DBt ks vs (h_n t) (st_assign c (h_len t) (h_n t)) (h_plain t))
    else Ok t
  else Ok t.
(** 225-229 max_bucket_size *)
Definition dbt_max_bucket (t : dbt) : res N :=
  let ret := st_size c (h_len t) (h_n t) in _ ← chk (ret <? 2^32 - 1); Ok ret.
(** 201-206 clear *)
Definition dbt_clear (t : dbt) : res dbt :=
  ks ← db_clear pf kd (h_keys t);
  vs ← db_clear pf vd (h_vals t);
  Ok (DBt ks vs 0 (h_len t) None).

(** 312-319: [n] iterations starting at [i] *)
Fixpoint dbt_scan (t : dbt) (key : N) (i n : nat) : res (option N) :=
  match n with
  | O => Ok None
  | S n' =>
      r ← db_read pf kd (h_keys t) i w;
      p ← bplain t i; _ ← chk (r =? p);
      if p =? key then Ok (Some (N.of_nat i)) else dbt_scan t key (S i) n'
  end.
(** 309-332 locate *)
Definition dbt_locate (t : dbt) (key : N) : res N :=
  pp ← dbt_scan t key 0 (N.to_nat (h_n t));
  r ← db_find pf kd (h_keys t) key (N.to_nat (h_n t)) w;
  let pos := option_map N.of_nat r in
  _ ← chk (bool_decide (pos = pp));
  _ ← (match pos with Some p => chk (p <? h_n t) | None => Ok () end);
  Ok (match pos with Some p => p | None => ones64 end).

(** bucket_table_navigator, 65-86: ++, --, key, value and value_ref *)
Definition dbn_valid (t : dbt) (p : N) : res unit := chk (p <? h_n t).
Definition dbn_next (t : dbt) (p : N) : res N := _ ← dbn_valid t p; Ok (bn_next p).
Definition dbn_prev (t : dbt) (p : N) : res N := _ ← dbn_valid t p; Ok (bn_prev p).
Definition dbn_key (t : dbt) (p : N) : res N := _ ← dbn_valid t p; db_read pf kd (h_keys t) (N.to_nat p) w.
Definition dbn_value (t : dbt) (p : N) : res N := _ ← dbn_valid t p; db_read pf vd (h_vals t) (N.to_nat p) 0.
Definition dbn_write (t : dbt) (p v : N) : res dbt :=
  _ ← dbn_valid t p; vs ← db_write pf vd (h_vals t) (N.to_nat p) v 0;
  Ok (DBt (h_keys t) vs (h_n t) (h_len t) (h_plain t)).
(** 116-125 bucket_table_iterator *)
Definition dbi_at (t : dbt) (p : N) : res (option (N * N)) :=
  if bn_invalid (bstrip t) p then Ok None
  else _ ← dbn_valid t p; k ← dbn_key t p; v ← dbn_value t p; Ok (Some (k, v)).

(** 303-307 find *)
Definition dbt_find (t : dbt) (key : N) : res N := if dbt_init t then dbt_locate t key else Ok bt_end.
(** 334-341 operator[] const *)
Definition dbt_at (t : dbt) (key : N) : res N :=
  m ← bt_max_key; _ ← chk (key <=? m);
  _ ← chk (dbt_init t);
  p ← dbt_locate t key;
  _ ← chk (negb (p =? ones64)); _ ← chk (p <? h_n t);
  db_read pf vd (h_vals t) (N.to_nat p) 0.

(** 371-377, end of find_or_insert *)
Definition dbt_last (t : dbt) (key value : N) : res (dbt * N) :=
  _ ← chk (h_n t <=? st_size c (h_len t) (h_n t));
  let p := u32 (h_n t + 2^32 - 1) in
  l ← bplain_put (h_plain t) (N.to_nat p) (Some key);
  ks ← db_write pf kd (h_keys t) (N.to_nat p) key w;
  vs ← db_write pf vd (h_vals t) (N.to_nat p) value 0;
  Ok (DBt ks vs (h_n t) (h_len t) l, p).
(** 42 DCHECK_LE(arbitrary_resize::resize(newsize), std::numeric_limits<bucketsize_type>::max()) *)
Definition st_after_chk (newsize : N) : res unit :=
  match bc_strat c with BInc => Ok tt | BArb => chk (arb_resize (u32 newsize) <=? 2^32 - 1) end.
(** 342-378 find_or_insert *)
Definition dbt_insert (t : dbt) (key value : N) : res (dbt * N) :=
  m ← bt_max_key; _ ← chk (key <=? m);
  if dbt_init t then
    p ← dbt_locate t key;
    if p =? ones64 then
      let n := u32 (h_n t + 1) in
      let plain := bplain_realloc (h_plain t) (N.to_nat n) in
      if st_needs_resize c (h_len t) n then
        _ ← st_after_chk n;
        let '(newsize, len) := st_after_increment c (h_len t) n in
        let old := N.to_nat (u32 (n + 2^32 - 1)) in
        ks ← db_resize pf kd (h_keys t) old (N.to_nat newsize) w;
        vs ← db_resize pf vd (h_vals t) old (N.to_nat newsize) 0;
        dbt_last (DBt ks vs n len plain) key value
      else dbt_last (DBt (h_keys t) (h_vals t) n (h_len t) plain) key value
    else _ ← chk (p <? h_n t); Ok (t, p)
  else
    ks ← db_initialize pf kd (h_keys t) 1 w;
    vs ← db_initialize pf vd (h_vals t) 1 (val_bits vd);
    dbt_last (DBt ks vs 1 (st_assign c (h_len t) 1) (Some [None])) key value.

(** 387-389 count *)
Definition dbt_count (t : dbt) (key : N) : res N :=
  p ← dbt_find t key; Ok (if bn_eq (bstrip t) p bt_end then 0 else 1).

(** 399-403 the shift loop of erase; [n] iterations left *)
Fixpoint dbt_shift (ks vs : dbk) (l : option (list (option N))) (i n : nat) : res (dbk * dbk * option (list (option N))) :=
  match n with
  | O => Ok (ks, vs, l)
  | S n' =>
      k ← db_read pf kd ks i w;
      ks' ← db_write pf kd ks (i - 1) k w;
      x ← (match l with None => Ub NullDeref | Some l => of_option OobRead (l !! i) end);
      l' ← bplain_put l (i - 1) x;
      v ← db_read pf vd vs i 0;
      vs' ← db_write pf vd vs (i - 1) v 0;
      dbt_shift ks' vs' l' (S i) n'
  end.
(** 392-410 erase *)
Definition dbt_erase (t : dbt) (key : N) : res (dbt * N) :=
  if dbt_init t then
    p ← dbt_locate t key;
    if p =? ones64 then Ok (t, 0)
    else
      let i := S (N.to_nat p) in
      r ← dbt_shift (h_keys t) (h_vals t) (h_plain t) i (N.to_nat (h_n t) - i);
      let '(ks, vs, l) := (r : dbk * dbk * option (list (option N))) in
      _ ← chk (0 <? h_n t);
      let t := DBt ks vs (u32 (h_n t + 2^32 - 1)) (h_len t) l in
      if h_n t =? 0 then t ← dbt_clear t; Ok (t, 1) else Ok (t, 1)
  else Ok (t, 0).

(** 249-259 move assignment; the buckets that are moved from lose their block, their length is 0 (bucket.hpp:169-176, 296-305, 348-357,
    490-505).  ow is m_width of the other table. *)
Definition moved_dbk (kd : bkind) (b : dbk) : dbk :=
  Dbk None (match kd with KNull => k_len b | _ => Some 0 end) (match kd with KVar _ => Some 0 | _ => k_sz b end).
Definition dbt_move_assign (ow : nat) (t other : dbt) : res (dbt * dbt) :=
  _ ← chk (w =? ow)%nat;
  _ ← dbt_clear t;
  Ok (other, DBt (moved_dbk kd (h_keys other)) (moved_dbk vd (h_vals other)) 0 (h_len other) None).
(** 260-268 swap *)
Definition dbt_swap (ow : nat) (t other : dbt) : res (dbt * dbt) := _ ← chk (w =? ow)%nat; Ok (other, t).

(** A history of calls, as bt_run *)
Definition dbt_run_op (t : dbt) (o : op) : res (dbt * out) :=
  match o with
  | OpFind k => p ← dbt_find t k; e ← dbi_at t p; Ok (t, OutEntry e)
  | OpCount k => n ← dbt_count t k; Ok (t, OutNum n)
  | OpInsert k v =>
      r ← dbt_insert t k v; let '(t, p) := (r : dbt * N) in
      e ← dbi_at t p; Ok (t, OutEntry e)
  | OpRead k =>
      r ← dbt_insert t k 0; let '(t, p) := (r : dbt * N) in
      v ← dbn_value t p; Ok (t, OutNum v)
  | OpWrite k v =>
      r ← dbt_insert t k 0; let '(t, p) := (r : dbt * N) in
      t ← dbn_write t p v; Ok (t, OutUnit)
  | OpErase k => r ← dbt_erase t k; let '(t, n) := (r : dbt * N) in Ok (t, OutNum n)
  | OpSize => Ok (t, OutNum (h_n t))
  | OpEmpty => Ok (t, OutBool (h_n t =? 0))
  | OpShrink => t ← dbt_shrink t; Ok (t, OutUnit)
  | OpClear => t ← dbt_clear t; Ok (t, OutUnit)
  | OpReserve _ | OpEraseIt _ => Throw
  end.
Fixpoint dbt_run (t : dbt) (ops : list op) : res (dbt * list out) :=
  match ops with
  | [] => Ok (t, [])
  | o :: ops' =>
      r ← dbt_run_op t o; let '(t, x) := (r : dbt * out) in
      rs ← dbt_run t ops'; let '(t, xs) := (rs : dbt * list out) in
      Ok (t, x :: xs)
  end.

(** for(auto it = begin(); it != end(); ++it): 127-132 *)
Fixpoint dbt_iter (fuel : nat) (t : dbt) (p : N) : res (list (N * N)) :=
  match fuel with
  | O => Timeout
  | S fuel' =>
      if bn_eq (bstrip t) p bt_end then Ok []
      else e ← dbi_at t p;
           match e with
           | Some x => q ← dbn_next t p; xs ← dbt_iter fuel' t q; Ok (x :: xs)
           | None => Ub Indeterminate
           end
  end.
(** for(auto nav = rbegin_nav(); nav != rend_nav(); --nav) *)
Fixpoint dbt_riter (fuel : nat) (t : dbt) (p : N) : res (list (N * N)) :=
  match fuel with
  | O => Timeout
  | S fuel' =>
      if bn_eq (bstrip t) p bt_end then Ok []
      else k ← dbn_key t p; v ← dbn_value t p;
           q ← dbn_prev t p; xs ← dbt_riter fuel' t q; Ok ((k, v) :: xs)
  end.
End bt.
