(** Model of include/separate/bucket_table.hpp. *)
From Verif Require Export Spec SizeModel BucketModel.

(** Template arguments of bucket_table and the width given to its constructor (bucket_table.hpp:153-154, 231-235).
    The value bucket is accessed with operator[], so it is a plain_bucket or class_bucket. *)
Inductive bstrat := BInc (* size.hpp:12-28 incremental_resize *) | BArb (* bucket_table.hpp:23-47 arbitrary_resize_bucket *).
Record bcfg := BCfg { bc_key : bkind; bc_val : bkind; bc_strat : bstrat; bc_width : nat }.

(** bucket_table.hpp:174-179 the members; bt_len is arbitrary_resize_bucket::m_length (line 30). *)
Record btable := BT { bt_keys : bucket; bt_vals : bucket; bt_n : N; bt_len : N }.

(** bucket_table.hpp:231-235; default member values 30, 179. *)
Definition bt_new : btable := BT None None 0 0.

(** sizeof(value_type)*8 *)
Definition val_bits (kd : bkind) : nat :=
  match kd with KPlain es | KClass es | KAvx es => es | _ => 64 end.

Section bt.
Context (pf : platform) (c : bcfg).
Let kd := bc_key c.
Let vd := bc_val c.
Let w := bc_width c.

(** *** resize strategies: bucket_table.hpp:33-46, size.hpp:17-26.  [bucketsize_type] is uint32_t. *)
Definition st_assign (len size : N) : N := match bc_strat c with BInc => len | BArb => u32 size end.
Definition st_size (len current : N) : N := match bc_strat c with BInc => current | BArb => len end.
Definition st_needs_resize (len newsize : N) : bool :=
  match bc_strat c with BInc => inc_needs_resize | BArb => len <=? u32 newsize end.
(** new capacity, and new m_length *)
Definition st_after_increment (len newsize : N) : N * N :=
  match bc_strat c with
  | BInc => (inc_size_after_increment newsize, len)
  | BArb => let l := u32 (arb_resize (u32 newsize)) in (l, l)
  end.

(** bucket.hpp initialized(): the pointer is not null *)
Definition bt_init (t : btable) : bool := match bt_keys t with None => false | Some _ => true end.

(** 183-190 shrink_to_fit *)
Definition bt_shrink (t : btable) : res btable :=
  if bt_init t then
    if bt_n t <? st_size (bt_len t) (bt_n t) then
      ks ← b_resize pf kd (bt_keys t) (N.to_nat (bt_n t)) (N.to_nat (bt_n t)) w;
      vs ← b_resize pf vd (bt_vals t) (N.to_nat (bt_n t)) (N.to_nat (bt_n t)) w;
      Ok (BT ks vs (bt_n t) (st_assign (bt_len t) (bt_n t)))
    else Ok t
  else Ok t.

(** 193-195 capacity *)
Definition bt_capacity (t : btable) : N := st_size (bt_len t) (bt_n t).

(** 201-206 clear; the resize strategy keeps its length *)
Definition bt_clear (t : btable) : res btable :=
  ks ← b_clear pf kd (bt_keys t);
  vs ← b_clear pf vd (bt_vals t);
  Ok (BT ks vs 0 (bt_len t)).

(** 218-223 *)
Definition bt_empty (t : btable) : bool := bt_n t =? 0.
Definition bt_size (t : btable) : N := bt_n t.

(** 309-332 locate (release build); -1ULL stands for "not found" *)
Definition bt_locate (t : btable) (key : N) : res N :=
  r ← b_find pf kd (bt_keys t) key (N.to_nat (bt_n t)) w;
  Ok (match r with Some i => N.of_nat i | None => ones64 end).

(** bucket_table_navigator, 49-101: a position *)
Definition bn_invalid (t : btable) (p : N) : bool := bt_n t <=? p.     (* 87-89 *)
Definition bn_key (t : btable) (p : N) : res N := b_read pf kd (bt_keys t) (N.to_nat p) w.     (* 75-78 *)
Definition bn_value (t : btable) (p : N) : res N := b_read pf vd (bt_vals t) (N.to_nat p) 0.   (* 79-82; operator[] knows no width *)
Definition bn_next (p : N) : N := u64 (p + 1).     (* 65-69 *)
Definition bn_prev (p : N) : N := sub64 p 1.       (* 70-74 *)
(** 97-100 operator== *)
Definition bn_eq (t : btable) (p q : N) : bool :=
  if negb (bn_invalid t q) && negb (bn_invalid t p) then q =? p
  else eqb (bn_invalid t q) (bn_invalid t p).
(** 116-125 bucket_table_iterator reads its pair when it is valid *)
Definition bi_at (t : btable) (p : N) : res (option (N * N)) :=
  if bn_invalid t p then Ok None
  else k ← bn_key t p; v ← bn_value t p; Ok (Some (k, v)).

(** 280-301 begin/end/rbegin_nav; [m_elements-1] is computed in uint32_t *)
Definition bt_end : N := ones64.
Definition bt_begin : N := 0.
Definition bt_rbegin (t : btable) : N := u32 (bt_n t + 2^32 - 1).

(** 303-307 find *)
Definition bt_find (t : btable) (key : N) : res N :=
  if bt_init t then bt_locate t key else Ok bt_end.

(** 334-341 operator[] const *)
Definition bt_at (t : btable) (key : N) : res N := p ← bt_locate t key; bn_value t p.

(** 373-377, end of find_or_insert: the new element is written behind the others *)
Definition bt_last (t : btable) (key value : N) : res (btable * N) :=
  let p := u32 (bt_n t + 2^32 - 1) in
  ks ← b_write pf kd (bt_keys t) (N.to_nat p) key w;
  vs ← b_write pf vd (bt_vals t) (N.to_nat p) value 0;
  Ok (BT ks vs (bt_n t) (bt_len t), p).

(** 342-378 find_or_insert *)
Definition bt_insert (t : btable) (key value : N) : res (btable * N) :=
  if bt_init t then
    p ← bt_locate t key;
    if p =? ones64 then
      let n := u32 (bt_n t + 1) in
      if st_needs_resize (bt_len t) n then
        let '(newsize, len) := st_after_increment (bt_len t) n in
        let old := N.to_nat (u32 (n + 2^32 - 1)) in
        ks ← b_resize pf kd (bt_keys t) old (N.to_nat newsize) w;
        vs ← b_resize pf vd (bt_vals t) old (N.to_nat newsize) 0;
        bt_last (BT ks vs n len) key value
      else bt_last (BT (bt_keys t) (bt_vals t) n (bt_len t)) key value
    else Ok (t, p)
  else
    bt_last (BT (b_initialize pf kd 1 w) (b_initialize pf vd 1 (val_bits vd)) 1 (st_assign (bt_len t) 1)) key value.

(** 380-382 operator[]: the position whose value is referred to *)
Definition bt_index (t : btable) (key : N) : res (btable * N) := bt_insert t key 0.
(** assignment through the reference, 83-86 *)
Definition bt_write (t : btable) (p v : N) : res btable :=
  vs ← b_write pf vd (bt_vals t) (N.to_nat p) v 0;
  Ok (BT (bt_keys t) vs (bt_n t) (bt_len t)).

(** 387-389 count *)
Definition bt_count (t : btable) (key : N) : res N :=
  p ← bt_find t key; Ok (if bn_eq t p bt_end then 0 else 1).

(** 399-403 the shift loop of erase; [n] iterations left *)
Fixpoint bt_shift (ks vs : bucket) (i n : nat) : res (bucket * bucket) :=
  match n with
  | O => Ok (ks, vs)
  | S n' =>
      k ← b_read pf kd ks i w;
      ks' ← b_write pf kd ks (i - 1) k w;
      v ← b_read pf vd vs i 0;
      vs' ← b_write pf vd vs (i - 1) v 0;
      bt_shift ks' vs' (S i) n'
  end.

(** 392-410 erase *)
Definition bt_erase (t : btable) (key : N) : res (btable * N) :=
  if bt_init t then
    p ← bt_locate t key;
    if p =? ones64 then Ok (t, 0)
    else
      let i := S (N.to_nat p) in
      r ← bt_shift (bt_keys t) (bt_vals t) i (N.to_nat (bt_n t) - i);
      let '(ks, vs) := (r : bucket * bucket) in
      let t := BT ks vs (u32 (bt_n t + 2^32 - 1)) (bt_len t) in
      if bt_n t =? 0 then t ← bt_clear t; Ok (t, 1) else Ok (t, 1)
  else Ok (t, 0).

(** 249-259 move assignment at the level of values: both tables after the call *)
Definition bt_move_assign (t other : btable) : res (btable * btable) :=
  _ ← bt_clear t;
  Ok (BT (bt_keys other) (bt_vals other) (bt_n other) (bt_len other), BT None None 0 (bt_len other)).
(** 260-268 swap *)
Definition bt_swap (t other : btable) : btable * btable := (other, t).

(** A history of calls.  bucket_table has no reserve() and no erase(iterator): those calls do not compile. *)
Definition bt_has_op (o : op) : Prop := match o with OpReserve _ | OpEraseIt _ => False | _ => True end.
Definition bt_run_op (t : btable) (o : op) : res (btable * out) :=
  match o with
  | OpFind k => p ← bt_find t k; e ← bi_at t p; Ok (t, OutEntry e)
  | OpCount k => n ← bt_count t k; Ok (t, OutNum n)
  | OpInsert k v =>
      r ← bt_insert t k v; let '(t, p) := (r : btable * N) in
      e ← bi_at t p; Ok (t, OutEntry e)
  | OpRead k =>
      r ← bt_index t k; let '(t, p) := (r : btable * N) in
      v ← bn_value t p; Ok (t, OutNum v)
  | OpWrite k v =>
      r ← bt_index t k; let '(t, p) := (r : btable * N) in
      t ← bt_write t p v; Ok (t, OutUnit)
  | OpErase k => r ← bt_erase t k; let '(t, n) := (r : btable * N) in Ok (t, OutNum n)
  | OpSize => Ok (t, OutNum (bt_size t))
  | OpEmpty => Ok (t, OutBool (bt_empty t))
  | OpShrink => t ← bt_shrink t; Ok (t, OutUnit)
  | OpClear => t ← bt_clear t; Ok (t, OutUnit)
  | OpReserve _ | OpEraseIt _ => Throw
  end.
Fixpoint bt_run (t : btable) (ops : list op) : res (btable * list out) :=
  match ops with
  | [] => Ok (t, [])
  | o :: ops' =>
      r ← bt_run_op t o; let '(t, x) := (r : btable * out) in
      rs ← bt_run t ops'; let '(t, xs) := (rs : btable * list out) in
      Ok (t, x :: xs)
  end.

(** for(auto it = begin(); it != end(); ++it): 127-132, 286-288; [fuel] bounds the number of steps *)
Fixpoint bt_iter (fuel : nat) (t : btable) (p : N) : res (list (N * N)) :=
  match fuel with
  | O => Timeout
  | S fuel' =>
      if bn_eq t p bt_end then Ok []
      else e ← bi_at t p;
           match e with
           | Some x => xs ← bt_iter fuel' t (bn_next p); Ok (x :: xs)
           | None => Ub Indeterminate
           end
  end.
(** for(auto nav = rbegin_nav(); nav != rend_nav(); --nav): 298-301 *)
Fixpoint bt_riter (fuel : nat) (t : btable) (p : N) : res (list (N * N)) :=
  match fuel with
  | O => Timeout
  | S fuel' =>
      if bn_eq t p bt_end then Ok []
      else k ← bn_key t p; v ← bn_value t p;
           xs ← bt_riter fuel' t (bn_prev p); Ok ((k, v) :: xs)
  end.
End bt.
