(** Model of group_chaining_table (include/separate/group_chaining.hpp:710-1512) instantiated with an overflow type, and of
    include/separate/iterator.hpp with the branches guarded by m_overflow.size() > 0.  key_type and value_type are uint64_t. *)
From Verif Require Export GroupModel.

(** ** iterator.hpp on a view and an overflow *)
Record oview := OView { o_view : view; o_ov : overflow }.

Section onav.
Context (pf : platform) (V : oview).
Notation v := (o_view V).
Notation o := (o_ov V).
(** m_map.m_overflow.size() > 0 && m_bucket == m_map.bucket_count() *)
Definition on_over (bk : N) : bool := (0 <? ov_size o) && (bk =? v_count v).
(** 21-26 invalid *)
Definition on_invalid (x : nav) : res bool :=
  if on_over (fst x) && ov_valid pf o (snd x) then Ok false else vn_invalid v x.
(** 45-57 key, 59-65 value *)
Definition on_key (x : nav) : res N := if on_over (fst x) then ov_key pf 64 o (snd x) else vn_key v x.
Definition on_value (x : nav) : res N := if on_over (fst x) then ov_get pf 64 o (snd x) else vn_value v x.
(** 130-134 operator== *)
Definition on_eq (x y : nav) : res bool :=
  iy ← on_invalid y; ix ← on_invalid x;
  if negb iy && negb ix then Ok ((fst x =? fst y) && (snd x =? snd y)) else Ok (eqb iy ix).
(** 140-160: an iterator is a navigator with the pair it caches if it is valid *)
Definition on_read (x : nav) : res (N * N) := k ← on_key x; w ← on_value x; Ok (k, w).
Definition on_iter_at (x : nav) : res (option (N * N)) :=
  i ← on_invalid x; if (i : bool) then Ok None else e ← on_read x; Ok (Some e).
(** 84-100 operator++ *)
Definition on_next (x : nav) : res nav :=
  if on_over (fst x) then Ok (fst x, ov_next pf o (snd x)) else vn_next v x.
(** 101-124 operator-- *)
Definition on_prev (x : nav) : res nav :=
  if on_over (fst x) then
    if 0 <? snd x then Ok (fst x, ov_prev pf o (snd x))
    else
      let bk := sub64 (fst x) 1 in
      sz ← v_size v bk; Ok (bk, sub64 (N.min (snd x) sz) 1)
  else vn_prev v x.
(** for(x; x != end_nav(); ++x) and for(x; x != rend_nav(); --x): the pairs seen *)
Fixpoint on_iterate (fuel : nat) (x : nav) : res (list (N * N)) :=
  e ← on_eq x end_nav;
  if (e : bool) then Ok []
  else match fuel with
       | O => Timeout
       | S f => kv ← on_read x; x' ← on_next x; l ← on_iterate f x'; Ok (kv :: l)
       end.
Fixpoint on_iterate_rev (fuel : nat) (x : nav) : res (list (N * N)) :=
  e ← on_eq x end_nav;
  if (e : bool) then Ok []
  else match fuel with
       | O => Timeout
       | S f => kv ← on_read x; x' ← on_prev x; l ← on_iterate_rev f x'; Ok (kv :: l)
       end.
End onav.

(** ** The table: the members of gtable, where gt_n counts the elements of the groups and of the overflow, and m_overflow (739) *)
Record gotable := GOTable { go_g : gtable; go_ov : overflow }.

Section table.
Context (pf : platform) (c : gcfg) (kind : ovkind).

(** 941-953 constructor *)
Definition go_new (kw vw : N) : gotable := GOTable (g_new kw vw) (ov_new pf 64 64 kind).
Definition go_bucket_count (t : gotable) : N := g_bucket_count (go_g t).
(** 904-906 size *)
Definition go_size (t : gotable) : N := gt_n (go_g t).
Definition go_inc (g : gtable) : gtable := g_set_n g (u64 (gt_n g + 1)).

(** 870-887 value_at, write_value *)
Definition go_value_at (t : gotable) (bk pos : N) : res N :=
  if bk =? go_bucket_count t then ov_get pf 64 (go_ov t) pos else g_value_at pf (go_g t) bk pos.
Definition go_write_value (t : gotable) (x : nav) (v : N) : res gotable :=
  if fst x =? go_bucket_count t then o ← ov_set pf 64 (go_ov t) (snd x) v; Ok (GOTable (go_g t) o)
  else g ← g_write_value pf (go_g t) x v; Ok (GOTable g (go_ov t)).
Definition go_view (t : gotable) : oview :=
  let V := g_view pf c (go_g t) in
  OView (View (v_count V) (v_size V) (v_quot V) (go_value_at t) (v_hash V) (v_b V) (v_storebits V)) (go_ov t).

(** 814-827 clear_structure, 832-839 clear *)
Definition go_clear (t : gotable) : res gotable :=
  g ← g_clear (go_g t); o ← ov_clear pf 64 64 (go_ov t); Ok (GOTable g o).

(** 958-976 reserve, first branch (m_buckets == 0) *)
Definition go_alloc (t : gotable) (n : N) : res gotable :=
  g ← g_alloc (go_g t) n; Ok (GOTable g (ov_resize_buckets pf (go_ov t) (2^gt_b g))).
(** 1023-1029: the overflow elements *)
Fixpoint go_rehash_ov {T} (fuel : nat) (ins : T -> N -> N -> res (T * nav)) (o : overflow) (i : N) (tmp : T) : res T :=
  if ov_valid pf o i then
    match fuel with
    | O => Timeout
    | S f =>
        k ← ov_key pf 64 o i;
        v ← ov_get pf 64 o i;
        r ← ins tmp k v;
        go_rehash_ov f ins o (ov_next pf o i) (fst r)
    end
  else Ok tmp.
(** 958-1035 reserve(n, new_key_width): tmp_map is constructed (978) and has 64 buckets per group (979) *)
Definition go_reserve_with (ins : gotable -> N -> N -> res (gotable * nav)) (t : gotable) (n nkw : N) : res gotable :=
  let g := go_g t in
  let nkw := if nkw =? 0 then gt_kw g else nkw in
  if gt_b g =? 0 then go_alloc t n
  else
    bits ← reserve_bits n;
    tmp ← go_alloc (GOTable (GTable None 0 0 (u8 nkw) (gt_vw g) 64) (ov_new pf 64 64 kind)) (2^bits);
    gc ← g_group_count g;
    match gt_groups g with
    | None => Ub NullDeref
    | Some gs =>
        if N.of_nat (length gs) <? gc then Ub OobRead
        else
          tmp ← rfold (g_rehash_group pf c ins g) (imap pair (take (N.to_nat gc) gs)) tmp;
          tmp ← go_rehash_ov (S (N.to_nat (ov_capacity (go_ov t)))) ins (go_ov t) (ov_first pf (go_ov t)) tmp;
          _ ← ov_clear pf 64 64 (go_ov t);
          Ok tmp
    end.

(** 1185-1277 find_or_insert.  [fuel] bounds the depth of the recursion through reserve. *)
Fixpoint go_find_or_insert (fuel : nat) (t : gotable) (k v : N) : res (gotable * nav) :=
  match fuel with
  | O => Timeout
  | S f =>
      t ← (if gt_b (go_g t) =? 0 then go_alloc t (N.min (sub64 (gt_kw (go_g t)) 1) 8) else Ok t);
      let gt := go_g t in
      qb ← hash_map (ghm c (gt_kw gt)) k (gt_b gt);
      let '(q, bk) := (qb : N * N) in
      g ← g_group gt bk;
      n ← kv_bucketsize g (g_rank gt bk);
      pos ← g_locate_q pf c gt bk q;
      match (pos : option N) with
      | Some p => Ok (t, (bk, p))
      | None =>
          consult ← ov_need_consult (go_ov t) bk;
          opos ← (if (consult : bool) then ov_find pf 64 (go_ov t) k else Ok None);
          match (opos : option N) with
          | Some p => Ok (t, (go_bucket_count t, p))
          | None =>
              if g_size g =? g_max_group then
                ov ← (if ov_size (go_ov t) <? ov_capacity (go_ov t)
                      then ov_insert pf 64 64 (go_ov t) bk k v else Ok (go_ov t, None));
                let '(o, opos) := (ov : overflow * option N) in
                match (opos : option N) with
                | Some p => Ok (GOTable (go_inc gt) o, (go_bucket_count t, p))
                | None =>
                    n ← shl64 1 (gt_b gt + 1);
                    t ← go_reserve_with (go_find_or_insert f) (GOTable gt o) n 0;
                    go_find_or_insert f t k v
                end
              else
                let g := if kv_initialized g then g else kv_init g (gbpg gt) (gqw c gt) (gvw gt) in
                g ← kv_push pf g (gbpg gt) (g_rank gt bk) q (gqw c gt) v (gvw gt);
                Ok (GOTable (g_set (go_inc gt) bk g) (go_ov t), (bk, N.of_nat n))
          end
      end
  end.
Definition go_reserve (fuel : nat) (t : gotable) (n nkw : N) : res gotable := go_reserve_with (go_find_or_insert fuel) t n nkw.

(** 1105-1121 find *)
Definition go_find (t : gotable) (k : N) : res nav :=
  if gt_b (go_g t) =? 0 then Ok end_nav
  else
    opos ← (if 0 <? ov_size (go_ov t) then ov_find pf 64 (go_ov t) k else Ok None);
    match (opos : option N) with
    | Some p => Ok (go_bucket_count t, p)
    | None => g_find pf c (go_g t) k
    end.
(** 1167-1182 locate(key): need_consult is asked only if the overflow has elements *)
Definition go_locate (t : gotable) (k : N) : res (N * option N) :=
  if gt_b (go_g t) =? 0 then Throw
  else
    qb ← hash_map (ghm c (gt_kw (go_g t))) k (gt_b (go_g t));
    let '(q, bk) := (qb : N * N) in
    consult ← (if 0 <? ov_size (go_ov t) then ov_need_consult (go_ov t) bk else Ok false);
    opos ← (if (consult : bool) then ov_find pf 64 (go_ov t) k else Ok None);
    match (opos : option N) with
    | Some p => Ok (go_bucket_count t, Some p)
    | None => pos ← g_locate_q pf c (go_g t) bk q; Ok (bk, pos)
    end.
(** 1304-1364 erase(bucket, position) *)
Definition go_erase_at (t : gotable) (x : nav) : res (gotable * N) :=
  if snd x =? ones64 then Ok (t, 0)
  else if (0 <? ov_size (go_ov t)) && (fst x =? go_bucket_count t) then
    o ← ov_erase pf (go_ov t) (snd x); Ok (GOTable (g_set_n (go_g t) (sub64 (gt_n (go_g t)) 1)) o, 1)
  else r ← g_erase_at pf c (go_g t) x; Ok (GOTable (fst r) (go_ov t), snd r).
(** 1289-1294 erase(key) *)
Definition go_erase (t : gotable) (k : N) : res (gotable * N) :=
  if gt_b (go_g t) =? 0 then Ok (t, 0)
  else
    l ← go_locate t k;
    let '(bk, pos) := (l : N * option N) in
    go_erase_at t (bk, match pos with Some p => p | None => ones64 end).

(** 1066-1096 begin: behind the groups the overflow is entered at position 0 *)
Definition go_begin (t : gotable) : res nav :=
  x ← g_begin (go_g t);
  Ok (if (fst x =? fst end_nav) && (0 <? ov_size (go_ov t)) then (go_bucket_count t, 0) else x).
(** 1036-1061 rbegin_nav *)
Definition go_rbegin (t : gotable) : res nav :=
  gc ← g_group_count (go_g t);
  if 0 <? ov_size (go_ov t) then Ok (go_bucket_count t, ov_size (go_ov t)) else g_rbegin (go_g t).
Definition go_forward (fuel : nat) (t : gotable) : res (list (N * N)) :=
  x ← go_begin t; on_iterate pf (go_view t) fuel x.
Definition go_backward (fuel : nat) (t : gotable) : res (list (N * N)) :=
  x ← go_rbegin t; on_iterate_rev pf (go_view t) fuel x.

(** ov_serialize and ov_deserialize use the widths of key_type and value_type only. *)
Definition go_cfg : cfg := Cfg (KPlain 64) (KPlain 64) (gc_hash c) 64 true g_max_group kind.
(** 1420-1446 serialize: the overflow first *)
Definition go_serialize (t : gotable) : res stream :=
  o ← ov_serialize pf go_cfg (go_ov t); s ← g_serialize c (go_g t); Ok (o ++ s).
(** 1449-1509 deserialize: reserve() resizes the overflow that was read before *)
Definition go_deserialize (t : gotable) (s : stream) : res (gotable * stream) :=
  t ← go_clear t;
  os ← ov_deserialize pf go_cfg (go_ov t) s;
  let '(o, s) := (os : overflow * stream) in
  r ← g_deserialize pf c (go_g t) s;
  let '(g, s) := (r : gtable * stream) in
  Ok (GOTable g (if gt_b g =? 0 then o else ov_resize_buckets pf o (2^gt_b g)), s).
(** 753-767 swap; 747-751 a = std::move(other): clear() and swap *)
Definition go_swap (a other : gotable) : gotable * gotable := (other, a).
Definition go_move_assign (a other : gotable) : res (gotable * gotable) := a ← go_clear a; Ok (go_swap a other).

(** ** Histories: the calls of Spec.op as in NavModel.m_run_op *)
Context (fuel : nat).
Definition go_run_op (t : gotable) (o : op) : res (gotable * out) :=
  match o with
  | OpFind k => x ← go_find t k; e ← on_iter_at pf (go_view t) x; Ok (t, OutEntry e)
  | OpCount k => x ← go_find t k; e ← on_eq pf (go_view t) x end_nav; Ok (t, OutNum (if (e : bool) then 0 else 1))
  | OpInsert k v =>
      r ← go_find_or_insert fuel t k v;
      let '(t, x) := (r : gotable * nav) in
      e ← on_iter_at pf (go_view t) x; Ok (t, OutEntry e)
  | OpRead k =>
      r ← go_find_or_insert fuel t k 0;
      let '(t, x) := (r : gotable * nav) in
      v ← on_value pf (go_view t) x; Ok (t, OutNum v)
  | OpWrite k v =>
      r ← go_find_or_insert fuel t k 0;
      let '(t, x) := (r : gotable * nav) in
      t ← go_write_value t x v; Ok (t, OutUnit)
  | OpErase k => r ← go_erase t k; let '(t, n) := (r : gotable * N) in Ok (t, OutNum n)
  | OpEraseIt k =>
      x ← go_find t k;
      r ← go_erase_at t x;
      let '(t, n) := (r : gotable * N) in Ok (t, OutNum n)
  | OpSize => Ok (t, OutNum (go_size t))
  | OpEmpty => Ok (t, OutBool (go_size t =? 0))
  | OpReserve n => t ← go_reserve fuel t n 0; Ok (t, OutUnit)
  | OpShrink => Ok (t, OutUnit)
  | OpClear => t ← go_clear t; Ok (t, OutUnit)
  end.
Fixpoint go_run_ops (t : gotable) (ops : list op) : res (gotable * list out) :=
  match ops with
  | [] => Ok (t, [])
  | o :: ops' =>
      r ← go_run_op t o;
      let '(t, x) := (r : gotable * out) in
      rs ← go_run_ops t ops';
      let '(t, xs) := (rs : gotable * list out) in
      Ok (t, x :: xs)
  end.
End table.
