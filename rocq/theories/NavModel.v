(** Model of include/separate/iterator.hpp for the maps without overflow elements (compact_chaining_map and
    group_chaining_table, whose overflow_type is dummy_overflow), and of the calls a client issues on such a map.
    dummy_overflow::size() is 0, so the branches of iterator.hpp guarded by m_overflow.size() > 0 are left out. *)
From Verif Require Export Spec TableModel.

(** The members of hash_map that iterator.hpp uses. *)
Record view := View {
  v_count : N;                     (* bucket_count() *)
  v_size : N -> res N;             (* bucket_size(bucket) *)
  v_quot : N -> N -> N -> res N;   (* quotient_at(bucket, position, quotient_width) *)
  v_value : N -> N -> res N;       (* value_at(bucket, position) *)
  v_hash : hmap;                   (* m_hash *)
  v_b : N;                         (* m_buckets *)
  v_storebits : N                  (* bits of hash_map::storage_type (iterator.hpp:9) *)
}.

Section nav.
Context (V : view).
(** iterator.hpp:21-26 invalid *)
Definition vn_invalid (x : nav) : res bool :=
  let '(bk, pos) := x in
  if v_count V <=? bk then Ok true else sz ← v_size V bk; Ok (sz <=? pos).
(** 45-57 key: the quotient passes through a variable of type storage_type (53) *)
Definition vn_key (x : nav) : res N :=
  let '(bk, pos) := x in
  q ← v_quot V bk pos (remainder_width (v_hash V) (v_b V));
  hash_inv_map (v_hash V) (q mod 2^v_storebits V) bk (v_b V).
(** 59-65 value *)
Definition vn_value (x : nav) : res N := let '(bk, pos) := x in v_value V bk pos.
(** 130-134 operator== *)
Definition vn_eq (x y : nav) : res bool :=
  iy ← vn_invalid y; ix ← vn_invalid x;
  if negb iy && negb ix then Ok ((fst x =? fst y) && (snd x =? snd y)) else Ok (eqb iy ix).
(** 140-160: an iterator is a navigator with the pair it caches if it is valid *)
Definition vn_read (x : nav) : res (N * N) := k ← vn_key x; v ← vn_value x; Ok (k, v).
Definition v_iter_at (x : nav) : res (option (N * N)) :=
  i ← vn_invalid x; if (i : bool) then Ok None else e ← vn_read x; Ok (Some e).

(** 93-95: do ++bucket while(bucket < bucket_count && bucket_size == 0) *)
Fixpoint vnext_scan (fuel : nat) (bk : N) : res N :=
  let bk := u64 (bk + 1) in
  if bk <? v_count V then
    sz ← v_size V bk;
    if sz =? 0 then match fuel with O => Timeout | S f => vnext_scan f bk end else Ok bk
  else Ok bk.
(** 84-100 operator++ *)
Definition vn_next (x : nav) : res nav :=
  let '(bk, pos) := x in
  sz ← v_size V bk;
  if sz <=? u64 (pos + 1) then bk ← vnext_scan (N.to_nat (v_count V)) bk; Ok (bk, 0)
  else Ok (bk, u64 (pos + 1)).
(** 116-118: do --bucket while(bucket < bucket_count && bucket_size == 0) *)
Fixpoint vprev_scan (fuel : nat) (bk : N) : res N :=
  let bk := sub64 bk 1 in
  if bk <? v_count V then
    sz ← v_size V bk;
    if sz =? 0 then match fuel with O => Timeout | S f => vprev_scan f bk end else Ok bk
  else Ok bk.
(** 101-124 operator-- *)
Definition vn_prev (x : nav) : res nav :=
  let '(bk, pos) := x in
  sz ← (if 0 <? pos then v_size V bk else Ok 0);
  if (0 <? pos) && (0 <? sz) then Ok (bk, sub64 (N.min pos sz) 1)
  else
    bk ← vprev_scan (N.to_nat (v_count V)) bk;
    if bk <? v_count V then sz ← v_size V bk; Ok (bk, sub64 sz 1) else Ok (bk, pos).

(** for(x; x != end_nav(); ++x) and for(x; x != rend_nav(); --x): the pairs seen *)
Fixpoint v_iterate (fuel : nat) (x : nav) : res (list (N * N)) :=
  e ← vn_eq x end_nav;
  if (e : bool) then Ok []
  else match fuel with
       | O => Timeout
       | S f => kv ← vn_read x; x' ← vn_next x; l ← v_iterate f x'; Ok (kv :: l)
       end.
Fixpoint v_iterate_rev (fuel : nat) (x : nav) : res (list (N * N)) :=
  e ← vn_eq x end_nav;
  if (e : bool) then Ok []
  else match fuel with
       | O => Timeout
       | S f => kv ← vn_read x; x' ← vn_prev x; l ← v_iterate_rev f x'; Ok (kv :: l)
       end.

(** The scan for the first non-empty bucket (compact_chaining_map.hpp:365-403), over [n] buckets from [bk] on *)
Fixpoint v_begin_scan (n : nat) (bk : N) : res nav :=
  match n with
  | O => Ok end_nav
  | S n' => sz ← v_size V bk; if 0 <? sz then Ok (bk, 0) else v_begin_scan n' (bk + 1)
  end.
Definition v_begin : res nav := v_begin_scan (N.to_nat (v_count V)) 0.
(** compact_chaining_map.hpp:347-356 rbegin_nav: the loop condition bucket >= 0 is always true for size_t *)
Fixpoint v_rbegin_scan (fuel : nat) (bk : N) : res nav :=
  match fuel with
  | O => Timeout
  | S f => sz ← v_size V bk; if 0 <? sz then Ok (bk, sub64 sz 1) else v_rbegin_scan f (sub64 bk 1)
  end.
Definition v_rbegin : res nav :=
  if v_count V =? 0 then Ok end_nav else v_rbegin_scan (S (N.to_nat (v_count V))) (sub64 (v_count V) 1).
End nav.

(** ** Histories *)
(** The calls a client issues on a map of type T. *)
Record mapimpl (T : Type) := Impl {
  i_view : T -> view;
  i_find : T -> N -> res nav;
  i_insert : T -> N -> N -> res (T * nav);    (* find_or_insert *)
  i_write : T -> nav -> N -> res T;           (* write_value *)
  i_erase : T -> N -> res (T * N);
  i_erase_at : T -> nav -> res (T * N);
  i_size : T -> N;
  i_reserve : T -> N -> res T;
  i_clear : T -> res T
}.
Arguments Impl {T}. Arguments i_view {T}. Arguments i_find {T}. Arguments i_insert {T}. Arguments i_write {T}.
Arguments i_erase {T}. Arguments i_erase_at {T}. Arguments i_size {T}. Arguments i_reserve {T}. Arguments i_clear {T}.

Section run.
Context {T : Type} (I : mapimpl T).
(** As TableRun.run_op; operator[] is find_or_insert(key, 0) followed by a read or write of the value;
    count is find(key) == cend() ? 0 : 1; shrink_to_fit does nothing. *)
Definition m_run_op (t : T) (o : op) : res (T * out) :=
  match o with
  | OpFind k => x ← i_find I t k; e ← v_iter_at (i_view I t) x; Ok (t, OutEntry e)
  | OpCount k => x ← i_find I t k; e ← vn_eq (i_view I t) x end_nav; Ok (t, OutNum (if (e : bool) then 0 else 1))
  | OpInsert k v =>
      r ← i_insert I t k v;
      let '(t, x) := (r : T * nav) in
      e ← v_iter_at (i_view I t) x; Ok (t, OutEntry e)
  | OpRead k =>
      r ← i_insert I t k 0;
      let '(t, x) := (r : T * nav) in
      v ← vn_value (i_view I t) x; Ok (t, OutNum v)
  | OpWrite k v =>
      r ← i_insert I t k 0;
      let '(t, x) := (r : T * nav) in
      t ← i_write I t x v; Ok (t, OutUnit)
  | OpErase k => r ← i_erase I t k; let '(t, n) := (r : T * N) in Ok (t, OutNum n)
  | OpEraseIt k =>
      x ← i_find I t k;
      r ← i_erase_at I t x;
      let '(t, n) := (r : T * N) in Ok (t, OutNum n)
  | OpSize => Ok (t, OutNum (i_size I t))
  | OpEmpty => Ok (t, OutBool (i_size I t =? 0))
  | OpReserve n => t ← i_reserve I t n; Ok (t, OutUnit)
  | OpShrink => Ok (t, OutUnit)
  | OpClear => t ← i_clear I t; Ok (t, OutUnit)
  end.
Fixpoint m_run_ops (t : T) (ops : list op) : res (T * list out) :=
  match ops with
  | [] => Ok (t, [])
  | o :: ops' =>
      r ← m_run_op t o;
      let '(t, x) := (r : T * out) in
      rs ← m_run_ops t ops';
      let '(t, xs) := (rs : T * list out) in
      Ok (t, x :: xs)
  end.
End run.
