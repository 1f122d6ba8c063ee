(** Model of include/separate/keysplit_adapter.hpp over separate_chaining_map. *)
From Verif Require Export TableRun MathModel.

(** Template arguments: map_type is the separate_chaining_map instance given by c, vw its value width
    (sizeof(value_type)*8 by default), then max_bits and m_length (keysplit_adapter.hpp:16). *)
Section ks.
Context (pf : platform) (c : cfg) (vw : N) (fuel : nat) (max_bits m_length : N).

(** 20 m_interval = ceil_div(max_bits, m_length) *)
Definition ks_interval : res N := ceil_div max_bits m_length.

(** 54 key width of the i-th map *)
Definition ks_width (interval i : N) : N := N.min ((i + 1) * interval) max_bits.

(** 24, 52-56 the maps and the constructor *)
Notation ks := (list table).
Definition ks_new : res ks :=
  interval ← ks_interval;
  Ok (map (fun i => new_table pf c (ks_width interval (N.of_nat i)) vw) (seq 0 (N.to_nat m_length))).

(** 87-88, 94-95, 101-102, 108-109 the slot of a key, a uint_fast8_t *)
Definition ks_slot (key : N) : res N :=
  interval ← ks_interval;
  let key_width := bit_width key in
  if key_width =? 0 then Ok 0
  else if interval =? 0 then Ub DivZero
  else Ok (u8 ((key_width - 1) / interval)).
Definition ks_map (s : ks) (slot : N) : res table := of_option OobRead (s !! N.to_nat slot).

(** An iterator or navigator knows its map: (slot, navigator). *)
(** 79-84 end, cend *)
Definition ks_end : N * nav := (0, end_nav).
(** iterator.hpp:130-134 operator==, between handles of possibly different maps *)
Definition ks_eq (s : ks) (x y : N * nav) : res bool :=
  tx ← ks_map s (fst x); ty ← ks_map s (fst y);
  ix ← nav_invalid pf tx (snd x); iy ← nav_invalid pf ty (snd y);
  if negb iy && negb ix then Ok ((fst (snd x) =? fst (snd y)) && (snd (snd x) =? snd (snd y))) else Ok (eqb iy ix).

(** 93-98 find *)
Definition ks_find (s : ks) (key : N) : res (N * nav) :=
  slot ← ks_slot key; t ← ks_map s slot; x ← TableModel.find pf c t key; Ok (slot, x).
(** 100-105 operator[] *)
Definition ks_index (s : ks) (key : N) : res (ks * (N * nav)) :=
  slot ← ks_slot key; t ← ks_map s slot;
  r ← index pf c fuel t key; let '(t, x) := (r : table * nav) in
  Ok (<[N.to_nat slot := t]> s, (slot, x)).
(** 86-91 erase *)
Definition ks_erase (s : ks) (key : N) : res (ks * N) :=
  slot ← ks_slot key; t ← ks_map s slot;
  r ← erase pf c t key; let '(t, n) := (r : table * N) in
  Ok (<[N.to_nat slot := t]> s, n).
(** 107-112 count *)
Definition ks_count (s : ks) (key : N) : res N :=
  slot ← ks_slot key; t ← ks_map s slot; count pf c t key.
(** 74-77 size *)
Definition ks_size (s : ks) : N := foldl (fun sum t => u64 (sum + TableModel.size t)) 0 s.
(** 40-44 shrink_to_fit, 46-50 clear *)
Definition ks_shrink (s : ks) : res ks := rmap (shrink_to_fit pf c) s.
Definition ks_clear (s : ks) : res ks := rmap (clear pf c) s.

(** Calls of a history.  There is no find_or_insert, reserve, or erase(iterator), and empty() (66-71) does not compile
    when used. *)
Definition ks_has_op (o : op) : Prop :=
  match o with OpInsert _ _ | OpReserve _ | OpEraseIt _ | OpEmpty => False | _ => True end.
Definition ks_run_op (s : ks) (o : op) : res (ks * out) :=
  match o with
  | OpFind k =>    (* it = find(k); it == end() ? none : *it *)
      x ← ks_find s k; e ← ks_eq s x ks_end;
      if (e : bool) then Ok (s, OutEntry None)
      else t ← ks_map s (fst x); p ← iter_at pf c t (snd x); Ok (s, OutEntry p)
  | OpCount k => n ← ks_count s k; Ok (s, OutNum n)
  | OpRead k =>
      r ← ks_index s k; let '(s, x) := (r : ks * (N * nav)) in
      t ← ks_map s (fst x); v ← nav_value pf c t (snd x); Ok (s, OutNum v)
  | OpWrite k v =>
      r ← ks_index s k; let '(s, x) := (r : ks * (N * nav)) in
      t ← ks_map s (fst x); t ← write_value pf c t (snd x) v;
      Ok (<[N.to_nat (fst x) := t]> s, OutUnit)
  | OpErase k => r ← ks_erase s k; let '(s, n) := (r : ks * N) in Ok (s, OutNum n)
  | OpSize => Ok (s, OutNum (ks_size s))
  | OpShrink => s ← ks_shrink s; Ok (s, OutUnit)
  | OpClear => s ← ks_clear s; Ok (s, OutUnit)
  | OpInsert _ _ | OpReserve _ | OpEraseIt _ | OpEmpty => Throw
  end.
Fixpoint ks_run (s : ks) (ops : list op) : res (ks * list out) :=
  match ops with
  | [] => Ok (s, [])
  | o :: ops' =>
      r ← ks_run_op s o; let '(s, x) := (r : ks * out) in
      rs ← ks_run s ops'; let '(s, xs) := (rs : ks * list out) in
      Ok (s, x :: xs)
  end.
End ks.
