(** Model of include/separate/keysplit_adapter.hpp over any of the maps, with and without its checks.  KsModel.v is the
    adapter over separate_chaining_map without checks; here the members of map_type that the adapter uses are parameters. *)
From Verif Require Export KsModel DebugModel DebugGroup GroupModel.

(** The members of map_type that keysplit_adapter.hpp and a client of its handles use. *)
Record submap (T : Type) := Sub {
  sm_new : N -> res T;                                  (* map_type(key_width), 54 *)
  sm_find : T -> N -> res nav;                          (* 97 *)
  sm_index : T -> N -> res (T * nav);                   (* operator[], 104 *)
  sm_erase : T -> N -> res (T * N);                     (* 90 *)
  sm_count : T -> N -> res N;                           (* 111 *)
  sm_size : T -> N;                                     (* 76 *)
  sm_shrink : T -> res T;                               (* 42 *)
  sm_clear : T -> res T;                                (* 48 *)
  sm_invalid : T -> nav -> res bool;                    (* iterator.hpp:21-26 invalid of a handle *)
  sm_pair : T -> nav -> res (option (N * N));           (* iterator.hpp:140-160 the pair an iterator caches *)
  sm_value : T -> nav -> res N;                         (* iterator.hpp:59-65 *)
  sm_write : T -> nav -> N -> res T                     (* iterator.hpp:78-81 assignment of a value *)
}.
Arguments Sub {T}. Arguments sm_new {T}. Arguments sm_find {T}. Arguments sm_index {T}. Arguments sm_erase {T}. Arguments sm_count {T}.
Arguments sm_size {T}. Arguments sm_shrink {T}. Arguments sm_clear {T}. Arguments sm_invalid {T}. Arguments sm_pair {T}. Arguments sm_value {T}. Arguments sm_write {T}.

Section ks.
(** dbg tells whether DDCHECK is active. *)
Context {T : Type} (S : submap T) (dbg : bool) (max_bits m_length : N).
Notation ks := (list T).
(** 52-56 the constructor: each constructor of map_type may fail *)
Definition gks_new : res ks :=
  interval ← ks_interval max_bits m_length;
  rmap (fun i => sm_new S (ks_width max_bits interval (N.of_nat i))) (seq 0 (N.to_nat m_length)).
(** 87-89, 94-96, 101-103, 108-110 the slot of a key with DDCHECK_LT(slot, m_length) *)
Definition gks_slot (key : N) : res N :=
  slot ← ks_slot max_bits m_length key;
  _ ← (if dbg then chk (slot <? m_length) else Ok tt);
  Ok slot.
Definition gks_map (s : ks) (slot : N) : res T := of_option OobRead (s !! N.to_nat slot).
(** iterator.hpp:130-134 operator==, between handles of possibly different maps *)
Definition gks_eq (s : ks) (x y : N * nav) : res bool :=
  tx ← gks_map s (fst x); ty ← gks_map s (fst y);
  ix ← sm_invalid S tx (snd x); iy ← sm_invalid S ty (snd y);
  if negb iy && negb ix then Ok ((fst (snd x) =? fst (snd y)) && (snd (snd x) =? snd (snd y))) else Ok (eqb iy ix).
(** 93-98 find *)
Definition gks_find (s : ks) (key : N) : res (N * nav) :=
  slot ← gks_slot key; t ← gks_map s slot; x ← sm_find S t key; Ok (slot, x).
(** 100-105 operator[] *)
Definition gks_index (s : ks) (key : N) : res (ks * (N * nav)) :=
  slot ← gks_slot key; t ← gks_map s slot;
  r ← sm_index S t key; let '(t, x) := (r : T * nav) in
  Ok (<[N.to_nat slot := t]> s, (slot, x)).
(** 86-91 erase *)
Definition gks_erase (s : ks) (key : N) : res (ks * N) :=
  slot ← gks_slot key; t ← gks_map s slot;
  r ← sm_erase S t key; let '(t, n) := (r : T * N) in
  Ok (<[N.to_nat slot := t]> s, n).
(** 107-112 count *)
Definition gks_count (s : ks) (key : N) : res N :=
  slot ← gks_slot key; t ← gks_map s slot; sm_count S t key.
(** 74-77 size *)
Definition gks_size (s : ks) : N := foldl (fun sum t => u64 (sum + sm_size S t)) 0 s.

(** Calls of a history, as KsModel.ks_run_op. *)
Definition gks_run_op (s : ks) (o : op) : res (ks * out) :=
  match o with
  | OpFind k =>
      x ← gks_find s k; e ← gks_eq s x ks_end;
      if (e : bool) then Ok (s, OutEntry None)
      else t ← gks_map s (fst x); p ← sm_pair S t (snd x); Ok (s, OutEntry p)
  | OpCount k => n ← gks_count s k; Ok (s, OutNum n)
  | OpRead k =>
      r ← gks_index s k; let '(s, x) := (r : ks * (N * nav)) in
      t ← gks_map s (fst x); v ← sm_value S t (snd x); Ok (s, OutNum v)
  | OpWrite k v =>
      r ← gks_index s k; let '(s, x) := (r : ks * (N * nav)) in
      t ← gks_map s (fst x); t ← sm_write S t (snd x) v;
      Ok (<[N.to_nat (fst x) := t]> s, OutUnit)
  | OpErase k => r ← gks_erase s k; let '(s, n) := (r : ks * N) in Ok (s, OutNum n)
  | OpSize => Ok (s, OutNum (gks_size s))
  | OpShrink => s ← rmap (sm_shrink S) s; Ok (s, OutUnit)
  | OpClear => s ← rmap (sm_clear S) s; Ok (s, OutUnit)
  | OpInsert _ _ | OpReserve _ | OpEraseIt _ | OpEmpty => Throw
  end.
Fixpoint gks_run (s : ks) (ops : list op) : res (ks * list out) :=
  match ops with
  | [] => Ok (s, [])
  | o :: ops' =>
      r ← gks_run_op s o; let '(s, x) := (r : ks * out) in
      rs ← gks_run s ops'; let '(s, xs) := (rs : ks * list out) in
      Ok (s, x :: xs)
  end.
(** The same calls on a single map. *)
Definition sm_run_op (t : T) (o : op) : res (T * out) :=
  match o with
  | OpFind k => x ← sm_find S t k; e ← sm_pair S t x; Ok (t, OutEntry e)
  | OpCount k => n ← sm_count S t k; Ok (t, OutNum n)
  | OpRead k => r ← sm_index S t k; let '(t, x) := (r : T * nav) in v ← sm_value S t x; Ok (t, OutNum v)
  | OpWrite k v => r ← sm_index S t k; let '(t, x) := (r : T * nav) in t ← sm_write S t x v; Ok (t, OutUnit)
  | OpErase k => r ← sm_erase S t k; let '(t, n) := (r : T * N) in Ok (t, OutNum n)
  | OpSize => Ok (t, OutNum (sm_size S t))
  | OpShrink => t ← sm_shrink S t; Ok (t, OutUnit)
  | OpClear => t ← sm_clear S t; Ok (t, OutUnit)
  | OpInsert _ _ | OpReserve _ | OpEraseIt _ | OpEmpty => Throw
  end.
End ks.

(** The maps.  vw is the default value width, sizeof(value_type)*8. *)
Section maps.
Context (pf : platform) (vw : N) (fuel : nat).
(** separate_chaining_map, built with NDEBUG (TableModel.v) and without (DebugModel.v) *)
Definition sub_table (c : cfg) : submap table :=
  Sub (fun kw => Ok (new_table pf c kw vw)) (TableModel.find pf c) (index pf c fuel) (erase pf c) (count pf c) TableModel.size
    (shrink_to_fit pf c) (clear pf c) (nav_invalid pf) (iter_at pf c) (nav_value pf c) (write_value pf c).
Definition sub_dtable (c : cfg) (junk : option N) : submap dtable :=
  Sub (fun kw => dnew_table pf c kw vw) (dfind pf c) (dindex pf c junk fuel) (derase pf c) (dcount pf c) d_n
    (dshrink_to_fit pf c) (dclear pf c) (fun d => nav_invalid pf (strip d)) (diter_at pf c) (dnav_value pf c) (dwrite_value pf c).
(** group_chaining_table (group_chaining.hpp:1279 shrink_to_fit does nothing, 1282-1284 operator[]).  It has no member count, so that
    keysplit_adapter::count does not compile when used.  compact_chaining_map is not a possible map_type: its operator[] returns
    no navigator (compact_chaining_map.hpp:618), so that keysplit_adapter::operator[] does not compile when used. *)
Definition sub_of {T} (I : mapimpl T) (new : N -> res T) : submap T :=
  Sub new (i_find I) (fun t k => i_insert I t k 0) (i_erase I) (fun _ _ => Throw) (i_size I)
    Ok (i_clear I) (fun t => vn_invalid (i_view I t)) (fun t => v_iter_at (i_view I t)) (fun t => vn_value (i_view I t)) (i_write I).
Definition sub_group (c : gcfg) : submap gtable := sub_of (g_impl pf c fuel) (fun kw => Ok (g_new kw vw)).
Definition sub_dgroup (c : gcfg) : submap dgtable := sub_of (dg_impl pf c fuel) (fun kw => dg_new c kw vw).
End maps.
