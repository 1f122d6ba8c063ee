(** keysplit_adapter.hpp as an object that owns its maps through pointers: constructor, destructor, and the members that the compiler
    generates.  This file contains no proofs. *)
From Verif Require Export KsModel.

(** The maps on the heap: an address is a position, None is a deleted map. *)
Notation kheap := (list (option table)).
(** 24 map_type* m_maps[m_length] *)
Notation kobj := (list nat).

Section own.
Context (pf : platform) (c : cfg) (vw : N) (fuel : nat) (max_bits m_length : N).

(** 52-56 the constructor: new map_type(...) for each pointer *)
Definition ko_new (h : kheap) : res (kheap * kobj) :=
  s ← ks_new pf c vw max_bits m_length;
  Ok (h ++ (Some <$> s), seq (length h) (length s)).
(** 57-61 the destructor: delete m_maps[i] for each i.  The destructor of the map is clear() (separate_chaining_table.hpp:701). *)
Definition ko_delete (h : kheap) (a : nat) : res kheap :=
  match h !! a with
  | Some (Some t) => _ ← clear pf c t; Ok (<[a := None]> h)
  | Some None => Ub DoubleFree
  | None => Ub BadFree
  end.
Definition ko_destroy (h : kheap) (o : kobj) : res kheap := rfold ko_delete o h.
(** The class declares a destructor and nothing else, so the compiler generates a copy constructor and a copy assignment that copy the
    array of pointers; a move is a copy. *)
Definition ko_copy (o : kobj) : kobj := o.

(** A call: the maps behind the pointers, then KsModel.v.  Simplified: all pointers are followed, also those that a call does not use;
    the maps of an object are always deleted together. *)
Definition ko_load (h : kheap) (o : kobj) : res (list table) :=
  rmap (fun a => match h !! a with Some (Some t) => Ok t | _ => Ub OobRead end) o.
Fixpoint ko_store (h : kheap) (o : kobj) (s : list table) : kheap :=
  match o, s with a :: o, t :: s => ko_store (<[a := Some t]> h) o s | _, _ => h end.
Definition ko_op (h : kheap) (o : kobj) (x : op) : res (kheap * out) :=
  s ← ko_load h o;
  r ← ks_run_op pf c fuel max_bits m_length s x; let '(s, y) := (r : list table * out) in
  Ok (ko_store h o s, y).

(** Programs with numbered variables; None is a variable that is not alive. *)
Inductive kstmt :=
| KNew (i : nat)            (* keysplit_adapter<...> i; *)
| KOp (i : nat) (x : op)    (* a call of i *)
| KDel (i : nat)            (* end of the scope of i *)
| KCopy (i j : nat)         (* keysplit_adapter<...> i(j); *)
| KAssign (i j : nat).      (* i = j; *)
Definition ko_var (e : list (option kobj)) (i : nat) : res kobj :=
  match e !! i with Some (Some o) => Ok o | _ => Ub Indeterminate end.
Definition kstep (e : list (option kobj)) (h : kheap) (p : kstmt) : res (list (option kobj) * kheap * out) :=
  match p with
  | KNew i => r ← ko_new h; let '(h, o) := (r : kheap * kobj) in Ok (<[i := Some o]> e, h, OutUnit)
  | KOp i x => o ← ko_var e i; r ← ko_op h o x; let '(h, y) := (r : kheap * out) in Ok (e, h, y)
  | KDel i => o ← ko_var e i; h ← ko_destroy h o; Ok (<[i := None]> e, h, OutUnit)
  | KCopy i j => o ← ko_var e j; Ok (<[i := Some (ko_copy o)]> e, h, OutUnit)
  | KAssign i j => _ ← ko_var e i; o ← ko_var e j; Ok (<[i := Some (ko_copy o)]> e, h, OutUnit)
  end.
Fixpoint kruns (e : list (option kobj)) (h : kheap) (l : list kstmt) : res (list (option kobj) * kheap * list out) :=
  match l with
  | [] => Ok (e, h, [])
  | p :: l =>
      r ← kstep e h p; let '(e, h, x) := (r : list (option kobj) * kheap * out) in
      r ← kruns e h l; let '(e, h, xs) := (r : list (option kobj) * kheap * list out) in
      Ok (e, h, x :: xs)
  end.

(** 35, 36, 38 max_key, max_value, key_width; [kb], [vb]: bits of key_type and value_type.  -1ULL is 64 bits wide. *)
Definition ks_max_key (kb : N) : res N := x ← shr64 ones64 (sub64 64 max_bits); Ok (N.min (x mod 2^kb) (2^kb - 1)).
Definition ks_max_value (vb : N) : N := 2^vb - 1.
End own.
