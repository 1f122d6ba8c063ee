(** Model of the special member functions of separate_chaining_table at the level of pointers and blocks:
    separate_chaining_table.hpp:50-53, 88-104, 215-255, 329-377, 701; size.hpp:44-58, 81-86, 92;
    overflow.hpp:71-85, 111-114; bucket.hpp:163-179, 285-306, 342-358, 490-505.
    An object holds addresses, the heap holds the live blocks. *)
From stdpp Require Export gmap.
From Verif Require Export TableModel.

Notation ptr := (option N).
(** Live blocks: m_bucketsizes (malloc), m_maxbucketsizes (malloc), an array of buckets (new[]; a bucket object is
    its m_data pointer), the storage of a bucket. *)
Inductive blk :=
| BSizes (l : list N)
| BCaps (l : list N)
| BArr (l : list ptr)
| BData (t : tag) (d : bdata).
Notation heap := (gmap N blk).
Definition blk_tag (b : blk) : tag := match b with BSizes _ | BCaps _ => TMalloc | BArr _ => TNew | BData t _ => t end.

(** m_overflow: array_overflow holds two plain_buckets by value, map_overflow a std::unordered_map *)
Inductive ovobj :=
| PDummy
| PArray (keys vals : ptr) (elements : N) (full : list bool)
| PUmap (nb : N) (els : list (N * N)) (full : list bool).

(** The members, separate_chaining_table.hpp:162-178: m_keys, m_value_manager.m_values, m_bucketsizes,
    m_resize_strategy.m_maxbucketsizes, m_buckets, m_elements, m_key_width, m_value_width, m_hash (represented by
    the key width it was constructed for), m_overflow. *)
Record obj := Obj {
  o_keys : ptr; o_vals : ptr; o_sizes : ptr; o_caps : ptr;
  o_b : N; o_n : N; o_kw : N; o_vw : N; o_hash : N; o_ov : ovobj
}.

Section own.
Context (pf : platform) (c : cfg).
(** What std::unordered_map and tdc::BitVector contain after they were moved from (unspecified). *)
Context (mv_nb : N) (mv_els : list (N * N)) (mv_full : list bool).

Definition is_set : bool := match c_val c with KNull => true | _ => false end.   (* value_dummy_manager *)

(** free / delete[] of a block without destructors, _mm_free; a dead block is freed twice *)
Definition hfree (t : tag) (h : heap) (p : ptr) : res heap :=
  match p with
  | None => Ok h
  | Some a => match h !! a with
              | None => Ub DoubleFree
              | Some b => if free_ok pf t (blk_tag b) then Ok (delete a h) else Ub BadFree
              end
  end.
(** access to an array of buckets *)
Definition harr (h : heap) (p : ptr) : res (N * list ptr) :=
  match p with
  | None => Ub NullDeref
  | Some a => match h !! a with Some (BArr l) => Ok (a, l) | _ => Ub OobRead end
  end.

(** m_keys[i].clear() / m_values[i].clear(): frees m_data and sets it to null *)
Definition clear_elem (kd : bkind) (h : heap) (p : ptr) (i : nat) : res heap :=
  al ← harr h p;
  let '(a, l) := (al : N * list ptr) in
  q ← of_option OobRead (l !! i);
  h ← hfree (kind_tag kd) h q;
  Ok (<[a := BArr (<[i := None]> l)]> h).
(** delete[] of an array of buckets: the destructors (in reverse order) free m_data *)
Definition delete_arr (kd : bkind) (h : heap) (p : ptr) : res heap :=
  match p with
  | None => Ok h
  | Some a => match h !! a with
              | None => Ub DoubleFree
              | Some (BArr l) => h ← rfold (hfree (kind_tag kd)) (rev l) h; Ok (delete a h)
              | Some _ => Ub BadFree
              end
  end.

(** m_bucketsizes[i] and m_maxbucketsizes[i] *)
Definition get_size (h : heap) (p : ptr) (i : nat) : res N :=
  match p with
  | None => Ub NullDeref
  | Some a => match h !! a with Some (BSizes l) => of_option OobRead (l !! i) | _ => Ub OobRead end
  end.
Definition set_size (h : heap) (p : ptr) (i : nat) : res heap :=
  match p with
  | None => Ub NullDeref
  | Some a => match h !! a with
              | Some (BSizes l) => if (i <? length l)%nat then Ok (<[a := BSizes (<[i := 0]> l)]> h) else Ub OobWrite
              | _ => Ub OobWrite
              end
  end.
(** m_resize_strategy.assign(0, bucket) *)
Definition set_cap (h : heap) (p : ptr) (i : nat) : res heap :=
  if c_arb c then
    match p with
    | None => Ub NullDeref
    | Some a => match h !! a with
                | Some (BCaps l) => if (i <? length l)%nat then Ok (<[a := BCaps (<[i := 0]> l)]> h) else Ub OobWrite
                | _ => Ub OobWrite
                end
    end
  else Ok h.

(** 215-222 clear(bucket) *)
Definition own_clear_bucket (o : obj) (h : heap) (i : nat) : res heap :=
  n ← get_size h (o_sizes o) i;
  if n =? 0 then Ok h
  else
    h ← (if is_set then Ok h else clear_elem (c_val c) h (o_vals o) i);
    h ← clear_elem (c_key c) h (o_keys o) i;
    h ← set_size h (o_sizes o) i;
    set_cap h (o_caps o) i.

(** overflow.hpp:39, 111-114, 233-235 *)
Definition own_ov_clear (h : heap) (v : ovobj) : res (heap * ovobj) :=
  match v with
  | PDummy => Ok (h, PDummy)
  | PArray k w e full => h ← hfree TMalloc h k; h ← hfree TMalloc h w; Ok (h, PArray None None e full)
  | PUmap nb els full => Ok (h, PUmap nb [] full)
  end.

(** 229-238 clear_structure: m_keys is deleted but not set to null, m_values stays *)
Definition own_clear_structure (h : heap) (o : obj) : res (heap * obj) :=
  h ← delete_arr (c_key c) h (o_keys o);
  h ← hfree TMalloc h (o_sizes o);
  h ← (if c_arb c then hfree TMalloc h (o_caps o) else Ok h);
  r ← own_ov_clear h (o_ov o);
  let '(h, v) := (r : heap * ovobj) in
  Ok (h, Obj (o_keys o) (o_vals o) None (if c_arb c then None else o_caps o) 0 0 (o_kw o) (o_vw o) (o_hash o) v).
Definition set_o_ov (o : obj) (v : ovobj) : obj :=
  Obj (o_keys o) (o_vals o) (o_sizes o) (o_caps o) (o_b o) (o_n o) (o_kw o) (o_vw o) (o_hash o) v.

(** 243-255 clear *)
Definition own_clear (h : heap) (o : obj) : res (heap * obj) :=
  match o_sizes o with
  | None => r ← own_ov_clear h (o_ov o); let '(h, v) := (r : heap * ovobj) in Ok (h, set_o_ov o v)
  | Some _ =>
      h ← rfold (own_clear_bucket o) (seq 0 (if o_b o =? 0 then 0%nat else N.to_nat (2^(o_b o)))) h;
      own_clear_structure h o
  end.

(** 701 ~separate_chaining_table, then the destructors of m_overflow, m_value_manager (100-104) and
    m_resize_strategy (size.hpp:92) *)
Definition destroy (h : heap) (o : obj) : res heap :=
  r ← own_clear h o;
  let '(h, o) := (r : heap * obj) in
  r ← own_ov_clear h (o_ov o);
  let '(h, _) := (r : heap * ovobj) in
  h ← (if is_set then Ok h else delete_arr (c_val c) h (o_vals o));
  if c_arb c then hfree TMalloc h (o_caps o) else Ok h.

(** Implicit move constructor of the overflow classes: (new object, moved-from object) *)
Definition ov_move (v : ovobj) : ovobj * ovobj :=
  match v with
  | PDummy => (PDummy, PDummy)
  | PArray k w e full => (PArray k w e full, PArray None None e mv_full)
  | PUmap nb els full => (PUmap nb els full, PUmap mv_nb mv_els mv_full)
  end.
(** Implicit move assignment: plain_bucket::operator= (bucket.hpp:299-305) clears the destination first *)
Definition ov_move_assign (h : heap) (dst src : ovobj) : res (heap * (ovobj * ovobj)) :=
  h ← (match dst with PArray k w _ _ => h ← hfree TMalloc h k; hfree TMalloc h w | _ => Ok h end);
  Ok (h, ov_move src).

(** 329-344 move constructor; value_array_manager(value_array_manager&&) (89) does not reset the source,
    arbitrary_resize(arbitrary_resize&&) (size.hpp:46-51) does *)
Definition move_construct (o : obj) : obj * obj :=
  let '(v, v') := ov_move (o_ov o) in
  (Obj (o_keys o) (o_vals o) (o_sizes o) (o_caps o) (o_b o) (o_n o) (o_kw o) (o_vw o) (o_hash o) v,
   Obj (o_keys o) (o_vals o) None (if c_arb c then None else o_caps o) (o_b o) (o_n o) (o_kw o) (o_vw o) (o_hash o) v').

(** 346-362 move assignment; value_array_manager::operator= (90-94) resets the source but does not delete
    the destination's array *)
Definition move_assign (h : heap) (dst src : obj) : res (heap * (obj * obj)) :=
  r ← own_clear h dst;
  let '(h, dst) := (r : heap * obj) in
  r ← ov_move_assign h (o_ov dst) (o_ov src);
  let '(h, (v, v')) := (r : heap * (ovobj * ovobj)) in
  Ok (h, (Obj (o_keys src) (o_vals src) (o_sizes src) (o_caps src) (o_b src) (o_n src) (o_kw src) (o_vw src) (o_hash src) v,
          Obj (o_keys src) (if is_set then o_vals src else None) None (if c_arb c then None else o_caps src)
              (o_b src) (o_n src) (o_kw src) (o_vw src) (o_hash src) v')).

(** std::swap of a member m: T tmp(move(a)); a = move(b); b = move(tmp); ~T() *)
Definition swap_vals (h : heap) (a b : ptr) : res (heap * (ptr * ptr)) :=
  if is_set then Ok (h, (a, b))   (* value_dummy_manager *)
  else
    let tmp := a in              (* 89 *)
    let '(a, b) := (b, None : ptr) in   (* 90-94 *)
    let '(b, tmp) := (tmp, None : ptr) in
    h ← delete_arr (c_val c) h tmp;     (* 100-104 *)
    Ok (h, (a, b)).
Definition swap_caps (h : heap) (a b : ptr) : res (heap * (ptr * ptr)) :=
  if c_arb c then
    let '(tmp, a) := (a, None : ptr) in  (* size.hpp:46-51 *)
    let '(a, b) := (b, None : ptr) in    (* size.hpp:52-57 *)
    let '(b, tmp) := (tmp, None : ptr) in
    h ← hfree TMalloc h tmp;
    Ok (h, (a, b))
  else Ok (h, (a, b)).                   (* incremental_resize has no state *)
Definition swap_ov (h : heap) (a b : ovobj) : res (heap * (ovobj * ovobj)) :=
  let '(tmp, a) := ov_move a in
  r ← ov_move_assign h a b;
  let '(h, (a, b)) := (r : heap * (ovobj * ovobj)) in
  r ← ov_move_assign h b tmp;
  let '(h, (b, tmp)) := (r : heap * (ovobj * ovobj)) in
  r ← own_ov_clear h tmp;
  Ok (fst (r : heap * ovobj), (a, b)).
(** 363-377 swap *)
Definition own_swap (h : heap) (x y : obj) : res (heap * (obj * obj)) :=
  r ← swap_vals h (o_vals x) (o_vals y);
  let '(h, (vx, vy)) := (r : heap * (ptr * ptr)) in
  r ← swap_caps h (o_caps x) (o_caps y);
  let '(h, (cx, cy)) := (r : heap * (ptr * ptr)) in
  r ← swap_ov h (o_ov x) (o_ov y);
  let '(h, (ox, oy)) := (r : heap * (ovobj * ovobj)) in
  Ok (h, (Obj (o_keys y) vx (o_sizes y) cx (o_b y) (o_n y) (o_kw y) (o_vw y) (o_hash y) ox,
          Obj (o_keys x) vy (o_sizes x) cy (o_b x) (o_n x) (o_kw x) (o_vw x) (o_hash x) oy)).

(** 421-431 reserve on a table with m_buckets == 0, for 2^bits buckets: the four arrays are allocated at the fresh
    addresses given; the old pointers are overwritten. *)
Definition own_alloc (h : heap) (o : obj) (bits ac ak av as_ : N) : heap * obj :=
  let n := N.to_nat (2^bits) in
  let h := if c_arb c then <[ac := BCaps (replicate n 0)]> h else h in
  let h := <[ak := BArr (replicate n None)]> h in
  let h := if is_set then h else <[av := BArr (replicate n None)]> h in
  let h := <[as_ := BSizes (replicate n 0)]> h in
  let ov := match o_ov o with
            | PDummy => PDummy
            | PArray k v e full => PArray k v e (bv_resize full (2^bits))
            | PUmap nb els full => PUmap (um_policy pf nb (2^bits)) els (bv_resize full (2^bits))
            end in
  (h, Obj (Some ak) (if is_set then o_vals o else Some av) (Some as_) (if c_arb c then Some ac else o_caps o)
       bits (o_n o) (o_kw o) (o_vw o) (o_hash o) ov).

(** The table (TableModel.v) that an object represents in a heap.  m_keys is only followed if m_bucketsizes is
    not null; m_hash must belong to the key width. *)
Definition ld_bucket (h : heap) (p : ptr) : option bucket :=
  match p with None => Some None | Some a => match h !! a with Some (BData t d) => Some (Some (t, d)) | _ => None end end.
Definition ld_arr (h : heap) (p : ptr) : option (list bucket) :=
  match p with None => None | Some a => match h !! a with Some (BArr l) => mapM (ld_bucket h) l | _ => None end end.
Definition ld_sizes (h : heap) (p : ptr) : option (list N) :=
  match p with None => None | Some a => match h !! a with Some (BSizes l) => Some l | _ => None end end.
Definition ld_caps (h : heap) (p : ptr) : option (list N) :=
  match p with None => None | Some a => match h !! a with Some (BCaps l) => Some l | _ => None end end.
Fixpoint zip_slots (ks vs : list bucket) (ns cs : list N) : option (list slot) :=
  match ks, vs, ns, cs with
  | [], [], [], [] => Some []
  | k :: ks, v :: vs, n :: ns, a :: cs => l ← zip_slots ks vs ns cs; Some (Slot k v n a :: l)
  | _, _, _, _ => None
  end.
Definition ld_slots (h : heap) (o : obj) : option (option (list slot)) :=
  match o_sizes o with
  | None => Some None
  | Some _ =>
      ns ← ld_sizes h (o_sizes o);
      ks ← ld_arr h (o_keys o);
      vs ← (if is_set then Some (replicate (length ns) None) else ld_arr h (o_vals o));
      cs ← (if c_arb c then ld_caps h (o_caps o) else Some (replicate (length ns) 0));
      l ← zip_slots ks vs ns cs; Some (Some l)
  end.
Definition ld_ov (h : heap) (v : ovobj) : option overflow :=
  match v with
  | PDummy => Some ODummy
  | PArray k w e full => k ← ld_bucket h k; w ← ld_bucket h w; Some (OArray k w e full)
  | PUmap nb els full => Some (OUmap nb els full)
  end.
Definition load (h : heap) (o : obj) : option table :=
  if o_hash o =? o_kw o then
    sl ← ld_slots h o; v ← ld_ov h (o_ov o);
    Some (Table sl (o_b o) (o_n o) (o_kw o) (o_vw o) v)
  else None.
End own.
