(** Model of serialize and deserialize of the debug build of group_chaining.hpp with dummy_overflow: GroupModel's functions with the members,
    writes and checks inside ON_DEBUG, #ifndef NDEBUG and DDCHECK. *)
From Verif Require Export DebugGroup SerialModel.

(** m_plain_data, m_border_array and the plain keys and values are written and read as words of 64 bits (size_t, uint64_t). *)
Definition words (l : list N) : stream := concat (map (nbits 64) l).
(** n words of an array *)
Definition words_of (l : option (list N)) (n : nat) : res stream :=
  if (n =? 0)%nat then Ok []
  else match l with None => Ub NullDeref | Some l => if (length l <? n)%nat then Ub OobRead else Ok (words (take n l)) end.

Section core.
Context (pf : platform).
#[local] Open Scope nat_scope.
(** 51-65 core_group::serialize.  m_blocksize is written as it is, set or not. *)
Definition dc_serialize (d : dcore) (w n : nat) : res stream :=
  l ← known (c_len d); _ ← chk (N.of_nat n =? l)%N;
  kw ← known (c_kw d); _ ← chk (N.of_nat w =? kw)%N;
  p ← words_of (c_plain d) (N.to_nat l);
  s ← cg_serialize (c_d d) w n;
  Ok (nbits 64 kw ++ nbits 64 l ++ cell_bits 64 (c_bs d) ++ p ++ s).
(** 68-86 core_group::deserialize.  clear() leaves m_key_width and sets m_length and m_blocksize to 0.  A word of m_plain_data that the
    stream does not provide is undefined behaviour here, as in [border_read]. *)
Definition dc_deserialize (d : dcore) (s : stream) (w n : nat) : res (dcore * stream) :=
  let d := dc_clear d in
  let '(kw, s) := read_var s (cell_bits 64 (c_kw d)) in
  kw ← used kw; _ ← chk (kw =? N.of_nat w)%N;
  let '(l, s) := read_var s (cell_bits 64 (c_len d)) in
  l ← used l; _ ← chk (l =? N.of_nat n)%N;
  let '(bs, s) := read_var s (cell_bits 64 (c_bs d)) in
  r ← border_read pf (N.to_nat l) s;
  let '(p, s) := (r : list N * stream) in
  bs ← used bs; _ ← chk (N.of_nat (cdiv (w * n) 64) <=? bs)%N;
  let '(x, s) := cg_deserialize pf s w n in
  Ok (DCore x (Some kw) (Some l) (Some bs) (Some p), s).

(** 386-406 keyvalue_group::serialize *)
Definition dkv_serialize (g : dkv) (bpg kw vw : nat) : res stream :=
  let head := nbits 64 (N.of_nat (length (k_barr g))) ++ words (k_barr g) ++ nbits 8 (k_gs g) ++ cell_bits 64 (k_blen g) in
  if (k_size g =? 0)%N then Ok (head ++ nbits 32 0)
  else
    match k_border g with
    | None => Ub NullDeref
    | Some ws =>
        let m := kv_border_words (k_size g) bpg in
        if length ws <? m then Ub OobRead
        else
          k ← dc_serialize (k_keys g) kw (N.to_nat (k_size g));
          v ← dc_serialize (k_vals g) vw (N.to_nat (k_size g));
          Ok (head ++ nbits 32 (k_size g) ++ words (take m ws) ++ k ++ v)
    end.
(** 415-416: m_border_array.resize(n), then n words over the zeros *)
Fixpoint zero_read (n : nat) (s : stream) : res (list N * stream) :=
  match n with
  | O => Ok ([], s)
  | S n' =>
      let '(x, s) := read_var s (nbits 64 0) in
      x ← used x;
      r ← zero_read n' s;
      let '(l, s) := (r : list N * stream) in Ok (x :: l, s)
  end.
(** 409-431 keyvalue_group::deserialize.  resize(n) throws std::length_error for 2^60 elements and more. *)
Definition dkv_deserialize (g : dkv) (s : stream) (bpg kw vw : nat) : res (dkv * stream) :=
  let g := dkv_clear g in
  let '(m, s) := read_var s (fresh_bits pf 64) in
  m ← used m;
  _ ← chk (m <? 2^60)%N;
  r ← zero_read (N.to_nat m) s;
  let '(ba, s) := (r : list N * stream) in
  let '(gs, s) := read_var s (nbits 8 (k_gs g)) in
  gs ← used gs;
  let '(bl, s) := read_var s (cell_bits 64 (k_blen g)) in
  let '(n, s) := read_var s (nbits 32 0) in
  n ← used n;
  if (n =? 0)%N then Ok (DKv 0 (k_keys g) (k_vals g) None bl ba gs, s)
  else
    r ← border_read pf (kv_border_words n bpg) s;
    let '(ws, s) := (r : list N * stream) in
    k ← dc_deserialize (k_keys g) s kw (N.to_nat n);
    let '(ks, s) := (k : dcore * stream) in
    v ← dc_deserialize (k_vals g) s vw (N.to_nat n);
    let '(vs, s) := (v : dcore * stream) in
    Ok (DKv n ks vs (Some ws) bl ba gs, s).
End core.

Section table.
Context (pf : platform) (c : gcfg).
(** 1440-1444: the plain data of one bucket *)
Definition dg_plain_words (p : dplain) : res stream :=
  if p_size p =? 0 then Ok []
  else k ← words_of (p_keys p) (N.to_nat (p_size p)); v ← words_of (p_vals p) (N.to_nat (p_size p)); Ok (k ++ v).
(** 1420-1446 serialize *)
Definition dg_serialize (t : dgtable) : res stream :=
  let head := nbits 8 (dg_kw t) ++ nbits 8 (dg_vw t) ++ nbits 8 (dg_b t) ++ nbits 64 (dg_n t) ++ nbits 8 (dg_bpg t) in
  if dg_n t =? 0 then Ok head
  else
    _ ← dremainder_width (ghm c (dg_kw t)) (dg_b t);
    gc ← g_group_count (gstrip t);
    let gs := default [] (dg_groups t) in
    if N.of_nat (length gs) <? gc then Ub OobRead
    else
      l ← rmap (fun g => dkv_serialize g (gbpg (gstrip t)) (gqw c (gstrip t)) (gvw (gstrip t))) (take (N.to_nat gc) gs);
      match dg_plain t with
      | None => Ub NullDeref
      | Some ps =>
          let n := N.to_nat (g_bucket_count (gstrip t)) in
          if (length ps <? n)%nat then Ub OobRead
          else
            q ← rmap dg_plain_words (take n ps);
            Ok (head ++ concat l ++ concat (map (fun p => nbits 32 (p_size p)) (take n ps)) ++ concat q)
      end.

(** 1469-1471 *)
Fixpoint dg_read_groups (t : dgtable) (gs : list dkv) (s : stream) : res (list dkv * stream) :=
  match gs with
  | [] => Ok ([], s)
  | g :: gs' =>
      r ← dkv_deserialize pf g s (gbpg (gstrip t)) (gqw c (gstrip t)) (gvw (gstrip t));
      let '(g, s) := (r : dkv * stream) in
      rs ← dg_read_groups t gs' s;
      let '(gs, s) := (rs : list dkv * stream) in
      Ok (g :: gs, s)
  end.
(** 1476: the bucket sizes, over the zeros of reserve() *)
Fixpoint dg_read_sizes (n : nat) (s : stream) : res (list N * stream) :=
  match n with
  | O => Ok ([], s)
  | S n' =>
      let '(x, s) := read_var s (nbits 32 0) in
      x ← used x;
      r ← dg_read_sizes n' s;
      let '(l, s) := (r : list N * stream) in Ok (x :: l, s)
  end.
(** 1481-1504: the plain data of bucket bk and the comparison with the groups of t; realloc of a null pointer allocates *)
Definition dg_read_plain (t : dgtable) (bk : N) (size : N) (s : stream) : res (dplain * stream) :=
  if size =? 0 then Ok (p_none, s)
  else
    r ← border_read pf (N.to_nat size) s;
    let '(ks, s) := (r : list N * stream) in
    r ← border_read pf (N.to_nat size) s;
    let '(vs, s) := (r : list N * stream) in
    let p := DPlain (Some ks) (Some vs) size in
    g ← dg_group t bk;
    _ ← rfold (fun _ i =>
          q ← dkv_read_key pf g (g_rank (gstrip t) bk) i (gqw c (gstrip t));
          k ← dhash_inv_map (ghm c (dg_kw t)) q bk (dg_b t);
          v ← dkv_read_value pf g (g_rank (gstrip t) bk) i (gvw (gstrip t));
          pk ← pcell (p_keys p) i;
          _ ← chk (k =? pk);
          pv ← pcell (p_vals p) i;
          chk (v =? pv)) (seq 0 (N.to_nat size)) tt;
    Ok (p, s).
Fixpoint dg_read_plains (t : dgtable) (bk : N) (sizes : list N) (s : stream) : res (list dplain * stream) :=
  match sizes with
  | [] => Ok ([], s)
  | n :: sizes' =>
      r ← dg_read_plain t bk n s;
      let '(p, s) := (r : dplain * stream) in
      rs ← dg_read_plains t (bk + 1) sizes' s;
      let '(ps, s) := (rs : list dplain * stream) in
      Ok (p :: ps, s)
  end.
(** 1449-1509 deserialize.  reserve() does not change m_buckets_per_group, so the check in line 1465 holds. *)
Definition dg_deserialize (t : dgtable) (s : stream) : res (dgtable * stream) :=
  t ← dg_clear t;
  let '(kw, s) := read_var s (nbits 8 (dg_kw t)) in
  let '(vw, s) := read_var s (nbits 8 (dg_vw t)) in
  kw ← used kw;
  _ ← dhash_new (gc_hash c) kw;
  let '(b, s) := read_var s (fresh_bits pf 8) in
  let '(n, s) := read_var s (nbits 64 (dg_n t)) in
  let '(bpg, s) := read_var s (nbits 8 (dg_bpg t)) in
  vw ← used vw; n ← used n; bpg ← used bpg;
  let t := DGTable (dg_groups t) (dg_b t) n kw vw bpg (dg_plain t) in
  if n =? 0 then Ok (t, s)
  else
    b ← used b;
    nb ← shl64 1 b;
    t ← dg_alloc t nb;
    _ ← chk (dg_b t =? b);
    _ ← dremainder_width (ghm c (dg_kw t)) (dg_b t);
    gc ← g_group_count (gstrip t);
    r ← dg_read_groups t (take (N.to_nat gc) (default [] (dg_groups t))) s;
    let '(gs, s) := (r : list dkv * stream) in
    let t := DGTable (Some gs) (dg_b t) (dg_n t) (dg_kw t) (dg_vw t) (dg_bpg t) (dg_plain t) in
    let count := g_bucket_count (gstrip t) in
    r ← dg_read_sizes (N.to_nat count) s;
    let '(sizes, s) := (r : list N * stream) in
    _ ← rfold (fun _ i =>
          z ← of_option OobRead (sizes !! i);
          m ← dg_bucket_size t (N.of_nat i);
          chk (z =? m)) (seq 0 (N.to_nat count)) tt;
    r ← dg_read_plains t 0 sizes s;
    let '(ps, s) := (r : list dplain * stream) in
    _ ← chk (n =? u64 (fold_right N.add 0 sizes));
    Ok (DGTable (dg_groups t) (dg_b t) (dg_n t) (dg_kw t) (dg_vw t) (dg_bpg t) (Some ps), s).
End table.
