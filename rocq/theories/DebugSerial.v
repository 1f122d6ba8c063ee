(** Model of serialize and deserialize of the debug build: separate_chaining_table.hpp:790-850 with the members, writes and checks inside
    ON_DEBUG, #ifndef NDEBUG and DDCHECK; bucket.hpp:98-108, 202-212, 379-395; overflow.hpp:97-106. *)
From Verif Require Export DebugModel SerialModel.

Section bucket.
Context (pf : platform).

(** serialize, bucket.hpp:104-108, 208-212, 388-395: m_size and m_length precede the data; class_bucket inherits from plain_bucket *)
Definition db_serialize (kd : bkind) (b : dbk) (size w : nat) : res stream :=
  match kd with
  | KNull => Ok []
  | KVar iw =>
      l ← known (k_len b); _ ← chk (N.of_nat size <=? l);
      z ← known (k_sz b); _ ← chk (N.of_nat (cdiv (size * w) iw) <=? z);
      d ← b_serialize pf kd (k_b b) size w;
      Ok (nbits 64 z ++ nbits 64 l ++ d)
  | _ =>
      l ← known (k_len b); _ ← chk (N.of_nat size <=? l);
      d ← b_serialize pf kd (k_b b) size w;
      Ok (nbits 64 l ++ d)
  end.
(** deserialize, bucket.hpp:98-103, 202-207 with initialize (89-96, 240-244), 379-387.  varwidth_bucket keeps the values of m_size and
    m_length that it read, although it allocates for [size] elements only, and does not check m_data. *)
Definition db_deserialize (kd : bkind) (b : dbk) (s : stream) (size w : nat) : res (dbk * stream) :=
  match kd with
  | KNull => let '(d, s) := b_deserialize pf kd s size w in Ok (Dbk d (k_len b) (k_sz b), s)
  | KVar iw =>
      let '(z, s) := read_var s (cell_bits 64 (k_sz b)) in
      let '(l, s) := read_var s (cell_bits 64 (k_len b)) in
      l ← used l; _ ← chk (N.of_nat size <=? l);
      z ← used z; _ ← chk (N.of_nat (cdiv (size * w) iw) <=? z);
      let '(d, s) := b_deserialize pf kd s size w in Ok (Dbk d (Some l) (Some z), s)
  | _ =>
      let '(l, s) := read_var s (cell_bits 64 (k_len b)) in
      l ← used l; _ ← chk (N.of_nat size <=? l);
      _ ← chk (match k_b b with None => true | Some _ => false end);
      let '(d, s) := b_deserialize pf kd s size w in Ok (Dbk d (Some (N.of_nat size)) (k_sz b), s)
  end.
End bucket.

Section serial.
Context (pf : platform) (c : cfg) (junk : option N).
Notation kb := (kbn c). Notation vb := (vbn c).

(** A plain bucket of array_overflow with its m_length. *)
Definition arr_dbk (b : bucket) : dbk := Dbk b (Some (arr_len b)) None.
(** overflow.hpp:34, 102-106, 224-231 *)
Definition dov_serialize (o : overflow) : res stream :=
  match o with
  | OArray ks vs e _ =>
      k ← db_serialize pf (KPlain kb) (arr_dbk ks) (N.to_nat e) 0;
      v ← db_serialize pf (KPlain vb) (arr_dbk vs) (N.to_nat e) 0;
      Ok (nbits 64 e ++ k ++ v)
  | _ => ov_serialize pf c o
  end.
(** overflow.hpp:32, 97-101, 211-223 *)
Definition dov_deserialize (o : overflow) (s : stream) : res (overflow * stream) :=
  match o with
  | OArray ks vs e full =>
      let '(e, s) := read_var s (nbits 64 e) in
      e ← used e;
      k ← db_deserialize pf (KPlain kb) (arr_dbk ks) s (N.to_nat e) 0;
      let '(ks, s) := (k : dbk * stream) in
      v ← db_deserialize pf (KPlain vb) (arr_dbk vs) s (N.to_nat e) 0;
      let '(vs, s) := (v : dbk * stream) in
      Ok (OArray (k_b ks) (k_b vs) e full, s)
  | _ => ov_deserialize pf c o s
  end.

(** 803-807 one bucket; m_plainkeys is written last *)
Definition dser_slot (d : dtable) (w : nat) (s : dslot) : res stream :=
  if ds_size s =? 0 then Ok []
  else
    let n := N.to_nat (ds_size s) in
    k ← db_serialize pf (c_key c) (ds_keys s) n w;
    v ← db_serialize pf (c_val c) (ds_vals s) n (dvwidth d);
    match ds_plain s with
    | None => Ub NullDeref
    | Some cs => p ← cells_prefix cs n; Ok (k ++ v ++ concat (map (cell_bits kb) p))
    end.
(** 790-808 *)
Definition dserialize (d : dtable) : res stream :=
  o ← dov_serialize (d_ov d);
  let head := nbits 8 (d_kw d) ++ nbits 8 (d_vw d) ++ nbits 8 (d_b d) ++ nbits 64 (d_n d) in
  w ← dremainder_width (dhm c d) (d_b d);
  if dbucket_count d =? 0 then Ok (o ++ head)
  else match d_slots d with
       | None => Ub NullDeref
       | Some sl =>
           let sl := take (N.to_nat (dbucket_count d)) sl in
           x ← rmap (dser_slot d (N.to_nat w)) sl;
           Ok (o ++ head ++ concat (map (fun s => nbits 8 (ds_size s)) sl) ++ concat x)
       end.

(** 839-843 *)
Definition plain_check (d : dtable) (k : dbk) (cs : list (option N)) (bk : N) (w i : nat) : res unit :=
  r ← db_read pf (c_key c) k i w;
  let r := r mod 2^(c_keybits c) in
  x ← dhash_inv_map (dhm c d) r bk (d_b d);
  p ← cell_read cs i; chk (x =? p).
(** 829-846 one bucket *)
Definition dde_slot (d : dtable) (w : nat) (bk : N) (a : dslot) (size : N) (s : stream) : res (dslot * stream) :=
  if size =? 0 then Ok (DSlot (ds_keys a) (ds_vals a) size (ds_cap a) (ds_plain a), s)
  else
    let n := N.to_nat size in
    k ← db_deserialize pf (c_key c) (ds_keys a) s n w;
    let '(k, s) := (k : dbk * stream) in
    v ← db_deserialize pf (c_val c) (ds_vals a) s n (dvwidth d);
    let '(v, s) := (v : dbk * stream) in
    let old := realloc_cells pf (match ds_plain a with Some l => l | None => [] end) n in
    let '(got, s) := st_read s (concat (map (cell_bits kb) old)) in
    let cs := bits_cells kb n got in
    _ ← rfold (fun (_ : unit) i => plain_check d k cs bk w i) (seq 0 n) ();
    Ok (DSlot k v size (ds_cap a) (Some cs), s).
Fixpoint dde_slots (d : dtable) (w : nat) (bk : N) (sl : list dslot) (sizes : list N) (s : stream) : res (list dslot * stream) :=
  match sl, sizes with
  | a :: sl', n :: sizes' =>
      x ← dde_slot d w bk a n s;
      l ← dde_slots d w (bk + 1) sl' sizes' (snd x);
      Ok (fst x :: fst l, snd l)
  | _, _ => Ok (sl, s)
  end.
(** 809-850.  The constructor of the hash mapping is that of line 815. *)
Definition ddeserialize (fuel : nat) (d : dtable) (s : stream) : res (dtable * stream) :=
  d ← dclear pf c d;
  os ← dov_deserialize (d_ov d) s;
  let '(o, s) := (os : overflow * stream) in
  let '(kw, s) := read_var s (nbits 8 (d_kw d)) in
  let '(vw, s) := read_var s (nbits 8 (d_vw d)) in
  kw ← used kw; vw ← used vw;
  _ ← dhash_new (c_hash c) kw;
  let '(b, s) := read_var s (replicate 8 None) in
  b ← used b;
  n ← shl64 1 b;
  d ← dreserve pf c junk fuel (DTable (d_slots d) (d_b d) (d_n d) kw vw o (d_rs d)) n;
  _ ← chk (d_b d =? b);
  let '(n, s) := read_var s (nbits 64 (d_n d)) in
  n ← used n;
  w ← dremainder_width (dhm c d) (d_b d);
  if dbucket_count d =? 0 then _ ← chk (n =? 0); Ok (dset_n d n, s)
  else match d_slots d with
       | None => Ub NullDeref
       | Some sl =>
           let nb := N.to_nat (dbucket_count d) in
           let '(sb, s) := st_read s (concat (map (fun s => nbits 8 (ds_size s)) (take nb sl))) in
           sizes ← de_sizes nb sb;
           x ← dde_slots d (N.to_nat w) 0 (take nb sl) sizes s;
           let '(sl', s) := (x : list dslot * stream) in
           _ ← chk (n =? u64 (fold_right N.add 0 sizes));
           Ok (DTable (Some (sl' ++ drop nb sl)) (d_b d) n (d_kw d) (d_vw d) (d_ov d) (d_rs d), s)
       end.
End serial.
