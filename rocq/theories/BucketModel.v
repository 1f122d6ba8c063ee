(** Model of include/separate/bucket.hpp (avx2_bucket, plain_bucket, class_bucket, varwidth_bucket) and of
    null_value_bucket (separate_chaining_table.hpp:21-43). *)
From Verif Require Export BitsModel.
#[local] Open Scope nat_scope.

(** Which allocation function produced a block. *)
Inductive tag := TMalloc | TNew | TMm.
#[global] Instance tag_eq_dec : EqDecision tag.
Proof. solve_decision. Defined.

(** Contents of a block: an array of elements or raw bits. *)
Inductive bdata := Cells (cs : list (option N)) | Bits (bs : bits).
(** A bucket is its m_data pointer: null or an owned block. *)
Definition bucket := option (tag * bdata).

(** Bucket class template instances; es = bits of storage_t, iw = bits of internal_t. *)
Inductive bkind :=
| KPlain (es : nat)   (* plain_bucket<storage_t> *)
| KClass (es : nat)   (* class_bucket<storage_t> *)
| KAvx (es : nat)     (* avx2_bucket<storage_t> *)
| KVar (iw : nat)     (* varwidth_bucket<internal_t> *)
| KNull.              (* null_value_bucket *)

(** Allocation function used by initialize(), deallocation functions match it. *)
Definition kind_tag (kd : bkind) : tag :=
  match kd with KClass _ => TNew | KAvx _ => TMm | _ => TMalloc end.

Definition free_ok (pf : platform) (expected actual : tag) : bool :=
  bool_decide (expected = actual) || loose_free pf.

Definition fresh_cells (pf : platform) (n : nat) : list (option N) :=
  replicate n (if zero_fresh pf then Some 0%N else None).

(** math.hpp:18-21 ceil_div on small operands (no overflow below 2^64). *)
Definition cdiv (a b : nat) : nat := (a + b - 1) / b.

(** bucket.hpp:89-92, 240-244, 325-329, 414-419; separate_chaining_table.hpp:35 *)
Definition b_initialize (pf : platform) (kd : bkind) (len w : nat) : bucket :=
  match kd with
  | KPlain _ | KClass _ | KAvx _ => Some (kind_tag kd, Cells (fresh_cells pf len))
  | KVar iw => Some (TMalloc, Bits (fresh_bits pf (iw * cdiv (len * w) iw)))
  | KNull => None
  end.

(** Deallocation of a block (free / delete[] / _mm_free). *)
Definition b_free (pf : platform) (kd : bkind) (b : bucket) : res unit :=
  match b with
  | None => Ok tt
  | Some (t, _) => if free_ok pf (kind_tag kd) t then Ok tt else Ub BadFree
  end.

(** bucket.hpp:79-85, 221-227, 316-321, 403-410; separate_chaining_table.hpp:34 *)
Definition b_clear (pf : platform) (kd : bkind) (b : bucket) : res bucket :=
  _ ← b_free pf kd b; Ok None.

(** Copying [n] elements out of a block; indeterminate elements are copied as such. *)
Definition cells_prefix (cs : list (option N)) (n : nat) : res (list (option N)) :=
  if n <=? length cs then Ok (take n cs) else Ub OobRead.

(** realloc(ptr, n elements): keeps the common prefix; realloc(nullptr) is malloc. *)
Definition realloc_cells (pf : platform) (cs : list (option N)) (n : nat) : list (option N) :=
  take n cs ++ fresh_cells pf (n - length cs).
Definition realloc_bits (pf : platform) (bs : bits) (n : nat) : bits :=
  take n bs ++ fresh_bits pf (n - length bs).

(** resize: plain bucket.hpp:253-256 (realloc); class bucket.hpp:331-340 (new[], move, delete[]);
    avx2 bucket.hpp:116-120 with aligned_realloc 16-29 (_mm_malloc, copy, _mm_free);
    varwidth bucket.hpp:421-427 (realloc only if the number of units grows). *)
Definition b_resize (pf : platform) (kd : bkind) (b : bucket) (old new w : nat) : res bucket :=
  match kd with
  | KPlain _ =>
      match b with
      | None => Ok (Some (TMalloc, Cells (fresh_cells pf new)))
      | Some (t, Cells cs) =>
          if free_ok pf TMalloc t then Ok (Some (TMalloc, Cells (realloc_cells pf cs new))) else Ub BadFree
      | _ => Ub Indeterminate
      end
  | KClass _ | KAvx _ =>
      match b with
      | None => if old =? 0 then Ok (Some (kind_tag kd, Cells (fresh_cells pf new))) else Ub NullDeref
      | Some (t, Cells cs) =>
          c ← cells_prefix cs old;
          if new <? old then Ub OobWrite
          else if free_ok pf (kind_tag kd) t
          then Ok (Some (kind_tag kd, Cells (c ++ fresh_cells pf (new - old)))) else Ub BadFree
      | _ => Ub Indeterminate
      end
  | KVar iw =>
      if cdiv (old * w) iw <? cdiv (new * w) iw then
        match b with
        | None => Ok (Some (TMalloc, Bits (fresh_bits pf (iw * cdiv (new * w) iw))))
        | Some (t, Bits bs) =>
            if free_ok pf TMalloc t
            then Ok (Some (TMalloc, Bits (realloc_bits pf bs (iw * cdiv (new * w) iw)))) else Ub BadFree
        | _ => Ub Indeterminate
        end
      else Ok b
  | KNull => Ok None
  end.

(** write: bucket.hpp:122-125, 263-266, 453-460; separate_chaining_table.hpp:42 *)
Definition b_write (pf : platform) (kd : bkind) (b : bucket) (i : nat) (v : N) (w : nat) : res bucket :=
  match kd with
  | KPlain es | KClass es | KAvx es =>
      match b with
      | None => Ub NullDeref
      | Some (t, Cells cs) =>
          if i <? length cs then Ok (Some (t, Cells (<[i := Some (v mod 2^N.of_nat es)%N]> cs))) else Ub OobWrite
      | _ => Ub Indeterminate
      end
  | KVar iw =>
      match b with
      | None => Ub NullDeref
      | Some (t, Bits bs) =>
          bs' ← write_int pf bs (i * w / iw * iw) (i * w mod iw) w v;
          Ok (Some (t, Bits bs'))
      | _ => Ub Indeterminate
      end
  | KNull => Ok None
  end.

Definition cell_read (cs : list (option N)) (i : nat) : res N :=
  match cs !! i with
  | None => Ub OobRead
  | Some None => Ub Indeterminate
  | Some (Some v) => Ok v
  end.

(** read: bucket.hpp:126-129, 274-277, 462-466; separate_chaining_table.hpp:29 *)
Definition b_read (pf : platform) (kd : bkind) (b : bucket) (i w : nat) : res N :=
  match kd with
  | KPlain _ | KClass _ | KAvx _ =>
      match b with
      | None => Ub NullDeref
      | Some (_, Cells cs) => cell_read cs i
      | _ => Ub Indeterminate
      end
  | KVar iw =>
      match b with
      | None => Ub NullDeref
      | Some (_, Bits bs) => read_int pf bs (i * w / iw * iw) (i * w mod iw) w
      | _ => Ub Indeterminate
      end
  | KNull => Ok 1%N
  end.

(** Element loop  for(i = position+1; i < length; ++i) m_data[i-1] = m_data[i];
    bucket.hpp:131-137, 267-273.  [n] is the number of remaining iterations. *)
Fixpoint cells_erase_loop (cs : list (option N)) (i n : nat) : res (list (option N)) :=
  match n with
  | 0 => Ok cs
  | S n' =>
      match cs !! i with
      | None => Ub OobRead
      | Some c => cells_erase_loop (<[i - 1 := c]> cs) (S i) n'
      end
  end.

(** Chunked move of varwidth_bucket::erase, bucket.hpp:440-443: [n] full 64-bit chunks. *)
Fixpoint move_chunks (pf : platform) (bs : bits) (rw ro ww wo n : nat) : res (bits * (nat * nat) * (nat * nat)) :=
  match n with
  | 0 => Ok (bs, (rw, ro), (ww, wo))
  | S n' =>
      c ← read_raw pf bs rw ro 64;
      let '(rw', ro') := move_right rw ro 64 in
      bs' ← write_raw pf bs ww wo c;
      let '(ww', wo') := move_right ww wo 64 in
      move_chunks pf bs' rw' ro' ww' wo' n'
  end.

(** bucket.hpp:430-451 varwidth_bucket::erase *)
Definition bits_erase (pf : platform) (iw : nat) (bs : bits) (position length w : nat) : res bits :=
  let rw := (position + 1) * w / iw * iw in
  let ro := (position + 1) * w mod iw in
  let ww := position * w / iw * iw in
  let wo := position * w mod iw in
  let total := (length - position) * w in
  r ← move_chunks pf bs rw ro ww wo (total / 64);
  let '(bs', (rw', ro'), (ww', wo')) := r in
  let remaining := total - total / 64 * 64 in
  if 0 <? remaining then
    c ← read_raw pf bs' rw' ro' remaining;
    write_raw pf bs' ww' wo' c
  else Ok bs'.

(** erase(position, length, width): bucket.hpp:131-137, 267-273, 430-451; separate_chaining_table.hpp:33 *)
Definition b_erase (pf : platform) (kd : bkind) (b : bucket) (position length w : nat) : res bucket :=
  match kd with
  | KPlain _ | KClass _ | KAvx _ =>
      match b with
      | None => if position + 1 <? length then Ub NullDeref else Ok None
      | Some (t, Cells cs) =>
          cs' ← cells_erase_loop cs (position + 1) (length - (position + 1));
          Ok (Some (t, Cells cs'))
      | _ => Ub Indeterminate
      end
  | KVar iw =>
      match b with
      | None => Ub NullDeref
      | Some (t, Bits bs) => bs' ← bits_erase pf iw bs position length w; Ok (Some (t, Bits bs'))
      | _ => Ub Indeterminate
      end
  | KNull => Ok b
  end.

(** Linear scan, bucket.hpp:278-283 and 156-158; [n] iterations starting at [i]. *)
Fixpoint cells_find_loop (cs : list (option N)) (key : N) (i n : nat) : res (option nat) :=
  match n with
  | 0 => Ok None
  | S n' => v ← cell_read cs i; if (v =? key)%N then Ok (Some i) else cells_find_loop cs key (S i) n'
  end.

(** AVX2 compare + movemask (architectural contract): one mask bit per byte of the 32-byte register. *)
Definition avx_mask (es : nat) (lanes : list N) (key : N) : list bool :=
  concat (map (fun v => replicate (es / 8) (v =? key mod 2^N.of_nat es)%N) lanes).
Fixpoint lowest_set (m : list bool) : nat :=    (* __builtin_ctz of a non-zero mask *)
  match m with [] => 0 | true :: _ => 0 | false :: m' => S (lowest_set m') end.

(** bucket.hpp:145-154: [n] register loads starting with register [i]. *)
Fixpoint avx_find_loop (es : nat) (cs : list (option N)) (key : N) (i n : nat) : res (option nat) :=
  match n with
  | 0 => Ok None
  | S n' =>
      let reg := 32 / (es / 8) in
      lanes ← rmap (fun j => cell_read cs (i * reg + j)) (seq 0 reg);
      let m := avx_mask es lanes key in
      if forallb negb m then avx_find_loop es cs key (S i) n'
      else if forallb id m then Ok (Some (i * reg))
      else Ok (Some (i * reg + lowest_set m / (es / 8)))
  end.

(** bucket.hpp:139-160 avx2_bucket::find *)
Definition avx_find (es : nat) (cs : list (option N)) (key : N) (length : nat) : res (option nat) :=
  let reg := 32 / (es / 8) in
  r ← (if reg <=? length then avx_find_loop es cs key 0 (length / reg) else Ok None);
  match r with
  | Some p => Ok (Some p)
  | None => cells_find_loop cs key (length / reg * reg) (length - length / reg * reg)
  end.

(** Index of the first occurrence. *)
Fixpoint first_index (key : N) (l : list N) : option nat :=
  match l with [] => None | x :: l' => if (x =? key)%N then Some 0 else S <$> first_index key l' end.

(** broadwordsearch::broadsearch(data, length, width, key) (external contract): reads the 64-bit words
    covering the fields and returns the first field equal to key.  Keys wider than the fields are
    outside its contract. *)
Definition broadsearch (pf : platform) (bs : bits) (length w : nat) (key : N) : res (option nat) :=
  if negb (accessible pf bs (64 * cdiv (length * w) 64)) then Ub OobRead
  else if negb (key <? 2^N.of_nat w)%N then Ub Indeterminate
  else xs ← rmap (fun i => raw_val (rdbits bs (i * w) w)) (seq 0 length);
       Ok (first_index key xs).

(** bucket.hpp:476-486, the loop for 64-bit elements (and for empty buckets). *)
Fixpoint bits_find_loop (pf : platform) (bs : bits) (key : N) (word off w i n : nat) : res (option nat) :=
  match n with
  | 0 => Ok None
  | S n' =>
      v ← read_int pf bs word off w;
      if (v =? key)%N then Ok (Some i)
      else let '(word', off') := move_right word off w in bits_find_loop pf bs key word' off' w (S i) n'
  end.

(** find(key, length, width): bucket.hpp:139-160, 278-283, 468-487.  [None] is -1ULL. *)
Definition b_find (pf : platform) (kd : bkind) (b : bucket) (key : N) (length w : nat) : res (option nat) :=
  match kd with
  | KPlain es | KClass es =>
      match b with
      | None => if length =? 0 then Ok None else Ub NullDeref
      | Some (_, Cells cs) => cells_find_loop cs (key mod 2^N.of_nat es)%N 0 length
      | _ => Ub Indeterminate
      end
  | KAvx es =>
      match b with
      | None => if length =? 0 then Ok None else Ub NullDeref
      | Some (_, Cells cs) => avx_find es cs key length
      | _ => Ub Indeterminate
      end
  | KVar iw =>
      match b with
      | None => if length =? 0 then Ok None else Ub NullDeref
      | Some (_, Bits bs) =>
          if (0 <? length) && (w <? 64) then broadsearch pf bs length w key
          else bits_find_loop pf bs key 0 0 w 0 length
      | _ => Ub Indeterminate
      end
  | KNull => Ok None
  end.

Definition cell_bits (es : nat) (c : option N) : bits :=
  match c with Some v => nbits es v | None => replicate es None end.
Definition bits_cell (c : bits) : option N :=
  match det c with Some bs => Some (bits_val bs) | None => None end.
Fixpoint bits_cells (es n : nat) (s : bits) : list (option N) :=
  match n with 0 => [] | S n' => bits_cell (take es s) :: bits_cells es n' (drop es s) end.

(** serialize: bucket.hpp:104-108, 208-212, 388-395 (release build: no length header).
    os.write copies indeterminate bits. *)
Definition b_serialize (pf : platform) (kd : bkind) (b : bucket) (size w : nat) : res stream :=
  match kd with
  | KPlain es | KClass es | KAvx es =>
      match b with
      | None => if size =? 0 then Ok [] else Ub NullDeref
      | Some (_, Cells cs) => c ← cells_prefix cs size; Ok (concat (map (cell_bits es) c))
      | _ => Ub Indeterminate
      end
  | KVar iw =>
      let n := iw * cdiv (size * w) iw in
      match b with
      | None => if n =? 0 then Ok [] else Ub NullDeref
      | Some (_, Bits bs) => if n <=? length bs then Ok (take n bs) else Ub OobRead
      | _ => Ub Indeterminate
      end
  | KNull => Ok []
  end.

(** deserialize: bucket.hpp:98-103, 202-207, 379-387.  class_bucket inherits plain_bucket::deserialize, which
    calls plain_bucket::initialize (non-virtual), hence the tag TMalloc for KClass. *)
Definition b_deserialize (pf : platform) (kd : bkind) (s : stream) (size w : nat) : bucket * stream :=
  match kd with
  | KPlain es | KClass es =>
      let '(got, s') := st_read s (replicate (es * size) None) in
      (Some (TMalloc, Cells (bits_cells es size got)), s')
  | KAvx es =>
      let '(got, s') := st_read s (replicate (es * size) None) in
      (Some (TMm, Cells (bits_cells es size got)), s')
  | KVar iw =>
      let '(got, s') := st_read s (replicate (iw * cdiv (size * w) iw) None) in
      (Some (TMalloc, Bits got), s')
  | KNull => (None, s)
  end.
