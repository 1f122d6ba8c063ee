(** Model of include/separate/group_chaining.hpp (NDEBUG: the members and statements under ON_DEBUG are absent).
    internal_t is uint64_t, the default used by group_chaining_table (718); overflow_t is dummy_overflow, the default. *)
From Verif Require Export NavModel SelectModel SerialModel.
#[local] Open Scope nat_scope.

(** ** core_group (20-356): m_data, null or a block of 64-bit words.
    Pointer and offset pairs are represented by the bit position they denote: read_int_and_move, write_int_and_move
    and move_left (sdsl) keep offset < 64 and move the pair by the given number of bits. *)
Notation core := (option bits).

(** read_int and write_int at a bit position *)
Definition cg_get (pf : platform) (d : core) (pos w : nat) : res N :=
  match d with None => Ub NullDeref | Some l => read_int pf l (pos / 64 * 64) (pos mod 64) w end.
Definition cg_put (pf : platform) (d : core) (pos w : nat) (x : N) : res core :=
  match d with
  | None => Ub NullDeref
  | Some l => l ← write_int pf l (pos / 64 * 64) (pos mod 64) w x; Ok (Some l)
  end.
(** read_int at one position followed by write_int at another (117-118, 124-125, 211-213, 234-236): (from, to, bits).
    The bits are copied without being interpreted. *)
Definition cg_copy (pf : platform) (d : core) (m : nat * nat * nat) : res core :=
  let '(f, t, n) := m in
  match d with
  | None => Ub NullDeref
  | Some l =>
      c ← read_raw pf l (f / 64 * 64) (f mod 64) n;
      l ← write_raw pf l (t / 64 * 64) (t mod 64) c;
      Ok (Some l)
  end.

Section core.
Context (pf : platform).
(** 89-102 initialize *)
Definition cg_init (w : nat) : core := Some (replicate (64 * cdiv w 64) (Some false)).
(** 37-49 clear (free of a malloc'd block) *)
Definition cg_clear (d : core) : core := None.

(** 110-127: (length-index)*key_width bits, in ascending order *)
Definition erase_moves (i w n : nat) : list (nat * nat * nat) :=
  let total := (n - i) * w in
  map (fun j => ((i + 1) * w + 64 * j, i * w + 64 * j, 64)) (seq 0 (total / 64))
  ++ (if total mod 64 =? 0 then []
      else [((i + 1) * w + 64 * (total / 64), i * w + 64 * (total / 64), total mod 64)]).
(** 104-160 erase(index, key_width, length).  For index > length the number of bits (length-index)*key_width wraps: the loop 116-119
    leaves the block. *)
Definition cg_erase (d : core) (i w n : nat) : res core :=
  if n <? i then Ub OobRead else
  d ← rfold (cg_copy pf) (erase_moves i w n) d;
  if (0 <? n - 1) && (cdiv (w * n) 64 <? cdiv (w * (n - 1)) 64)
  then Ok (Some (realloc_bits pf (default [] d) (64 * cdiv (w * (n - 1)) 64)))
  else Ok d.

(** 196-237: 64-bit blocks in descending order, then the remaining bits of entry [index] *)
Definition insert_moves (i w n : nat) : list (nat * nat * nat) :=
  let total := (n - i) * w in
  map (fun j => (n * w - 64 * (j + 1), n * w + w - 64 * (j + 1), 64)) (seq 0 (total / 64))
  ++ (if (0 <? n) && (i * w <? n * w - 64 * (total / 64)) then [(i * w, (i + 1) * w, total mod 64)] else []).
(** 163-247 insert(index, key, key_width, length); index > length as for erase *)
Definition cg_insert (d : core) (i : nat) (x : N) (w n : nat) : res core :=
  if n <? i then Ub OobRead else
  let new := cdiv (w * (n + 2)) 64 in
  d ← (if cdiv (w * n) 64 <? new
       then let l := realloc_bits pf (default [] d) (64 * new) in
            Ok (Some (wrbits l (64 * (new - 1)) (replicate 64 (Some false))))
       else Ok d);
  d ← rfold (cg_copy pf) (insert_moves i w n) d;
  cg_put pf d (i * w) w x.

(** 250-264 read, 267-292 write *)
Definition cg_read (d : core) (i w : nat) : res N := cg_get pf d (i * w) w.
Definition cg_write (d : core) (i : nat) (x : N) (w : nat) : res core := cg_put pf d (i * w) w x.
(** 309-327 find: n elements from position i on; None is -1ULL *)
Fixpoint cg_find (d : core) (i n w : nat) (x : N) : res (option nat) :=
  match n with
  | O => Ok None
  | S n' =>
      y ← cg_get pf d (i * w) w;
      if (y =? x)%N then Ok (Some i) else cg_find d (S i) n' w x
  end.
(** 51-65 serialize, 68-86 deserialize *)
Definition cg_serialize (d : core) (w n : nat) : res stream :=
  let m := 64 * cdiv (w * n) 64 in
  match d with
  | None => if m =? 0 then Ok [] else Ub NullDeref
  | Some l => if m <=? length l then Ok (take m l) else Ub OobRead
  end.
Definition cg_deserialize (s : stream) (w n : nat) : core * stream :=
  let '(l, s) := st_read s (fresh_bits pf (64 * cdiv (w * n) 64)) in (Some l, s).
End core.

(** ** keyvalue_group (362-701) *)
(** __builtin_popcountll *)
Definition popcount (x : N) : nat := length (List.filter (fun b => b) (bits_of 64 x)).

(** 504-515 find_group_position, on the words of m_border: the loop has no bound *)
Fixpoint border_select (ws : list N) (rem sum : nat) : res nat :=
  match ws with
  | [] => Ub OobRead
  | w :: ws' =>
      if popcount w <=? rem then border_select ws' (rem - popcount w) (sum + 64)
      else p ← select64_swar w (N.of_nat (rem + 1)); Ok (sum + N.to_nat p)
  end.
(** 471-476: groupsize+1 ones; all words but the last are 0xFF..FF after memset *)
Definition border_init (groupsize : nat) : list N :=
  replicate (cdiv (groupsize + 1) 64 - 1) ones64
  ++ [if (groupsize + 1) mod 64 =? 0 then ones64 else N.shiftr ones64 (N.of_nat (64 - (groupsize + 1) mod 64))].
(** 542-546: the following words move up by one bit *)
Fixpoint border_carry (ws : list N) (hi : bool) : list N :=
  match ws with
  | [] => []
  | w :: ws' => N.lor (u64 (N.shiftl w 1)) (N.b2n hi) :: border_carry ws' (N.testbit w 63)
  end.
(** 532-546: a zero at bit position ge; [size] is new_border_size *)
Definition border_insert (ws : list N) (ge size : nat) : res (list N) :=
  if length ws <? size then Ub OobRead
  else
    cur ← of_option OobRead (ws !! (ge / 64));
    let r := N.of_nat (ge mod 64) in
    let cur' :=
      if (ge + 1) mod 64 =? 0 then N.land cur (N.shiftr ones64 1)
      else N.lor (N.land cur (N.shiftl 1 r - 1)) (N.land (u64 (N.shiftl cur 1)) (u64 (N.shiftl ones64 (r + 1)))) in
    Ok (take (ge / 64) ws ++ cur'
        :: border_carry (take (size - S (ge / 64)) (drop (S (ge / 64)) ws)) (N.testbit cur 63)
        ++ drop (Nat.max size (S (ge / 64))) ws).
(** 605-608: the following words move down by one bit *)
Fixpoint border_shift (ws : list N) : list N :=
  match ws with
  | [] => []
  | w :: ws' => N.lor (N.shiftr w 1) (N.shiftl (N.land (match ws' with [] => 0%N | y :: _ => y end) 1) 63) :: border_shift ws'
  end.
(** 579-608: removes the zero before bit position ge; [size] is border_size *)
Definition border_delete (ws : list N) (ge size : nat) : res (list N) :=
  if length ws <? size then Ub OobRead
  else
    let g := ge / 64 in
    cur ← of_option OobRead (ws !! g);
    let r := N.of_nat (ge mod 64) in
    wc ← (if ge mod 64 =? 0 then
            match g with
            | O => Ub OobWrite
            | S g' => prev ← of_option OobRead (ws !! g'); Ok (<[g' := N.lor prev (N.shiftl 1 63)]> ws, N.shiftr cur 1)
            end
          else Ok (ws, N.lor (N.land cur (N.shiftl 1 r - 1)) (N.shiftr (N.land cur (u64 (N.shiftl ones64 r))) 1)));
    let '(ws, cur') := (wc : list N * N) in
    low ← (if g =? size - 1 then Ok 0%N else y ← of_option OobRead (ws !! S g); Ok (N.land y 1));
    Ok (take g ws ++ N.lor cur' (N.shiftl low 63)
        :: border_shift (take (size - S g) (drop (S g) ws)) ++ drop (Nat.max size (S g)) ws).

(** The members 376-379; m_size is a uint32_t *)
Record kvgroup := KvGroup { g_size : N; g_keys : core; g_vals : core; g_border : option (list N) }.
(** 435 the default constructor; 453-460 clear *)
Definition kv_new : kvgroup := KvGroup 0 None None None.
Definition kv_clear (g : kvgroup) : kvgroup := kv_new.
(** 437 empty, 439 size, 452 initialized *)
Definition kv_empty (g : kvgroup) : bool := (g_size g =? 0)%N.
Definition kv_initialized (g : kvgroup) : bool := match g_border g with Some _ => true | None => false end.

Section kv.
Context (pf : platform).
(** 463-488 initialize *)
Definition kv_init (g : kvgroup) (groupsize kw vw : nat) : kvgroup :=
  KvGroup 0 (cg_init kw) (cg_init vw) (Some (border_init groupsize)).
(** 504-515: the argument is a group_index_type (uint8_t) *)
Definition kv_position (g : kvgroup) (i : nat) : res nat :=
  match g_border g with None => Ub NullDeref | Some ws => border_select ws (i mod 256) 0 end.
(** 398, 423, 524, 576, 611: ceil_div(m_size + 1 + buckets_per_group, 64), a sum of uint32_t *)
Definition kv_border_words (size : N) (bpg : nat) : nat := cdiv (N.to_nat (u32 (size + 1 + N.of_nat bpg))) 64.
(** 442-449 bucketsize *)
Definition kv_bucketsize (g : kvgroup) (i : nat) : res nat :=
  if kv_empty g then Ok 0
  else
    prev ← (match i with O => Ok 0 | S i' => p ← kv_position g i'; Ok (p - i') end);
    e ← kv_position g i;
    Ok (e - i - prev).
(** 639, 644, 649, 655, 668: where the bucket begins in m_border *)
Definition kv_begin (g : kvgroup) (i : nat) : res nat :=
  match i with O => Ok 0 | S i' => p ← kv_position g i'; Ok (p + 1) end.
(** 637-651 read_key, read_value, write_value *)
Definition kv_read_key (g : kvgroup) (i pos kw : nat) : res N :=
  b ← kv_begin g i; cg_read pf (g_keys g) (b + pos - i) kw.
Definition kv_read_value (g : kvgroup) (i pos vw : nat) : res N :=
  b ← kv_begin g i; cg_read pf (g_vals g) (b + pos - i) vw.
Definition kv_write_value (g : kvgroup) (i pos : nat) (v : N) (vw : nat) : res kvgroup :=
  b ← kv_begin g i;
  vs ← cg_write pf (g_vals g) (b + pos - i) v vw;
  Ok (KvGroup (g_size g) (g_keys g) vs (g_border g)).
(** 653-661 read *)
Definition kv_read (g : kvgroup) (i pos kw vw : nat) : res (N * N) :=
  k ← kv_read_key g i pos kw; v ← kv_read_value g i pos vw; Ok (k, v).
(** 666-674 find; None is -1ULL *)
Definition kv_find (g : kvgroup) (i : nat) (k : N) (kw : nat) : res (option nat) :=
  b ← kv_begin g i;
  e ← kv_position g i;
  if e =? b then Ok None
  else
    r ← cg_find pf (g_keys g) (b - i) (e - i - (b - i)) kw k;
    Ok ((fun x => x - (b - i)) <$> (r : option nat)).

(** 517-563 push_back.  realloc of m_border adds one word, which is set to 0 (525-527). *)
Definition kv_push (g : kvgroup) (bpg i : nat) (k : N) (kw : nat) (v : N) (vw : nat) : res kvgroup :=
  ge ← kv_position g i;
  ks ← cg_insert pf (g_keys g) (ge - i) k kw (N.to_nat (g_size g));
  vs ← cg_insert pf (g_vals g) (ge - i) v vw (N.to_nat (g_size g));
  let size := u32 (g_size g + 1) in
  match g_border g with
  | None => Ub NullDeref
  | Some ws =>
      let new := kv_border_words size bpg in
      let ws := if cdiv (N.to_nat (u32 (size + N.of_nat bpg))) 64 <? new then take (new - 1) ws ++ [0%N] else ws in
      ws ← border_insert ws ge new;
      Ok (KvGroup size ks vs (Some ws))
  end.
(** 565-635 erase *)
Definition kv_erase (g : kvgroup) (bpg i pos kw vw : nat) : res kvgroup :=
  b ← (match i with O => Ok 0 | S i' => kv_position g i' end);
  let prev := match i with O => 0 | S i' => i' end in
  ge ← kv_position g i;
  ks ← cg_erase pf (g_keys g) (b - prev + pos) kw (N.to_nat (g_size g));
  vs ← cg_erase pf (g_vals g) (b - prev + pos) vw (N.to_nat (g_size g));
  match g_border g with
  | None => Ub NullDeref
  | Some ws =>
      let old := kv_border_words (g_size g) bpg in
      ws ← border_delete ws ge old;
      let size := u32 (g_size g + 2^32 - 1) in
      let new := kv_border_words size bpg in
      let ws := if new <? old then take new ws else ws in
      Ok (KvGroup size ks vs (Some ws))
  end.

(** 386-406 serialize *)
Definition kv_serialize (g : kvgroup) (bpg kw vw : nat) : res stream :=
  if (g_size g =? 0)%N then Ok (nbits 32 0)
  else
    match g_border g with
    | None => Ub NullDeref
    | Some ws =>
        let m := kv_border_words (g_size g) bpg in
        if length ws <? m then Ub OobRead
        else
          k ← cg_serialize (g_keys g) kw (N.to_nat (g_size g));
          v ← cg_serialize (g_vals g) vw (N.to_nat (g_size g));
          Ok (nbits 32 (g_size g) ++ concat (map (nbits 64) (take m ws)) ++ k ++ v)
    end.
(** 427: n words.  A word that the stream does not provide is undefined behaviour here (in the code: when it is used). *)
Fixpoint border_read (n : nat) (s : stream) : res (list N * stream) :=
  match n with
  | O => Ok ([], s)
  | S n' =>
      let '(x, s) := read_var s (fresh_bits pf 64) in
      x ← used x;
      r ← border_read n' s;
      let '(l, s) := (r : list N * stream) in Ok (x :: l, s)
  end.
(** 409-431 deserialize: clear() sets m_size to 0, so a missing size reads as 0 *)
Definition kv_deserialize (s : stream) (bpg kw vw : nat) : res (kvgroup * stream) :=
  let '(n, s) := read_var s (nbits 32 0) in
  n ← used n;
  if (n =? 0)%N then Ok (kv_new, s)
  else
    r ← border_read (kv_border_words n bpg) s;
    let '(ws, s) := (r : list N * stream) in
    let '(ks, s) := cg_deserialize pf s kw (N.to_nat n) in
    let '(vs, s) := cg_deserialize pf s vw (N.to_nat n) in
    Ok (KvGroup n ks vs (Some ws), s).
End kv.
#[local] Close Scope nat_scope.

(** ** group_chaining_table (710-1512) *)
(** Template argument hash_mapping_t; its storage_type is uint64_t (723). *)
Record gcfg := GCfg { gc_hash : hkind; gc_keybits : N }.
(** The members 732-740.  gt_groups = None means m_groups == nullptr.  m_hash is always the mapping constructed for
    m_key_width (944, 764, 1455). *)
Record gtable := GTable { gt_groups : option (list kvgroup); gt_b : N; gt_n : N; gt_kw : N; gt_vw : N; gt_bpg : N }.

Section table.
Context (pf : platform) (c : gcfg).

Definition ghm (kw : N) : hmap := HMap (gc_hash c) kw (gc_keybits c) 64.
(** m_hash.remainder_width(m_buckets), value_width(), buckets_per_group() *)
Definition gqw (t : gtable) : nat := N.to_nat (remainder_width (ghm (gt_kw t)) (gt_b t)).
Definition gvw (t : gtable) : nat := N.to_nat (gt_vw t).
Definition gbpg (t : gtable) : nat := N.to_nat (gt_bpg t).

(** 941-953 constructor *)
Definition g_new (kw vw : N) : gtable := GTable None 0 0 kw vw 3.
(** 918-921 bucket_count, 924 group_count, 844-851 bucketgroup, rank_in_group: division by m_buckets_per_group *)
Definition g_bucket_count (t : gtable) : N := if gt_b t =? 0 then 0 else 2^gt_b t.
Definition g_div (t : gtable) (bk : N) : res N := if gt_bpg t =? 0 then Ub DivZero else Ok (bk / gt_bpg t).
Definition g_rank (t : gtable) (bk : N) : nat := N.to_nat (bk mod gt_bpg t).
Definition g_group_count (t : gtable) : res N :=
  match gt_groups t with None => Ok 0 | Some _ => q ← g_div t (g_bucket_count t); Ok (q + 1) end.
Definition g_max_group : N := 255.
(** 772-774 capacity, 890-892 max_key, max_value (for widths 1..64), 904-911 size, max_size *)
Definition g_capacity (t : gtable) : res N := n ← g_group_count t; Ok (u64 (n * g_max_group)).
Definition g_max_key (t : gtable) : N := N.shiftr ones64 (64 - gt_kw t).
Definition g_max_value (t : gtable) : N := N.shiftr ones64 (64 - gt_vw t).
Definition g_size_of (t : gtable) : N := gt_n t.

(** m_groups[bucketgroup(bucket)] *)
Definition g_at (t : gtable) (gi : N) : res kvgroup :=
  match gt_groups t with
  | None => Ub NullDeref
  | Some gs => if gi <? N.of_nat (length gs) then of_option OobRead (gs !! N.to_nat gi) else Ub OobRead
  end.
Definition g_group (t : gtable) (bk : N) : res kvgroup := gi ← g_div t bk; g_at t gi.
Definition g_set (t : gtable) (bk : N) (g : kvgroup) : gtable :=
  GTable ((fun gs => <[N.to_nat (bk / gt_bpg t) := g]> gs) <$> gt_groups t) (gt_b t) (gt_n t) (gt_kw t) (gt_vw t) (gt_bpg t).
Definition g_set_n (t : gtable) (n : N) : gtable := GTable (gt_groups t) (gt_b t) n (gt_kw t) (gt_vw t) (gt_bpg t).

(** 933-935 bucket_size, 863-887 quotient_at, value_at, write_value.  bucket == bucket_count() addresses the overflow,
    which is left out. *)
Definition g_bucket_size (t : gtable) (bk : N) : res N :=
  g ← g_group t bk; n ← kv_bucketsize g (g_rank t bk); Ok (N.of_nat n).
Definition g_quotient_at (t : gtable) (bk pos qw : N) : res N :=
  g ← g_group t bk; kv_read_key pf g (g_rank t bk) (N.to_nat pos) (N.to_nat qw).
Definition g_value_at (t : gtable) (bk pos : N) : res N :=
  if bk =? g_bucket_count t then Ub OobRead
  else g ← g_group t bk; kv_read_value pf g (g_rank t bk) (N.to_nat pos) (gvw t).
Definition g_write_value (t : gtable) (x : nav) (v : N) : res gtable :=
  let '(bk, pos) := x in
  if bk =? g_bucket_count t then Ub OobWrite
  else
    g ← g_group t bk;
    g ← kv_write_value pf g (g_rank t bk) (N.to_nat pos) v (gvw t);
    Ok (g_set t bk g).

(** 814-827 clear_structure, 832-839 clear: m_buckets_per_group keeps its value *)
Definition g_clear_structure (t : gtable) : gtable := GTable None 0 0 (gt_kw t) (gt_vw t) (gt_bpg t).
Definition g_clear (t : gtable) : res gtable :=
  n ← g_group_count t;
  match gt_groups t with
  | Some gs => if N.of_nat (length gs) <? n then Ub OobRead else Ok (g_clear_structure t)
  | None => Ok (g_clear_structure t)
  end.

(** 1123-1158 locate(bucket, quotient); None is -1ULL *)
Definition g_locate_q (t : gtable) (bk q : N) : res (option N) :=
  g ← g_group t bk;
  if kv_empty g then Ok None
  else r ← kv_find pf g (g_rank t bk) q (gqw t); Ok (N.of_nat <$> (r : option nat)).

(** 958-976 reserve, first branch (m_buckets == 0): new_key_width is not used *)
Definition g_alloc (t : gtable) (n : N) : res gtable :=
  bits ← reserve_bits n;
  q ← g_div t (2^bits);
  Ok (GTable (Some (replicate (N.to_nat (q + 1)) kv_new)) bits (gt_n t) (gt_kw t) (gt_vw t) (gt_bpg t)).
(** 1000-1016: one bucket of the rehashing loop; T is the type of tmp_map, [ins] stands for tmp_map.find_or_insert *)
Definition g_rehash_bucket {T} (ins : T -> N -> N -> res (T * nav)) (t : gtable) (gi : nat) (g : kvgroup)
    (tmp : T) (r : nat) : res T :=
  n ← kv_bucketsize g r;
  rfold (fun tmp j =>
      kv ← kv_read pf g r j (gqw t) (gvw t);
      k ← hash_inv_map (ghm (gt_kw t)) (fst kv) (N.of_nat (r + gi * gbpg t)) (gt_b t);
      x ← ins tmp k (snd kv);
      Ok (fst x)) (seq 0 n) tmp.
(** 995-1018: one group *)
Definition g_rehash_group {T} (ins : T -> N -> N -> res (T * nav)) (t : gtable) (tmp : T) (ig : nat * kvgroup) : res T :=
  let '(gi, g) := ig in
  if kv_empty g then Ok tmp else rfold (g_rehash_bucket ins t gi g) (seq 0 (gbpg t)) tmp.
(** 958-1035 reserve(n, new_key_width); the new table has 64 buckets per group (979) *)
Definition g_reserve_with (ins : gtable -> N -> N -> res (gtable * nav)) (t : gtable) (n nkw : N) : res gtable :=
  let nkw := if nkw =? 0 then gt_kw t else nkw in
  if gt_b t =? 0 then g_alloc t n
  else
    bits ← reserve_bits n;
    tmp ← g_alloc (GTable None 0 0 (u8 nkw) (gt_vw t) 64) (2^bits);
    gc ← g_group_count t;
    match gt_groups t with
    | None => Ub NullDeref
    | Some gs =>
        if N.of_nat (length gs) <? gc then Ub OobRead
        else rfold (g_rehash_group ins t) (imap pair (take (N.to_nat gc) gs)) tmp
    end.

(** 1185-1277 find_or_insert.  [fuel] bounds the depth of the recursion through reserve. *)
Fixpoint g_find_or_insert (fuel : nat) (t : gtable) (k v : N) : res (gtable * nav) :=
  match fuel with
  | O => Timeout
  | S f =>
      t ← (if gt_b t =? 0 then g_alloc t (N.min (sub64 (gt_kw t) 1) 8) else Ok t);
      qb ← hash_map (ghm (gt_kw t)) k (gt_b t);
      let '(q, bk) := (qb : N * N) in
      g ← g_group t bk;
      n ← kv_bucketsize g (g_rank t bk);
      pos ← g_locate_q t bk q;
      match (pos : option N) with
      | Some p => Ok (t, (bk, p))
      | None =>
          if g_size g =? g_max_group then
            n ← shl64 1 (gt_b t + 1);
            t ← g_reserve_with (g_find_or_insert f) t n 0;
            g_find_or_insert f t k v
          else
            let g := if kv_initialized g then g else kv_init g (gbpg t) (gqw t) (gvw t) in
            g ← kv_push pf g (gbpg t) (g_rank t bk) q (gqw t) v (gvw t);
            Ok (g_set (g_set_n t (u64 (gt_n t + 1))) bk g, (bk, N.of_nat n))
      end
  end.
Definition g_reserve (fuel : nat) (t : gtable) (n nkw : N) : res gtable := g_reserve_with (g_find_or_insert fuel) t n nkw.

(** 1105-1120 find *)
Definition g_find (t : gtable) (k : N) : res nav :=
  if gt_b t =? 0 then Ok end_nav
  else
    qb ← hash_map (ghm (gt_kw t)) k (gt_b t);
    let '(q, bk) := (qb : N * N) in
    pos ← g_locate_q t bk q;
    match (pos : option N) with Some p => Ok (bk, p) | None => Ok end_nav end.
(** 1167-1182 locate(key) *)
Definition g_locate (t : gtable) (k : N) : res (N * option N) :=
  if gt_b t =? 0 then Throw
  else
    qb ← hash_map (ghm (gt_kw t)) k (gt_b t);
    let '(q, bk) := (qb : N * N) in
    pos ← g_locate_q t bk q; Ok (bk, pos).

(** 1304-1364 erase(bucket, position): a group that becomes empty is cleared *)
Definition g_erase_at (t : gtable) (x : nav) : res (gtable * N) :=
  let '(bk, pos) := x in
  if pos =? ones64 then Ok (t, 0)
  else
    g ← g_group t bk;
    g ← kv_erase pf g (gbpg t) (g_rank t bk) (N.to_nat pos) (gqw t) (gvw t);
    let g := if kv_empty g then kv_clear g else g in
    Ok (g_set (g_set_n t (sub64 (gt_n t) 1)) bk g, 1).
(** 1289-1294 erase(key) *)
Definition g_erase (t : gtable) (k : N) : res (gtable * N) :=
  if gt_b t =? 0 then Ok (t, 0)
  else
    l ← g_locate t k;
    let '(bk, pos) := (l : N * option N) in
    g_erase_at t (bk, match pos with Some p => p | None => ones64 end).

(** What iterator.hpp sees of the table *)
Definition g_view (t : gtable) : view :=
  View (g_bucket_count t) (g_bucket_size t) (g_quotient_at t) (g_value_at t) (ghm (gt_kw t)) (gt_b t) 64.
Definition g_impl (fuel : nat) : mapimpl gtable :=
  Impl g_view g_find (g_find_or_insert fuel) g_write_value g_erase g_erase_at g_size_of
    (fun t n => g_reserve fuel t n 0) g_clear.

(** 1084-1091: the first non-empty bucket of a group; ranks r, ..., r+n-1 *)
Fixpoint g_first_bucket (g : kvgroup) (n r : nat) : res (option nat) :=
  match n with
  | O => Ok None
  | S n' => m ← kv_bucketsize g r; if (0 <? m)%nat then Ok (Some r) else g_first_bucket g n' (S r)
  end.
(** 1081-1096 begin *)
Fixpoint g_begin_scan (t : gtable) (gs : list kvgroup) (gi : nat) : res nav :=
  match gs with
  | [] => Ok end_nav
  | g :: gs' =>
      r ← (if kv_empty g then Ok None else g_first_bucket g (gbpg t) 0);
      match (r : option nat) with
      | Some r => Ok (N.of_nat (gi * gbpg t + r), 0)
      | None => g_begin_scan t gs' (S gi)
      end
  end.
Definition g_begin (t : gtable) : res nav :=
  gc ← g_group_count t;
  let gs := default [] (gt_groups t) in
  if N.of_nat (length gs) <? gc then Ub OobRead else g_begin_scan t (take (N.to_nat gc) gs) 0.
(** 1044-1049: the last non-empty bucket of a group among the ranks 0, ..., n-1, and its size *)
Fixpoint g_last_bucket (g : kvgroup) (n : nat) : res (option (nat * nat)) :=
  match n with
  | O => Ok None
  | S r => m ← kv_bucketsize g r; if (0 <? m)%nat then Ok (Some (r, m)) else g_last_bucket g r
  end.
(** 1036-1061 rbegin_nav, over the groups gi, ..., 0 in reverse order.  The position is the number of elements. *)
Fixpoint g_rbegin_scan (t : gtable) (gs : list kvgroup) : res nav :=
  match gs with
  | [] => Ok end_nav
  | g :: gs' =>
      r ← (if kv_empty g then Ok None else g_last_bucket g (gbpg t));
      match (r : option (nat * nat)) with
      | Some (r, m) => Ok (N.of_nat (length gs' * gbpg t + r), N.of_nat m)
      | None => g_rbegin_scan t gs'
      end
  end.
Definition g_rbegin (t : gtable) : res nav :=
  gc ← g_group_count t;
  if g_bucket_count t =? 0 then Ok end_nav
  else
    let gs := default [] (gt_groups t) in
    if N.of_nat (length gs) <? gc then Ub OobRead else g_rbegin_scan t (rev (take (N.to_nat gc) gs)).
(** Loops over the table: for(x = begin; x != end; ++x), for(x = rbegin_nav(); x != rend_nav(); --x) *)
Definition g_forward (fuel : nat) (t : gtable) : res (list (N * N)) :=
  x ← g_begin t; v_iterate (g_view t) fuel x.
Definition g_backward (fuel : nat) (t : gtable) : res (list (N * N)) :=
  x ← g_rbegin t; v_iterate_rev (g_view t) fuel x.

(** 1420-1446 serialize *)
Definition g_serialize (t : gtable) : res stream :=
  let head := nbits 8 (gt_kw t) ++ nbits 8 (gt_vw t) ++ nbits 8 (gt_b t) ++ nbits 64 (gt_n t) ++ nbits 8 (gt_bpg t) in
  if gt_n t =? 0 then Ok head
  else
    gc ← g_group_count t;
    let gs := default [] (gt_groups t) in
    if N.of_nat (length gs) <? gc then Ub OobRead
    else
      l ← rmap (fun g => kv_serialize g (gbpg t) (gqw t) (gvw t)) (take (N.to_nat gc) gs);
      Ok (head ++ concat l).
(** 1469-1471 *)
Fixpoint g_read_groups (t : gtable) (n : nat) (s : stream) : res (list kvgroup * stream) :=
  match n with
  | O => Ok ([], s)
  | S n' =>
      r ← kv_deserialize pf s (gbpg t) (gqw t) (gvw t);
      let '(g, s) := (r : kvgroup * stream) in
      rs ← g_read_groups t n' s;
      let '(gs, s) := (rs : list kvgroup * stream) in
      Ok (g :: gs, s)
  end.
(** 1449-1509 deserialize *)
Definition g_deserialize (t : gtable) (s : stream) : res (gtable * stream) :=
  t ← g_clear t;
  let '(kw, s) := read_var s (nbits 8 (gt_kw t)) in
  let '(vw, s) := read_var s (nbits 8 (gt_vw t)) in
  let '(b, s) := read_var s (fresh_bits pf 8) in
  let '(n, s) := read_var s (nbits 64 (gt_n t)) in
  let '(bpg, s) := read_var s (nbits 8 (gt_bpg t)) in
  kw ← used kw; vw ← used vw; n ← used n; bpg ← used bpg;
  let t := GTable (gt_groups t) (gt_b t) n kw vw bpg in
  if n =? 0 then Ok (t, s)
  else
    b ← used b;
    nb ← shl64 1 b;
    t ← g_alloc t nb;
    gc ← g_group_count t;
    r ← g_read_groups t (N.to_nat gc) s;
    let '(gs, s) := (r : list kvgroup * stream) in
    Ok (GTable (Some gs) (gt_b t) (gt_n t) (gt_kw t) (gt_vw t) (gt_bpg t), s).

(** 753-767 swap; 747-751 a = std::move(other): clear() and swap *)
Definition g_swap (a other : gtable) : gtable * gtable := (other, a).
Definition g_move_assign (a other : gtable) : res (gtable * gtable) := a ← g_clear a; Ok (g_swap a other).
(** 1286 destructor *)
Definition g_destroy (t : gtable) : res unit := _ ← g_clear t; Ok tt.
End table.
