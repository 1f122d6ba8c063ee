(** core_group and keyvalue_group of include/separate/group_chaining.hpp (20-701, NDEBUG) for an arbitrary template argument
    internal_t.  [ib] is sizeof(internal_t)*8 (storage_bitwidth 24, internal_bitwidth 373): 8, 16, 32 or 64.  GroupModel.v is
    the same code for uint64_t, the default (362).
    The code reads and writes 64-bit words through reinterpret_cast<uint64_t*> at addresses that are multiples of
    sizeof(internal_t) only; such accesses are taken to act on the eight bytes at that address.
    [junk] is what the memory behind the block of m_border holds; it may differ from call to call. *)
From Verif Require Export GroupModel.
#[local] Open Scope nat_scope.

Section narrow.
Context (ib : nat) (pf : platform).

(** ** core_group (20-356) *)
(** read_int and write_int at m_data + pos/storage_bitwidth, offset pos % storage_bitwidth (260, 275) *)
Definition nc_get (d : core) (pos w : nat) : res N :=
  match d with None => Ub NullDeref | Some l => read_int pf l (pos / ib * ib) (pos mod ib) w end.
Definition nc_put (d : core) (pos w : nat) (x : N) : res core :=
  match d with
  | None => Ub NullDeref
  | Some l => l ← write_int pf l (pos / ib * ib) (pos mod ib) w x; Ok (Some l)
  end.
(** 112-126, 200-219, 223-240: read_int at one position and write_int at another.  The pointers of the loops move by 64 bits,
    a multiple of ib, so that each word still begins at pos/ib*ib. *)
Definition nc_copy (d : core) (m : nat * nat * nat) : res core :=
  let '(f, t, n) := m in
  match d with
  | None => Ub NullDeref
  | Some l =>
      c ← read_raw pf l (f / ib * ib) (f mod ib) n;
      l ← write_raw pf l (t / ib * ib) (t mod ib) c;
      Ok (Some l)
  end.
(** 89-102 initialize *)
Definition nc_init (w : nat) : core := Some (replicate (ib * cdiv w ib) (Some false)).
(** 104-160 erase *)
Definition nc_erase (d : core) (i w n : nat) : res core :=
  if n <? i then Ub OobRead else
  d ← rfold nc_copy (erase_moves i w n) d;
  if (0 <? n - 1) && (cdiv (w * n) ib <? cdiv (w * (n - 1)) ib)
  then Ok (Some (realloc_bits pf (default [] d) (ib * cdiv (w * (n - 1)) ib)))
  else Ok d.
(** 163-247 insert: only the last internal_t of the enlarged block is set to 0 (179) *)
Definition nc_insert (d : core) (i : nat) (x : N) (w n : nat) : res core :=
  if n <? i then Ub OobRead else
  let new := cdiv (w * (n + 2)) ib in
  d ← (if cdiv (w * n) ib <? new
       then let l := realloc_bits pf (default [] d) (ib * new) in
            Ok (Some (wrbits l (ib * (new - 1)) (replicate ib (Some false))))
       else Ok d);
  d ← rfold nc_copy (insert_moves i w n) d;
  nc_put d (i * w) w x.
(** 250-264 read, 267-292 write *)
Definition nc_read (d : core) (i w : nat) : res N := nc_get d (i * w) w.
Definition nc_write (d : core) (i : nat) (x : N) (w : nat) : res core := nc_put d (i * w) w x.
(** 309-327 find: the pointer starts at [base], the internal_t that holds the first bit, and moves by 64-bit words *)
Fixpoint nc_scan (d : core) (base i n w : nat) (x : N) : res (option nat) :=
  match n with
  | O => Ok None
  | S n' =>
      y ← (match d with
           | None => Ub NullDeref
           | Some l => read_int pf l (base + (i * w - base) / 64 * 64) ((i * w - base) mod 64) w
           end);
      if (y =? x)%N then Ok (Some i) else nc_scan d base (S i) n' w x
  end.
Definition nc_find (d : core) (i n w : nat) (x : N) : res (option nat) := nc_scan d (i * w / ib * ib) i n w x.

(** ** keyvalue_group (362-701): m_border is a list of numbers below 2^ib *)
(** An assignment to an internal_t *)
Definition trunc (x : N) : N := (x mod 2^N.of_nat ib)%N.
Definition nwbits (ws : list N) : list bool := concat (map (bits_of ib) ws).
(** 504-515 find_group_position: 64-bit words of the memory that begins with m_border *)
Fixpoint nb_select (fuel : nat) (mem : list bool) (rem sum : nat) : res nat :=
  match fuel with
  | O => Ub OobRead
  | S fuel =>
      if length mem <? 64 then Ub OobRead
      else
        let w := bits_val (take 64 mem) in
        if popcount w <=? rem then nb_select fuel (drop 64 mem) (rem - popcount w) (sum + 64)
        else p ← select64_swar w (N.of_nat (rem + 1)); Ok (sum + N.to_nat p)
  end.
Definition nb_memory (junk : nat -> bool) (ws : list N) : list bool := nwbits ws ++ map junk (seq 0 (8 * slack pf)).
(** 471-476: memset writes ceil_div(groupsize+1, 8) bytes of ones; 474-476 set the last internal_t unless it is full *)
Definition nb_init (groupsize : nat) : list N :=
  replicate (cdiv (groupsize + 1) ib - 1) (trunc ones64)
  ++ [if (groupsize + 1) mod ib =? 0 then trunc ones64
      else trunc (N.shiftr (trunc ones64) (N.of_nat (ib - (groupsize + 1) mod ib)))].
(** 542-546.  << is computed in int, uint32_t or uint64_t; the bits beyond internal_t are lost in the assignment. *)
Fixpoint nb_carry (ws : list N) (hi : bool) : list N :=
  match ws with
  | [] => []
  | w :: ws' => trunc (N.lor (u64 (N.shiftl w 1)) (N.b2n hi)) :: nb_carry ws' (N.testbit w (N.of_nat (ib - 1)))
  end.
(** 532-546 *)
Definition nb_insert (ws : list N) (ge size : nat) : res (list N) :=
  if length ws <? size then Ub OobRead
  else
    cur ← of_option OobRead (ws !! (ge / ib));
    let r := N.of_nat (ge mod ib) in
    let cur' :=
      if (ge + 1) mod ib =? 0 then trunc (N.land cur (N.shiftr ones64 (N.of_nat (65 - ib))))
      else trunc (N.lor (N.land cur (N.shiftl 1 r - 1)) (N.land (u64 (N.shiftl cur 1)) (u64 (N.shiftl ones64 (r + 1))))) in
    Ok (take (ge / ib) ws ++ cur'
        :: nb_carry (take (size - S (ge / ib)) (drop (S (ge / ib)) ws)) (N.testbit cur (N.of_nat (ib - 1)))
        ++ drop (Nat.max size (S (ge / ib))) ws).
(** 605-608 *)
Fixpoint nb_shift (ws : list N) : list N :=
  match ws with
  | [] => []
  | w :: ws' =>
      trunc (N.lor (N.shiftr w 1) (N.shiftl (N.land (match ws' with [] => 0%N | y :: _ => y end) 1) (N.of_nat (ib - 1)))) :: nb_shift ws'
  end.
(** 579-608 *)
Definition nb_delete (ws : list N) (ge size : nat) : res (list N) :=
  if length ws <? size then Ub OobRead
  else
    let g := ge / ib in
    cur ← of_option OobRead (ws !! g);
    let r := N.of_nat (ge mod ib) in
    wc ← (if ge mod ib =? 0 then
            match g with
            | O => Ub OobWrite
            | S g' =>
                prev ← of_option OobRead (ws !! g');
                Ok (<[g' := trunc (N.lor prev (N.shiftl 1 (N.of_nat (ib - 1))))]> ws, N.shiftr cur 1)
            end
          else Ok (ws, trunc (N.lor (N.land cur (N.shiftl 1 r - 1)) (N.shiftr (N.land cur (u64 (N.shiftl ones64 r))) 1))));
    let '(ws, cur') := (wc : list N * N) in
    low ← (if g =? size - 1 then Ok 0%N else y ← of_option OobRead (ws !! S g); Ok (N.land y 1));
    Ok (take g ws ++ trunc (N.lor cur' (N.shiftl low (N.of_nat (ib - 1))))
        :: nb_shift (take (size - S g) (drop (S g) ws)) ++ drop (Nat.max size (S g)) ws).

(** 463-488 initialize *)
Definition nkv_init (groupsize kw vw : nat) : kvgroup := KvGroup 0 (nc_init kw) (nc_init vw) (Some (nb_init groupsize)).
(** 524, 576, 611: ceil_div(m_size + 1 + buckets_per_group, internal_bitwidth), a sum of uint32_t *)
Definition nkv_words (size : N) (bpg : nat) : nat := cdiv (N.to_nat (u32 (size + 1 + N.of_nat bpg))) ib.

Section call.
Context (junk : nat -> bool).
(** 504-515 *)
Definition nkv_position (g : kvgroup) (i : nat) : res nat :=
  match g_border g with
  | None => Ub NullDeref
  | Some ws => nb_select (length (nb_memory junk ws)) (nb_memory junk ws) (i mod 256) 0
  end.
(** 442-449 bucketsize *)
Definition nkv_bucketsize (g : kvgroup) (i : nat) : res nat :=
  if kv_empty g then Ok 0
  else
    prev ← (match i with O => Ok 0 | S i' => p ← nkv_position g i'; Ok (p - i') end);
    e ← nkv_position g i;
    Ok (e - i - prev).
(** 639, 644, 649, 655, 668 *)
Definition nkv_begin (g : kvgroup) (i : nat) : res nat :=
  match i with O => Ok 0 | S i' => p ← nkv_position g i'; Ok (p + 1) end.
(** 647-651 write_value, 653-661 read *)
Definition nkv_write_value (g : kvgroup) (i pos : nat) (v : N) (vw : nat) : res kvgroup :=
  b ← nkv_begin g i;
  vs ← nc_write (g_vals g) (b + pos - i) v vw;
  Ok (KvGroup (g_size g) (g_keys g) vs (g_border g)).
Definition nkv_read (g : kvgroup) (i pos kw vw : nat) : res (N * N) :=
  b ← nkv_begin g i;
  k ← nc_read (g_keys g) (b + pos - i) kw;
  v ← nc_read (g_vals g) (b + pos - i) vw;
  Ok (k, v).
(** 666-674 find *)
Definition nkv_find (g : kvgroup) (i : nat) (k : N) (kw : nat) : res (option nat) :=
  b ← nkv_begin g i;
  e ← nkv_position g i;
  if e =? b then Ok None
  else
    r ← nc_find (g_keys g) (b - i) (e - i - (b - i)) kw k;
    Ok ((fun x => x - (b - i)) <$> (r : option nat)).
(** 517-563 push_back *)
Definition nkv_push (g : kvgroup) (bpg i : nat) (k : N) (kw : nat) (v : N) (vw : nat) : res kvgroup :=
  ge ← nkv_position g i;
  ks ← nc_insert (g_keys g) (ge - i) k kw (N.to_nat (g_size g));
  vs ← nc_insert (g_vals g) (ge - i) v vw (N.to_nat (g_size g));
  let size := u32 (g_size g + 1) in
  match g_border g with
  | None => Ub NullDeref
  | Some ws =>
      let new := nkv_words size bpg in
      let ws := if cdiv (N.to_nat (u32 (size + N.of_nat bpg))) ib <? new then take (new - 1) ws ++ [0%N] else ws in
      ws ← nb_insert ws ge new;
      Ok (KvGroup size ks vs (Some ws))
  end.
(** 565-635 erase *)
Definition nkv_erase (g : kvgroup) (bpg i pos kw vw : nat) : res kvgroup :=
  b ← (match i with O => Ok 0 | S i' => nkv_position g i' end);
  let prev := match i with O => 0 | S i' => i' end in
  ge ← nkv_position g i;
  ks ← nc_erase (g_keys g) (b - prev + pos) kw (N.to_nat (g_size g));
  vs ← nc_erase (g_vals g) (b - prev + pos) vw (N.to_nat (g_size g));
  match g_border g with
  | None => Ub NullDeref
  | Some ws =>
      let old := nkv_words (g_size g) bpg in
      ws ← nb_delete ws ge old;
      let size := u32 (g_size g + 2^32 - 1) in
      let new := nkv_words size bpg in
      let ws := if new <? old then take new ws else ws in
      Ok (KvGroup size ks vs (Some ws))
  end.
End call.
End narrow.
